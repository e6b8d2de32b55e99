(* PropsExact.v -- property theorems about the exact boundary of undefined behaviour: C113, C114.
   Vocabulary: SpecExact.v. *)
From Verif Require Import ZLib SpecExact ProofsText ProofsSafe ProofsExact Demo DemoStream PropsSafe.

(** ** C113: one operation *)
(** From initialised objects and with valid arguments, an operation is undefined exactly if it hands
    a payload to a parser that makes the parser's consumer read out of bounds; otherwise the objects
    stay initialised. *)
Theorem C113_undefined_iff : forall lw w o u, decent w -> legal_op w o ->
  (step lw o w = UB u <-> u = OutOfBounds /\ undefined_by lw w o).
Proof.
  intros lw w o u D L. destruct (one_exact lw w o D L) as [(B & E)|(B & w' & t & E & _)]; rewrite E.
  - split; [intros H; injection H as <-; auto|intros (-> & _); reflexivity].
  - split; [discriminate|intros (_ & H); contradiction].
Qed.
Print Assumptions C113_undefined_iff.
Theorem C113_stays_initialised : forall lw w o w' t, decent w -> legal_op w o -> step lw o w = Ok (w', t) -> decent w' /\ same_objects w w'.
Proof.
  intros lw w o w' t D L S. destruct (one_exact lw w o D L) as [(_ & E)|(_ & w2 & t2 & E & H)]; rewrite S in E; [discriminate|]. injection E as <- <-. exact H.
Qed.
Print Assumptions C113_stays_initialised.
(** the same for one message given directly to a parser *)
Theorem C113_message_undefined_iff : forall lw w p d, decent w -> a_parser w p -> valid_frame d ->
  ((exists u, step lw (ParserAddMessage p d) w = UB u) <-> breaks lw w p d).
Proof.
  intros lw w p d D A V. assert (L : legal_op w (ParserAddMessage p d)) by (left; split; assumption).
  assert (I : undefined_by lw w (ParserAddMessage p d) <-> breaks lw w p d).
  { split; [|intros B; exists p, d; split; [left; reflexivity|exact B]]. intros (p' & d' & [E|(s' & st & _ & _ & [E|(f & E & _)])] & B); try discriminate. injection E as <- <-. exact B. }
  rewrite <- I. destruct (one_exact lw w _ D L) as [(B & E)|(B & w' & t & E & _)]; rewrite E; (split; [|intros H]).
  - intros _. exact B.
  - eauto.
  - intros (u & H). discriminate.
  - contradiction.
Qed.
Print Assumptions C113_message_undefined_iff.
(** texts of fewer than 26 characters are always read safely by a number reader with a NUL behind
    them; with 26 there is none, and it depends on the text *)
Theorem C113_numbers : forall lw v,
  ((exists u, c_strtoul16 lw v = UB u) <-> unended_hex v) /\ ((exists u, c_strtol10 lw v = UB u) <-> unended_dec v) /\
  ~ unended_hex (v ++ [0]) /\ ~ unended_dec (v ++ [0]).
Proof.
  intros lw v. split; [|split; [|split]].
  - destruct (hex_cases v lw) as [(B & E)|(B & E)]; rewrite E; split; intros H; eauto; [destruct H; discriminate|contradiction].
  - destruct (dec_cases v lw) as [(B & E)|(B & E)]; rewrite E; split; intros H; eauto; [destruct H; discriminate|contradiction].
  - intros (b & sg & m & mk & ds & E & B & S & M & D). assert (I : In 0 (b ++ sg ++ mk ++ ds)) by (rewrite <- E; apply in_or_app; right; left; reflexivity).
    rewrite !in_app_iff in I. destruct I as [I|[I|[I|I]]].
    + rewrite Forall_forall in B. apply B in I. unfold whitespace in I. lia.
    + destruct S; cbn in I; lia.
    + destruct M as [->|M]; [exact I|]. destruct M as [-> | ->]; cbn in I; lia.
    + rewrite Forall_forall in D. apply D in I. destruct I as (x & I). inversion I; lia.
  - intros (b & sg & m & ds & E & B & S & D). assert (I : In 0 (b ++ sg ++ ds)) by (rewrite <- E; apply in_or_app; right; left; reflexivity).
    rewrite !in_app_iff in I. destruct I as [I|[I|I]].
    + rewrite Forall_forall in B. apply B in I. unfold whitespace in I. lia.
    + destruct S; cbn in I; lia.
    + rewrite Forall_forall in D. apply D in I. destruct I as (x & I). inversion I; lia.
Qed.
Print Assumptions C113_numbers.

(** these initialised objects and valid arguments include those of C57 *)
Theorem C113_includes_C57 : forall w o, (sound w -> decent w) /\ (valid_op w o -> legal_op w o).
Proof. intros w o. split; [|intros V; left; exact V]. intros (S & P & C & E). repeat (split; [assumption|]). eapply Forall_impl; [|exact E]. intros l (A & B & _). split; assumption. Qed.
Print Assumptions C113_includes_C57.

(** ** C114: histories *)
Theorem C114_history_undefined_iff : forall lw w ops u, decent w -> Forall (legal_op w) ops ->
  (run lw ops w = UB u <-> u = OutOfBounds /\ exists pre o post w1 t1, ops = pre ++ o :: post /\ run lw pre w = Ok (w1, t1) /\ undefined_by lw w1 o).
Proof. intros lw w ops u D F. exact (proj1 (history_exact lw w ops D F) u). Qed.
Print Assumptions C114_history_undefined_iff.
Theorem C114_history_stays_initialised : forall lw w ops w' t, decent w -> Forall (legal_op w) ops -> run lw ops w = Ok (w', t) -> decent w'.
Proof. intros lw w ops w' t D F. exact (proj2 (history_exact lw w ops D F) w' t). Qed.
Print Assumptions C114_history_stays_initialised.

(** ** Cases *)
Lemma demo_decent : decent demo_good.
Proof. apply (C113_includes_C57 demo_good (ListReset 0)). exact demo_sound. Qed.
(** whether handling a stream with this text is defined *)
Definition outcome (p c : nat) (s : list Z) : bool := match run 64 (demo_ops p c s) demo_good with Ok _ => true | UB _ => false end.
Example C113_values :
  (* 26 hex digits: undefined; 25 digits, or 26 characters with another one among them: defined *)
  outcome 0 0 (zs "[lokomotive] .uid=11111111111111111111111111" ++ nl) = false /\
  outcome 0 0 (zs "[lokomotive] .uid=1111111111111111111111111" ++ nl) = true /\
  outcome 0 0 (zs "[lokomotive] .uid=11111111111111111111111 11" ++ nl) = true /\
  outcome 0 0 (zs "[lokomotive] .uid=-0x11111111111111111111111" ++ nl) = false /\
  (* a protocol of 8 characters: undefined only when the engine is printed at the end *)
  outcome 0 0 (zs "[lokomotive] .typ=12345678" ++ nl) = false /\
  outcome 0 0 (zs "[lokomotive] .typ=12345678" ++ nl ++ zs " .typ=mm2" ++ nl) = true /\
  outcome 0 0 (zs "[lokomotive] .typ=12345678901234567890123456" ++ nl ++ zs " .typ=mm2" ++ nl) = true.
Proof. vm_compute. repeat split. Qed.
Example C113_lists :
  outcome 1 1 (zs "[lokstatisti] .a=1" ++ nl) = false /\
  outcome 1 1 (zs "[lokstatist] .a=1" ++ nl) = true /\
  outcome 1 1 (zs "[loknamen] .nr=0" ++ nl ++ zs " .name=12345678901234567890123456" ++ nl) = false /\
  outcome 1 1 (zs "[loknamen] .nr=0" ++ nl ++ zs " .name=1" ++ nl ++ zs " .name=2" ++ nl ++ zs " .name=12345678901234567890123456" ++ nl) = true /\
  outcome 1 1 (zs "[numloks] .wert=00000000000000000000000007" ++ nl) = false /\
  outcome 1 1 (zs "[numloks] .wert=0000000000000000000000007x" ++ nl) = true.
Proof. vm_compute. repeat split. Qed.
(** without any line: an engine whose protocol string fills its field, and an empty stream *)
Definition empty_stream : list op :=
  [OnEngine 0 (ESetProtocolString (zs "12345678" ++ [0])); ParserSetConsumer 0 (Some 0%nat); ParserStartStream 0; ParserAddMessage 0 (mkData 6 [0; 0; 0; 0; 0; 0; 0; 0; 0])].
Example C114_case : decent demo_good /\ Forall (legal_op demo_good) empty_stream /\ run 64 empty_stream demo_good = UB OutOfBounds /\
  exists pre o post w1 t1, empty_stream = pre ++ o :: post /\ run 64 pre demo_good = Ok (w1, t1) /\ undefined_by 64 w1 o.
Proof.
  assert (F : Forall (legal_op demo_good) empty_stream).
  { constructor; [right; exists 0%nat, (zs "12345678" ++ [0]); split; [reflexivity|]; split; [cbn; lia|]; exists (zs "12345678"), []; split; [reflexivity|repeat constructor; discriminate]|].
    constructor; [left; split; [exists (demo_parser (Some 0%nat)); reflexivity|cbn; lia]|]. constructor; [left; exists (demo_parser (Some 0%nat)); reflexivity|]. constructor; [|constructor].
    left. split; [exists (demo_parser (Some 0%nat)); reflexivity|]. split; [|vm_compute; discriminate]. vm_compute. repeat (split; [|]); repeat constructor; discriminate. }
  assert (E : run 64 empty_stream demo_good = UB OutOfBounds) by (vm_compute; reflexivity). split; [exact demo_decent|]. split; [exact F|]. split; [exact E|].
  exact (proj2 (proj1 (C114_history_undefined_iff 64 demo_good empty_stream OutOfBounds demo_decent F) E)).
Qed.
