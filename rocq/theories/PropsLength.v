(* PropsLength.v -- property theorems about frames whose length field may be anything: C122.
   Vocabulary: SpecLength.v and SpecExact.v. *)
From Verif Require Import ZLib SpecLength ProofsText ProofsSafe ProofsExact ProofsLength Demo DemoStream PropsSafe PropsExact.

(** ** C122: one operation *)
(** The length field of a frame is a byte; the frame has 9 bytes.  Handling a frame of any length is
    undefined exactly if it is one of the cases of C113 or if the length exceeds 9 and the bytes are
    printed; otherwise the objects stay initialised. *)
Theorem C122_undefined_iff : forall lw w o u, decent w -> wild_op w o ->
  (step lw o w = UB u <-> u = OutOfBounds /\ (undefined_by lw w o \/ overprinted w o)).
Proof.
  intros lw w o u D L. destruct (wild_one lw w o D L) as [(B & E)|(B & w' & t & E & _)]; rewrite E.
  - split; [intros H; injection H as <-; auto|intros (-> & _); reflexivity].
  - split; [discriminate|intros (_ & H); contradiction].
Qed.
Print Assumptions C122_undefined_iff.
Theorem C122_stays_initialised : forall lw w o w' t, decent w -> wild_op w o -> step lw o w = Ok (w', t) -> decent w' /\ same_objects w w'.
Proof.
  intros lw w o w' t D L S. destruct (wild_one lw w o D L) as [(_ & E)|(_ & w2 & t2 & E & H)]; rewrite S in E; [discriminate|]. injection E as <- <-. exact H.
Qed.
Print Assumptions C122_stays_initialised.
(** a payload of more than 8 bytes given directly to a parser is always handled *)
Theorem C122_parser_takes_any_length : forall lw w p d, decent w -> a_parser w p -> payload_ok d -> 8 < dlc d ->
  exists w' t, step lw (ParserAddMessage p d) w = Ok (w', t).
Proof.
  intros lw w p d D A P L. assert (W : wild_op w (ParserAddMessage p d)) by (right; split; assumption).
  destruct (step lw (ParserAddMessage p d) w) as [(w' & t)|u] eqn:E; [eauto|]. apply C122_undefined_iff in E; [|exact D|exact W]. destruct E as (_ & [(p' & d' & H & B)|H]).
  - destruct H as [H|(s & st & _ & _ & [H|(f & H & _)])]; try discriminate. injection H as <- <-. destruct (long_never_breaks lw w p d L B).
  - destruct (only_printed w (ParserAddMessage p d)) with (3 := H); discriminate.
Qed.
Print Assumptions C122_parser_takes_any_length.
(** frames that claim at most 9 bytes are never printed out of bounds, so C113 and C114 hold for
    length 9 as well *)
Theorem C122_nine_is_enough : forall w s i d, dlc d <= 9 ->
  ~ overprinted w (OnStation s (HandlePacket (mkFrame i d))) /\ ~ overprinted w (OnStation s (HandleConfigDataStream d)).
Proof.
  intros w s i d L. split; intros (s' & st & d' & _ & D & [(E & _)|(i' & E & _)]); try discriminate; injection E; intros; subst; lia.
Qed.
Print Assumptions C122_nine_is_enough.
(** these arguments include those of C113 *)
Theorem C122_includes_C113 : forall w o, legal_op w o -> wild_op w o /\ ~ overprinted w o.
Proof. intros w o L. split; [left; exact L|exact (short_not_printed w w o L)]. Qed.
Print Assumptions C122_includes_C113.
(** ** Histories *)
Theorem C122_history_undefined_iff : forall lw w ops u, decent w -> Forall (wild_op w) ops ->
  (run lw ops w = UB u <-> u = OutOfBounds /\ exists pre o post w1 t1, ops = pre ++ o :: post /\ run lw pre w = Ok (w1, t1) /\
     (undefined_by lw w1 o \/ overprinted w1 o)).
Proof. intros lw w ops u D F. exact (proj1 (wild_history lw w ops D F) u). Qed.
Print Assumptions C122_history_undefined_iff.
Theorem C122_history_stays_initialised : forall lw w ops w' t, decent w -> Forall (wild_op w) ops -> run lw ops w = Ok (w', t) -> decent w'.
Proof. intros lw w ops w' t D F. exact (proj2 (wild_history lw w ops D F) w' t). Qed.
Print Assumptions C122_history_stays_initialised.

(** ** Cases *)
(** a frame that claims n bytes *)
Definition claims (n : Z) : Data := mkData n [72; 101; 108; 108; 111; 32; 87; 33; 0].
Definition packet (c n : Z) : op := OnStation 0 (HandlePacket (mkFrame (id_value 0 0 c false 0) (claims n))).
Definition fate (ops : list op) : bool := match run 64 ops demo_good with Ok _ => true | UB _ => false end.
Lemma wild_packet : forall c n, byte n -> wild_op demo_good (packet c n).
Proof. intros c n B. right. split; [cbn; lia|]. split; [exact B|]. split; [reflexivity|]. repeat constructor; discriminate. Qed.
(** CAN allows length codes up to 15: that every frame with such a code is handled is false *)
Theorem C122_any_length_refuted : exists w o, decent w /\ wild_op w o /\ step 64 o w = UB OutOfBounds /\ ~ undefined_by 64 w o /\ overprinted w o.
Proof.
  assert (D := demo_decent). assert (W : wild_op demo_good (packet CMD_DEBUG_TEXT 15)) by (apply wild_packet; unfold byte; lia). exists demo_good, (packet CMD_DEBUG_TEXT 15).
  split; [exact D|]. split; [exact W|]. assert (E : step 64 (packet CMD_DEBUG_TEXT 15) demo_good = UB OutOfBounds) by (vm_compute; reflexivity). split; [exact E|].
  assert (N : ~ undefined_by 64 demo_good (packet CMD_DEBUG_TEXT 15)).
  { intros (p & d & [H|(s & st & _ & _ & [H|(f & H & _ & C)])] & _); try discriminate. injection H as <- <-. vm_compute in C. discriminate. }
  split; [exact N|]. destruct (proj1 (C122_undefined_iff 64 demo_good _ OutOfBounds D W) E) as (_ & [H|H]); [contradiction|exact H].
Qed.
Print Assumptions C122_any_length_refuted.
Example C122_values :
  (* debug text and unknown commands: up to 9 *)
  map (fun n => fate [packet CMD_DEBUG_TEXT n]) [0; 8; 9; 10; 15; 255] = [true; true; true; false; false; false] /\
  map (fun n => fate [packet 0x77 n]) [0; 8; 9; 10; 15; 255] = [true; true; true; false; false; false] /\
  (* known commands: any length *)
  map (fun n => fate [packet CMD_SPEED n; packet CMD_SYSTEM n; packet CMD_ACCESSORY n; packet CMD_PING n]) [0; 8; 9; 10; 15; 255] = [true; true; true; true; true; true] /\
  (* config data: up to 9 when nobody waits for it, any length while a stream is running *)
  map (fun n => fate [packet CMD_CONFIG_DATA n]) [0; 8; 9; 10; 15; 255] = [true; true; true; false; false; false] /\
  map (fun n => fate [OnStation 0 (RequestEngineList 0 (Some 1%nat)); packet CMD_CONFIG_DATA n]) [0; 8; 9; 10; 15; 255] = [true; true; true; true; true; true] /\
  (* the first one ends the stream, so that a second one is printed *)
  map (fun n => fate [OnStation 0 (RequestEngineList 0 (Some 1%nat)); packet CMD_CONFIG_DATA n; packet CMD_CONFIG_DATA n]) [9; 10] = [true; false].
Proof. vm_compute. repeat split. Qed.
Example C122_case : let ops := [OnStation 0 (RequestEngineList 0 (Some 1%nat)); packet CMD_CONFIG_DATA 12; packet CMD_CONFIG_DATA 12] in
  decent demo_good /\ Forall (wild_op demo_good) ops /\ run 64 ops demo_good = UB OutOfBounds /\
  exists pre o post w1 t1, ops = pre ++ o :: post /\ run 64 pre demo_good = Ok (w1, t1) /\ (undefined_by 64 w1 o \/ overprinted w1 o).
Proof.
  intros ops. assert (F : Forall (wild_op demo_good) ops).
  { constructor; [left; left; split; cbn; lia|]. constructor; [apply wild_packet; unfold byte; lia|]. constructor; [apply wild_packet; unfold byte; lia|constructor]. }
  assert (E : run 64 ops demo_good = UB OutOfBounds) by (vm_compute; reflexivity). split; [exact demo_decent|]. split; [exact F|]. split; [exact E|].
  exact (proj2 (proj1 (C122_history_undefined_iff 64 demo_good ops OutOfBounds demo_decent F) E)).
Qed.
Example C122_parser_case : exists w' t, a_parser demo_good 1 /\ payload_ok (claims 200) /\ 8 < dlc (claims 200) /\ step 64 (ParserAddMessage 1 (claims 200)) demo_good = Ok (w', t).
Proof.
  assert (A : a_parser demo_good 1) by (eexists; reflexivity).
  assert (P : payload_ok (claims 200)) by (split; [unfold byte; cbn; lia|]; split; [reflexivity|]; repeat constructor; discriminate).
  destruct (C122_parser_takes_any_length 64 demo_good 1 (claims 200) demo_decent A P) as (w' & t & E); [reflexivity|]. exists w', t. split; [exact A|]. split; [exact P|]. split; [reflexivity|exact E].
Qed.
