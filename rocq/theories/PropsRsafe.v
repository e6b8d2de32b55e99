(* PropsRsafe.v -- property theorems about the absence of undefined behaviour when callbacks call
   back into the library: C64.  Vocabulary: SpecSafe.v, SpecReentry.v, SpecRsafe.v; the model of
   re-entrant calls: Reentry.v. *)
From Verif Require Import ZLib SpecRsafe ProofsText ProofsSafe ProofsConsumer ProofsRsafe Demo DemoStream PropsSafe PropsReentry.

(** ** C64 *)
(** From initialised objects, whatever valid calls the program makes and whatever valid calls its
    callbacks make at whatever point, to whatever depth: the run is defined and leaves the objects
    initialised, or the stack was exhausted, or a consumer was handed an excessive line. *)
Theorem C64_no_undefined_behaviour : forall lw react n w c t r s', sound w -> only_calls (valid_op w) c -> (forall h, only_calls (valid_op w) (react h)) ->
  rexec lw react n c (mkR w t) = (r, s') ->
  exists t', r_t s' = t ++ t' /\ ((r = Ok tt /\ sound (r_w s')) \/ r = UB TooDeep \/ Exists (excessive_event w) t').
Proof. exact reentrant_safe. Qed.
Print Assumptions C64_no_undefined_behaviour.
(** with consumers of the user's own, which can take any line, only the stack can be exhausted *)
Theorem C64_own_consumers : forall lw react n w c t r s', sound w -> only_calls (valid_op w) c -> (forall h, only_calls (valid_op w) (react h)) ->
  Forall (fun x => x = UserC) (w_conss w) -> rexec lw react n c (mkR w t) = (r, s') -> (r = Ok tt /\ sound (r_w s')) \/ r = UB TooDeep.
Proof.
  intros lw react n w c t r s' S OC RH F E. destruct (reentrant_safe lw react n w c t r s' S OC RH E) as (t' & _ & [H|[H|H]]); [auto|auto|exfalso].
  apply Exists_exists in H. destruct H as (e & _ & i & s & k & v & x & _ & N & X). apply nth_error_In in N. rewrite Forall_forall in F. rewrite (F x N) in X. exact X.
Qed.
Print Assumptions C64_own_consumers.
(** no run of any depth is undefined: enough stack to see the undefined behaviour is enough to see the line *)
Theorem C64_excessive_line_comes_first : forall lw react n w c t u s', sound w -> only_calls (valid_op w) c -> (forall h, only_calls (valid_op w) (react h)) ->
  rexec lw react n c (mkR w t) = (UB u, s') -> u <> TooDeep -> exists t', r_t s' = t ++ t' /\ Exists (excessive_event w) t'.
Proof.
  intros lw react n w c t u s' S OC RH E N. destruct (reentrant_safe lw react n w c t _ s' S OC RH E) as (t' & ET & [(H & _)|[H|H]]); [discriminate|congruence|].
  exists t'. auto.
Qed.
Print Assumptions C64_excessive_line_comes_first.

Lemma ops_only : forall P l, Forall P l -> only_calls P (ops_code l).
Proof. intros P l F. induction F; [constructor|]. constructor; [assumption|auto]. Qed.
Lemma on_last_only : forall (P : op -> Prop) f, (forall e, Forall P (f e)) -> forall h, only_calls P (on_last f h).
Proof. intros P f F h. unfold on_last. destruct (rev h) as [|e r]; [constructor|]. apply ops_only. apply F. Qed.
(** the limits on lines are needed here too: the callback itself feeds the parser the bad line *)
Definition feeding : list event -> code :=
  on_last (fun e => match e with EvSystem _ _ _ => demo_ops 0 0 (zs "[lokomotive] .typ=12345678" ++ nl) | _ => [] end).
Theorem C64_long_protocol_refuted : exists w c s', sound w /\ only_calls (valid_op w) c /\ (forall h, only_calls (valid_op w) (feeding h)) /\
  rexec 64 feeding 2 c (mkR w []) = (UB OutOfBounds, s').
Proof.
  exists demo_good, (ops_code [OnStation 0 (HandleSystemCommand 0 (mkData 5 [0; 0; 0; 0; 0; 0; 0; 0; 0]))]). eexists. split; [exact demo_sound|]. split; [|split; [|vm_compute; reflexivity]].
  - apply ops_only. constructor; [|constructor]. split; [cbn; lia|exact Logic.I].
  - apply on_last_only. intros e. destruct e; try exact (Forall_nil _).
    apply (demo_valid demo_good 0 0 (zs "[lokomotive] .typ=12345678" ++ nl)); [cbn; lia|exists (demo_parser (Some 0%nat)); reflexivity|cbn; lia|cbn; lia|vm_compute; reflexivity].
Qed.
Print Assumptions C64_long_protocol_refuted.

(** ** Cases *)
(** demo_good with a user consumer; it finishes its request in the middle of a line and asks for the
    list, and the end callback of the engine consumer asks again when it is told of the end *)
Definition good_user : world := mkW (w_stations demo_good) (w_parsers demo_good) (w_conss demo_good ++ [UserC]) (w_engines demo_good).
Definition meddling : list event -> code :=
  on_last (fun e => match e with
    | EvConsume 2 _ _ _ => OnStation 0 FinishCurrentConfigRequest :: ask_for_list 0
    | EvEndComplete _ _ => OnStation 0 NotifyConfigStreamReceived :: ParserReset 1 :: ask_for_list 2
    | EvTx _ _ => [OnEngine 0 (ESetFunction 3 true); ListReset 1]
    | _ => [] end).
Example C64_case : sound good_user /\ only_calls (valid_op good_user) (ops_code (demo_ops 0 2 (show_doc demo_doc))) /\ (forall h, only_calls (valid_op good_user) (meddling h)) /\
  exists w' t', rexec 64 meddling 4 (ops_code (demo_ops 0 2 (show_doc demo_doc))) (mkR good_user []) = (Ok tt, mkR w' t') /\
    notes t' = [EvStreamAborted 2; EvStreamComplete 0; EvEndComplete 7 0; EvStreamAborted 2] /\ (20 < List.length t')%nat.
Proof.
  assert (P0 : a_parser good_user 0) by (eexists; vm_compute; reflexivity). assert (P1 : a_parser good_user 1) by (eexists; vm_compute; reflexivity).
  assert (ASK : forall c, (c < 3)%nat -> Forall (valid_op good_user) (ask_for_list c)).
  { intros c C. constructor; [split; [exact P0|cbn; lia]|]. constructor; [|constructor]. split; cbn; lia. }
  split; [|split; [|split]].
  - destruct demo_sound as (S & P & C & E). split; [exact S|]. split; [|split; [|exact E]].
    + cbn [w_parsers good_user demo_good demo]. apply Forall_cons; [|apply Forall_cons; [|apply Forall_cons; [exact Logic.I|apply Forall_nil]]]; (split; [exists astart; split; [apply start_fits|reflexivity]|split; [cbn; lia|exact Logic.I]]).
    + inversion C as [|? ? C1 C2]. inversion C2 as [|? ? C3 _]. constructor; [exact C1|]. constructor; [exact C3|]. constructor; [exact Logic.I|constructor].
  - apply ops_only. apply demo_valid; [cbn; lia|exact P0|cbn; lia|cbn; lia|vm_compute; reflexivity].
  - apply on_last_only. intros e. destruct e; try exact (Forall_nil _).
    + constructor; [split; [cbn; lia|cbn; lia]|]. constructor; [|constructor]. do 5 eexists. vm_compute. reflexivity.
    + do 3 (destruct c as [|c]; try exact (Forall_nil _)). constructor; [split; [cbn; lia|exact Logic.I]|apply ASK; lia].
    + constructor; [split; [cbn; lia|exact Logic.I]|]. constructor; [exact P1|]. apply ASK. lia.
  - eexists. eexists. split; [vm_compute; reflexivity|]. split; [vm_compute; reflexivity|]. vm_compute. lia.
Qed.
