(* PropsFatal.v -- property theorems about the last thing that happens before undefined behaviour
   when callbacks call back into the library: C125.  Vocabulary: SpecFatal.v. *)
From Verif Require Import ZLib SpecFatal ProofsCrc ProofsText ProofsSafe ProofsConsumer ProofsExact ProofsFatal Demo DemoStream PropsSafe PropsReentry PropsRsafe PropsExact.

(** ** C125 *)
(** From initialised objects, whatever valid calls the program and its callbacks make, at whatever
    point and depth: the run is defined and leaves the objects initialised; or the stack was
    exhausted; or memory was read out of bounds, and then the last thing that happened is that a
    consumer was handed a line it reads beyond, or began to print an engine whose protocol string is
    not terminated.  "Then" is exact: consumer and engine are looked at in the state in which the run
    stopped, with whatever the callbacks did to them before. *)
Theorem C125_last_things : forall lw react n w c t r s, decent w -> only_calls (legal_op w) c -> (forall h, only_calls (legal_op w) (react h)) ->
  rexec lw react n c (mkR w t) = (r, s) ->
  (r = Ok tt /\ decent (r_w s) /\ same_objects w (r_w s)) \/ r = UB TooDeep \/
  (r = UB OutOfBounds /\ same_objects w (r_w s) /\ (by_a_line (r_w s) (r_t s) \/ by_an_engine (r_w s) (r_t s))).
Proof. exact last_things. Qed.
Print Assumptions C125_last_things.
(** no null pointer, no object that is gone, no uninitialised variable, no shift by too much, no
    parser that stays in its own loop, no overlapping copy *)
Theorem C125_only_out_of_bounds : forall lw react n w c t u s, decent w -> only_calls (legal_op w) c -> (forall h, only_calls (legal_op w) (react h)) ->
  rexec lw react n c (mkR w t) = (UB u, s) -> u = OutOfBounds \/ u = TooDeep.
Proof. intros lw react n w c t u s D OC RH E. destruct (last_things lw react n w c t _ s D OC RH E) as [(H & _)|[H|(H & _)]]; [discriminate|injection H; auto|injection H; auto]. Qed.
Print Assumptions C125_only_out_of_bounds.
(** without any library consumer there is only the stack *)
Theorem C125_own_consumers : forall lw react n w c t r s, decent w -> only_calls (legal_op w) c -> (forall h, only_calls (legal_op w) (react h)) ->
  Forall (fun x => x = UserC) (w_conss w) -> rexec lw react n c (mkR w t) = (r, s) -> (r = Ok tt /\ decent (r_w s)) \/ r = UB TooDeep.
Proof. exact own_consumers. Qed.
Print Assumptions C125_own_consumers.
(** the objects and calls include those of C64 *)
Theorem C125_includes_C64 : forall w c, (sound w -> decent w) /\ (only_calls (valid_op w) c -> only_calls (legal_op w) c).
Proof.
  intros w c. split; [exact (proj1 (C113_includes_C57 w (ListReset 0)))|]. intros H. induction H; constructor; [left; assumption|assumption].
Qed.
Print Assumptions C125_includes_C64.

(** ** Cases *)
Definition system_call : code := ops_code [OnStation 0 (HandleSystemCommand 0 (mkData 5 [0; 0; 0; 0; 0; 0; 0; 0; 0]))].
(** the callback for a system command feeds the parser a description *)
Definition feeds (s : list Z) : list event -> code :=
  on_last (fun e => match e with EvSystem _ _ _ => demo_ops 0 0 s | _ => [] end).
Lemma feeds_legal : forall s, streamb s (crc_of 0xFFFF (padded s)) = true -> forall h, only_calls (legal_op demo_good) (feeds s h).
Proof.
  intros s S. apply on_last_only. intros e. destruct e; try exact (Forall_nil _). eapply Forall_impl; [intros q V; left; exact V|].
  apply (demo_valid demo_good 0 0 s); [cbn; lia|exists (demo_parser (Some 0%nat)); reflexivity|cbn; lia|cbn; lia|exact S].
Qed.
Lemma system_legal : only_calls (legal_op demo_good) system_call.
Proof. apply ops_only. constructor; [|constructor]. left. split; [cbn; lia|exact Logic.I]. Qed.
Definition printed (e : event) : bool := match e with EvPrint _ => true | _ => false end.
Definition fine : list Z := zs "[lokomotive] .typ=mm2" ++ nl.
Definition long_typ : list Z := zs "[lokomotive] .typ=12345678" ++ nl.
Definition long_uid : list Z := zs "[lokomotive] .uid=11111111111111111111111111" ++ nl.
Example C125_cases : decent demo_good /\ only_calls (legal_op demo_good) system_call /\
  (forall h, only_calls (legal_op demo_good) (feeds fine h) /\ only_calls (legal_op demo_good) (feeds long_typ h) /\ only_calls (legal_op demo_good) (feeds long_uid h)) /\
  (exists s, rexec 64 (feeds fine) 2 system_call (mkR demo_good []) = (Ok tt, s)) /\
  (exists s, rexec 64 (feeds fine) 1 system_call (mkR demo_good []) = (UB TooDeep, s)) /\
  (exists s, rexec 64 (feeds long_typ) 2 system_call (mkR demo_good []) = (UB OutOfBounds, s) /\ by_an_engine (r_w s) (r_t s)) /\
  (exists s, rexec 64 (feeds long_uid) 2 system_call (mkR demo_good []) = (UB OutOfBounds, s) /\ by_a_line (r_w s) (r_t s)).
Proof.
  split; [exact demo_decent|]. split; [exact system_legal|]. split; [|split; [|split; [|split]]].
  - intros h. split; [|split]; apply feeds_legal; vm_compute; reflexivity.
  - eexists. vm_compute. reflexivity.
  - eexists. vm_compute. reflexivity.
  - destruct (rexec 64 (feeds long_typ) 2 system_call (mkR demo_good [])) as (r, s) eqn:E. exists s.
    assert (R : r = UB OutOfBounds /\ printed (last (r_t s) (EvStreamComplete 0)) = true).
    { change r with (fst (r, s)). change s with (snd (r, s)) at 2. rewrite <- E. vm_compute. auto. }
    destruct R as (-> & L). split; [reflexivity|].
    destruct (C125_last_things 64 (feeds long_typ) 2 demo_good system_call [] _ s demo_decent system_legal (feeds_legal long_typ ltac:(vm_compute; reflexivity)) E) as [(H & _)|[H|(_ & _ & [H|H])]]; [discriminate|discriminate| |exact H].
    destruct H as (b & c & x & k & v & o & T & _). rewrite T, last_last in L. discriminate.
  - destruct (rexec 64 (feeds long_uid) 2 system_call (mkR demo_good [])) as (r, s) eqn:E. exists s.
    assert (R : r = UB OutOfBounds /\ printed (last (r_t s) (EvPrint [])) = false).
    { change r with (fst (r, s)). change s with (snd (r, s)) at 2. rewrite <- E. vm_compute. auto. }
    destruct R as (-> & L). split; [reflexivity|].
    destruct (C125_last_things 64 (feeds long_uid) 2 demo_good system_call [] _ s demo_decent system_legal (feeds_legal long_uid ltac:(vm_compute; reflexivity)) E) as [(H & _)|[H|(_ & _ & [H|H])]]; [discriminate|discriminate|exact H|].
    destruct H as (b & c & e & cb & l & T & _). rewrite T in L. change (b ++ [EvStreamComplete c; EvPrint (zs "Downloaded Engine: ")]) with (b ++ [EvStreamComplete c] ++ [EvPrint (zs "Downloaded Engine: ")]) in L. rewrite app_assoc, last_last in L. discriminate.
Qed.
