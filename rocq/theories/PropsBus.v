(* PropsBus.v -- property theorems C99, C100: a bus that delivers from inside the transmit callback.
   Vocabulary: SpecBus.v *)
From Verif Require Import SpecBus ProofsBus Demo.

Definition bus_st2 : Station := mkStation 0x1F03 (mkCbs (Some 20%nat) (Some 21%nat) (Some 22%nat) (Some 23%nat) None).
Definition bus_world : world := mkW [demo_st0; demo_st1; bus_st2] (w_parsers demo) (w_conss demo) (w_engines demo).
(** every station hears the two others *)
Definition bus_hears (tx : nat) : list nat :=
  if Nat.eqb tx 0 then [1%nat; 2%nat] else if Nat.eqb tx 10 then [0%nat; 2%nat] else if Nat.eqb tx 20 then [0%nat; 1%nat] else [].
Lemma bus_hashes : proper_hashes bus_world.
Proof. unfold proper_hashes, bus_world. cbn [w_stations]. repeat (apply Forall_cons; [unfold is_u16; cbn; lia|]). apply Forall_nil. Qed.
Lemma bus_existing : hears_existing bus_world bus_hears.
Proof.
  intros tx. unfold bus_hears. destruct (Nat.eqb tx 0), (Nat.eqb tx 10), (Nat.eqb tx 20); cbn; repeat (apply Forall_cons; [lia|]); apply Forall_nil.
Qed.

(** ** C99: direct delivery is as good as queueing *)
(** A transmit callback that hands each frame to the listening stations at once, from inside the
    call, has exactly the effect of one that keeps the frames until the call has returned: the same
    objects, and the same calls, frames and console output in the same order.  This holds for any
    calls, for any number of stations and whoever listens to whom, senders themselves included. *)
Theorem C99_direct_is_queued : forall lw hears n ops w t w' t', proper_hashes w -> hears_existing w hears ->
  queued lw hears ops w = Ok (w', t') ->
  rexec lw (direct hears) (S (S n)) (ops_code ops) (mkR w t) = (Ok tt, mkR w' (t ++ t')).
Proof. exact direct_queued. Qed.
Print Assumptions C99_direct_is_queued.
(** Commands on such a bus never go wrong, change no object, and have been heard by every listening
    station, in its turn, when the call returns. *)
Theorem C99_commands_heard_at_once : forall lw hears n ops w t, proper_hashes w -> hears_existing w hears ->
  Forall (direct_command w hears) ops ->
  exists t', rexec lw (direct hears) (S (S n)) (ops_code ops) (mkR w t) = (Ok tt, mkR w (t ++ t')) /\
             notices t' = flat_map (told_directly w hears) ops.
Proof. exact direct_commands. Qed.
Print Assumptions C99_commands_heard_at_once.

(** a list request, which aborts what station 1 was waiting for, and commands; and all functions at once *)
Definition bus_ops : list op :=
  [OnStation 1 (RequestEngineList 2 (Some 1%nat)); OnStation 0 (SendEngineVelocity 0x4005 1200); OnStation 2 (RequestEngineAllFunctions 0x4005);
   OnStation 1 (SendAccessoryPacket 7 P_MM2 1 1)].
Example C99_case : match queued 64 bus_hears bus_ops bus_world with
  | Ok (w', t') => List.length (sent t') = 20%nat /\ List.length (notices t') = 4%nat
  | UB _ => False
  end.
Proof. vm_compute. split; reflexivity. Qed.
Definition bus_commands : list op := [OnStation 0 (SendEngineVelocity 0x4005 1200); OnStation 2 SendSystemGo].
Example C99_commands_case : Forall (direct_command bus_world bus_hears) bus_commands /\
  flat_map (told_directly bus_world bus_hears) bus_commands =
    [EvVelocity 12 0x4005 1000; EvVelocity 22 0x4005 1000; EvSystem 1 true false; EvSystem 11 true false].
Proof.
  assert (A : forall i st, nth_error (w_stations bus_world) i = Some st -> is_u16 (st_hash st) -> cb_eng (st_cbs st) <> None ->
    exists st', station_at bus_world i st' /\ cb_eng (st_cbs st') <> None) by (intros i st E U C; exists st; split; [split; assumption|exact C]).
  split; [|vm_compute; reflexivity].
  repeat (apply Forall_cons; [cbn [direct_command]|]); try apply Forall_nil.
  - split; [exact Logic.I|]. split; [split; unfold is_u32, is_u16; lia|]. exists demo_st0, 0%nat. split; [split; [reflexivity|unfold is_u16; cbn; lia]|]. split; [reflexivity|].
    repeat (apply Forall_cons; [eapply A; [reflexivity|unfold is_u16; cbn; lia|discriminate]|]). apply Forall_nil.
  - split; [exact Logic.I|]. split; [exact Logic.I|]. exists bus_st2, 20%nat. split; [split; [reflexivity|unfold is_u16; cbn; lia]|]. split; [reflexivity|].
    repeat (apply Forall_cons; [eapply A; [reflexivity|unfold is_u16; cbn; lia|discriminate]|]). apply Forall_nil.
Qed.

(** ** C100: repeaters on such a bus never return *)
(** If moreover every station answers every accessory packet by sending one (a repeater, or a
    display that confirms what it hears), the first packet starts a recursion that ends at no depth
    of the call stack, however deep: with n nested calls allowed, the (n+1)/2-th packet is sent
    and the stack is exhausted. *)
Theorem C100_repeaters_never_return : forall lw react hears w, delivers react hears -> repeats react w -> ring w hears ->
  forall n s st x p d pw k t, nth_error (w_stations w) s = Some st ->
  exists s', rexec lw react n (Call (OnStation s (SendAccessoryPacket x p d pw)) k) (mkR w t) = (UB TooDeep, s') /\
             frames_given (r_t s') = (frames_given t + Nat.div2 (S n))%nat.
Proof. exact repeaters. Qed.
Print Assumptions C100_repeaters_never_return.
Definition bus_react (h : list event) : code :=
  match rev h with
  | EvTx tx f :: _ => ops_code (deliveries bus_hears tx f)
  | EvAccessory a d _ :: _ => ops_code [OnStation (if Nat.eqb a 3 then 0 else if Nat.eqb a 13 then 1 else 2) (SendAccessoryPacket 7 P_DCC 0 1)]
  | _ => Ret
  end.
Example C100_case : delivers bus_react bus_hears /\ repeats bus_react bus_world /\ ring bus_world bus_hears.
Proof.
  split; [intros h tx f; unfold bus_react; rewrite rev_app_distr; reflexivity|]. split.
  - intros s st a E A h d r. unfold bus_react. rewrite rev_app_distr. cbn [rev app ops_code]. exists 7, P_DCC, 0, 1. eexists.
    destruct s as [|[|[|s]]]; cbn in E; try (injection E as <-; cbn in A; injection A as <-; reflexivity). destruct s; discriminate.
  - split; [exact bus_hashes|]. split; [exact bus_existing|]. unfold bus_world. cbn [w_stations].
    repeat (apply Forall_cons; [split; [discriminate|eexists; split; [reflexivity|discriminate]]|]). apply Forall_nil.
Qed.
(** As soon as a callback answers at all, direct delivery lets the answer overtake the question: here
    station 1 stops the system when it hears of accessory 7, and station 2 is told of the stop first. *)
Definition stop_react (h : list event) : code :=
  match rev h with
  | EvTx tx f :: _ => ops_code (deliveries bus_hears tx f)
  | EvAccessory 13 d _ :: _ => ops_code [OnStation 1 SendSystemStop]
  | _ => Ret
  end.
Theorem C100_question_before_answer_refuted : exists w hears react ops s',
  delivers react hears /\ rexec 64 react 4 (ops_code ops) (mkR w []) = (Ok tt, s') /\
  ops = [OnStation 0 (SendAccessoryPacket 7 P_MM2 1 1)] /\ hears 0%nat = [1%nat; 2%nat] /\
  exists a b c d, r_t s' = a ++ EvSystem 21 false false :: b ++ EvAccessory 23 d false :: c.
Proof.
  exists bus_world, bus_hears, stop_react, [OnStation 0 (SendAccessoryPacket 7 P_MM2 1 1)].
  let r := eval vm_compute in (snd (rexec 64 stop_react 4 (ops_code [OnStation 0 (SendAccessoryPacket 7 P_MM2 1 1)]) (mkR bus_world []))) in exists r.
  split; [intros h tx f; unfold stop_react; rewrite rev_app_distr; reflexivity|]. split; [vm_compute; reflexivity|]. split; [reflexivity|]. split; [reflexivity|].
  cbn [r_t].
  match goal with |- exists a b c d, ?l = _ =>
    let rec go pre l := match l with
      | EvSystem 21 false false :: ?r => constr:((pre, r)) | ?e :: ?r => go (pre ++ [e]) r end in
    match go (@nil event) l with (?p, ?r) =>
      let rec go2 pre l := match l with
        | EvAccessory 23 ?d false :: ?q => constr:((pre, d, q)) | ?e :: ?q => go2 (pre ++ [e]) q end in
      match go2 (@nil event) r with (?m, ?d, ?q) => exists p, m, q, d end end end.
  reflexivity.
Qed.
Print Assumptions C100_question_before_answer_refuted.
