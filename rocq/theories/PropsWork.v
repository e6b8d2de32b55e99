(* PropsWork.v -- property theorems about how much one call can do: C95.
   Vocabulary: SpecWork.v. *)
From Verif Require Import ZLib SpecWork SpecSafe ProofsCrc ProofsText ProofsStream ProofsConsumer ProofsSafe ProofsWork Demo DemoStream PropsSafe PropsQuery.

(** ** C95 *)
(** In every reachable state a call makes at most the calls, and sends at most the frames, given
    by the tables; it reports at most four lines, and only if it hands over a frame; it ends at
    most one stream, and only if it is one of those in the third table. *)
Theorem C95_bounded_work : forall lw o w w' t, all_usable w -> frames_ok o -> step lw o w = Ok (w', t) ->
  (List.length (calls t) <= may_call o)%nat /\ (count is_tx t <= may_send o)%nat /\ (count is_line t <= if delivers o then 4 else 0)%nat /\ (count is_end t <= may_end o)%nat.
Proof. intros lw o w w' t U F H. destruct (step_cost lw o w w' t U F H) as (A & B & C & D). auto. Qed.
Print Assumptions C95_bounded_work.
(** so a history costs at most what its calls may cost *)
Theorem C95_bounded_history : forall lw ops w w' t, all_usable w -> Forall frames_ok ops -> run lw ops w = Ok (w', t) ->
  (count is_line t <= 4 * List.length (filter delivers ops))%nat /\ (count is_end t <= list_sum (map may_end ops))%nat /\
  (count is_tx t <= list_sum (map may_send ops))%nat /\ (List.length (calls t) <= list_sum (map may_call ops))%nat.
Proof. exact history_cost. Qed.
Print Assumptions C95_bounded_history.
Theorem C95_no_call_exceeds : forall o, (may_call o <= 16)%nat /\ (may_send o <= may_call o)%nat /\ (may_end o <= 1)%nat.
Proof. intros [s [ ]| | | | | | | | | | |]; cbn; lia. Qed.
Print Assumptions C95_no_call_exceeds.
(** The bounds for a received frame are attained, all at once. *)
Definition busy : list Z := zs "[a]  .b=" ++ nl ++ zs "." ++ nl ++ zs "." ++ nl ++ zs "." ++ nl ++ zs " ".
Theorem C95_attained : exists w ops f w1 t1 w' t, sound w /\ Forall (valid_op w) (ops ++ [OnStation 0 (HandlePacket f)]) /\
  run 64 ops w = Ok (w1, t1) /\ step 64 (OnStation 0 (HandlePacket f)) w1 = Ok (w', t) /\
  List.length (calls t) = 7%nat /\ count is_line t = 4%nat /\ count is_end t = 1%nat.
Proof.
  exists demo_good, (firstn 4 (demo_ops 0 0 busy)), (mkFrame demo_id (nth 1 (body busy) (head busy))). do 4 eexists. split; [exact demo_sound|]. split.
  - change (Forall (valid_op demo_good) (demo_ops 0 0 busy)). apply demo_valid; [cbn; lia|eexists; reflexivity|cbn; lia|cbn; lia|vm_compute; reflexivity].
  - split; [vm_compute; reflexivity|]. split; [vm_compute; reflexivity|]. vm_compute. auto.
Qed.
Print Assumptions C95_attained.
Definition demo_idle : world := mkW [demo_st0; demo_st1] [LibP (demo_parser (Some 0%nat)); LibP (demo_parser (Some 1%nat)); UserP demo_beh []] (w_conss demo) (w_engines demo).
Lemma idle_sound : sound demo_idle.
Proof. destruct demo_sound as (A & B & C & D). split; [exact A|]. split; [|split; [exact C|exact D]]. inversion B as [|? ? B1 B2]; subst. inversion B2 as [|? ? B3 B4]; subst. repeat (constructor; [assumption|]). constructor; [exact Logic.I|constructor]. Qed.
(** The bounds for the requests are attained. *)
Theorem C95_requests_attained : exists w w1 t1, sound w /\ run 64 [OnStation 0 (RequestEngineList 0 (Some 0%nat))] w = Ok (w1, t1) /\
  (forall o, In o [OnStation 0 (RequestEngineList 0 (Some 0%nat)); OnStation 0 AbortCurrentConfigRequest; ParserReset 0; OnStation 0 (Begin 1 (mkCbs None None None None None))] ->
     exists w' t, step 64 o w1 = Ok (w', t) /\ List.length (calls t) = may_call o /\ count is_tx t = may_send o /\ count is_end t = 1%nat) /\
  (forall o, In o [OnStation 1 (RequestEngine (RefEngine 0) (Some 0%nat)); OnStation 0 (RequestEngineAllFunctions 0x4005)] ->
     exists w' t, step 64 o w = Ok (w', t) /\ List.length (calls t) = may_call o /\ count is_tx t = may_send o).
Proof.
  exists demo_idle. do 2 eexists. split; [exact idle_sound|]. split; [vm_compute; reflexivity|]. split.
  - intros o I. repeat (destruct I as [<-|I]; [do 2 eexists; split; [vm_compute; reflexivity|]; vm_compute; auto|]). destruct I.
  - intros o I. repeat (destruct I as [<-|I]; [do 2 eexists; split; [vm_compute; reflexivity|]; vm_compute; auto|]). destruct I.
Qed.
Print Assumptions C95_requests_attained.
Example C95_case : all_usable demo_good /\ Forall frames_ok (demo_ops 0 0 busy) /\
  exists w' t, run 64 (demo_ops 0 0 busy) demo_good = Ok (w', t) /\ count is_line t = 4%nat /\ count is_end t = 1%nat /\ count is_tx t = 2%nat /\ List.length (calls t) = 12%nat /\
               list_sum (map may_call (demo_ops 0 0 busy)) = 27%nat.
Proof.
  split; [exact (sound_usable _ demo_sound)|]. split; [apply valid_frames with (w := demo_good); apply demo_valid; [cbn; lia|eexists; reflexivity|cbn; lia|cbn; lia|vm_compute; reflexivity]|].
  do 2 eexists. split; [vm_compute; reflexivity|]. vm_compute. auto 10.
Qed.
