(* PropsReentry.v -- property theorems about callbacks that call back into the library: C58-C61.
   Vocabulary: SpecReentry.v; the model of re-entrant calls: Reentry.v.  [rexec lw react n c] runs
   user code c; user objects answer each call to them with the code [react] yields for the events so
   far; n bounds the nesting of calls into the library, and [UB TooDeep] says it was exhausted. *)
From Verif Require Import ZLib SpecReentry ProofsCrc ProofsText ProofsStream ProofsConsumer ProofsReentry ProofsPassive ProofsAgree ProofsCallback Demo DemoStream.

(** ** The two models *)
(** callbacks that do nothing: exactly the behaviour all other properties are about *)
Theorem C61_passive_callbacks : forall lw react n ops w t w' t', (forall h, react h = Ret) -> run lw ops w = Ok (w', t') ->
  rexec lw react (S n) (ops_code ops) (mkR w t) = (Ok tt, mkR w' (t ++ t')).
Proof. exact passive_run. Qed.
Print Assumptions C61_passive_callbacks.
(** ... and nothing else: a history is defined in one model exactly if it is defined in the other *)
Theorem C61_passive_exact : forall lw react n ops w t w' t', (forall h, react h = Ret) ->
  (run lw ops w = Ok (w', t') <-> rexec lw react (S n) (ops_code ops) (mkR w t) = (Ok tt, mkR w' (t ++ t'))).
Proof. exact passive_exact. Qed.
Print Assumptions C61_passive_exact.
Theorem C61_passive_undefined : forall lw react n ops w t, (forall h, react h = Ret) ->
  ((exists u, run lw ops w = UB u) <-> exists u s, rexec lw react (S n) (ops_code ops) (mkR w t) = (UB u, s)).
Proof. exact passive_undefined. Qed.
Print Assumptions C61_passive_undefined.
(** the bound on the nesting plays no role once it is large enough *)
Theorem C61_depth_irrelevant : forall lw react n m c s r s', (n <= m)%nat -> rexec lw react n c s = (r, s') -> r <> UB TooDeep -> rexec lw react m c s = (r, s').
Proof. exact depth_irrelevant. Qed.
Print Assumptions C61_depth_irrelevant.

(** ** C61 *)
(** Callbacks may send: the objects end up in the same state, and the events are the same up to the
    additional transmissions. *)
Theorem C61_sending_is_harmless : forall lw react n ops w t w' t', can_send w -> Forall keeps_sending ops ->
  (forall h, only_calls (sends (List.length (w_stations w))) (react h)) -> (forall h tx f, react (h ++ [EvTx tx f]) = Ret) ->
  run lw ops w = Ok (w', t') ->
  exists t'', with_sends t' t'' /\ rexec lw react (S (S n)) (ops_code ops) (mkR w t) = (Ok tt, mkR w' (t ++ t'')).
Proof. exact sending_run. Qed.
Print Assumptions C61_sending_is_harmless.

(** ** C58 *)
(** An end callback that answers every abort by finishing the request never returns, however deep
    the stack: n levels of calls are exhausted after n notifications. *)
Theorem C58_endless_recursion : forall lw react s c cb, finishes_on_abort react s c cb ->
  forall n w p t o k, downloading w s p c cb -> aborts w s p o ->
  exists s', rexec lw react n (Call o k) (mkR w t) = (UB TooDeep, s') /\ aborts_told cb c (r_t s') = (aborts_told cb c t + n)%nat.
Proof. exact endless. Qed.
Print Assumptions C58_endless_recursion.
(** one that finishes the first m times returns, and is told of one and the same abort m + 1 times *)
Theorem C58_told_once_more : forall lw react s p c cb m w t, finishes_m_times react s c cb m -> downloading w s p c cb ->
  (exists sp, lib_at w p sp /\ usable sp) -> aborts_told cb c t = 0%nat ->
  exists w' t', rexec lw react (S m) (Call (OnStation s FinishCurrentConfigRequest) done) (mkR w t) = (Ok tt, mkR w' t') /\
    aborts_told cb c t' = S m /\ idle w' p /\ no_request w' s.
Proof. exact finish_m_times. Qed.
Print Assumptions C58_told_once_more.
(** On completion and on a wrong checksum the notification is the last thing that happens: the user
    code runs in the state the frame leads to, as if called after it, so it may do anything. *)
Theorem C58_end_of_stream_comes_last : forall lw react n w t o k p d sp w' t',
  hands_over w o p d -> lib_at w p sp -> usable sp -> in_progress sp = true -> ~ malformed sp d -> (forall c, sp_cons sp = Some c -> quiet_consumer react w c) ->
  step lw o w = Ok (w', t') ->
  rexec lw react (S n) (Call o k) (mkR w t) = (rexec lw react n (end_code react w t t') ~;; continue_with lw react (S n) k) (mkR w' (t ++ t')).
Proof. exact end_last. Qed.
Print Assumptions C58_end_of_stream_comes_last.
(** in particular it may finish the request *)
Theorem C58_finishing_at_the_end_is_safe : forall lw react n w t o o' s st p d sp w' t' w2 t2,
  hands_over w o p d -> lib_at w p sp -> usable sp -> in_progress sp = true -> ~ malformed sp d -> (forall c, sp_cons sp = Some c -> quiet_consumer react w c) ->
  nth_error (w_stations w) s = Some st -> cb_cfg (st_cbs st) = Some p ->
  step lw o w = Ok (w', t') -> ends t' <> [] -> end_code react w t t' = Call o' done -> finishes s o' -> run lw [o; o'] w = Ok (w2, t2) ->
  rexec lw react (S (S n)) (Call o done) (mkR w t) = (Ok tt, mkR w2 (t ++ t2)).
Proof. exact finish_at_end. Qed.
Print Assumptions C58_finishing_at_the_end_is_safe.

(** ** C59 *)
(** Whatever the callbacks did, once the aborting operation has returned the parser is idle and has
    no consumer, and after finishing the station has no request: anything requested through this
    parser from inside the notification is lost. *)
Theorem C59_nothing_survives_an_abort : forall lw react n w s st p sp t o s', nth_error (w_stations w) s = Some st -> cb_cfg (st_cbs st) = Some p -> lib_at w p sp ->
  finishes s o \/ o = ParserReset p \/ (exists d, hands_over w o p d /\ malformed sp d) ->
  rexec lw react n (Call o done) (mkR w t) = (Ok tt, s') ->
  idle (r_w s') p /\ (finishes s o -> no_request (r_w s') s).
Proof. exact abort_gone. Qed.
Print Assumptions C59_nothing_survives_an_abort.

(** ** C60 *)
(** "A request reported complete has been answered" fails for a request made while a user consumer
    is being handed a line: as soon as the frame with that line has been dealt with, the new request
    is reported complete, although no frame has arrived for it.  Shown for an execution from the
    fresh objects of Demo.v, in which the consumer finishes its request and then asks for the list. *)
(** demo with a user consumer, number 2 *)
Definition demo_user : world := mkW (w_stations demo) (w_parsers demo) (w_conss demo ++ [UserC]) (w_engines demo).
(** the reaction, by the last event *)
Definition on_last (f : event -> list op) (h : list event) : code := match rev h with e :: _ => ops_code (f e) | [] => Ret end.
Definition ask_for_list (c : nat) : list op := [ParserSetConsumer 0 (Some c); OnStation 0 (RequestEngineList 0 (Some 0%nat))].
Definition eager : list event -> code :=
  on_last (fun e => match e with EvConsume 2 _ _ _ => OnStation 0 FinishCurrentConfigRequest :: ask_for_list 0 | _ => [] end).
Definition eager_stream : list Data := head (show_doc demo_doc) :: firstn 6 (body (show_doc demo_doc)).
Theorem C60_complete_means_answered_refuted : exists w' t',
  rexec 64 eager 2 (ops_code (ask_for_list 2 ++ arriving 0 demo_id eager_stream)) (mkR demo_user []) = (Ok tt, mkR w' t') /\
  complete_without_data 0 0 t'.
Proof.
  eexists. eexists. split; [vm_compute; reflexivity|]. apply (proj1 (scan_sound 0 0 _)). vm_compute. reflexivity.
Qed.
Print Assumptions C60_complete_means_answered_refuted.
(** ** Cases *)
(** the world after a request through parser 0 for consumer 0, whose end callback is 7 *)
Definition requested : world :=
  match run 64 [ParserSetConsumer 0 (Some 0%nat); OnStation 0 (RequestEngineList 0 (Some 0%nat))] demo with Ok (w, _) => w | UB _ => demo end.
Lemma requested_downloading : downloading requested 0 0 0 7.
Proof.
  eexists. eexists. split; [vm_compute; reflexivity|]. split; [reflexivity|]. split; [vm_compute; reflexivity|]. split; [reflexivity|]. split; [reflexivity|].
  left. eexists. vm_compute. reflexivity.
Qed.
Lemma requested_usable : exists sp, lib_at requested 0 sp /\ usable sp.
Proof. eexists. split; [vm_compute; reflexivity|]. exists astart. split; [apply start_fits|reflexivity]. Qed.
Definition finisher : list event -> code :=
  on_last (fun e => match e with EvEndAborted _ _ | EvEndComplete _ _ => [OnStation 0 NotifyConfigStreamReceived] | _ => [] end).
Lemma finisher_finishes : finishes_on_abort finisher 0 0 7.
Proof. intros h. unfold finisher, on_last. rewrite rev_app_distr. cbn. eexists. eexists. split; [reflexivity|]. right. right. reflexivity. Qed.

Example C58_case : finishes_on_abort finisher 0 0 7 /\ downloading requested 0 0 0 7 /\
  aborts requested 0 0 (OnStation 0 AbortCurrentConfigRequest) /\ aborts requested 0 0 (ParserAddMessage 0 (mkData 5 [0; 0; 0; 0; 0; 0; 0; 0; 0])).
Proof.
  split; [exact finisher_finishes|]. split; [exact requested_downloading|]. split; [left; right; left; reflexivity|]. right. right. right. right.
  eexists. eexists. split; [left; reflexivity|]. split; [vm_compute; reflexivity|]. cbn. lia.
Qed.
(** finishing once *)
Definition once (m : nat) (h : list event) : code :=
  match rev h with
  | EvEndAborted 7 0 :: _ => if Nat.leb (aborts_told 7 0 h) m then Call (OnStation 0 FinishCurrentConfigRequest) done else Ret
  | _ => Ret
  end.
Example C58_case_once : finishes_m_times (once 1) 0 0 7 1 /\ downloading requested 0 0 0 7 /\ (exists sp, lib_at requested 0 sp /\ usable sp) /\
  let r := rexec 64 (once 1) 2 (Call (OnStation 0 FinishCurrentConfigRequest) done) (mkR requested []) in
  fst r = Ok tt /\ notes (r_t (snd r)) = [EvStreamAborted 0; EvEndAborted 7 0; EvStreamAborted 0; EvEndAborted 7 0].
Proof.
  split; [|split; [exact requested_downloading|split; [exact requested_usable|vm_compute; auto]]].
  intros h. unfold once. rewrite rev_app_distr. reflexivity.
Qed.
(** the whole download of an engine by a callback that finishes at the end, in the two models *)
Example C58_case_end :
  let ops := arriving 0 demo_id (head (show_doc demo_doc) :: body (show_doc demo_doc)) in
  exists w1 t1 w2 t2, run 64 ops requested = Ok (w1, t1) /\ run 64 [OnStation 0 NotifyConfigStreamReceived] w1 = Ok (w2, t2) /\
    rexec 64 finisher 2 (ops_code ops) (mkR requested []) = (Ok tt, mkR w2 (t1 ++ t2)) /\
    notes t1 = [EvStreamComplete 0; EvEndComplete 7 0] /\ calls t2 = [EvCfg 0 CReset] /\ no_request w2 0 /\ idle w2 0.
Proof.
  cbv zeta. eexists. eexists. eexists. eexists. split; [vm_compute; reflexivity|]. split; [vm_compute; reflexivity|]. split; [vm_compute; reflexivity|]. split; [reflexivity|]. split; [reflexivity|].
  split; [eexists; split; [vm_compute; reflexivity|reflexivity]|]. eexists. split; [vm_compute; reflexivity|]. split; reflexivity.
Qed.

(** C59: the callback asks for the list when told of the abort: the request is transmitted, but
    afterwards there is neither request nor consumer *)
Definition again (h : list event) : code :=
  match rev h with
  | EvEndAborted 7 0 :: _ => if Nat.leb (aborts_told 7 0 h) 1 then ops_code (ask_for_list 0) else Ret
  | _ => Ret
  end.
Example C59_case : exists w' t', rexec 64 again 2 (Call (OnStation 0 AbortCurrentConfigRequest) done) (mkR requested []) = (Ok tt, mkR w' t') /\
  (exists tx f g, filter (fun e => match e with EvTx _ _ => true | _ => false end) t' = [EvTx tx f; EvTx tx g]) /\ idle w' 0 /\ no_request w' 0.
Proof.
  eexists. eexists. split; [vm_compute; reflexivity|]. split; [do 3 eexists; reflexivity|]. split.
  - eexists. split; [vm_compute; reflexivity|]. split; reflexivity.
  - eexists. split; [vm_compute; reflexivity|reflexivity].
Qed.

(** C61: an end callback that sends System Stop, and a system callback that answers with an emergency stop *)
Definition stopping : list event -> code :=
  on_last (fun e => match e with EvEndAborted _ _ => [OnStation 0 SendSystemStop] | EvSystem _ _ _ => [OnStation 1 (SendEmergencyStop 5)] | _ => [] end).
Definition two_stations : world := mkW [demo_st0; demo_st1] (w_parsers requested) (w_conss requested) (w_engines requested).
Definition stop_ops : list op := [OnStation 0 (HandleSystemCommand 0 (mkData 5 [0; 0; 0; 0; 0; 0; 0; 0; 0])); ParserReset 0].
Example C61_case : can_send two_stations /\ Forall keeps_sending stop_ops /\
  (forall h, only_calls (sends (List.length (w_stations two_stations))) (stopping h)) /\ (forall h tx f, stopping (h ++ [EvTx tx f]) = Ret) /\
  exists w1 t1 w2 t2, run 64 stop_ops two_stations = Ok (w1, t1) /\ rexec 64 stopping 2 (ops_code stop_ops) (mkR two_stations []) = (Ok tt, mkR w2 t2) /\
    w1 = w2 /\ List.length (calls t1) = 3%nat /\ List.length (calls t2) = 5%nat.
Proof.
  split; [repeat constructor; discriminate|]. split; [repeat constructor|]. split; [|split].
  - intros h. unfold stopping, on_last. destruct (rev h) as [|e r]; [constructor|]. destruct e; cbn [ops_code]; try exact (only_ret _); apply only_call; try (intros; exact (only_ret _)); cbn; split; try lia; exact Logic.I.
  - intros h tx f. unfold stopping, on_last. rewrite rev_app_distr. reflexivity.
  - do 4 eexists. split; [vm_compute; reflexivity|]. split; [vm_compute; reflexivity|]. repeat split.
Qed.

(** C61: a direction frame for a station without an engine callback, in both models; the operation before it is done *)
Definition no_engine_cb : world := mkW [mkStation 0 (mkCbs (Some 0%nat) None None None None)] [] [] [].
Definition direction_ops : list op := [OnStation 0 (SendEngineVelocity 5 6); OnStation 0 (HandleLocoDirection (mkData 5 [0; 0; 0; 5; 1; 0; 0; 0; 0]))].
Example C61_undefined_case : exists u s, run 64 direction_ops no_engine_cb = UB u /\
  rexec 64 (fun _ => Ret) 1 (ops_code direction_ops) (mkR no_engine_cb []) = (UB NullDeref, s) /\ List.length (r_t s) = 1%nat.
Proof. do 2 eexists. split; [vm_compute; reflexivity|]. split; vm_compute; reflexivity. Qed.
