(* PropsInside.v -- C118: a user consumer that calls back while it is handed a line. *)
From Verif Require Import ZLib SpecInside ProofsText ProofsInside Demo DemoStream PropsReentry.

(** ** C118 *)
(** Finishing the request from inside: this line is the last one, whatever else the frame completes,
    the consumer is told of the abort, nobody is told of an end, and the parser is left as after a
    complete stream. *)
Theorem C118_finish_from_a_line : forall lw react n w t o s st p c sp d r o1,
  hands_over w o p d -> payload_ok d -> dlc d = 8 -> receiving w p c sp -> first_line sp d r ->
  nth_error (w_stations w) s = Some st -> cb_cfg (st_cbs st) = Some p ->
  finishes s o1 -> react (t ++ passed_on o p d ++ [line_event c r]) = Call o1 done -> (forall h, react (h ++ [EvStreamAborted c]) = Ret) ->
  rexec lw react (S (S n)) (Call o done) (mkR w t) =
  (Ok tt, mkR (with_station (with_parser w p (LibP (fresh_parser SS_DONE None))) s (now_using st None))
              (t ++ passed_on o p d ++ [line_event c r; EvCfg p CReset; EvStreamAborted c])).
Proof. exact finish_inside. Qed.
Print Assumptions C118_finish_from_a_line.
(** the same when the consumer resets the parser itself; the station keeps its request *)
Theorem C118_reset_from_a_line : forall lw react n w t o p c sp d r,
  hands_over w o p d -> payload_ok d -> dlc d = 8 -> receiving w p c sp -> first_line sp d r ->
  react (t ++ passed_on o p d ++ [line_event c r]) = Call (ParserReset p) done -> (forall h, react (h ++ [EvStreamAborted c]) = Ret) ->
  rexec lw react (S (S n)) (Call o done) (mkR w t) =
  (Ok tt, mkR (with_parser w p (LibP (fresh_parser SS_DONE None))) (t ++ passed_on o p d ++ [line_event c r; EvStreamAborted c])).
Proof. exact reset_inside. Qed.
Print Assumptions C118_reset_from_a_line.
(** Finishing and asking for the list from inside: as soon as the frame has been dealt with, the
    list consumer is complete and says so, with the entries it had. *)
Theorem C118_list_request_from_a_line : forall lw react n w t o s st p c sp d r off c' tx co i m off' cb,
  hands_over w o p d -> payload_ok d -> dlc d = 8 -> receiving w p c sp -> first_line sp d r ->
  station_at w s st -> cb_cfg (st_cbs st) = Some p -> cb_tx (st_cbs st) = Some tx -> byte off -> consumer_at w c' (ListC co i m off' (Def (Some cb))) ->
  react (t ++ passed_on o p d ++ [line_event c r]) = ops_code (restart_ops s p off c') ->
  (forall h, react (h ++ [EvStreamAborted c]) = Ret) -> (forall h f, react (h ++ [EvTx tx f]) = Ret) -> (forall h, react (h ++ [EvEndComplete cb c']) = Ret) ->
  rexec lw react (S (S n)) (Call o done) (mkR w t) =
  (Ok tt, mkR (mkW (w_stations w) (upd p (LibP (fresh_parser SS_DONE (Some c'))) (w_parsers w)) (upd c' (ListC (Def true) i m off' (Def (Some cb))) (w_conss w)) (w_engines w))
    (t ++ passed_on o p d ++ [line_event c r; EvCfg p CReset; EvStreamAborted c; EvCfg p CStart;
       EvTx tx (outgoing (st_hash st) CMD_REQUEST_CONFIG (zs "loknamen")); EvTx tx (outgoing (st_hash st) CMD_REQUEST_CONFIG (decimal off ++ zs " 2"));
       EvStreamComplete c'; EvEndComplete cb c'])).
Proof. exact list_inside. Qed.
Print Assumptions C118_list_request_from_a_line.
(** so "complete means answered" fails for every such request, not only for that of C60 *)
Theorem C118_never_answered : forall lw react n w t o s st p c sp d r off c' tx co i m off' cb,
  hands_over w o p d -> payload_ok d -> dlc d = 8 -> receiving w p c sp -> first_line sp d r ->
  station_at w s st -> cb_cfg (st_cbs st) = Some p -> cb_tx (st_cbs st) = Some tx -> byte off -> consumer_at w c' (ListC co i m off' (Def (Some cb))) ->
  react (t ++ passed_on o p d ++ [line_event c r]) = ops_code (restart_ops s p off c') ->
  (forall h, react (h ++ [EvStreamAborted c]) = Ret) -> (forall h f, react (h ++ [EvTx tx f]) = Ret) -> (forall h, react (h ++ [EvEndComplete cb c']) = Ret) ->
  exists w' t', rexec lw react (S (S n)) (Call o done) (mkR w t) = (Ok tt, mkR w' (t ++ t')) /\ complete_without_data p c' t'.
Proof.
  intros lw react n w t o s st p c sp d r off c' tx co i m off' cb H1 H2 H3 H4 H5 H6 H7 H8 H9 H10 H11 H12 H13 H14.
  eexists. eexists. split; [exact (list_inside lw react n w t o s st p c sp d r off c' tx co i m off' cb H1 H2 H3 H4 H5 H6 H7 H8 H9 H10 H11 H12 H13 H14)|].
  exists (passed_on o p d ++ [line_event c r; EvCfg p CReset; EvStreamAborted c]), cb. eexists [_; _; _], [].
  split; [rewrite <- app_assoc; reflexivity|]. repeat constructor; discriminate.
Qed.
Print Assumptions C118_never_answered.
(** a user consumer, also the one that is being handed the line, is told the same *)
Theorem C118_user_request_from_a_line : forall lw react n w t o s st p c sp d r off c' tx,
  hands_over w o p d -> payload_ok d -> dlc d = 8 -> receiving w p c sp -> first_line sp d r ->
  station_at w s st -> cb_cfg (st_cbs st) = Some p -> cb_tx (st_cbs st) = Some tx -> byte off -> consumer_at w c' UserC ->
  react (t ++ passed_on o p d ++ [line_event c r]) = ops_code (restart_ops s p off c') ->
  (forall h, react (h ++ [EvStreamAborted c]) = Ret) -> (forall h f, react (h ++ [EvTx tx f]) = Ret) -> (forall h, react (h ++ [EvStreamComplete c']) = Ret) ->
  rexec lw react (S (S n)) (Call o done) (mkR w t) =
  (Ok tt, mkR (with_parser w p (LibP (fresh_parser SS_DONE (Some c'))))
    (t ++ passed_on o p d ++ [line_event c r; EvCfg p CReset; EvStreamAborted c; EvCfg p CStart;
       EvTx tx (outgoing (st_hash st) CMD_REQUEST_CONFIG (zs "loknamen")); EvTx tx (outgoing (st_hash st) CMD_REQUEST_CONFIG (decimal off ++ zs " 2"));
       EvStreamComplete c'])).
Proof. exact user_inside. Qed.
Print Assumptions C118_user_request_from_a_line.

(** ** Cases *)
(** user consumer 2 has received four frames of the demo engine description; the fifth completes
    the first line and begins the second *)
Definition halfway : world := match run 64 (ask_for_list 2 ++ arriving 0 demo_id (firstn 4 eager_stream)) demo_user with Ok (w, _) => w | UB _ => demo end.
Definition fifth : Data := nth 4 eager_stream (mkData 0 []).
Definition uid_line : report := (zs "lokomotive", zs "uid", zs "0x4007").
Lemma halfway_receiving : exists sp, receiving halfway 0 2 sp /\ first_line sp fifth uid_line.
Proof.
  eexists. split.
  - split; [vm_compute; reflexivity|]. split; [reflexivity|]. split; [reflexivity|]. split; [vm_compute; reflexivity|]. split; [|eexists; reflexivity].
    exists (fst (aadds astart (map content (tl (firstn 4 eager_stream))))). split; [repeat split; vm_compute; lia|vm_compute; reflexivity].
  - exists (fst (aadds astart (map content (tl (firstn 4 eager_stream))))). eexists. split; [repeat split; vm_compute; lia|]. split; [vm_compute; reflexivity|vm_compute; reflexivity].
Qed.
Definition impatient (ops : list op) : list event -> code := on_last (fun e => match e with EvConsume 2 _ _ _ => ops | _ => [] end).
Example C118_case :
  hands_over halfway (OnStation 0 (HandleConfigDataStream fifth)) 0 fifth /\ payload_ok fifth /\ dlc fifth = 8 /\ (exists sp, receiving halfway 0 2 sp /\ first_line sp fifth uid_line) /\
  (exists st, station_at halfway 0 st /\ cb_cfg (st_cbs st) = Some 0%nat /\ cb_tx (st_cbs st) = Some 0%nat) /\
  (exists co i m off', consumer_at halfway 1 (ListC co i m off' (Def (Some 8%nat)))) /\
  impatient (restart_ops 0 0 0 1) ([] ++ passed_on (OnStation 0 (HandleConfigDataStream fifth)) 0 fifth ++ [line_event 2 uid_line]) = ops_code (restart_ops 0 0 0 1) /\
  (forall h, impatient (restart_ops 0 0 0 1) (h ++ [EvStreamAborted 2]) = Ret).
Proof.
  split; [right; exists 0%nat; eexists; split; [vm_compute; reflexivity|]; split; [reflexivity|left; reflexivity]|].
  split; [vm_compute; repeat (split || constructor); congruence|]. split; [reflexivity|]. split; [exact halfway_receiving|].
  split; [eexists; split; [split; [vm_compute; reflexivity|vm_compute; split; congruence]|split; reflexivity]|].
  split; [repeat eexists; vm_compute; reflexivity|]. split; [reflexivity|]. intros h. unfold impatient, on_last. rewrite rev_app_distr. reflexivity.
Qed.
(** the two executions side by side: handed the fifth frame, a quiet consumer goes on receiving, the
    impatient one is told of the end of a stream that has not begun *)
Example C118_execution :
  (exists w', rexec 64 (impatient []) 2 (Call (ParserAddMessage 0 fifth) done) (mkR halfway []) = (Ok tt, mkR w' [line_event 2 uid_line])) /\
  (exists w' f1 f2, rexec 64 (impatient (restart_ops 0 0 0 2)) 2 (Call (ParserAddMessage 0 fifth) done) (mkR halfway []) =
     (Ok tt, mkR w' [line_event 2 uid_line; EvCfg 0 CReset; EvStreamAborted 2; EvCfg 0 CStart; EvTx 0 f1; EvTx 0 f2; EvStreamComplete 2])).
Proof. split; [eexists; vm_compute; reflexivity|]. eexists. eexists. eexists. vm_compute. reflexivity. Qed.
