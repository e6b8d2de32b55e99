(* SpecReentry.v -- vocabulary for callbacks that call back into the library (C58-C61). *)
From Verif Require Export Reentry SpecSafe.

(** ** User code *)
(** all calls of a piece of code satisfy P, whatever it observes *)
Inductive only_calls (P : op -> Prop) : code -> Prop :=
| only_ret : only_calls P Ret
| only_call : forall o k, P o -> (forall w t, only_calls P (k w t)) -> only_calls P (Call o k).
(** run one piece of code, then continue with what [k] says about the state reached *)
Definition continue_with (lw : Z) (react : list event -> code) (n : nat) (k : world -> list event -> code) : ract unit :=
  fun s => rexec lw react n (k (r_w s) (r_t s)) s.
Definition done (w : world) (t : list event) : code := Ret.

(** operations of a station, among the first n, that only send *)
Definition sends (n : nat) (o : op) : Prop :=
  match o with
  | OnStation s x => (s < n)%nat /\
      match x with
      | SendAccessoryPacket _ _ _ _ | RequestEngineDirection _ | SendEngineDirection _ _ | RequestEngineVelocity _
      | SendEngineVelocity _ _ | RequestEngineFunction _ _ | RequestEngineAllFunctions _ | SendEngineFunction _ _ _
      | SendEmergencyStop _ | SendSystemStop | SendSystemGo | SendPacket _ | Loop => True
      | _ => False
      end
  | _ => False
  end.
(** b is a with further transmissions in between *)
Inductive with_sends : list event -> list event -> Prop :=
| ws_nil : with_sends [] []
| ws_same : forall e a b, with_sends a b -> with_sends (e :: a) (e :: b)
| ws_more : forall tx f a b, with_sends a b -> with_sends a (EvTx tx f :: b).
(** every station can transmit, and no Begin takes that away *)
Definition can_send (w : world) : Prop := Forall (fun st => cb_tx (st_cbs st) <> None) (w_stations w).
Definition keeps_sending (o : op) : Prop := match o with OnStation _ (Begin _ c) => cb_tx c <> None | _ => True end.

(** ** Downloads *)
(** consumer c belongs to the library and reports to end callback cb *)
Definition reports_to (w : world) (c cb : nat) : Prop :=
  (exists e, consumer_at w c (LocoC e (Def (Some cb)))) \/
  (exists co i n off, consumer_at w c (ListC co i n off (Def (Some cb)))).
(** station s waits for config data, through parser p, for consumer c, whose end callback is cb *)
Definition downloading (w : world) (s p c cb : nat) : Prop :=
  exists st sp, nth_error (w_stations w) s = Some st /\ cb_cfg (st_cbs st) = Some p /\
    lib_at w p sp /\ in_progress sp = true /\ sp_cons sp = Some c /\ reports_to w c cb.
(** a frame the parser does not accept at this point *)
Definition malformed (sp : SP) (d : Data) : Prop :=
  match sp_state sp with SS_FIRST => dlc d <> 6 /\ dlc d <> 7 | SS_DATA => dlc d <> 8 | _ => False end.
(** the operations that finish the request of station s *)
Definition finishes (s : nat) (o : op) : Prop :=
  o = OnStation s FinishCurrentConfigRequest \/ o = OnStation s AbortCurrentConfigRequest \/ o = OnStation s NotifyConfigStreamReceived.
(** the operations that abort what parser p, used by station s, is receiving *)
Definition aborts (w : world) (s p : nat) (o : op) : Prop :=
  finishes s o \/ (exists u c, o = OnStation s (Begin u c)) \/ (exists off q, o = OnStation s (RequestEngineList off q)) \/
  o = ParserReset p \/ (exists d sp, hands_over w o p d /\ lib_at w p sp /\ malformed sp d).
(** end callback cb answers every abort of consumer c by finishing the request of station s *)
Definition finishes_on_abort (react : list event -> code) (s c cb : nat) : Prop :=
  forall h, exists o k, react (h ++ [EvEndAborted cb c]) = Call o k /\ finishes s o.
Definition aborts_told (cb c : nat) (t : list event) : nat :=
  List.length (filter (fun e => match e with EvEndAborted a b => Nat.eqb a cb && Nat.eqb b c | _ => false end) t).

(** ** The end of a stream *)
(** the event tells a user object about the end of a stream *)
Definition tells_end (w : world) (e : event) : bool :=
  match e with
  | EvEndComplete _ _ | EvEndAborted _ _ => true
  | EvStreamComplete c | EvStreamAborted c => match nth_error (w_conss w) c with Some UserC => true | _ => false end
  | _ => false
  end.
(** the user code run after events t' following t: what is done about the end of the stream, if
    that is the last of t' *)
Definition end_code (react : list event -> code) (w : world) (t t' : list event) : code :=
  match rev t' with e :: _ => if tells_end w e then react (t ++ t') else Ret | [] => Ret end.
(** consumer c does not call back while it is handed lines *)
Definition quiet_consumer (react : list event -> code) (w : world) (c : nat) : Prop :=
  ~ user_consumer w c \/ forall h s k v, react (h ++ [EvConsume c s k v]) = Ret.

(** ** After an abort *)
(** parser p waits for nothing and refers to no consumer *)
Definition idle (w : world) (p : nat) : Prop := exists sp, lib_at w p sp /\ sp_state sp = SS_IDLE /\ sp_cons sp = None.
Definition no_request (w : world) (s : nat) : Prop := exists st, nth_error (w_stations w) s = Some st /\ cb_cfg (st_cbs st) = None.
(** end callback cb answers the first m aborts of consumer c by finishing the request of station s *)
Definition finishes_m_times (react : list event -> code) (s c cb : nat) (m : nat) : Prop :=
  forall h, react (h ++ [EvEndAborted cb c]) =
    if Nat.leb (aborts_told cb c (h ++ [EvEndAborted cb c])) m then Call (OnStation s FinishCurrentConfigRequest) done else Ret.

(** ** What a report of success promises *)
(** consumer c of parser p was reported complete although no frame at all was handed to p between
    the start of its stream and the report *)
Definition complete_without_data (p c : nat) (t : list event) : Prop :=
  exists a cb b z, t = a ++ EvCfg p CStart :: b ++ EvEndComplete cb c :: z /\ Forall (fun e => forall d, e <> EvCfg p (CAdd d)) b.
