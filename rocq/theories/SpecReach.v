(* SpecReach.v -- what an operation of a station can reach through pointers (C56). *)
From Verif Require Export World SpecStation.

(** a config-data object passed to the operation *)
Definition passed (o : sop) (p : nat) : Prop :=
  match o with RequestEngine _ q | RequestEngineList _ q => q = Some p | _ => False end.
(** config-data objects: the one the station uses, or one passed in *)
Definition reach_parser (w : world) (st : Station) (o : sop) (p : nat) : Prop :=
  cb_cfg (st_cbs st) = Some p \/ passed o p.
(** consumers: those the reachable parsers point to *)
Definition reach_consumer (w : world) (st : Station) (o : sop) (c : nat) : Prop :=
  exists p sp, reach_parser w st o p /\ nth_error (w_parsers w) p = Some (LibP sp) /\
    (sp_cons sp = Some c \/ tp_cons (sp_text sp) = Some c).
(** engines: those the reachable consumers point to *)
Definition reach_engine (w : world) (st : Station) (o : sop) (e : nat) : Prop :=
  exists c cb, reach_consumer w st o c /\ nth_error (w_conss w) c = Some (LocoC (Def (Some e)) cb).
(** end-of-stream callbacks: those of the reachable consumers *)
Definition reach_end (w : world) (st : Station) (o : sop) (c cb : nat) : Prop :=
  reach_consumer w st o c /\
  ((exists e, nth_error (w_conss w) c = Some (LocoC e (Def (Some cb)))) \/
   (exists co i n off, nth_error (w_conss w) c = Some (ListC co i n off (Def (Some cb))))).

(** the calls station st may make during operation o *)
Definition own_call (w : world) (st : Station) (o : sop) (e : event) : Prop :=
  match e with
  | EvTx x _ => cb_tx (st_cbs st) = Some x
  | EvSystem x _ _ => cb_sys (st_cbs st) = Some x
  | EvVelocity x _ _ | EvVelocityAll x _ | EvFunction x _ _ _ | EvDirection x _ _ | EvChangeDirection x _ => cb_eng (st_cbs st) = Some x
  | EvAccessory x _ _ => cb_acc (st_cbs st) = Some x
  | EvCfg p _ => reach_parser w st o p
  | EvConsume c _ _ _ | EvStreamComplete c | EvStreamAborted c => reach_consumer w st o c
  | EvEndComplete cb c | EvEndAborted cb c => reach_end w st o c cb
  | EvPrint _ => True
  end.

(** the station an operation is made on, if any *)
Definition on_station (o : op) : option nat := match o with OnStation s _ => Some s | _ => None end.
