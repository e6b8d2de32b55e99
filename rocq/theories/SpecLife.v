(* SpecLife.v -- vocabulary for C87-C90: which objects refer to which, which objects a call names,
   and which objects it can therefore touch. *)
From Verif Require Export World SpecStation SpecStream.

(** ** Objects *)
(** stations, config-data objects, consumers, engines, and the user's callback objects *)
Inductive thing : Type :=
| OStation (s : nat) | OParser (p : nat) | OConsumer (c : nat) | OEngine (e : nat)
| OTx (x : nat) | OSystem (x : nat) | OEngineCb (x : nat) | OAccessory (x : nat) | OEndCb (x : nat).

(** the callback objects named by a set of callbacks *)
Definition among (k : Cbs) (x : thing) : Prop :=
  match x with
  | OTx i => cb_tx k = Some i | OSystem i => cb_sys k = Some i | OEngineCb i => cb_eng k = Some i
  | OAccessory i => cb_acc k = Some i | OParser i => cb_cfg k = Some i
  | _ => False
  end.

(** object x holds a pointer to object y *)
Definition refers (w : world) (x y : thing) : Prop :=
  match x with
  | OStation s => exists st, nth_error (w_stations w) s = Some st /\ among (st_cbs st) y
  | OParser p => exists sp c, nth_error (w_parsers w) p = Some (LibP sp) /\ y = OConsumer c /\ (sp_cons sp = Some c \/ tp_cons (sp_text sp) = Some c)
  | OConsumer c => exists o, nth_error (w_conss w) c = Some o /\
      ((exists e cb, o = LocoC (Def (Some e)) cb /\ y = OEngine e) \/
       (exists e cb, o = LocoC e (Def (Some cb)) /\ y = OEndCb cb) \/
       (exists co i n off cb, o = ListC co i n off (Def (Some cb)) /\ y = OEndCb cb))
  | _ => False
  end.

(** ** Calls *)
(** the objects a call names: the one it is made on and those passed to it *)
Definition names_ref (r : sref) (x : thing) : Prop :=
  match r with RefEngine e => x = OEngine e | RefEntry c _ => x = OConsumer c | RefValue _ => False end.
Definition names_sop (o : sop) (x : thing) : Prop :=
  match o with
  | Begin _ k => among k x
  | RequestEngine r p => names_ref r x \/ exists q, p = Some q /\ x = OParser q
  | RequestEngineList _ p => exists q, p = Some q /\ x = OParser q
  | _ => False
  end.
Definition names (o : op) (x : thing) : Prop :=
  match o with
  | OnStation s o => x = OStation s \/ names_sop o x
  | ParserStartStream p | ParserAddMessage p _ | ParserReset p => x = OParser p
  | ParserSetConsumer p c => x = OParser p \/ exists q, c = Some q /\ x = OConsumer q
  | ConsumerSetEndCallback c cb => x = OConsumer c \/ exists q, cb = Some q /\ x = OEndCb q
  | LocoSetEngine c e => x = OConsumer c \/ exists q, e = Some q /\ x = OEngine q
  | ListSetOffset c _ | ListReset c | ListClearTable c | ListPrintAll c => x = OConsumer c
  | OnEngine e _ => x = OEngine e
  end.
(** the object that is called in an event *)
Definition callee (e : event) : list thing :=
  match e with
  | EvTx x _ => [OTx x]
  | EvSystem x _ _ => [OSystem x]
  | EvVelocity x _ _ | EvVelocityAll x _ | EvFunction x _ _ _ | EvDirection x _ _ | EvChangeDirection x _ => [OEngineCb x]
  | EvAccessory x _ _ => [OAccessory x]
  | EvCfg p _ => [OParser p]
  | EvConsume c _ _ _ | EvStreamComplete c | EvStreamAborted c => [OConsumer c]
  | EvEndComplete cb _ | EvEndAborted cb _ => [OEndCb cb]
  | EvPrint _ => []
  end.

(** ** Sets of objects *)
(** no object outside X refers to an object in X *)
Definition unreferenced (w : world) (X : thing -> Prop) : Prop := forall x y, refers w x y -> X y -> X x.
(** the two worlds have the same objects outside X; those in X may be anything or missing *)
Definition same_outside (X : thing -> Prop) (w w' : world) : Prop :=
  (forall i, ~ X (OStation i) -> nth_error (w_stations w) i = nth_error (w_stations w') i) /\
  (forall i, ~ X (OParser i) -> nth_error (w_parsers w) i = nth_error (w_parsers w') i) /\
  (forall i, ~ X (OConsumer i) -> nth_error (w_conss w) i = nth_error (w_conss w') i) /\
  (forall i, ~ X (OEngine i) -> nth_error (w_engines w) i = nth_error (w_engines w') i).
(** the objects of X have not changed *)
Definition same_inside (X : thing -> Prop) (w w' : world) : Prop := same_outside (fun x => ~ X x) w w'.

(** ** The pointers after a call *)
(** a config-data object points to its consumer twice: for the stream and for its text *)
Definition consumer_of (o : PObj) : option nat * option nat :=
  match o with LibP sp => (sp_cons sp, tp_cons (sp_text sp)) | UserP _ _ => (None, None) end.
(** a consumer points to an engine and to an end callback *)
Definition wires (o : CObj) : mu (option nat) * mu (option nat) :=
  match o with LocoC e cb => (e, cb) | ListC _ _ _ _ cb => (Undef, cb) | UserC => (Undef, Undef) end.
(** the config-data object of station s *)
Definition config_object (w : world) (s : nat) : option nat :=
  match nth_error (w_stations w) s with Some st => cb_cfg (st_cbs st) | None => None end.
(** a request for an engine is carried out if its name is known and no request is running *)
Definition accepted (w : world) (s : nat) (r : sref) : bool :=
  match get_short r w with Ok si => match si_avail si with EMPTY => false | _ => true end | UB _ => false end &&
  match config_object w s with
  | Some p => match nth_error (w_parsers w) p with Some o => negb (ss_processing (pobj_state o)) | None => true end
  | None => true
  end.
(** payload d does not fit the stream parser p is receiving *)
Definition misfit (w : world) (p : nat) (d : Data) : bool :=
  match nth_error (w_parsers w) p with
  | Some (LibP sp) => match sp_state sp with
                      | SS_FIRST => negb ((dlc d =? 6) || (dlc d =? 7))
                      | SS_DATA => negb (dlc d =? 8)
                      | _ => false
                      end
  | _ => false
  end.
Definition with_config (k : Cbs) (p : option nat) : Cbs := mkCbs (cb_tx k) (cb_sys k) (cb_eng k) (cb_acc k) p.
Definition point (s : nat) (p : option nat) (l : list Cbs) : list Cbs :=
  match nth_error l s with Some k => upd s (with_config k p) l | None => l end.

Definition stations_after (w : world) (o : op) : list Cbs :=
  let l := map st_cbs (w_stations w) in
  match o with
  | OnStation s (Begin _ k) => upd s k l
  | OnStation s FinishCurrentConfigRequest | OnStation s AbortCurrentConfigRequest | OnStation s NotifyConfigStreamReceived => point s None l
  | OnStation s (RequestEngineList _ p) => point s p l
  | OnStation s (RequestEngine r p) => if accepted w s r then point s p l else l
  | _ => l
  end.
(** does a call of station s make it drop the consumer of its config-data object p? *)
Definition drops (w : world) (s p : nat) (o : sop) : bool :=
  match o with
  | Begin _ _ | FinishCurrentConfigRequest | AbortCurrentConfigRequest | NotifyConfigStreamReceived | RequestEngineList _ _ => true
  | RequestEngine r _ => accepted w s r
  | HandleConfigDataStream d => misfit w p d
  | HandlePacket f => (id_getCommand (fid f) =? CMD_CONFIG_DATA) && misfit w p (fdata f)
  | _ => false
  end.
Definition consumers_after (w : world) (o : op) : list (option nat * option nat) :=
  let l := map consumer_of (w_parsers w) in
  match o with
  | ParserSetConsumer p c => upd p (c, c) l
  | ParserReset p => upd p (None, None) l
  | ParserAddMessage p d => if misfit w p d then upd p (None, None) l else l
  | OnStation s o => match config_object w s with
                     | Some p => if drops w s p o then upd p (None, None) l else l
                     | None => l
                     end
  | _ => l
  end.
Definition wires_after (w : world) (o : op) : list (mu (option nat) * mu (option nat)) :=
  let l := map wires (w_conss w) in
  match o with
  | ConsumerSetEndCallback c cb => match nth_error (w_conss w) c with
                                   | Some UserC | None => l
                                   | Some x => upd c (fst (wires x), Def cb) l
                                   end
  | LocoSetEngine c e => match nth_error (w_conss w) c with Some x => upd c (Def e, snd (wires x)) l | None => l end
  | _ => l
  end.

(** ** Two installations in one program *)
(** every object belongs to one of two sides, and no object refers to one of the other side *)
Definition separate (side : thing -> bool) (w : world) : Prop := forall x y, refers w x y -> side x = side y.
(** the objects of side b are the same *)
Definition same_side (side : thing -> bool) (b : bool) (w w' : world) : Prop := same_outside (fun x => side x = negb b) w w'.
(** every call names objects of its own side only *)
Definition own_calls (side : thing -> bool) (l : list (bool * op)) : Prop :=
  Forall (fun bo => forall x, names (snd bo) x -> side x = fst bo) l.
(** the part of a labelled list that belongs to one of them *)
Definition part {A} (b : bool) (l : list (bool * A)) : list A := map snd (filter (fun x => Bool.eqb (fst x) b) l).
