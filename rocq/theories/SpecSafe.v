(* SpecSafe.v -- vocabulary for the absence of undefined behaviour (C57). *)
From Verif Require Export SpecConsumer.

(** ** Initialised objects *)
(** a null pointer, or a pointer to an object of the list *)
Definition points {A} (l : list A) (p : option nat) : Prop :=
  match p with None => True | Some i => (i < List.length l)%nat end.
(** a transmit and an engine callback; the config-data pointer does not dangle *)
Definition sound_cbs (w : world) (c : Cbs) : Prop :=
  cb_tx c <> None /\ cb_eng c <> None /\ points (w_parsers w) (cb_cfg c).
Definition initialised {A} (x : mu A) : Prop := exists a, x = Def a.
Definition sound_parser (w : world) (o : PObj) : Prop :=
  match o with
  | UserP _ _ => True
  | LibP sp => usable sp /\ points (w_conss w) (sp_cons sp) /\
      (* the checksum is initialised once a stream has been started *)
      match sp_state sp with
      | SS_FIRST => initialised (crc_acc (sp_crc sp))
      | SS_DATA => initialised (crc_acc (sp_crc sp)) /\ initialised (crc_ref (sp_crc sp))
      | _ => True
      end
  end.
(** the name field holds a NUL-terminated name of at most 32 characters *)
Definition sound_short (s : ShortInfo) : Prop := exists t, shows_name (si_name s) t.
Definition sound_engine (l : Loco) : Prop :=
  sound_short (lo_info l) /\ List.length (lo_proto l) = 8%nat /\ In 0 (lo_proto l).
Definition sound_consumer (w : world) (o : CObj) : Prop :=
  match o with
  | LocoC e cb => (exists e', e = Def e' /\ points (w_engines w) e') /\ initialised cb
  | ListC co i n off cb => initialised co /\ initialised n /\ initialised off /\ initialised cb /\ Forall sound_short i
  | UserC => True
  end.
Definition sound (w : world) : Prop :=
  Forall (fun st => sound_cbs w (st_cbs st)) (w_stations w) /\ Forall (sound_parser w) (w_parsers w) /\
  Forall (sound_consumer w) (w_conss w) /\ Forall sound_engine (w_engines w).

(** ** Objects keep their class *)
Inductive ckind : Set := KLoco | KList (n : nat) | KUser.
Definition pkind (o : PObj) : bool := match o with LibP _ => true | UserP _ _ => false end.
Definition kind (o : CObj) : ckind := match o with LocoC _ _ => KLoco | ListC _ i _ _ _ => KList (List.length i) | UserC => KUser end.
(** the same numbers of stations and engines, and parsers and consumers of the same classes *)
Definition same_objects (w w' : world) : Prop :=
  List.length (w_stations w') = List.length (w_stations w) /\ map pkind (w_parsers w') = map pkind (w_parsers w) /\
  map kind (w_conss w') = map kind (w_conss w) /\ List.length (w_engines w') = List.length (w_engines w).

(** ** Arguments that refer to existing objects of the right class *)
Definition a_parser (w : world) (p : nat) : Prop := exists sp, lib_at w p sp.
Definition a_consumer (w : world) (c : nat) : Prop := (c < List.length (w_conss w))%nat.
Definition an_engine_consumer (w : world) (c : nat) : Prop := exists e cb, consumer_at w c (LocoC e cb).
Definition a_list_consumer (w : world) (c : nat) : Prop := exists co i n off cb, consumer_at w c (ListC co i n off cb).
Definition c_string (t : list Z) : Prop := exists s r, t = s ++ 0 :: r /\ nulfree s.
Definition valid_frame (d : Data) : Prop := payload_ok d /\ dlc d <= 8.
Definition valid_ref (w : world) (r : sref) : Prop :=
  match r with
  | RefEngine e => (e < List.length (w_engines w))%nat
  | RefEntry c k => exists co i n off cb, consumer_at w c (ListC co i n off cb) /\ (k < List.length i)%nat
  | RefValue s => sound_short s
  end.
Definition valid_sop (w : world) (o : sop) : Prop :=
  match o with
  | Begin _ c => sound_cbs w c
  | HandlePacket f => valid_frame (fdata f)
  | HandleConfigDataStream d => valid_frame d
  | RequestEngine r p => valid_ref w r /\ points (w_parsers w) p
  | RequestEngineList _ p => points (w_parsers w) p
  | _ => True
  end.
Definition valid_eop (o : eop) : Prop :=
  match o with
  | ESetName n | ESetNameConditional n => c_string n
  | ESetFunction f _ => f < 32
  | ESetProtocolString s => exists t r, s = t ++ 0 :: r /\ nulfree t /\ (List.length t < 8)%nat
  | _ => True
  end.
Definition valid_op (w : world) (o : op) : Prop :=
  match o with
  | OnStation s o => (s < List.length (w_stations w))%nat /\ valid_sop w o
  | ParserStartStream p | ParserReset p => a_parser w p
  | ParserSetConsumer p c => a_parser w p /\ points (w_conss w) c
  | ParserAddMessage p d => a_parser w p /\ valid_frame d
  | ConsumerSetEndCallback c _ => a_consumer w c
  | LocoSetEngine c e => an_engine_consumer w c /\ points (w_engines w) e
  | ListSetOffset c _ | ListReset c | ListClearTable c | ListPrintAll c => a_list_consumer w c
  | OnEngine e o => (e < List.length (w_engines w))%nat /\ valid_eop o
  end.

(** ** Lines that a consumer cannot take *)
(** an engine consumer: a value of 26 characters for an attribute, or a protocol of 8 characters
    or more; a list consumer: a name or count of 26 characters, or an uninteresting section of 11 *)
Definition excessive (o : CObj) (r : report) : Prop :=
  let '(s, k, v) := r in
  match o with
  | LocoC _ _ => (attribute_of s k <> None /\ List.length v = 26%nat) \/
                 (attribute_of s k = Some Protocol /\ (8 <= List.length (until_nul v))%nat)
  | ListC _ _ _ _ _ => match list_entry_of r with NoEntry => List.length s = 11%nat | _ => List.length v = 26%nat end
  | UserC => False
  end.
(** operation o hands payload d to config-data object p *)
Definition hands_over (w : world) (o : op) (p : nat) (d : Data) : Prop :=
  o = ParserAddMessage p d \/
  exists s st, nth_error (w_stations w) s = Some st /\ cb_cfg (st_cbs st) = Some p /\
    (o = OnStation s (HandleConfigDataStream d) \/
     exists f, o = OnStation s (HandlePacket f) /\ fdata f = d /\ id_getCommand (fid f) = CMD_CONFIG_DATA).
(** operation o makes a parser report an excessive line to its consumer *)
Definition excessive_line (w : world) (o : op) : Prop :=
  exists p d sp a c x, hands_over w o p d /\ lib_at w p sp /\ sp_state sp = SS_DATA /\ dlc d = 8 /\
    sp_text sp = parser a (sp_cons sp) /\ sp_cons sp = Some c /\ consumer_at w c x /\
    Exists (excessive x) (snd (aadd a (content d))).
(** operations that hand no config data to a parser *)
Definition no_config_data (o : op) : Prop :=
  match o with
  | ParserAddMessage _ _ | OnStation _ (HandleConfigDataStream _) => False
  | OnStation _ (HandlePacket f) => id_getCommand (fid f) <> CMD_CONFIG_DATA
  | _ => True
  end.
