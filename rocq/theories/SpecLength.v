(* SpecLength.v -- vocabulary for frames whose length field may be anything (C122). *)
From Verif Require Export SpecExact.

(** valid arguments as for C113, but the length of a frame given to the library may be any byte *)
Definition wild_op (w : world) (o : op) : Prop :=
  legal_op w o \/
  match o with
  | OnStation s (HandlePacket f) => (s < List.length (w_stations w))%nat /\ payload_ok (fdata f)
  | OnStation s (HandleConfigDataStream d) => (s < List.length (w_stations w))%nat /\ payload_ok d
  | ParserAddMessage p d => a_parser w p /\ payload_ok d
  | _ => False
  end.

(** the station has a config-data object, and it is processing a stream *)
Definition takes_data (w : world) (st : Station) : Prop :=
  exists p o, cb_cfg (st_cbs st) = Some p /\ nth_error (w_parsers w) p = Some o /\
    (pobj_state o = SS_FIRST \/ pobj_state o = SS_DATA).

(** the operation prints the bytes of a frame whose length field exceeds the 9 bytes it has: debug
    text, a command the library does not know, or config data that nobody is waiting for *)
Definition overprinted (w : world) (o : op) : Prop :=
  exists s st d, nth_error (w_stations w) s = Some st /\ 9 < dlc d /\
    ((o = OnStation s (HandleConfigDataStream d) /\ ~ takes_data w st) \/
     exists i, o = OnStation s (HandlePacket (mkFrame i d)) /\ dumped (id_getCommand i) /\
       (id_getCommand i = CMD_CONFIG_DATA -> ~ takes_data w st)).
