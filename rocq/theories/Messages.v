(* Messages.v -- messages/{Identifier,Data,CanFrame,BaseMessage,SystemMessage,TurnoutPacket,S88Event}. *)
From Verif Require Export CTypes.

(* ------------------------------------------------------------------ *)
(** * Identifier (messages/Identifier.h): the uint32_t [identifier_]. *)

(** Identifier.h:22-24 *)
Definition kHashBitMask := 0xFFFF.
Definition kResponseBitMask := Z.shiftl 1 16.
Definition kCommandBitMask := Z.shiftl 0xFF 17.

(** 32-bit complement, [~mask] on uint32_t *)
Definition not32 (m : Z) : Z := Z.lxor 0xFFFFFFFF m.

(** Identifier.h:34 *)
Definition id_isResponse (i : Z) : bool := negb (Z.land i kResponseBitMask =? 0).
(** Identifier.h:35-41 *)
Definition id_setResponse (i : Z) (response : bool) : Z :=
  if response then Z.lor i kResponseBitMask else Z.land i (not32 kResponseBitMask).
(** Identifier.h:43 *)
Definition id_getPriority (i : Z) : Z := u8 (Z.land (Z.shiftr i 25) 0x0F).
(** Identifier.h:46 *)
Definition id_getCommand (i : Z) : Z := Z.land (Z.shiftr i 17) 0xFF.
(** Identifier.h:48-56 *)
Definition id_setCommand (i command : Z) : Z :=
  let commandByte := u32 (Z.shiftl command 17) in
  Z.lor (Z.land i (not32 kCommandBitMask)) commandByte.
(** Identifier.h:58 *)
Definition id_getHash (i : Z) : Z := u16 (Z.land i kHashBitMask).
(** Identifier.h:88-92 *)
Definition id_setHash (i hash : Z) : Z := Z.lor (Z.land i (not32 kHashBitMask)) hash.
(** Identifier.h:75 *)
Definition id_computeAndSetHash (i deviceUuid : Z) : Z := id_setHash i (computeSenderHash deviceUuid).
(** Identifier.h:29-32 constructor Identifier(Command, hash) *)
Definition mkId (command hash : Z) : Z := id_setHash (id_setCommand 0 command) hash.
(** Identifier.h:65 GetIdentifier(value_type) *)
Definition id_fromRaw (packetId : Z) : Z := packetId.
(** Identifier.cpp:16-20 GetIdentifier(uint8_t[4]) *)
Definition id_fromBuffer (b0 b1 b2 b3 : Z) : Z :=
  id_fromRaw (Z.lor (Z.lor (Z.lor (Z.shiftl b0 24) (Z.shiftl b1 16)) (Z.shiftl b2 8)) b3).
(** Identifier.h:81 *)
Definition id_makeIdentifier (i : Z) : Z := i.
(** Identifier.h:60 *)
Definition id_eqb (a b : Z) : bool := a =? b.
(** Identifier.cpp:22-25 printAll: the bytes printed *)
Definition id_printAll (i : Z) : list Z :=
  zs "Prio: " ++ fmt_alt0X 4 (id_getPriority i) ++
  zs ", Command: " ++ fmt_alt0X 4 (id_getCommand i) ++
  zs ", Response: " ++ fmt_alt0X 4 (if id_isResponse i then 1 else 0) ++
  zs ", Hash: " ++ fmt_alt0X 6 (id_getHash i).

(* ------------------------------------------------------------------ *)
(** * Data (messages/Data.h) *)

(** Data.h:22 *)
Definition kDataBufferLength := CanDataMaxLength + 1.

(** Data.h:25-27; [dbytes] always has 9 elements. *)
Record Data : Type := mkData { dlc : Z; dbytes : list Z }.

(** default member initialisers, Data.h:25-27 *)
Definition data0 : Data := mkData 0 (repeat 0 9).

(** data[k] for a constant k < 9 *)
Definition dget (d : Data) (k : nat) : Z := nth k (dbytes d) 0.
(** data[k] = v (stored as uint8_t) *)
Definition dset (d : Data) (k : nat) (v : Z) : Data := mkData (dlc d) (upd k (u8 v) (dbytes d)).
Definition set_dlc (d : Data) (n : Z) : Data := mkData (u8 n) (dbytes d).

(** Data.h:29-35 operator== *)
Definition data_eq (a b : Data) : res bool :=
  if negb (dlc a =? dlc b) then Ok false else c_memcmp_eq (dbytes a) (dbytes b) (dlc a).

(** Data.h:57-60 reset.  World.v writes the zeroed buffers of Station.cpp:167, 176 directly as those of
    [data0], which is what this returns. *)
Definition data_reset (d : Data) : Data := data0.

(** Data.h:62-66 *)
Definition getLocid (d : Data) : Z :=
  Z.lor (Z.lor (Z.lor (dget d 3) (Z.shiftl (dget d 2) 8)) (Z.shiftl (dget d 1) 16)) (Z.shiftl (dget d 0) 24).

(** Data.h:68-73 *)
Definition setLocid (d : Data) (locid : Z) : Data :=
  dset (dset (dset (dset d 0 (Z.shiftr locid 24)) 1 (Z.shiftr locid 16)) 2 (Z.shiftr locid 8)) 3 locid.

(** loop "for (i = 0; i < dlc; ++i) ... data[i]" of Data.cpp:8-10 and 14-16:
    the bytes visited, UB if the loop leaves the array *)
Definition data_visited (d : Data) : res (list Z) := rd_blk (dbytes d) 0 (dlc d).

(** Data.cpp:7-11 printAsHex: bytes printed *)
Definition printAsHex (d : Data) : res (list Z) :=
  bs <- data_visited d ;; Ok (List.concat (map (fun b => 32 :: fmt_alt0x 2 b) bs)).

(** Data.cpp:13-17 printAsText: bytes printed *)
Definition printAsText (d : Data) : res (list Z) := data_visited d.

(* ------------------------------------------------------------------ *)
(** * CanFrame (messages/CanFrame.h:12-18) *)
Record CanFrame : Type := mkFrame { fid : Z; fdata : Data }.

Definition frame_eq (a b : CanFrame) : res bool :=
  if id_eqb (fid a) (fid b) then data_eq (fdata a) (fdata b) else Ok false.

(* ------------------------------------------------------------------ *)
(** * SystemMessage (messages/SystemMessage.h) -- a view on a Data *)

(** SystemMessage.h:15-18, BaseMessage.h:21 *)
Definition sys_initData (d : Data) : Data := set_dlc data0 5.
(** SystemMessage.h:20-21 *)
Definition sys_getSubcommand (d : Data) : Z := dget d 4.
Definition sys_setSubcommand (d : Data) (c : Z) : Data := dset d 4 c.
(** SystemMessage.h:23-24 *)
Definition sys_getLocid (d : Data) : Z := getLocid d.
Definition sys_setLocid (d : Data) (l : Z) : Data := setLocid d l.

(* ------------------------------------------------------------------ *)
(** * TurnoutPacket (messages/TurnoutPacket.h) *)

(** TurnoutPacket.h:21-24 *)
Definition to_initData (d : Data) : Data := set_dlc data0 6.
(** TurnoutPacket.h:26-27 *)
Definition to_getLocid (d : Data) : Z := getLocid d.
Definition to_setLocid (d : Data) (a : Z) : Data := setLocid d a.
(** TurnoutPacket.h:29-30 *)
Definition to_getPower (d : Data) : bool := negb (dget d 5 =? 0).
Definition to_setPower (d : Data) (p : bool) : Data := dset d 5 (if p then 1 else 0).
(** TurnoutPacket.h:32-33 *)
Definition to_getDirection (d : Data) : Z := dget d 4.
Definition to_setDirection (d : Data) (x : Z) : Data := dset d 4 x.
(** TurnoutPacket.h:38 *)
Definition to_AddressAsHumanValue (d : Data) : Z := HumanTurnoutAddress_of_machine (to_getLocid d).
(** TurnoutPacket.h:52-63 *)
Definition to_getRailProtocol (d : Data) : RailProtocol :=
  let locid := to_getLocid d in
  if (kSX1AccessoryAddrStart <=? locid) && (locid <=? kSX1AccessoryAddrStop) then P_SX1
  else if (kMMAccessoryAddrStart <=? locid) && (locid <=? kMMAccessoryAddrStop) then P_MM1
  else if (kDCCAccessoryAddrStart <=? locid) && (locid <=? kDCCccessoryAddrStop) then P_DCC
  else P_UNKNOWN.
(** TurnoutPacket.cpp:36-39 *)
Definition to_eqb (a b : Data) : bool :=
  (to_getLocid a =? to_getLocid b) && (to_getDirection a =? to_getDirection b) &&
  Bool.eqb (to_getPower a) (to_getPower b).
(** TurnoutPacket.cpp:7-34 printAll: bytes printed.  %d of a uint32_t is printed as int. *)
Definition to_printAll (d : Data) : list Z :=
  let position := to_getDirection d in
  zs "Turnout: " ++ fmt_altx 10 (to_getLocid d) ++
  zs ", Human Value: " ++ fmt_d (s32 (to_AddressAsHumanValue d)) ++
  zs ", Position: " ++ fmt_d position ++ zs " " ++
  (if position =? TD_RED then zs "(off, round, red)"
   else if position =? TD_GREEN then zs "(on, straight, green)"
   else if position =? TD_YELLOW then zs "(yellow, left)"
   else if position =? TD_WHITE then zs "(white)"
   else []) ++
  zs " Power: " ++ fmt_d (if to_getPower d then 1 else 0) ++ zs " " ++
  (if negb (to_getPower d) then zs "(off, button release)" else zs "(on, button press)").

(* ------------------------------------------------------------------ *)
(** * S88Event (messages/S88Event.h) *)

(** S88Event.h:14 *)
Inductive S88Subtype : Set := S88_REQUEST | S88_EVENT | S88_RESPONSE.

(** S88Event.h:17 *)
Definition s88_initData (d : Data) : Data := data0.
(** S88Event.h:19-28 *)
Definition s88_getSubtype (d : Data) : S88Subtype :=
  if dlc d =? 4 then S88_REQUEST else if dlc d =? 5 then S88_EVENT else S88_RESPONSE.
(** S88Event.h:30-42 *)
Definition s88_setSubtype (d : Data) (t : S88Subtype) : Data :=
  match t with S88_REQUEST => set_dlc d 4 | S88_EVENT => set_dlc d 5 | S88_RESPONSE => set_dlc d 8 end.
(** S88Event.h:44-47 *)
Definition s88_getDeviceId (d : Data) : Z := u16 (Z.lor (Z.shiftl (dget d 0) 8) (dget d 1)).
(** S88Event.h:49-53 *)
Definition s88_setDeviceId (d : Data) (a : Z) : Data := dset (dset d 1 a) 0 (Z.shiftr a 8).
(** S88Event.h:55-58 *)
Definition s88_getContactId (d : Data) : Z := u16 (Z.lor (Z.shiftl (dget d 2) 8) (dget d 3)).
(** S88Event.h:60-64 *)
Definition s88_setContactId (d : Data) (a : Z) : Data := dset (dset d 3 a) 2 (Z.shiftr a 8).
(** S88Event.h:66-69 *)
Definition s88_setStates (d : Data) (o n : Z) : Data := dset (dset d 4 o) 5 n.
(** S88Event.h:71-72 *)
Definition s88_getOldState (d : Data) : Z := dget d 4.
Definition s88_getNewState (d : Data) : Z := dget d 5.
(** S88Event.h:74-77 *)
Definition s88_setTime (d : Data) (t : Z) : Data := dset (dset d 7 (Z.land t 0xFF)) 6 (Z.shiftr t 8).
(** S88Event.h:79-82 *)
Definition s88_getTime (d : Data) : Z := u16 (Z.lor (Z.shiftl (dget d 6) 8) (dget d 7)).
