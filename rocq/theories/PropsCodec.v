(* PropsCodec.v -- property theorems about identifiers, payloads and addresses:
   C01-C10, C13, C55.  Vocabulary: SpecCodec.v. *)
From Verif Require Import SpecCodec ProofsCodec.

(** ** C01: identifier fields are independent *)
Theorem C01_identifier_fields : forall top prio cmd resp hash cmd' hash' resp',
  id_fields_ok top prio cmd hash -> byte cmd' -> is_u16 hash' ->
  let i := id_value top prio cmd resp hash in
  id_setCommand i cmd' = id_value top prio cmd' resp hash /\
  id_setHash i hash' = id_value top prio cmd resp hash' /\
  id_setResponse i resp' = id_value top prio cmd resp' hash /\
  id_getPriority i = prio /\ id_getCommand i = cmd /\ id_isResponse i = resp /\ id_getHash i = hash.
Proof.
  exact (fun t p c r h c' h' r' F C H =>
    conj (id_setCommand_value t p c r h c' F C) (conj (id_setHash_value t p c r h h' F H)
    (conj (id_setResponse_value t p c r h r' F) (conj (id_getPriority_value t p c r h F)
    (conj (id_getCommand_value t p c r h F) (conj (id_isResponse_value t p c r h F) (id_getHash_value t p c r h F))))))).
Qed.
Print Assumptions C01_identifier_fields.

(** every 32-bit number is such an identifier, in exactly one way *)
Theorem C01_identifier_fields_cover : forall i, is_u32 i ->
  exists top prio cmd resp hash, id_fields_ok top prio cmd hash /\ i = id_value top prio cmd resp hash.
Proof. exact id_split. Qed.
Print Assumptions C01_identifier_fields_cover.
Theorem C01_identifier_fields_unique : forall t p c r h t' p' c' r' h',
  id_fields_ok t p c h -> id_fields_ok t' p' c' h' ->
  id_value t p c r h = id_value t' p' c' r' h' -> t = t' /\ p = p' /\ c = c' /\ r = r' /\ h = h'.
Proof. exact id_value_inj. Qed.
Print Assumptions C01_identifier_fields_unique.

(** computeAndSetHash changes the hash only *)
Theorem C01_compute_and_set_hash : forall top prio cmd resp hash uid, id_fields_ok top prio cmd hash -> is_u32 uid ->
  id_computeAndSetHash (id_value top prio cmd resp hash) uid = id_value top prio cmd resp (computeSenderHash uid).
Proof. exact (fun t p c r h u F U => id_setHash_value t p c r h _ F (hash_range u U)). Qed.
Print Assumptions C01_compute_and_set_hash.
Example C01_case : id_fields_ok 5 9 0x0B 0x3F15 /\ byte 0x21 /\ is_u16 0xFFFF /\
  id_setCommand (id_value 5 9 0x0B true 0x3F15) 0x21 = id_value 5 9 0x21 true 0x3F15.
Proof. repeat split; discriminate. Qed.

(** ** C02: identifier wire round trip *)
Theorem C02_identifier_from_wire : forall b0 b1 b2 b3, byte b0 -> byte b1 -> byte b2 -> byte b3 ->
  id_fromBuffer b0 b1 b2 b3 = b0 * 2 ^ 24 + b1 * 2 ^ 16 + b2 * 2 ^ 8 + b3.
Proof. exact id_fromBuffer_be. Qed.
Print Assumptions C02_identifier_from_wire.
Theorem C02_identifier_recompose : forall i, 0 <= i < 2 ^ 29 ->
  i = id_getPriority i * 2 ^ 25 + id_getCommand i * 2 ^ 17 + (if id_isResponse i then 1 else 0) * 2 ^ 16 + id_getHash i.
Proof. exact id_recompose. Qed.
Print Assumptions C02_identifier_recompose.
Theorem C02_identifier_to_raw : forall i, id_makeIdentifier (id_fromRaw i) = i.
Proof. exact (fun i => eq_refl). Qed.
Print Assumptions C02_identifier_to_raw.
Example C02_case : id_fromBuffer 0x00 0x17 0x27 0x1C = 0x0017271C /\ id_isResponse 0x0017271C = true.
Proof. split; reflexivity. Qed.

(** ** C03: id round trip in the payload *)
Theorem C03_locid_written_big_endian : forall d x, payload_ok d -> is_u32 x ->
  dlc (setLocid d x) = dlc d /\
  dbytes (setLocid d x) = [x / 2 ^ 24; (x / 2 ^ 16) mod 256; (x / 2 ^ 8) mod 256; x mod 256] ++ skipn 4 (dbytes d) /\
  getLocid (setLocid d x) = x.
Proof.
  exact (fun d x H Hx => conj (f_equal dlc (setLocid_eq d x H Hx))
    (conj (f_equal dbytes (setLocid_eq d x H Hx)) (getLocid_setLocid d x H Hx))).
Qed.
Print Assumptions C03_locid_written_big_endian.
Theorem C03_locid_read_big_endian : forall n b0 b1 b2 b3 rest, byte b0 -> byte b1 -> byte b2 -> byte b3 ->
  getLocid (mkData n (b0 :: b1 :: b2 :: b3 :: rest)) = b0 * 2 ^ 24 + b1 * 2 ^ 16 + b2 * 2 ^ 8 + b3.
Proof. exact getLocid_eq. Qed.
Print Assumptions C03_locid_read_big_endian.
(** reset(): length 0, all nine bytes 0, id 0 *)
Theorem C03_reset : forall d, dlc (data_reset d) = 0 /\ List.length (dbytes (data_reset d)) = 9%nat /\
  (forall k, nth k (dbytes (data_reset d)) 0 = 0) /\ getLocid (data_reset d) = 0.
Proof. exact reset_data. Qed.
Print Assumptions C03_reset.
Example C03_case : payload_ok (mkData 6 [1;2;3;4;5;6;7;8;9]) /\ is_u32 0xDEADBEEF /\
  setLocid (mkData 6 [1;2;3;4;5;6;7;8;9]) 0xDEADBEEF = mkData 6 [0xDE;0xAD;0xBE;0xEF;5;6;7;8;9].
Proof. repeat split; try discriminate; try reflexivity. repeat constructor; discriminate. Qed.

(** ** C04: turnout packets.  Any sequence of writes acts on the three fields like independent
    variables and leaves the rest of the payload alone. *)
Theorem C04_turnout_writes : forall l d, payload_ok d -> Forall twrite_ok l ->
  let d' := fold_left tcall l d in
  (to_getLocid d', to_getDirection d', to_getPower d')
    = fold_left tspec l (to_getLocid d, to_getDirection d, to_getPower d) /\
  dlc d' = dlc d /\ skipn 6 (dbytes d') = skipn 6 (dbytes d).
Proof. exact twrites. Qed.
Print Assumptions C04_turnout_writes.
Theorem C04_turnout_init : forall d, to_initData d = mkData 6 [0;0;0;0;0;0;0;0;0].
Proof. exact (fun d => eq_refl). Qed.
Print Assumptions C04_turnout_init.
(** which bytes the fields are *)
Theorem C04_turnout_layout : forall n b0 b1 b2 b3 b4 b5 b6 b7 b8, byte b0 -> byte b1 -> byte b2 -> byte b3 ->
  let d := mkData n [b0; b1; b2; b3; b4; b5; b6; b7; b8] in
  to_getLocid d = b0 * 2 ^ 24 + b1 * 2 ^ 16 + b2 * 2 ^ 8 + b3 /\ to_getDirection d = b4 /\
  to_getPower d = negb (b5 =? 0).
Proof.
  exact (fun n b0 b1 b2 b3 b4 b5 b6 b7 b8 h0 h1 h2 h3 =>
    conj (getLocid_eq n b0 b1 b2 b3 [b4; b5; b6; b7; b8] h0 h1 h2 h3) (conj eq_refl eq_refl)).
Qed.
Print Assumptions C04_turnout_layout.
Example C04_case :
  let l := [TPow true; TAddr 0x3040; TDir 1; TAddr 0x3041; TPow false; TPow true] in
  Forall twrite_ok l /\
  fold_left tcall l (mkData 6 [9;9;9;9;9;9;9;9;9]) = mkData 6 [0;0;0x30;0x41;1;1;9;9;9].
Proof. split; [repeat constructor; discriminate|reflexivity]. Qed.

(** ** C05: S88 events *)
Theorem C05_s88_writes : forall l d, payload_ok d -> Forall swrite_ok l ->
  let d' := fold_left scall l d in
  (s88_getDeviceId d', s88_getContactId d', s88_getOldState d', s88_getNewState d', s88_getTime d')
    = fold_left sspec l (s88_getDeviceId d, s88_getContactId d, s88_getOldState d, s88_getNewState d, s88_getTime d) /\
  dlc d' = dlc d /\ skipn 8 (dbytes d') = skipn 8 (dbytes d).
Proof. exact swrites. Qed.
Print Assumptions C05_s88_writes.
Theorem C05_s88_layout : forall n b0 b1 b2 b3 b4 b5 b6 b7 b8,
  byte b0 -> byte b1 -> byte b2 -> byte b3 -> byte b6 -> byte b7 ->
  let d := mkData n [b0; b1; b2; b3; b4; b5; b6; b7; b8] in
  (s88_getDeviceId d, s88_getContactId d, s88_getOldState d, s88_getNewState d, s88_getTime d)
  = (b0 * 256 + b1, b2 * 256 + b3, b4, b5, b6 * 256 + b7).
Proof. exact s88_layout. Qed.
Print Assumptions C05_s88_layout.
Theorem C05_s88_subtype : forall d t,
  s88_getSubtype (s88_setSubtype d t) = t /\ dbytes (s88_setSubtype d t) = dbytes d.
Proof. exact (fun d t => match t with S88_REQUEST => conj eq_refl eq_refl | S88_EVENT => conj eq_refl eq_refl
                                    | S88_RESPONSE => conj eq_refl eq_refl end). Qed.
Print Assumptions C05_s88_subtype.
Example C05_case :
  let l := [SDevice 0x12345; SContact 0xFFFF; SStates 0 1; STime 0xABCD; SDevice 0x10007] in
  Forall swrite_ok l /\
  fold_left scall l (mkData 8 [9;9;9;9;9;9;9;9;9]) = mkData 8 [0;7;0xFF;0xFF;0;1;0xAB;0xCD;9].
Proof. split; [repeat constructor; discriminate|reflexivity]. Qed.

(** ** C06: system messages *)
Theorem C06_system_writes : forall l d, payload_ok d -> Forall ywrite_ok l ->
  let d' := fold_left ycall l d in
  (sys_getSubcommand d', sys_getLocid d') = fold_left yspec l (sys_getSubcommand d, sys_getLocid d) /\
  dlc d' = dlc d /\ skipn 5 (dbytes d') = skipn 5 (dbytes d).
Proof. exact ywrites. Qed.
Print Assumptions C06_system_writes.
Theorem C06_system_layout : forall n b0 b1 b2 b3 b4 rest, byte b0 -> byte b1 -> byte b2 -> byte b3 ->
  let d := mkData n (b0 :: b1 :: b2 :: b3 :: b4 :: rest) in
  sys_getSubcommand d = b4 /\ sys_getLocid d = b0 * 2 ^ 24 + b1 * 2 ^ 16 + b2 * 2 ^ 8 + b3.
Proof. exact (fun n b0 b1 b2 b3 b4 rest h0 h1 h2 h3 => conj eq_refl (getLocid_eq n b0 b1 b2 b3 (b4 :: rest) h0 h1 h2 h3)). Qed.
Print Assumptions C06_system_layout.
Theorem C06_system_init : forall d, sys_initData d = mkData 5 [0;0;0;0;0;0;0;0;0].
Proof. exact (fun d => eq_refl). Qed.
Print Assumptions C06_system_init.
Example C06_case :
  let l := [YSub 3; YId 0xC042] in
  Forall ywrite_ok l /\ fold_left ycall l (sys_initData data0) = mkData 5 [0;0;0xC0;0x42;3;0;0;0;0].
Proof. split; [repeat constructor; discriminate|reflexivity]. Qed.

(** ** C07: human (1-based) and machine (0-based) addresses *)
Theorem C07_turnout_addresses : forall a, is_u32 a ->
  MachineTurnoutAddress_of_human (HumanTurnoutAddress_of_machine a) = a /\
  HumanTurnoutAddress_of_machine (MachineTurnoutAddress_of_human a) = a.
Proof. exact human_machine. Qed.
Print Assumptions C07_turnout_addresses.
Theorem C07_loco_addresses : forall a, is_u32 a ->
  MachineLocomotiveAddress_of_human (HumanLocomotiveAddress_of_machine a) = a /\
  HumanLocomotiveAddress_of_machine (MachineLocomotiveAddress_of_human a) = a.
Proof. exact human_machine. Qed.
Print Assumptions C07_loco_addresses.
Theorem C07_values : forall a, is_u32 a ->
  (a > 0 -> MachineTurnoutAddress_of_human a = a - 1 /\ MachineLocomotiveAddress_of_human a = a - 1) /\
  (a < 2 ^ 32 - 1 -> HumanTurnoutAddress_of_machine a = a + 1 /\ HumanLocomotiveAddress_of_machine a = a + 1).
Proof. exact address_values. Qed.
Print Assumptions C07_values.
Theorem C07_wrap : MachineTurnoutAddress_of_human 0 = 2 ^ 32 - 1 /\ MachineLocomotiveAddress_of_human 0 = 2 ^ 32 - 1 /\
  HumanTurnoutAddress_of_machine (2 ^ 32 - 1) = 0 /\ HumanLocomotiveAddress_of_machine (2 ^ 32 - 1) = 0.
Proof. exact (conj eq_refl (conj eq_refl (conj eq_refl eq_refl))). Qed.
Print Assumptions C07_wrap.
Example C07_case : is_u32 42 /\ MachineTurnoutAddress_of_human 42 = 41 /\ HumanLocomotiveAddress_of_machine 41 = 42.
Proof. repeat split; discriminate. Qed.

(** ** C08: attaching a protocol *)
Theorem C08_set_protocol_turnout : forall a p, is_u32 a -> p <> P_UNKNOWN ->
  turnout_setProtocol a p = turnout_base p + a mod 1024 /\
  turnout_getNumericAddress (turnout_setProtocol a p) = a mod 1024.
Proof. exact (fun a p _ H => conj (turnout_setProtocol_eq a p H) (numeric_turnout a p H)). Qed.
Print Assumptions C08_set_protocol_turnout.
Theorem C08_set_protocol_loco : forall a p, is_u32 a -> p <> P_UNKNOWN ->
  loco_setProtocol a p = loco_base p + a mod 1024 /\
  loco_getNumericAddress (loco_setProtocol a p) = a mod 1024.
Proof. exact (fun a p _ H => conj (loco_setProtocol_eq a p H) (numeric_loco a p H)). Qed.
Print Assumptions C08_set_protocol_loco.
(** a previously attached (known) protocol is gone *)
Theorem C08_protocol_replaced : forall a p q, is_u32 a -> q <> P_UNKNOWN ->
  turnout_setProtocol (turnout_setProtocol a q) p = turnout_setProtocol a p /\
  loco_setProtocol (loco_setProtocol a q) p = loco_setProtocol a p.
Proof. exact (fun a p q _ H => conj (reset_turnout a p q H) (reset_loco a p q H)). Qed.
Print Assumptions C08_protocol_replaced.
(** a packet carrying the address reports the protocol asked for *)
Theorem C08_protocol_recognised : forall d a p, payload_ok d -> is_u32 a ->
  to_getRailProtocol (to_setLocid d (turnout_setProtocol a p)) = protocol_class p.
Proof. exact setProtocol_recognised. Qed.
Print Assumptions C08_protocol_recognised.
(** the unknown protocol keeps only the low 8 bits of the address *)
Theorem C08_unknown_protocol_destroys_address : forall a, is_u32 a ->
  turnout_setProtocol a P_UNKNOWN = 0xFF00 + a mod 256 /\ loco_setProtocol a P_UNKNOWN = 0xFF00 + a mod 256.
Proof. exact (fun a _ => conj (turnout_setProtocol_unknown a) (loco_setProtocol_unknown a)). Qed.
Print Assumptions C08_unknown_protocol_destroys_address.
Theorem C08_unknown_refuted : exists a, is_u32 a /\
  turnout_getNumericAddress (turnout_setProtocol a P_UNKNOWN) <> turnout_getNumericAddress a.
Proof. exact unknown_refuted. Qed.
Print Assumptions C08_unknown_refuted.
Example C08_case : is_u32 0x4E42 /\ turnout_setProtocol 0x4E42 P_DCC = 0x3A42 /\ loco_setProtocol 0x4E42 P_MFX = 0x4242.
Proof. repeat split; discriminate. Qed.

(** ** C09: protocol classification = published ranges *)
Theorem C09_classification : forall d, payload_ok d ->
  let a := to_getLocid d in
  (to_getRailProtocol d = P_SX1 <-> sx1_range a) /\
  (to_getRailProtocol d = P_MM1 <-> mm_range a) /\
  (to_getRailProtocol d = P_DCC <-> dcc_range a) /\
  (to_getRailProtocol d = P_UNKNOWN <-> ~ sx1_range a /\ ~ mm_range a /\ ~ dcc_range a).
Proof. exact classify. Qed.
Print Assumptions C09_classification.
Example C09_case : payload_ok (mkData 6 [0;0;0x3F;0xFF;1;1;0;0;0]) /\
  map (fun x => to_getRailProtocol (mkData 6 [0;0;x / 256;x mod 256;1;1;0;0;0]))
      [0x27FF; 0x2800; 0x2BFF; 0x2C00; 0x2FFF; 0x3000; 0x33FF; 0x3400; 0x37FF; 0x3800; 0x3FFF; 0x4000]
  = [P_UNKNOWN; P_SX1; P_SX1; P_UNKNOWN; P_UNKNOWN; P_MM1; P_MM1; P_UNKNOWN; P_UNKNOWN; P_DCC; P_DCC; P_UNKNOWN].
Proof. repeat split; try discriminate; try reflexivity. repeat constructor; discriminate. Qed.

(** ** C10: recovering an address from protocol and numeric part *)
Theorem C10_recoverable_iff_below_upper_dcc : forall d, payload_ok d ->
  let a := to_getLocid d in
  to_getRailProtocol d <> P_UNKNOWN ->
  (turnout_setProtocol (turnout_getNumericAddress a) (to_getRailProtocol d) = a <-> a < 0x3C00).
Proof. exact recover. Qed.
Print Assumptions C10_recoverable_iff_below_upper_dcc.
Example C10_case :
  let d := mkData 6 [0;0;0x3C;0x05;1;1;0;0;0] in
  payload_ok d /\ to_getRailProtocol d = P_DCC /\ turnout_setProtocol (turnout_getNumericAddress (to_getLocid d)) P_DCC = 0x3805.
Proof. repeat split; try discriminate; try reflexivity. repeat constructor; discriminate. Qed.

(** ** C13: sender hash *)
Theorem C13_hash_of_station_id : forall u, is_u16 u -> computeSenderHash u = (u / 2 ^ 11) * 256 + u mod 128.
Proof. exact hash16. Qed.
Print Assumptions C13_hash_of_station_id.
Theorem C13_hash_collisions : forall u v, is_u16 u -> is_u16 v ->
  (computeSenderHash u = computeSenderHash v <-> u mod 128 = v mod 128 /\ u / 2 ^ 11 = v / 2 ^ 11).
Proof. exact hash_collide. Qed.
Print Assumptions C13_hash_collisions.
Theorem C13_hash_of_32_bit_id : forall u, is_u32 u ->
  let packed := (u / 2 ^ 11) * 256 + u mod 128 in
  computeSenderHash u = Z.lxor (packed mod 65536) (packed / 65536) /\ is_u16 (computeSenderHash u).
Proof. exact (fun u H => conj (hash32 u H) (hash_range u H)). Qed.
Print Assumptions C13_hash_of_32_bit_id.
Example C13_case : is_u16 0x1805 /\ computeSenderHash 0x1805 = 0x305 /\ computeSenderHash 0x1805 = computeSenderHash 0x1885
  /\ computeSenderHash 0x1805 <> computeSenderHash 0x2005.
Proof. repeat split; discriminate. Qed.

(** ** C55: equality of payloads and frames *)
Theorem C55_data_equality : forall a b, payload_ok a -> payload_ok b -> dlc a <= 9 ->
  exists r, data_eq a b = Ok r /\
    (r = true <-> dlc a = dlc b /\ forall i, Z.of_nat i < dlc a -> nth i (dbytes a) 0 = nth i (dbytes b) 0).
Proof. exact data_eq_iff. Qed.
Print Assumptions C55_data_equality.
Theorem C55_data_equality_refl : forall a, payload_ok a -> dlc a <= 9 -> data_eq a a = Ok true.
Proof. exact data_eq_refl. Qed.
Print Assumptions C55_data_equality_refl.
Theorem C55_data_equality_sym : forall a b, payload_ok a -> payload_ok b -> data_eq a b = data_eq b a.
Proof. exact data_eq_sym. Qed.
Print Assumptions C55_data_equality_sym.
Theorem C55_data_equality_trans : forall a b c, payload_ok a -> payload_ok b -> payload_ok c ->
  data_eq a b = Ok true -> data_eq b c = Ok true -> data_eq a c = Ok true.
Proof. exact data_eq_trans. Qed.
Print Assumptions C55_data_equality_trans.
Theorem C55_data_equality_out_of_bounds : forall a b, payload_ok a -> payload_ok b ->
  (data_eq a b = UB OutOfBounds <-> dlc a = dlc b /\ 9 < dlc a).
Proof. exact data_eq_ub. Qed.
Print Assumptions C55_data_equality_out_of_bounds.
Theorem C55_frame_equality : forall f g, payload_ok (fdata f) -> payload_ok (fdata g) ->
  (frame_eq f g = Ok true <-> fid f = fid g /\ data_eq (fdata f) (fdata g) = Ok true).
Proof. exact frame_eq_iff. Qed.
Print Assumptions C55_frame_equality.
(** equality of accessory packets compares exactly the three fields *)
Theorem C55_turnout_equality : forall a b,
  to_eqb a b = true <->
  (to_getLocid a, to_getDirection a, to_getPower a) = (to_getLocid b, to_getDirection b, to_getPower b).
Proof. exact to_eqb_iff. Qed.
Print Assumptions C55_turnout_equality.
Example C55_case :
  let a := mkData 3 [1;2;3;4;5;6;7;8;9] in let b := mkData 3 [1;2;3;0;0;0;0;0;0] in
  payload_ok a /\ data_eq a b = Ok true /\ data_eq a (set_dlc b 4) = Ok false /\ data_eq (set_dlc a 4) (set_dlc b 4) = Ok false
  /\ data_eq (set_dlc a 10) (set_dlc b 10) = UB OutOfBounds.
Proof. repeat split; try discriminate; try reflexivity. repeat constructor; discriminate. Qed.
