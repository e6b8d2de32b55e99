(* ProofsCodec.v -- lemmas behind PropsCodec.v *)
From Verif Require Import ZLib SpecCodec.

Lemma id_split : forall i, is_u32 i ->
  exists t p c r h, id_fields_ok t p c h /\ i = id_value t p c r h.
Proof.
  intros i Hi. unfold is_u32 in Hi.
  exists (i / 536870912), ((i / 33554432) mod 16), ((i / 131072) mod 256), ((i / 65536) mod 2 =? 1), (i mod 65536).
  unfold id_fields_ok, id_value, bit_of.
  assert (0 <= (i / 65536) mod 2 < 2) by lia.
  destruct ((i / 65536) mod 2 =? 1) eqn:E; lia.
Qed.

Lemma id_value_range : forall t p c r h, id_fields_ok t p c h -> is_u32 (id_value t p c r h).
Proof. unfold id_fields_ok, is_u32, id_value, bit_of; intros; destruct r; lia. Qed.

Lemma id_value_inj : forall t p c r h t' p' c' r' h', id_fields_ok t p c h -> id_fields_ok t' p' c' h' ->
  id_value t p c r h = id_value t' p' c' r' h' -> t = t' /\ p = p' /\ c = c' /\ r = r' /\ h = h'.
Proof. unfold id_fields_ok, id_value, bit_of; intros; destruct r, r'; repeat split; lia. Qed.

Lemma id_getHash_value : forall t p c r h, id_fields_ok t p c h -> id_getHash (id_value t p c r h) = h.
Proof.
  unfold id_getHash, kHashBitMask, u16. intros. change 65535 with (2 ^ 16 - 1). rewrite land_mask by lia.
  unfold id_fields_ok, id_value, bit_of in *; destruct r; lia.
Qed.

Lemma id_getCommand_value : forall t p c r h, id_fields_ok t p c h -> id_getCommand (id_value t p c r h) = c.
Proof.
  unfold id_getCommand. intros. change 0xFF with (2 ^ 8 - 1). rewrite land_mask, shr by lia.
  unfold id_fields_ok, id_value, bit_of in *; destruct r; lia.
Qed.

Lemma id_getPriority_value : forall t p c r h, id_fields_ok t p c h -> id_getPriority (id_value t p c r h) = p.
Proof.
  unfold id_getPriority, u8. intros. change 0x0F with (2 ^ 4 - 1). rewrite land_mask, shr by lia.
  unfold id_fields_ok, id_value, bit_of in *; destruct r; lia.
Qed.

Lemma land_bit16 : forall i, Z.land i kResponseBitMask = ((i / 65536) mod 2) * 65536.
Proof.
  intros. change kResponseBitMask with ((2 ^ 1 - 1) * 2 ^ 16). rewrite land_himask by lia. reflexivity.
Qed.

Lemma id_isResponse_value : forall t p c r h, id_fields_ok t p c h -> id_isResponse (id_value t p c r h) = r.
Proof.
  unfold id_isResponse. intros. rewrite land_bit16.
  unfold id_fields_ok, id_value, bit_of in *; destruct r; lia.
Qed.

Lemma id_setHash_value : forall t p c r h h', id_fields_ok t p c h -> is_u16 h' ->
  id_setHash (id_value t p c r h) h' = id_value t p c r h'.
Proof.
  unfold id_setHash, is_u16. intros t p c r h h' H Hh.
  change (not32 kHashBitMask) with ((2 ^ 16 - 1) * 2 ^ 16).
  rewrite land_himask by lia. rewrite lor_add by lia.
  unfold id_fields_ok, id_value, bit_of in *; destruct r; lia.
Qed.

Lemma id_setResponse_value : forall t p c r h r', id_fields_ok t p c h ->
  id_setResponse (id_value t p c r h) r' = id_value t p c r' h.
Proof.
  unfold id_setResponse. intros t p c r h r' H.
  assert (D : forall r, id_value t p c r h = (t * 8192 + p * 512 + c * 2 + bit_of r) * 2 ^ 16 + h)
    by (intros; unfold id_value; lia).
  unfold id_fields_ok in H.
  rewrite !D. destruct r'.
  - change kResponseBitMask with (1 * 2 ^ 16 + 0). rewrite lor_split by lia.
    rewrite Z.lor_0_r. f_equal. f_equal. unfold bit_of.
    replace (t * 8192 + p * 512 + c * 2 + (if r then 1 else 0)) with
      ((t * 4096 + p * 256 + c) * 2 ^ 1 + (if r then 1 else 0)) by lia.
    change (Z.lor ((t * 4096 + p * 256 + c) * 2 ^ 1 + (if r then 1 else 0)) 1)
      with (Z.lor ((t * 4096 + p * 256 + c) * 2 ^ 1 + (if r then 1 else 0)) (0 * 2 ^ 1 + 1)).
    rewrite lor_split by (destruct r; lia). rewrite Z.lor_0_r. destruct r; cbn; lia.
  - change (not32 kResponseBitMask) with (65534 * 2 ^ 16 + (2 ^ 16 - 1)).
    rewrite land_split by lia. rewrite land_mask by lia. rewrite (Z.mod_small h) by lia.
    f_equal. f_equal. change 65534 with ((2 ^ 15 - 1) * 2 ^ 1). rewrite land_himask by lia.
    unfold bit_of; destruct r; lia.
Qed.

Lemma id_setCommand_value : forall t p c r h c', id_fields_ok t p c h -> byte c' ->
  id_setCommand (id_value t p c r h) c' = id_value t p c' r h.
Proof.
  unfold id_setCommand, byte, u32. intros t p c r h c' H Hc.
  rewrite shl by lia.
  rewrite Z.mod_small by lia.
  assert (D : forall c, id_value t p c r h = ((t * 16 + p) * 2 ^ 8 + c) * 2 ^ 17 + (bit_of r * 65536 + h))
    by (intros; unfold id_value; lia).
  assert (B : 0 <= bit_of r < 2) by (destruct r; cbn; lia).
  unfold id_fields_ok in H.
  rewrite !D.
  change (not32 kCommandBitMask) with (((2 ^ 7 - 1) * 2 ^ 8) * 2 ^ 17 + (2 ^ 17 - 1)).
  rewrite land_split by lia. rewrite land_mask by lia. rewrite (Z.mod_small (_ + h)) by lia.
  rewrite land_himask by lia.
  rewrite <- (Z.add_0_r (c' * 2 ^ 17)).
  rewrite lor_split by lia. rewrite Z.lor_0_r.
  rewrite lor_add by lia. lia.
Qed.

(** C02 *)
Lemma id_fromBuffer_be : forall a b c d, byte a -> byte b -> byte c -> byte d ->
  id_fromBuffer a b c d = be a b c d.
Proof. unfold byte; intros. unfold id_fromBuffer, id_fromRaw. rewrite be32 by lia. reflexivity. Qed.

Lemma id_recompose : forall i, 0 <= i < 536870912 ->
  i = id_getPriority i * 33554432 + id_getCommand i * 131072 + bit_of (id_isResponse i) * 65536 + id_getHash i.
Proof.
  intros i Hi. destruct (id_split i) as (t & p & c & r & h & Hf & ->); [unfold is_u32; lia|].
  rewrite id_getPriority_value, id_getCommand_value, id_isResponse_value, id_getHash_value by assumption.
  unfold id_fields_ok, id_value, bit_of in *; destruct r; lia.
Qed.

(** payloads *)
Ltac nine d H :=
  let n := fresh "n" in let bs := fresh "bs" in destruct d as [n bs]; destruct H as (?Hn & ?Hl & ?Hb); cbn [dlc dbytes] in *;
  do 9 (destruct bs as [|? bs]; [discriminate Hl|]); destruct bs; [|discriminate Hl]; clear Hl;
  repeat match goal with F : Forall byte (_ :: _) |- _ => inversion F; clear F; subst end;
  repeat match goal with F : Forall byte [] |- _ => clear F end.

Lemma u8_byte : forall x, byte x -> u8 x = x.
Proof. unfold byte, u8; intros; lia. Qed.
Lemma u8_range : forall x, byte (u8 x).
Proof. unfold byte, u8; intros; lia. Qed.

Lemma setLocid_eq : forall d x, payload_ok d -> is_u32 x ->
  setLocid d x = mkData (dlc d) (be_bytes x ++ skipn 4 (dbytes d)).
Proof.
  intros d x H Hx. nine d H. unfold setLocid, dset, be_bytes, u8, is_u32 in *. cbn [dlc dbytes upd skipn app].
  rewrite !shr by lia. repeat (f_equal; try lia).
Qed.

Lemma getLocid_eq : forall n a b c d r, byte a -> byte b -> byte c -> byte d ->
  getLocid (mkData n (a :: b :: c :: d :: r)) = be a b c d.
Proof. unfold byte; intros. unfold getLocid, dget. cbn [dbytes nth]. rewrite be32' by lia. reflexivity. Qed.

Lemma be_of_bytes : forall x, is_u32 x -> be (x / 16777216) ((x / 65536) mod 256) ((x / 256) mod 256) (x mod 256) = x.
Proof. unfold is_u32, be; intros; lia. Qed.

Lemma be_inj : forall a b c d a' b' c' d', byte a -> byte b -> byte c -> byte d -> byte a' -> byte b' -> byte c' -> byte d' ->
  be a b c d = be a' b' c' d' -> a = a' /\ b = b' /\ c = c' /\ d = d'.
Proof. unfold byte, be; intros; lia. Qed.

Lemma getLocid_range : forall d, payload_ok d -> is_u32 (getLocid d).
Proof. intros d H; nine d H. rewrite getLocid_eq by assumption. unfold byte, be, is_u32 in *. lia. Qed.

Lemma getLocid_setLocid : forall d x, payload_ok d -> is_u32 x -> getLocid (setLocid d x) = x.
Proof.
  intros d x H Hx. rewrite setLocid_eq by assumption. unfold be_bytes. cbn [app].
  rewrite getLocid_eq by (unfold byte, is_u32 in *; lia). apply be_of_bytes; assumption.
Qed.

Lemma be_bytes_ok : forall x, is_u32 x -> Forall byte (be_bytes x).
Proof. unfold is_u32, be_bytes, byte; intros; repeat constructor; lia. Qed.

Lemma dset_ok : forall d k v, payload_ok d -> payload_ok (dset d k v).
Proof.
  intros d k v (H1 & H2 & H3). unfold dset, payload_ok; cbn [dlc dbytes]. rewrite upd_length.
  split; [assumption|split; [assumption|]].
  clear H2. revert k. induction (dbytes d) as [|x l IH]; intros k; destruct k; cbn; auto.
  - constructor; [apply u8_range|inversion H3; assumption].
  - inversion H3; subst. constructor; auto.
Qed.

Lemma setLocid_ok : forall d x, payload_ok d -> payload_ok (setLocid d x).
Proof. intros; unfold setLocid; repeat apply dset_ok; assumption. Qed.

Lemma data0_ok : payload_ok data0.
Proof. repeat split; cbn; try lia. repeat constructor; unfold byte; lia. Qed.
Lemma set_dlc_ok : forall d n, payload_ok d -> payload_ok (set_dlc d n).
Proof. intros d n (A & B & C); repeat split; cbn; auto; unfold u8; try lia. Qed.

(** C04 *)
Definition tread (d : Data) := (to_getLocid d, to_getDirection d, to_getPower d).
Lemma tcall_ok : forall d w, payload_ok d -> payload_ok (tcall d w).
Proof. intros d [] H; cbn; unfold to_setLocid, to_setDirection, to_setPower; auto using setLocid_ok, dset_ok. Qed.

Lemma tcall_spec : forall d w, payload_ok d -> twrite_ok w ->
  tread (tcall d w) = tspec (tread d) w /\ dlc (tcall d w) = dlc d /\ skipn 6 (dbytes (tcall d w)) = skipn 6 (dbytes d).
Proof.
  intros d w H Hw. unfold tread, tspec. destruct w; cbn [tcall twrite_ok] in *.
  - unfold to_getLocid, to_setLocid. rewrite getLocid_setLocid by assumption.
    rewrite setLocid_eq by assumption. nine d H. repeat split; reflexivity.
  - nine d H. unfold to_setDirection, to_getLocid, to_getDirection, to_getPower, dset. cbn [dbytes dlc upd].
    rewrite u8_byte by assumption. repeat split; reflexivity.
  - nine d H. unfold to_setPower, to_getLocid, to_getDirection, to_getPower, dset. cbn [dbytes dlc upd].
    destruct p; repeat split; reflexivity.
Qed.

Lemma twrites : forall l d, payload_ok d -> Forall twrite_ok l ->
  tread (fold_left tcall l d) = fold_left tspec l (tread d) /\
  dlc (fold_left tcall l d) = dlc d /\ skipn 6 (dbytes (fold_left tcall l d)) = skipn 6 (dbytes d).
Proof.
  induction l as [|w l IH]; intros d H Hl; cbn [fold_left]; [auto|].
  inversion Hl; subst.
  destruct (tcall_spec d w H H2) as (A & B & C).
  destruct (IH (tcall d w) (tcall_ok d w H) H3) as (A' & B' & C').
  rewrite A', A, B', B, C', C. auto.
Qed.

(** C05 *)
Definition sread (d : Data) := (s88_getDeviceId d, s88_getContactId d, s88_getOldState d, s88_getNewState d, s88_getTime d).
Lemma scall_ok : forall d w, payload_ok d -> payload_ok (scall d w).
Proof. intros d [] H; cbn; unfold s88_setDeviceId, s88_setContactId, s88_setStates, s88_setTime; auto using dset_ok. Qed.

Lemma split16 : forall a, 0 <= a -> u16 (Z.lor (Z.shiftl (u8 (Z.shiftr a 8)) 8) (u8 a)) = a mod 65536.
Proof. intros. rewrite be16 by (unfold u8; lia). rewrite shr by lia. unfold u16, u8. lia. Qed.

Lemma scall_spec : forall d w, payload_ok d -> swrite_ok w ->
  sread (scall d w) = sspec (sread d) w /\ dlc (scall d w) = dlc d /\ skipn 8 (dbytes (scall d w)) = skipn 8 (dbytes d).
Proof.
  intros d w H Hw. unfold sread, sspec.
  destruct w; cbn [scall swrite_ok] in *; nine d H; unfold is_u32, is_u16 in *;
    unfold s88_setDeviceId, s88_setContactId, s88_setStates, s88_setTime, s88_getDeviceId,
      s88_getContactId, s88_getOldState, s88_getNewState, s88_getTime, dset, dget; cbn [dbytes dlc upd nth].
  - rewrite split16 by lia. repeat split; reflexivity.
  - rewrite split16 by lia. repeat split; reflexivity.
  - rewrite !u8_byte by tauto. repeat split; reflexivity.
  - change 0xFF with (2 ^ 8 - 1). rewrite land_mask by lia.
    replace (u8 (t mod 2 ^ 8)) with (u8 t) by (unfold u8; lia).
    rewrite split16 by lia. rewrite (Z.mod_small t) by lia. repeat split; reflexivity.
Qed.

Lemma swrites : forall l d, payload_ok d -> Forall swrite_ok l ->
  sread (fold_left scall l d) = fold_left sspec l (sread d) /\
  dlc (fold_left scall l d) = dlc d /\ skipn 8 (dbytes (fold_left scall l d)) = skipn 8 (dbytes d).
Proof.
  induction l as [|w l IH]; intros d H Hl; cbn [fold_left]; [auto|].
  inversion Hl; subst.
  destruct (scall_spec d w H H2) as (A & B & C).
  destruct (IH (scall d w) (scall_ok d w H) H3) as (A' & B' & C').
  rewrite A', A, B', B, C', C. auto.
Qed.

Lemma s88_layout : forall n b0 b1 b2 b3 b4 b5 b6 b7 b8,
  byte b0 -> byte b1 -> byte b2 -> byte b3 -> byte b6 -> byte b7 ->
  sread (mkData n [b0; b1; b2; b3; b4; b5; b6; b7; b8]) = (b0 * 256 + b1, b2 * 256 + b3, b4, b5, b6 * 256 + b7).
Proof.
  unfold byte, sread; intros.
  unfold s88_getDeviceId, s88_getContactId, s88_getOldState, s88_getNewState, s88_getTime, dget; cbn [dbytes nth].
  rewrite !be16 by lia. unfold u16. rewrite !Z.mod_small by lia. reflexivity.
Qed.

(** C06 *)
Definition yread (d : Data) := (sys_getSubcommand d, sys_getLocid d).
Lemma ycall_ok : forall d w, payload_ok d -> payload_ok (ycall d w).
Proof. intros d [] H; cbn; unfold sys_setSubcommand, sys_setLocid; auto using setLocid_ok, dset_ok. Qed.
Lemma ycall_spec : forall d w, payload_ok d -> ywrite_ok w ->
  yread (ycall d w) = yspec (yread d) w /\ dlc (ycall d w) = dlc d /\ skipn 5 (dbytes (ycall d w)) = skipn 5 (dbytes d).
Proof.
  intros d w H Hw. unfold yread, yspec. destruct w; cbn [ycall ywrite_ok] in *.
  - nine d H. unfold sys_setSubcommand, sys_getSubcommand, sys_getLocid, dset. cbn [dbytes dlc upd].
    rewrite u8_byte by assumption. repeat split; reflexivity.
  - unfold sys_setLocid, sys_getLocid. rewrite getLocid_setLocid by assumption.
    rewrite setLocid_eq by assumption. nine d H. repeat split; reflexivity.
Qed.
Lemma ywrites : forall l d, payload_ok d -> Forall ywrite_ok l ->
  yread (fold_left ycall l d) = fold_left yspec l (yread d) /\
  dlc (fold_left ycall l d) = dlc d /\ skipn 5 (dbytes (fold_left ycall l d)) = skipn 5 (dbytes d).
Proof.
  induction l as [|w l IH]; intros d H Hl; cbn [fold_left]; [auto|].
  inversion Hl; subst.
  destruct (ycall_spec d w H H2) as (A & B & C).
  destruct (IH (ycall d w) (ycall_ok d w H) H3) as (A' & B' & C').
  rewrite A', A, B', B, C', C. auto.
Qed.

(** C08 *)
Lemma land1023 : forall x, Z.land x 0x03FF = x mod 1024.
Proof. intros. change 0x03FF with (2 ^ 10 - 1). rewrite land_mask by lia. reflexivity. Qed.

Lemma turnout_setProtocol_eq : forall a p, p <> P_UNKNOWN -> turnout_setProtocol a p = turnout_base p + a mod 1024.
Proof.
  intros a p Hp. unfold turnout_setProtocol, turnout_or, turnout_getNumericAddress. rewrite land1023.
  assert (0 <= a mod 1024 < 1024) by lia.
  destruct p; try congruence; cbn [getAccessoryLocIdMask turnout_base]; unfold kMMAccessoryAddrStart, kSX1AccessoryAddrStart, kDCCAccessoryAddrStart;
    match goal with |- Z.lor ?x ?y = _ => let z := eval compute in (y / 2 ^ 10) in change y with (z * 2 ^ 10) at 1 end;
    rewrite lor_add' by lia; lia.
Qed.
Lemma turnout_setProtocol_unknown : forall a, turnout_setProtocol a P_UNKNOWN = 0xFF00 + a mod 256.
Proof.
  intros a. unfold turnout_setProtocol, turnout_or, turnout_getNumericAddress. rewrite land1023.
  change (getAccessoryLocIdMask P_UNKNOWN) with (255 * 2 ^ 8 + 0).
  replace (a mod 1024) with (((a / 256) mod 2 ^ 2) * 2 ^ 8 + a mod 256) by lia.
  rewrite lor_split by lia. rewrite Z.lor_0_r.
  assert (E : Z.lor ((a / 256) mod 2 ^ 2) 255 = 255).
  { assert (0 <= (a / 256) mod 2 ^ 2 < 4) by lia.
    assert (C : (a / 256) mod 2 ^ 2 = 0 \/ (a / 256) mod 2 ^ 2 = 1 \/ (a / 256) mod 2 ^ 2 = 2 \/ (a / 256) mod 2 ^ 2 = 3) by lia.
    destruct C as [-> | [-> | [-> | ->]]]; reflexivity. }
  rewrite E. lia.
Qed.
Lemma loco_setProtocol_eq : forall a p, p <> P_UNKNOWN -> loco_setProtocol a p = loco_base p + a mod 1024.
Proof.
  intros a p Hp. unfold loco_setProtocol, loco_or, loco_getNumericAddress. rewrite land1023.
  assert (0 <= a mod 1024 < 1024) by lia.
  destruct p; try congruence; cbn [getLocomotiveLocIdMask loco_base]; unfold kMMEngineFunctionAddrStart, kMFXAddrStart, kSX1AddrStart, kDCCAddrStart;
    match goal with |- Z.lor ?x ?y = _ => let z := eval compute in (y / 2 ^ 10) in change y with (z * 2 ^ 10) at 1 end;
    rewrite lor_add' by lia; lia.
Qed.
Lemma loco_setProtocol_unknown : forall a, loco_setProtocol a P_UNKNOWN = 0xFF00 + a mod 256.
Proof.
  intros a. unfold loco_setProtocol, loco_or, loco_getNumericAddress. rewrite land1023.
  change (getLocomotiveLocIdMask P_UNKNOWN) with (255 * 2 ^ 8 + 0).
  replace (a mod 1024) with (((a / 256) mod 2 ^ 2) * 2 ^ 8 + a mod 256) by lia.
  rewrite lor_split by lia. rewrite Z.lor_0_r.
  assert (E : Z.lor ((a / 256) mod 2 ^ 2) 255 = 255).
  { assert (0 <= (a / 256) mod 2 ^ 2 < 4) by lia.
    assert (C : (a / 256) mod 2 ^ 2 = 0 \/ (a / 256) mod 2 ^ 2 = 1 \/ (a / 256) mod 2 ^ 2 = 2 \/ (a / 256) mod 2 ^ 2 = 3) by lia.
    destruct C as [-> | [-> | [-> | ->]]]; reflexivity. }
  rewrite E. lia.
Qed.

Lemma numeric_turnout : forall a p, p <> P_UNKNOWN -> turnout_getNumericAddress (turnout_setProtocol a p) = a mod 1024.
Proof. intros. rewrite turnout_setProtocol_eq by assumption. unfold turnout_getNumericAddress. rewrite land1023. destruct p; cbn [turnout_base]; try congruence; lia. Qed.
Lemma reset_turnout : forall a p q, q <> P_UNKNOWN -> turnout_setProtocol (turnout_setProtocol a q) p = turnout_setProtocol a p.
Proof.
  intros a p q Hq. destruct p; [rewrite !turnout_setProtocol_eq by congruence; destruct q; cbn [turnout_base]; try congruence; lia .. |].
  rewrite !turnout_setProtocol_unknown, turnout_setProtocol_eq by assumption. destruct q; cbn [turnout_base]; try congruence; lia.
Qed.

Lemma numeric_loco : forall a p, p <> P_UNKNOWN -> loco_getNumericAddress (loco_setProtocol a p) = a mod 1024.
Proof. intros. rewrite loco_setProtocol_eq by assumption. unfold loco_getNumericAddress. rewrite land1023. destruct p; cbn [loco_base]; try congruence; lia. Qed.
Lemma reset_loco : forall a p q, q <> P_UNKNOWN -> loco_setProtocol (loco_setProtocol a q) p = loco_setProtocol a p.
Proof.
  intros a p q Hq. destruct p; [rewrite !loco_setProtocol_eq by congruence; destruct q; cbn [loco_base]; try congruence; lia .. |].
  rewrite !loco_setProtocol_unknown, loco_setProtocol_eq by assumption. destruct q; cbn [loco_base]; try congruence; lia.
Qed.

(** C09 *)
Lemma classify : forall d, payload_ok d ->
  let a := to_getLocid d in
  (to_getRailProtocol d = P_SX1 <-> sx1_range a) /\
  (to_getRailProtocol d = P_MM1 <-> mm_range a) /\
  (to_getRailProtocol d = P_DCC <-> dcc_range a) /\
  (to_getRailProtocol d = P_UNKNOWN <-> ~ sx1_range a /\ ~ mm_range a /\ ~ dcc_range a).
Proof.
  intros d H a. subst a. unfold to_getRailProtocol.
  set (a := to_getLocid d).
  unfold sx1_range, mm_range, dcc_range, kSX1AccessoryAddrStart, kSX1AccessoryAddrStop,
    kMMAccessoryAddrStart, kMMAccessoryAddrStop, kDCCAccessoryAddrStart, kDCCccessoryAddrStop.
  destruct ((0x2800 <=? a) && (a <=? 0x2BFF)) eqn:E1;
  destruct ((0x3000 <=? a) && (a <=? 0x33FF)) eqn:E2;
  destruct ((0x3800 <=? a) && (a <=? 0x3FFF)) eqn:E3;
    repeat split; intros; try congruence; lia.
Qed.

Lemma setProtocol_recognised : forall d a p, payload_ok d -> is_u32 a ->
  to_getRailProtocol (to_setLocid d (turnout_setProtocol a p)) = protocol_class p.
Proof.
  intros d a p H Ha.
  assert (Hs : is_u32 (turnout_setProtocol a p)).
  { unfold is_u32 in *. destruct p; [rewrite turnout_setProtocol_eq by congruence; cbn [turnout_base]; lia .. | rewrite turnout_setProtocol_unknown; lia]. }
  unfold to_getRailProtocol, to_setLocid, to_getLocid. rewrite getLocid_setLocid by assumption.
  assert (E : turnout_setProtocol a p = if match p with P_UNKNOWN => true | _ => false end then 0xFF00 + a mod 256 else turnout_base p + a mod 1024)
    by (destruct p; [apply turnout_setProtocol_eq; congruence .. | apply turnout_setProtocol_unknown]).
  rewrite E. clear E Hs.
  unfold kSX1AccessoryAddrStart, kSX1AccessoryAddrStop,
    kMMAccessoryAddrStart, kMMAccessoryAddrStop, kDCCAccessoryAddrStart, kDCCccessoryAddrStop.
  assert (0 <= a mod 1024 < 1024) by lia.
  assert (0 <= a mod 256 < 256) by lia.
  destruct p; cbn [turnout_base protocol_class];
  repeat match goal with |- context [if ?b then _ else _] => destruct b eqn:? end; try reflexivity; lia.
Qed.

(** C10 *)
Lemma recover : forall d, payload_ok d ->
  let a := to_getLocid d in
  to_getRailProtocol d <> P_UNKNOWN ->
  (turnout_setProtocol (turnout_getNumericAddress a) (to_getRailProtocol d) = a <-> a < 0x3C00).
Proof.
  intros d H a. subst a. pose proof (classify d H) as C. cbv zeta in C.
  set (a := to_getLocid d) in *. intros N. rewrite turnout_setProtocol_eq by assumption. unfold turnout_getNumericAddress. rewrite land1023.
  unfold sx1_range, mm_range, dcc_range in C.
  destruct C as (C1 & C2 & C3 & C4).
  destruct (to_getRailProtocol d); cbn [turnout_base]; try congruence.
  all: try (pose proof (proj1 C1 eq_refl); lia).
  all: try (pose proof (proj1 C2 eq_refl); lia).
  all: try (pose proof (proj1 C3 eq_refl); lia).
  all: exfalso; assert (Hx : ~ (10240 <= a <= 11263)) by (intros Hx; apply C1 in Hx; discriminate Hx);
    assert (Hy : ~ (12288 <= a <= 13311)) by (intros Hy; apply C2 in Hy; discriminate Hy);
    assert (Hz : ~ (14336 <= a <= 16383)) by (intros Hz; apply C3 in Hz; discriminate Hz);
    discriminate (proj2 C4 (conj Hx (conj Hy Hz))).
Qed.

(** C07 *)
Lemma human_machine : forall a, is_u32 a ->
  MachineTurnoutAddress_of_human (HumanTurnoutAddress_of_machine a) = a /\
  HumanTurnoutAddress_of_machine (MachineTurnoutAddress_of_human a) = a.
Proof. unfold is_u32, MachineTurnoutAddress_of_human, HumanTurnoutAddress_of_machine, u32; intros; lia. Qed.

(** C13 *)
Lemma hash32 : forall u, is_u32 u ->
  let p := (u / 2048) * 256 + u mod 128 in
  computeSenderHash u = Z.lxor (p mod 65536) (p / 65536).
Proof.
  intros u Hu p. unfold is_u32 in Hu. unfold computeSenderHash.
  assert (E : u32 (Z.lor (Z.land (Z.shiftr u 3) 0xFFFFFF00) (Z.land u 0x7F)) = p).
  { change 0xFFFFFF00 with ((2 ^ 24 - 1) * 2 ^ 8). change 0x7F with (2 ^ 7 - 1).
    rewrite land_himask, land_mask, shr by lia. rewrite lor_add by lia. unfold u32, p. lia. }
  rewrite E. rewrite shr by lia. unfold u16 at 2 3.
  assert (0 <= p < 4294967296) by (unfold p; lia).
  assert (R : 0 <= Z.lxor (p mod 65536) ((p / 2 ^ 16) mod 65536) < 2 ^ 16) by (apply lxor_range; lia).
  unfold u16. rewrite Z.mod_small by lia. f_equal. change (2 ^ 16) with 65536. lia.
Qed.

Lemma hash16 : forall u, is_u16 u -> computeSenderHash u = (u / 2048) * 256 + u mod 128.
Proof.
  intros u Hu. unfold is_u16 in Hu. rewrite hash32 by (unfold is_u32; lia). cbv zeta.
  rewrite (Z.div_small _ 65536), Z.mod_small, Z.lxor_0_r by lia. reflexivity.
Qed.

Lemma hash_range : forall u, is_u32 u -> is_u16 (computeSenderHash u).
Proof. intros. unfold computeSenderHash, u16, is_u16. lia. Qed.

Lemma hash_collide : forall u v, is_u16 u -> is_u16 v ->
  (computeSenderHash u = computeSenderHash v <-> u mod 128 = v mod 128 /\ u / 2048 = v / 2048).
Proof. intros. rewrite !hash16 by assumption. unfold is_u16 in *. lia. Qed.

(** C55 *)
Lemma rd_blk_ok : forall m off n, 0 <= off -> 0 <= n -> off + n <= zlen m ->
  rd_blk m off n = Ok (firstn (Z.to_nat n) (skipn (Z.to_nat off) m)).
Proof. intros. unfold rd_blk. replace (_ && _ && _) with true by lia. reflexivity. Qed.

Lemma data_eq_same_len : forall a b, payload_ok a -> payload_ok b -> dlc a = dlc b ->
  data_eq a b = if dlc a <=? 9
                then Ok (if list_eq_dec Z.eq_dec (firstn (Z.to_nat (dlc a)) (dbytes a)) (firstn (Z.to_nat (dlc a)) (dbytes b)) then true else false)
                else UB OutOfBounds.
Proof.
  intros a b (A1 & A2 & A3) (B1 & B2 & B3) E. unfold byte in *.
  unfold data_eq. rewrite <- E, Z.eqb_refl. cbn [negb].
  unfold c_memcmp_eq. destruct (dlc a <=? 9) eqn:L.
  - rewrite !rd_blk_ok by (unfold zlen; lia). reflexivity.
  - unfold rd_blk, zlen. replace (_ && _ && _) with false by lia. reflexivity.
Qed.

Lemma data_eq_diff_len : forall a b, dlc a <> dlc b -> data_eq a b = Ok false.
Proof. intros. unfold data_eq. replace (dlc a =? dlc b) with false by lia. reflexivity. Qed.

Lemma firstn_ext9 : forall n (a b : list Z), List.length a = List.length b -> (n <= List.length a)%nat ->
  (firstn n a = firstn n b <-> forall i, (i < n)%nat -> nth i a 0 = nth i b 0).
Proof.
  induction n; intros a b L N.
  - split; intros; [lia|reflexivity].
  - destruct a as [|x a], b as [|y b]; cbn [List.length] in *; try lia. cbn [firstn]. split; intros H.
    + intros i Hi. injection H as -> H. destruct i; [reflexivity|]. cbn [nth].
      apply (proj1 (IHn a b ltac:(lia) ltac:(lia)) H). lia.
    + f_equal; [apply (H 0%nat); lia|]. apply (IHn a b); [lia|lia|]. intros i Hi. apply (H (S i)). lia.
Qed.

Lemma data_eq_iff : forall a b, payload_ok a -> payload_ok b -> dlc a <= 9 ->
  exists r, data_eq a b = Ok r /\
    (r = true <-> dlc a = dlc b /\ forall i, (Z.of_nat i < dlc a) -> nth i (dbytes a) 0 = nth i (dbytes b) 0).
Proof.
  intros a b A B L. destruct (Z.eq_dec (dlc a) (dlc b)) as [E|E].
  - rewrite data_eq_same_len by assumption. replace (dlc a <=? 9) with true by lia. eexists; split; [reflexivity|].
    assert (X : firstn (Z.to_nat (dlc a)) (dbytes a) = firstn (Z.to_nat (dlc a)) (dbytes b) <->
      forall i, (i < Z.to_nat (dlc a))%nat -> nth i (dbytes a) 0 = nth i (dbytes b) 0).
    { apply firstn_ext9; destruct A as (_ & A & _), B as (_ & B & _); lia. }
    destruct (list_eq_dec _ _ _) as [Y|Y]; split; intros H.
    + split; [assumption|]. intros i Hi. apply X; [assumption|lia].
    + reflexivity.
    + discriminate.
    + exfalso. apply Y, X. intros i Hi. apply H. lia.
  - rewrite data_eq_diff_len by assumption. eexists; split; [reflexivity|]. split; intros H; [discriminate|tauto].
Qed.

Lemma data_eq_refl : forall a, payload_ok a -> dlc a <= 9 -> data_eq a a = Ok true.
Proof.
  intros a A L. destruct (data_eq_iff a a A A L) as (r & E & I). rewrite E. f_equal. apply I. auto.
Qed.
Lemma data_eq_sym : forall a b, payload_ok a -> payload_ok b -> data_eq a b = data_eq b a.
Proof.
  intros a b A B. destruct (Z.eq_dec (dlc a) (dlc b)) as [E|E].
  - rewrite !data_eq_same_len by (auto; lia). rewrite <- E.
    destruct (dlc a <=? 9); [|reflexivity]. f_equal.
    destruct (list_eq_dec _ _ _) as [X|X], (list_eq_dec _ _ _) as [Y|Y]; congruence.
  - rewrite !data_eq_diff_len by lia. reflexivity.
Qed.
Lemma data_eq_true : forall a b, payload_ok a -> payload_ok b -> data_eq a b = Ok true ->
  dlc a <= 9 /\ dlc a = dlc b /\ firstn (Z.to_nat (dlc a)) (dbytes a) = firstn (Z.to_nat (dlc a)) (dbytes b).
Proof.
  intros a b A B H. destruct (Z.eq_dec (dlc a) (dlc b)) as [E|E].
  - rewrite data_eq_same_len in H by auto. destruct (dlc a <=? 9) eqn:L; [|discriminate].
    destruct (list_eq_dec _ _ _) as [X|X]; [|discriminate]. repeat split; auto; lia.
  - rewrite data_eq_diff_len in H by auto. discriminate.
Qed.
Lemma data_eq_trans : forall a b c, payload_ok a -> payload_ok b -> payload_ok c ->
  data_eq a b = Ok true -> data_eq b c = Ok true -> data_eq a c = Ok true.
Proof.
  intros a b c A B C H1 H2. apply data_eq_true in H1; auto. apply data_eq_true in H2; auto.
  destruct H1 as (L1 & E1 & F1), H2 as (L2 & E2 & F2).
  rewrite data_eq_same_len by (auto; lia). replace (dlc a <=? 9) with true by lia.
  rewrite <- E1 in F2. destruct (list_eq_dec _ _ _) as [X|X]; [reflexivity|]. congruence.
Qed.
Lemma data_eq_ub : forall a b, payload_ok a -> payload_ok b ->
  (data_eq a b = UB OutOfBounds <-> dlc a = dlc b /\ 9 < dlc a).
Proof.
  intros a b A B. destruct (Z.eq_dec (dlc a) (dlc b)) as [E|E].
  - rewrite data_eq_same_len by auto. destruct (dlc a <=? 9) eqn:L; split; intros; try discriminate; try reflexivity; lia.
  - rewrite data_eq_diff_len by auto. split; intros; [discriminate|lia].
Qed.
Lemma frame_eq_iff : forall f g, payload_ok (fdata f) -> payload_ok (fdata g) ->
  (frame_eq f g = Ok true <-> fid f = fid g /\ data_eq (fdata f) (fdata g) = Ok true).
Proof.
  intros f g F G. unfold frame_eq, id_eqb. destruct (fid f =? fid g) eqn:E.
  - apply Z.eqb_eq in E. tauto.
  - apply Z.eqb_neq in E. split; intros; [discriminate|tauto].
Qed.
Lemma to_eqb_iff : forall a b,
  to_eqb a b = true <->
  (to_getLocid a, to_getDirection a, to_getPower a) = (to_getLocid b, to_getDirection b, to_getPower b).
Proof.
  intros. unfold to_eqb. rewrite !andb_true_iff, !Z.eqb_eq, Bool.eqb_true_iff. split.
  - intros ((-> & ->) & ->). reflexivity.
  - intros H; injection H; auto.
Qed.
Lemma address_values : forall a, is_u32 a ->
  (a > 0 -> MachineTurnoutAddress_of_human a = a - 1 /\ MachineLocomotiveAddress_of_human a = a - 1) /\
  (a < 2 ^ 32 - 1 -> HumanTurnoutAddress_of_machine a = a + 1 /\ HumanLocomotiveAddress_of_machine a = a + 1).
Proof.
  unfold is_u32, MachineTurnoutAddress_of_human, MachineLocomotiveAddress_of_human,
    HumanTurnoutAddress_of_machine, HumanLocomotiveAddress_of_machine, u32. intros; lia.
Qed.
Lemma unknown_refuted : exists a, is_u32 a /\
  turnout_getNumericAddress (turnout_setProtocol a P_UNKNOWN) <> turnout_getNumericAddress a.
Proof. exists 66. split; [unfold is_u32; lia|]. vm_compute. discriminate. Qed.
Lemma reset_data : forall d, dlc (data_reset d) = 0 /\ List.length (dbytes (data_reset d)) = 9%nat /\
  (forall k, nth k (dbytes (data_reset d)) 0 = 0) /\ getLocid (data_reset d) = 0.
Proof. intros d. split; [reflexivity|]. split; [reflexivity|]. split; [|reflexivity]. intros k. apply nth_repeat. Qed.
