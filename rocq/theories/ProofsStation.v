(* ProofsStation.v -- lemmas behind PropsStation.v *)
From Verif Require Import ZLib SpecStation ProofsCodec ProofsBuffer ProofsLoco ProofsWorld.

(** ** Evaluation of actions *)
Lemma ask_ok : forall A (f : world -> res A) (k : A -> act) w x, f w = Ok x -> ask f k w = k x w.
Proof. intros A f k w x H. unfold ask. rewrite H. reflexivity. Qed.
Lemma ask_ub : forall A (f : world -> res A) (k : A -> act) w u, f w = UB u -> ask f k w = UB u.
Proof. intros A f k w x H. unfold ask. rewrite H. reflexivity. Qed.
Lemma get_st : forall w s st, station_at w s st -> get_station s w = Ok st.
Proof. intros w s st [H _]. unfold get_station, at_. rewrite H. reflexivity. Qed.
Lemma seq_ok : forall a c w w1 t1, a w = Ok (w1, t1) -> (a ;;; c) w = ('(w2, t2) <- c w1 ;; Ok (w2, t1 ++ t2)).
Proof. intros a c w w1 t1 H. unfold World.seq. rewrite H. reflexivity. Qed.
Lemma seq_ub : forall a c w u, a w = UB u -> (a ;;; c) w = UB u.
Proof. intros a c w u H. unfold World.seq. rewrite H. reflexivity. Qed.
Lemma seq_inv : forall a c w w2 t, (a ;;; c) w = Ok (w2, t) ->
  exists w1 t1 t2, a w = Ok (w1, t1) /\ c w1 = Ok (w2, t2) /\ t = t1 ++ t2.
Proof.
  intros a c w w2 t H. unfold World.seq in H. destruct (a w) as [[w1 t1]|] eqn:A; cbn in H; [|discriminate].
  destruct (c w1) as [[w3 t2]|] eqn:C; cbn in H; [|discriminate]. inversion H; subst. eauto 7.
Qed.
Lemma ask_inv : forall A (f : world -> res A) (k : A -> act) w w2 t, ask f k w = Ok (w2, t) ->
  exists x, f w = Ok x /\ k x w = Ok (w2, t).
Proof. intros A f k w w2 t H. unfold ask in H. destruct (f w) as [x|] eqn:F; cbn in H; [|discriminate]. eauto. Qed.
Lemma tx_some : forall c tx f w, cb_tx c = Some tx -> tx_send c f w = Ok (w, [EvTx tx f]).
Proof. intros c tx f w H. unfold tx_send. rewrite H. reflexivity. Qed.
Lemma tx_none : forall c f w, cb_tx c = None -> tx_send c f w = UB NullDeref.
Proof. intros c f w H. unfold tx_send. rewrite H. reflexivity. Qed.

(** ** Identifiers and payloads of outgoing frames *)
Lemma hash_fields : forall c h, byte c -> is_u16 h -> id_fields_ok 0 0 c h.
Proof. unfold byte, is_u16, id_fields_ok. intros. lia. Qed.
Lemma id0 : 0 = id_value 0 0 0 false 0. Proof. reflexivity. Qed.
Lemma mkId_value : forall c h, byte c -> is_u16 h -> mkId c h = id_value 0 0 c false h.
Proof.
  intros c h C H. unfold mkId. rewrite id0. rewrite id_setCommand_value; [|unfold id_fields_ok; lia|assumption].
  apply id_setHash_value; [|assumption]. apply hash_fields; [assumption|unfold is_u16; lia].
Qed.
Lemma resp_false : forall c h, byte c -> is_u16 h -> id_setResponse (mkId c h) false = id_value 0 0 c false h.
Proof. intros c h C H. rewrite mkId_value by assumption. apply id_setResponse_value. apply hash_fields; assumption. Qed.
Lemma restamp : forall c h, byte c -> is_u16 h -> id_setHash (id_setResponse (mkId c 0) false) h = id_value 0 0 c false h.
Proof.
  intros c h C H. rewrite resp_false; [|assumption|unfold is_u16; lia].
  apply id_setHash_value; [|assumption]. apply hash_fields; [assumption|unfold is_u16; lia].
Qed.

Lemma be_small : forall x, is_u32 x -> u8 (x / 16777216) = x / 16777216. Proof. unfold is_u32, u8; intros; lia. Qed.

Ltac station H := match type of H with station_at _ _ _ => idtac end.

(** payloads *)
Lemma setLocid0 : forall n u, is_u32 u -> byte n -> setLocid (set_dlc data0 n) u = mkData n (be_bytes u ++ [0; 0; 0; 0; 0]).
Proof.
  intros n u U N. rewrite setLocid_eq; [|apply set_dlc_ok, data0_ok|assumption]. unfold set_dlc. rewrite u8_byte by assumption. reflexivity.
Qed.
Lemma upd4 : forall n u v r, upd 4 v (be_bytes u ++ n :: r) = be_bytes u ++ v :: r. Proof. reflexivity. Qed.
Lemma upd5 : forall n m u v r, upd 5 v (be_bytes u ++ m :: n :: r) = be_bytes u ++ m :: v :: r. Proof. reflexivity. Qed.
Lemma padded4 : forall u, padded (be_bytes u) = mkData 4 (be_bytes u ++ [0; 0; 0; 0; 0]). Proof. reflexivity. Qed.
Lemma padded5 : forall u x, padded (be_bytes u ++ [x]) = mkData 5 (be_bytes u ++ [x; 0; 0; 0; 0]). Proof. reflexivity. Qed.
Lemma padded6 : forall u x y, padded (be_bytes u ++ [x; y]) = mkData 6 (be_bytes u ++ [x; y; 0; 0; 0]). Proof. reflexivity. Qed.

Lemma mask_base : forall p, getAccessoryLocIdMask p = turnout_base p. Proof. destruct p; reflexivity. Qed.
Lemma base_u32 : forall p, is_u32 (turnout_base p). Proof. destruct p; unfold is_u32; cbn; lia. Qed.
Lemma lor_u32 : forall a c, is_u32 a -> is_u32 c -> is_u32 (Z.lor a c).
Proof. unfold is_u32. intros. apply (lor_range a c 32); lia. Qed.

Lemma bytes_of : forall v, is_u16 v -> byte (v / 256) /\ byte (v mod 256). Proof. unfold is_u16, byte; intros; lia. Qed.
Lemma bool_byte : forall v : bool, byte (if v then 1 else 0). Proof. destruct v; unfold byte; lia. Qed.

(** the frames the operations build *)
Lemma frame_dir : forall h u d, is_u16 h -> is_u32 u -> byte d ->
  mkFrame (id_setHash (fid (fr_LocoDirection false u d)) h) (fdata (fr_LocoDirection false u d)) = outgoing h CMD_DIRECTION (be_bytes u ++ [d]).
Proof.
  intros h u d H U D. unfold fr_LocoDirection, outgoing. cbn [fid fdata]. rewrite restamp; [|unfold byte, kLocoDirection; lia|assumption].
  rewrite setLocid0 by (unfold byte; first [assumption|lia]). rewrite padded5. unfold dset. cbn [dlc dbytes]. rewrite upd4, u8_byte by assumption. reflexivity.
Qed.
Lemma frame_speed : forall h u v, is_u16 h -> is_u32 u -> is_u16 v ->
  mkFrame (id_setHash (fid (fr_LocoSpeed false u v)) h) (fdata (fr_LocoSpeed false u v)) =
  outgoing h CMD_SPEED (be_bytes u ++ [Z.min v 1000 / 256; Z.min v 1000 mod 256]).
Proof.
  intros h u v H U V. unfold fr_LocoSpeed, outgoing. cbn [fid fdata]. rewrite restamp; [|unfold byte, kLocoSpeed; lia|assumption].
  rewrite setLocid0 by (unfold byte; first [assumption|lia]). rewrite padded6.
  assert (M : (if v >? kMaxEngineVelocity then kMaxEngineVelocity else v) = Z.min v 1000).
  { unfold kMaxEngineVelocity. destruct (Z.gtb_spec v 1000); lia. }
  rewrite M. clear M. unfold dset. cbn [dlc dbytes]. rewrite upd4, upd5.
  assert (M : is_u16 (Z.min v 1000)) by (unfold is_u16 in *; lia). destruct (bytes_of _ M).
  rewrite shr by lia. change (2 ^ 8) with 256. rewrite (u8_byte (_ / _)) by assumption. reflexivity.
Qed.
Lemma frame_fun : forall h u f v, is_u16 h -> is_u32 u -> byte f ->
  mkFrame (id_setHash (fid (fr_LocoFunction false u f v)) h) (fdata (fr_LocoFunction false u f v)) =
  outgoing h CMD_FUNCTION (be_bytes u ++ [f; if v then 1 else 0]).
Proof.
  intros h u f v H U D. unfold fr_LocoFunction, outgoing. cbn [fid fdata]. rewrite restamp; [|unfold byte, kLocoFunction; lia|assumption].
  rewrite setLocid0 by (unfold byte; first [assumption|lia]). rewrite padded6. unfold dset. cbn [dlc dbytes]. rewrite upd4, upd5.
  rewrite !u8_byte by (first [assumption|apply bool_byte]). reflexivity.
Qed.
Lemma frame_req : forall st c u, is_u16 (st_hash st) -> byte c -> is_u32 u ->
  st_frame st c (setLocid (set_dlc data0 4) u) = outgoing (st_hash st) c (be_bytes u).
Proof.
  intros st c u H C U. unfold st_frame, outgoing. rewrite mkId_value by assumption.
  rewrite setLocid0 by (unfold byte; first [assumption|lia]). rewrite padded4. reflexivity.
Qed.
Lemma frame_reqfun : forall st u f, is_u16 (st_hash st) -> byte f -> is_u32 u ->
  st_frame st kLocoFunction (dset (setLocid (set_dlc data0 5) u) 4 f) = outgoing (st_hash st) CMD_FUNCTION (be_bytes u ++ [f]).
Proof.
  intros st u f H C U. unfold st_frame, outgoing. rewrite mkId_value; [|unfold byte, kLocoFunction; lia|assumption].
  rewrite setLocid0 by (unfold byte; first [assumption|lia]). rewrite padded5. unfold dset. cbn [dlc dbytes]. rewrite upd4, u8_byte by assumption. reflexivity.
Qed.
Lemma frame_em : forall st u, is_u16 (st_hash st) -> is_u32 u ->
  st_frame st kSystemCommand (sys_setLocid (sys_setSubcommand (sys_initData data0) kSubcommandLocoEmergencyStop) u) =
  outgoing (st_hash st) CMD_SYSTEM (be_bytes u ++ [3]).
Proof.
  intros st u H U. unfold st_frame, outgoing. rewrite mkId_value; [|unfold byte, kSystemCommand; lia|assumption].
  unfold sys_setLocid. rewrite setLocid_eq; [|apply dset_ok, set_dlc_ok, data0_ok|assumption]. reflexivity.
Qed.
Lemma frame_sys : forall st c, is_u16 (st_hash st) -> byte c ->
  st_frame st kSystemCommand (dset (set_dlc data0 5) 4 c) = outgoing (st_hash st) CMD_SYSTEM [0; 0; 0; 0; c].
Proof.
  intros st u H U. unfold st_frame, outgoing. rewrite mkId_value; [|unfold byte, kSystemCommand; lia|assumption].
  unfold dset. rewrite u8_byte by assumption. reflexivity.
Qed.
Lemma frame_acc : forall st a p d pw, is_u16 (st_hash st) -> is_u32 a -> byte d ->
  st_frame st kAccessorySwitch (to_setPower (to_setDirection (to_setLocid (to_initData data0) (turnout_or a (getAccessoryLocIdMask p))) d) (negb (pw =? 0))) =
  outgoing (st_hash st) CMD_ACCESSORY (be_bytes (Z.lor a (turnout_base p)) ++ [d; if pw =? 0 then 0 else 1]).
Proof.
  intros st a p d pw H A D. unfold st_frame, outgoing. rewrite mkId_value; [|unfold byte, kAccessorySwitch; lia|assumption].
  unfold to_setLocid, to_initData, turnout_or. rewrite mask_base.
  rewrite setLocid0; [|apply lor_u32; [assumption|apply base_u32]|unfold byte; lia].
  unfold to_setPower, to_setDirection, dset. cbn [dlc dbytes]. rewrite upd4, upd5, padded6, u8_byte by assumption.
  destruct (pw =? 0); reflexivity.
Qed.

Lemma send_functions_eq : forall st tx u, is_u16 (st_hash st) -> is_u32 u -> cb_tx (st_cbs st) = Some tx ->
  forall n i w, 0 <= i -> i + Z.of_nat n <= 256 ->
  send_functions st u i n w = Ok (w, map (EvTx tx) (map (fun k => outgoing (st_hash st) CMD_FUNCTION (be_bytes u ++ [i + Z.of_nat k])) (List.seq 0 n))).
Proof.
  intros st tx u H U T. induction n as [|n IH]; intros i w I N; [reflexivity|].
  cbn [send_functions]. rewrite (seq_ok _ _ _ _ _ (tx_some _ _ _ _ T)). rewrite IH by lia. cbn [bind].
  rewrite frame_reqfun; [|assumption|unfold byte; lia|assumption].
  cbn [List.seq map app]. rewrite Z.add_0_r. do 4 f_equal.
  rewrite <- seq_shift, !map_map. apply map_ext. intros k. replace (i + 1 + Z.of_nat k) with (i + Z.of_nat (S k)) by lia. reflexivity.
Qed.

Lemma dir_range : forall d, ((d =? 1) || (d =? 2) || (d =? 3)) = ((1 <=? d) && (d <=? 3)).
Proof.
  intros d. destruct (Z.eqb_spec d 1), (Z.eqb_spec d 2), (Z.eqb_spec d 3), (Z.leb_spec 1 d), (Z.leb_spec d 3); cbn; try reflexivity; lia.
Qed.
Lemma sends : forall lw w s st tx o fs, station_at w s st -> cb_tx (st_cbs st) = Some tx -> args_ok o ->
  output (st_hash st) o = Some fs -> step lw (OnStation s o) w = Ok (w, map (EvTx tx) fs).
Proof.
  intros lw w s st tx o fs S0 T A O. pose proof (get_st _ _ _ S0) as G. destruct S0 as [_ H].
  destruct o; cbn [output] in O; try discriminate; injection O as <-; cbn [step st_step args_ok] in *; unfold is_u32, byte in *;
  unfold st_sendAccessoryPacket, st_requestEngineDirection, st_sendEngineDirection, st_requestEngineVelocity, st_sendEngineVelocity,
    st_requestEngineFunction, st_requestEngineAllFunctions, st_sendEngineFunction, st_sendEmergencyStop, st_sendSystemStop, st_sendSystemGo, st_sendPacket.
  - rewrite (ask_ok _ _ _ _ _ G). cbv beta zeta. rewrite (tx_some _ _ _ _ T). rewrite frame_acc by (unfold is_u32, byte; tauto). reflexivity.
  - rewrite (ask_ok _ _ _ _ _ G). rewrite (tx_some _ _ _ _ T). rewrite frame_req by (unfold is_u32, byte, kLocoDirection; first [assumption|lia]). reflexivity.
  - assert (X : ((direction =? DIR_FORWARD) || (direction =? DIR_REVERSE) || (direction =? DIR_CHANGE)) = ((1 <=? direction) && (direction <=? 3))).
    { unfold DIR_FORWARD, DIR_REVERSE, DIR_CHANGE. apply dir_range. }
    rewrite X. destruct ((1 <=? direction) && (direction <=? 3)); [|reflexivity].
    rewrite (ask_ok _ _ _ _ _ G). rewrite (tx_some _ _ _ _ T). rewrite frame_dir by (unfold is_u32, byte; tauto). reflexivity.
  - rewrite (ask_ok _ _ _ _ _ G). rewrite (tx_some _ _ _ _ T). rewrite frame_req by (unfold is_u32, byte, kLocoSpeed; first [assumption|lia]). reflexivity.
  - rewrite (ask_ok _ _ _ _ _ G). rewrite (tx_some _ _ _ _ T). rewrite frame_speed by (unfold is_u32; tauto). reflexivity.
  - rewrite (ask_ok _ _ _ _ _ G). rewrite (tx_some _ _ _ _ T). rewrite frame_reqfun by (unfold is_u32, byte; tauto). reflexivity.
  - rewrite (ask_ok _ _ _ _ _ G). rewrite (send_functions_eq _ tx) by (unfold is_u32; first [tauto|lia]). reflexivity.
  - rewrite (ask_ok _ _ _ _ _ G). rewrite (tx_some _ _ _ _ T). rewrite frame_fun by (unfold is_u32, byte; tauto). reflexivity.
  - rewrite (ask_ok _ _ _ _ _ G). rewrite (tx_some _ _ _ _ T). rewrite frame_em by (unfold is_u32; tauto). reflexivity.
  - rewrite (ask_ok _ _ _ _ _ G). rewrite (tx_some _ _ _ _ T). rewrite frame_sys by (unfold byte, kSubcommandSystemStop, kSubcommandSystemGo; first [assumption|lia]). reflexivity.
  - rewrite (ask_ok _ _ _ _ _ G). rewrite (tx_some _ _ _ _ T). rewrite frame_sys by (unfold byte, kSubcommandSystemStop, kSubcommandSystemGo; first [assumption|lia]). reflexivity.
Qed.
(** without a transmit callback *)
Lemma sends_null : forall lw w s st o fs, station_at w s st -> cb_tx (st_cbs st) = None ->
  output (st_hash st) o = Some fs -> step lw (OnStation s o) w = match fs with [] => Ok (w, []) | _ => UB NullDeref end.
Proof.
  intros lw w s st o fs S0 T O. pose proof (get_st _ _ _ S0) as G. destruct S0 as [_ H].
  destruct o; cbn [output] in O; try discriminate; injection O as <-; cbn [step st_step] in *;
  unfold st_sendAccessoryPacket, st_requestEngineDirection, st_sendEngineDirection, st_requestEngineVelocity, st_sendEngineVelocity,
    st_requestEngineFunction, st_requestEngineAllFunctions, st_sendEngineFunction, st_sendEmergencyStop, st_sendSystemStop, st_sendSystemGo, st_sendPacket.
  3:{ assert (X : ((direction =? DIR_FORWARD) || (direction =? DIR_REVERSE) || (direction =? DIR_CHANGE)) = ((1 <=? direction) && (direction <=? 3))).
    { unfold DIR_FORWARD, DIR_REVERSE, DIR_CHANGE. apply dir_range. }
    rewrite X. destruct ((1 <=? direction) && (direction <=? 3)); [|reflexivity].
    rewrite (ask_ok _ _ _ _ _ G). apply tx_none; assumption. }
  6:{ rewrite (ask_ok _ _ _ _ _ G). cbn [send_functions]. rewrite (seq_ub _ _ _ _ (tx_none _ _ _ T)). reflexivity. }
  all: rewrite (ask_ok _ _ _ _ _ G); apply tx_none; assumption.
Qed.
Lemma sendPacket : forall lw w s st tx t p c r h d, station_at w s st -> cb_tx (st_cbs st) = Some tx -> id_fields_ok t p c h ->
  step lw (OnStation s (SendPacket (mkFrame (id_value t p c r h) d))) w = Ok (w, [EvTx tx (mkFrame (id_value t p c r (st_hash st)) d)]).
Proof.
  intros lw w s st tx t p c r h d S0 T F. pose proof (get_st _ _ _ S0) as G. destruct S0 as [_ H].
  cbn [step st_step]. unfold st_sendPacket. rewrite (ask_ok _ _ _ _ _ G), (tx_some _ _ _ _ T). cbn [fid fdata].
  rewrite id_setHash_value by assumption. reflexivity.
Qed.

(** ** Receiving *)
Lemma print_res_ok : forall r bs w, r = Ok bs -> print_res r w = Ok (w, [EvPrint bs]).
Proof. intros r bs w ->. reflexivity. Qed.
Lemma visited_ok : forall d, payload_ok d -> dlc d <= 9 -> data_visited d = Ok (firstn (Z.to_nat (dlc d)) (dbytes d)).
Proof.
  intros d (D & L & _) H. unfold data_visited. rewrite rd_blk_ok; [reflexivity|lia|unfold byte in D; lia|unfold zlen; rewrite L; unfold byte in D; lia].
Qed.
Lemma visited_ub : forall d, payload_ok d -> 9 < dlc d -> data_visited d = UB OutOfBounds.
Proof.
  intros d (D & L & _) H. unfold data_visited, rd_blk, zlen. rewrite L.
  replace (0 + dlc d <=? Z.of_nat 9) with false by (symmetry; apply Z.leb_gt; lia). rewrite andb_false_r. reflexivity.
Qed.
Lemma hex_ok : forall d, payload_ok d -> dlc d <= 9 -> exists bs, printAsHex d = Ok bs.
Proof. intros d P H. unfold printAsHex. rewrite visited_ok by assumption. eexists; reflexivity. Qed.
Lemma locid_uid : forall d, payload_ok d -> getLocid d = uid_of d.
Proof. intros d P. nine d P. rewrite getLocid_eq by assumption. reflexivity. Qed.
Lemma speed_eq : forall d, payload_ok d -> u16 (Z.lor (Z.shiftl (dget d 4) 8) (dget d 5)) = b d 4 * 256 + b d 5.
Proof.
  intros d P. nine d P. unfold dget, b. cbn [dbytes nth]. rewrite be16 by (unfold byte in *; lia). unfold u16, byte in *. apply Z.mod_small. lia.
Qed.

Ltac evs := unfold puts, print, World.seq, emit, when_some, skip, bind; cbn [app calls filter is_print negb].

Lemma system_spec : forall w s st t p r h d, station_at w s st -> id_fields_ok t p CMD_SYSTEM h -> payload_ok d ->
  exists tr, st_handleSystemCommand s (id_value t p CMD_SYSTEM r h) d w = Ok (w, tr) /\ calls tr = heard (st_cbs st) CMD_SYSTEM r d.
Proof.
  intros w s st t p r h d S0 F P. unfold st_handleSystemCommand. rewrite (ask_ok _ _ _ _ _ (get_st _ _ _ S0)). cbv zeta.
  rewrite id_isResponse_value by assumption. unfold sys_getLocid. rewrite (locid_uid d P). unfold heard, told_system, told_engine. cbn [Z.eqb CMD_SYSTEM].
  rewrite Z.geb_leb. change (sys_getSubcommand d) with (b d 4).
  unfold kSubcommandSystemGo, kSubcommandSystemHalt, kSubcommandSystemStop, kSubcommandLocoEmergencyStop, kSubcommandSystemIdentifier,
    kSubcommandSystemOverload, kSubcommandSystemReset, kSubcommandSystemStatus.
  destruct (Z.leb_spec 5 (dlc d)) as [L|L]; destruct (Z.ltb_spec (dlc d) 5) as [L'|L']; try lia;
    [|eexists; split; reflexivity].
  evs. destruct (Z.eqb_spec (b d 4) 1) as [E|E].
  { rewrite E. cbn [Z.eqb]. destruct (cb_sys (st_cbs st)); eexists; split; reflexivity. }
  destruct (Z.eqb_spec (b d 4) 2) as [E2|E2].
  { rewrite E2. cbn [Z.eqb]. destruct (cb_eng (st_cbs st)); eexists; split; reflexivity. }
  destruct (Z.eqb_spec (b d 4) 0) as [E3|E3].
  { destruct (cb_sys (st_cbs st)); eexists; split; reflexivity. }
  destruct (Z.eqb_spec (b d 4) 3) as [E4|E4].
  { destruct (cb_eng (st_cbs st)); eexists; split; reflexivity. }
  destruct (b d 4 =? 12), (b d 4 =? 10), (b d 4 =? 128), (b d 4 =? 11); eexists; split; reflexivity.
Qed.

Lemma handle_spec : forall lw w s st t p c r h d, station_at w s st -> id_fields_ok t p c h -> payload_ok d -> dlc d <= 9 ->
  c <> CMD_CONFIG_DATA -> ~ (cb_eng (st_cbs st) = None /\ unguarded c d) ->
  exists tr, step lw (OnStation s (HandlePacket (mkFrame (id_value t p c r h) d))) w = Ok (w, tr) /\ calls tr = heard (st_cbs st) c r d.
Proof.
  intros lw w s st t p c r h d S0 F P D C U. cbn [step st_step]. unfold st_handlePacket. cbn [fid fdata].
  rewrite id_getCommand_value by assumption.
  unfold kSystemCommand, kPing, kAccessorySwitch, kLocoDirection, kLocoSpeed, kLocoFunction, kRequestConfigData, kConfigDataStream, kDebugText.
  pose proof (get_st _ _ _ S0) as G.
  destruct (Z.eqb_spec c 0) as [->|N0]. { apply system_spec; assumption. }
  destruct (Z.eqb_spec c 24) as [->|N24]. { eexists; split; reflexivity. }
  destruct (Z.eqb_spec c 11) as [->|N11].
  { rewrite id_isResponse_value by assumption. unfold puts, print. rewrite (seq_ok (emit _) _ w w _ eq_refl).
    unfold st_handleAccessoryPacket. unfold World.seq at 1. rewrite (ask_ok _ _ _ _ _ G). unfold heard, told_accessory. cbn [Z.eqb CMD_SYSTEM CMD_SPEED CMD_DIRECTION CMD_FUNCTION CMD_ACCESSORY Pos.eqb].
    evs. destruct (cb_acc (st_cbs st)); eexists; split; reflexivity. }
  destruct (Z.eqb_spec c 5) as [->|N5].
  { unfold st_handleLocoDirection. rewrite (ask_ok _ _ _ _ _ G). cbv zeta. rewrite (locid_uid d P). change (dget d 4) with (b d 4). unfold DIR_FORWARD, DIR_REVERSE, DIR_CHANGE.
    unfold heard, told_engine. cbn [Z.eqb CMD_SYSTEM CMD_SPEED CMD_DIRECTION CMD_FUNCTION CMD_ACCESSORY Pos.eqb].
    unfold unguarded in U.
    destruct (Z.eqb_spec (dlc d) 5) as [E|E]; [|eexists; split; reflexivity].
    assert (En : 1 <= b d 4 <= 3 -> exists o, cb_eng (st_cbs st) = Some o).
    { intros R. destruct (cb_eng (st_cbs st)) as [o|]; [eauto|]. exfalso. apply U. split; [reflexivity|left]. auto. }
    destruct (Z.eqb_spec (b d 4) 1) as [E1|E1].
    { destruct En as [o ->]; [lia|]. rewrite E1. cbn [orb]. unfold ask, deref, bind, emit. eexists; split; reflexivity. }
    destruct (Z.eqb_spec (b d 4) 2) as [E2|E2].
    { destruct En as [o ->]; [lia|]. rewrite E2. cbn [orb]. unfold ask, deref, bind, emit. eexists; split; reflexivity. }
    destruct (Z.eqb_spec (b d 4) 3) as [E3|E3].
    { destruct En as [o ->]; [lia|]. cbn [orb]. unfold ask, deref, bind, emit. eexists; split; reflexivity. }
    eexists; split; reflexivity. }
  destruct (Z.eqb_spec c 4) as [->|N4].
  { unfold st_handleLocoSpeed. rewrite (ask_ok _ _ _ _ _ G). cbv zeta. rewrite (locid_uid d P), (speed_eq d P).
    unfold heard, told_engine. cbn [Z.eqb CMD_SYSTEM CMD_SPEED CMD_DIRECTION CMD_FUNCTION CMD_ACCESSORY Pos.eqb].
    destruct (dlc d =? 6); [|eexists; split; reflexivity].
    destruct (cb_eng (st_cbs st)); eexists; split; reflexivity. }
  destruct (Z.eqb_spec c 6) as [->|N6].
  { unfold st_handleLocoFunction. rewrite (ask_ok _ _ _ _ _ G). rewrite (locid_uid d P). unfold heard, told_engine.
    cbn [Z.eqb CMD_SYSTEM CMD_SPEED CMD_DIRECTION CMD_FUNCTION CMD_ACCESSORY Pos.eqb]. unfold unguarded in U.
    destruct (Z.eqb_spec (dlc d) 6) as [E|E]; [|eexists; split; reflexivity].
    destruct (cb_eng (st_cbs st)) as [o|]; [eexists; split; reflexivity|]. exfalso. apply U. split; [reflexivity|right; auto]. }
  assert (H0 : heard (st_cbs st) c r d = []).
  { unfold heard, CMD_SYSTEM, CMD_SPEED, CMD_DIRECTION, CMD_FUNCTION, CMD_ACCESSORY.
    rewrite (proj2 (Z.eqb_neq c 0) N0), (proj2 (Z.eqb_neq c 4) N4), (proj2 (Z.eqb_neq c 5) N5), (proj2 (Z.eqb_neq c 6) N6), (proj2 (Z.eqb_neq c 11) N11). reflexivity. }
  rewrite H0. destruct (Z.eqb_spec c 32) as [_|_]. { eexists; split; reflexivity. }
  destruct (Z.eqb_spec c 33) as [X|_]. { exfalso. apply C. assumption. }
  destruct (Z.eqb_spec c 66) as [_|_]. { unfold printAsText. rewrite (visited_ok d P D). eexists; split; reflexivity. }
  destruct (hex_ok d P D) as [bs ->]. eexists; split; reflexivity.
Qed.

(** ** Instances of the program logic with everything reachable *)
Definition any (i : nat) : Prop := True.
Definition any2 (i j : nat) : Prop := True.
Definition not_tx (e : event) : Prop := match e with EvTx _ _ => False | _ => True end.
Definition own (s : nat) (c0 : Cbs) (i : nat) (st : Station) : Prop :=
  i = s -> cb_tx (st_cbs st) = cb_tx c0 /\ cb_sys (st_cbs st) = cb_sys c0 /\
  cb_eng (st_cbs st) = cb_eng c0 /\ cb_acc (st_cbs st) = cb_acc c0 /\ optin any (cb_cfg (st_cbs st)).
Lemma optany : forall q, optin any q. Proof. intros [x|]; exact I. Qed.
Lemma optany2 : forall c q, optin (any2 c) q. Proof. intros c [x|]; exact I. Qed.
Lemma inv_own : forall w s st, station_at w s st -> inv (own s (st_cbs st)) (Ipa any any) (Ico any any any2) Ien w.
Proof.
  intros w s st [S0 _]. unfold inv. split; [|split; [|split]].
  - intros i x Hx ->. rewrite S0 in Hx. inversion Hx; subst. repeat split. apply optany.
  - intros i x _ _. destruct x; [split; apply optany|exact I].
  - intros i x _ _. destruct x as [[|e] [|cb]|co infos n off [|cb]|]; split; try exact I; first [apply optany|apply optany2].
  - intros i x _. exact I.
Qed.
Lemma inv_any : forall w, inv (fun _ _ => True) (Ipa any any) (Ico any any any2) Ien w.
Proof.
  intros w. unfold inv. split; [|split; [|split]].
  - intros i x Hx. exact I.
  - intros i x _ _. destruct x; [split; apply optany|exact I].
  - intros i x _ _. destruct x as [[|e] [|cb]|co infos n off [|cb]|]; split; try exact I; first [apply optany|apply optany2].
  - intros i x _. exact I.
Qed.
Lemma own_iff : forall s c0 st, own s c0 s st <-> cb_tx (st_cbs st) = cb_tx c0 /\ cb_sys (st_cbs st) = cb_sys c0 /\
  cb_eng (st_cbs st) = cb_eng c0 /\ cb_acc (st_cbs st) = cb_acc c0 /\ optin any (cb_cfg (st_cbs st)).
Proof. intros. unfold own. split; [intros H; apply H; reflexivity|intros H _; exact H]. Qed.
Lemma nth_ext_error : forall A (l l' : list A), (forall i, nth_error l i = nth_error l' i) -> l = l'.
Proof.
  induction l as [|x l IH]; intros [|y l'] H; [reflexivity|specialize (H O); discriminate|specialize (H O); discriminate|].
  f_equal; [specialize (H O); cbn in H; congruence|]. apply IH. intros i. exact (H (S i)).
Qed.
Lemma fr_none : forall A (l l' : list A), fr (fun _ => False) l l' -> l' = l.
Proof. intros A l l' [_ H]. apply nth_ext_error. intros i. apply H. auto. Qed.

Lemma cfg_call_keeps : forall lw p c w w' t, cfg_call lw p c w = Ok (w', t) ->
  w_stations w' = w_stations w /\ List.length (w_parsers w') = List.length (w_parsers w) /\ Forall not_tx t.
Proof.
  intros lw p c w w' t H.
  pose proof (A_cfg_call lw any any any any2 not_tx (fun _ => True)) as T.
  specialize (T (fun _ _ => I) (fun _ _ _ => I) (fun _ _ _ _ _ => I) (fun _ _ => I) (fun _ _ => I) (fun _ _ _ _ => I) (fun _ _ _ _ => I) (fun _ => I)
    (fun _ _ => True) (fun _ => False) p c I w (inv_any w)).
  rewrite H in T. destruct T as (_ & (F1 & F2 & _) & F3). split; [apply fr_none; exact F1|]. split; [apply F2|exact F3].
Qed.
Lemma cfg_call_nonull : forall lw p c w, cfg_call lw p c w <> UB NullDeref.
Proof.
  intros lw p c w H.
  pose proof (A_cfg_call lw any any any any2 (fun _ => True) (fun u => u <> NullDeref)) as T.
  specialize (T (fun _ H => H) (fun _ _ _ => I) (fun _ _ _ _ _ => I) (fun _ _ => I) (fun _ _ => I) (fun _ _ _ _ => I) (fun _ _ _ _ => I) (fun _ => I)
    (fun _ _ => True) (fun _ => False) p c I w (inv_any w)).
  rewrite H in T. apply T. reflexivity.
Qed.

(** receiving: the stations do not change, nothing is transmitted *)
Lemma receive_keeps : forall lw w s st o w' t, station_at w s st -> is_receive o = true ->
  step lw (OnStation s o) w = Ok (w', t) -> w_stations w' = w_stations w /\ Forall not_tx t.
Proof.
  intros lw w s st o w' t S0 R H.
  assert (T : tri (own s (st_cbs st)) (Ipa any any) (Ico any any any2) Ien (fun _ => False) any any any not_tx (fun _ => True) (step lw (OnStation s o))).
  { destruct o; try discriminate; cbn [step st_step].
    - eapply A_handle; try (cbn; auto; fail). apply own_iff.
    - eapply A_accessory; try (cbn; auto; fail). apply own_iff.
    - eapply A_config; try (cbn; auto; fail). apply own_iff.
    - eapply A_system; try (cbn; auto; fail). apply own_iff.
    - eapply A_direction; try (cbn; auto; fail). apply own_iff.
    - eapply A_speed; try (cbn; auto; fail). apply own_iff.
    - eapply A_function; try (cbn; auto; fail). apply own_iff. }
  specialize (T w (inv_own _ _ _ S0)). rewrite H in T. destruct T as (_ & (F & _) & E). split; [apply fr_none; exact F|exact E].
Qed.
Lemma not_tx_sent : forall t, Forall not_tx t -> sent t = [].
Proof. intros t H. unfold sent. induction H as [|e t E H IH]; [reflexivity|]. cbn. rewrite IH. destruct e; try reflexivity. destruct E. Qed.

(** ** Null callbacks *)
Lemma unguarded_ub : forall lw w s st t p c r h d, station_at w s st -> id_fields_ok t p c h -> payload_ok d ->
  cb_eng (st_cbs st) = None -> unguarded c d -> step lw (OnStation s (HandlePacket (mkFrame (id_value t p c r h) d))) w = UB NullDeref.
Proof.
  intros lw w s st t p c r h d S0 F P N U. cbn [step st_step]. unfold st_handlePacket. cbn [fid fdata].
  rewrite id_getCommand_value by assumption. pose proof (get_st _ _ _ S0) as G. destruct U as [(-> & L & R)|(-> & L)].
  - unfold st_handleLocoDirection. cbn -[World.seq st_handleConfigDataStream]. rewrite (ask_ok _ _ _ _ _ G). rewrite L, N. cbn [Z.eqb Pos.eqb].
    change (dget d 4) with (b d 4). unfold DIR_FORWARD, DIR_REVERSE, DIR_CHANGE. cbv zeta.
    assert (K : b d 4 = 1 \/ b d 4 = 2 \/ b d 4 = 3) by lia. destruct K as [->|[->| ->]]; reflexivity.
  - unfold st_handleLocoFunction. cbn -[World.seq st_handleConfigDataStream]. rewrite (ask_ok _ _ _ _ _ G). rewrite L, N. reflexivity.
Qed.
Lemma config_nonull : forall lw w s st d, station_at w s st -> st_handleConfigDataStream lw s d w <> UB NullDeref.
Proof.
  intros lw w s st d S0. unfold st_handleConfigDataStream. rewrite (ask_ok _ _ _ _ _ (get_st _ _ _ S0)). unfold ask.
  assert (PT : (puts "Ignoring ConfigData Stream: ";;; print_res (printAsText d)) w <> UB NullDeref).
  { unfold puts, print, World.seq, emit, bind, print_res, ask. pose proof (nn_text d) as N. destruct (printAsText d); cbn; [discriminate|]. unfold nonull in N. congruence. }
  destruct (cb_cfg (st_cbs st)) as [q|]; cbn [bind]; [|exact PT].
  unfold cfg_isProcessing, get_parser, at_. destruct (nth_error (w_parsers w) q) as [x|]; cbn [bind]; [|discriminate].
  destruct (ss_processing (pobj_state x)); [apply cfg_call_nonull|exact PT].
Qed.
Lemma unguarded_dec : forall c d, unguarded c d \/ ~ unguarded c d.
Proof.
  intros c d. unfold unguarded.
  destruct (Z.eq_dec c CMD_DIRECTION), (Z.eq_dec (dlc d) 5), (Z_le_dec 1 (b d 4)), (Z_le_dec (b d 4) 3), (Z.eq_dec c CMD_FUNCTION), (Z.eq_dec (dlc d) 6); tauto.
Qed.
Lemma null_iff : forall lw w s st t p c r h d, station_at w s st -> id_fields_ok t p c h -> payload_ok d -> dlc d <= 9 ->
  (step lw (OnStation s (HandlePacket (mkFrame (id_value t p c r h) d))) w = UB NullDeref <-> cb_eng (st_cbs st) = None /\ unguarded c d).
Proof.
  intros lw w s st t p c r h d S0 F P D. split.
  - intros H. destruct (Z.eq_dec c CMD_CONFIG_DATA) as [->|N].
    + exfalso. revert H. cbn [step st_step]. unfold st_handlePacket. cbn [fid fdata]. rewrite id_getCommand_value by assumption.
      change (st_handleConfigDataStream lw s d w = UB NullDeref -> False). eapply config_nonull. eassumption.
    + destruct (cb_eng (st_cbs st)) as [o|] eqn:E.
      * destruct (handle_spec lw w s st t p c r h d S0 F P D N) as (tr & T & _); [rewrite E; intros [X _]; discriminate|congruence].
      * split; [reflexivity|]. destruct (unguarded_dec c d) as [U|U]; [exact U|].
        destruct (handle_spec lw w s st t p c r h d S0 F P D N) as (tr & T & _); [tauto|congruence].
  - intros [N U]. eapply unguarded_ub; eassumption.
Qed.
