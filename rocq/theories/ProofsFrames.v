(* ProofsFrames.v -- proofs about the frame builders. *)
From Verif Require Import ZLib SpecFrames ProofsCodec ProofsBuffer ProofsWorld ProofsStation.

Lemma resp_value : forall c r, byte c -> id_setResponse (mkId c 0) r = id_value 0 0 c r 0.
Proof.
  intros c r C. rewrite mkId_value by (try exact C; unfold is_u16; lia). apply id_setResponse_value. apply hash_fields; [exact C|unfold is_u16; lia].
Qed.
Ltac cmd := unfold byte, is_u16; split; [let X := fresh in intro X; discriminate X|reflexivity].
Lemma built_wire : forall x, build_ok x -> let '(cmd, resp, bytes) := wire x in built x = mkFrame (id_value 0 0 cmd resp 0) (padded bytes).
Proof.
  intros x OK. destruct x; cbn [wire built build_ok] in *.
  - destruct OK as (A & D). unfold fr_Turnout. rewrite resp_value by cmd. rewrite padded6.
    unfold to_initData, to_setLocid. rewrite setLocid0 by (try exact A; unfold byte; lia). unfold to_setDirection, to_setPower, dset. cbn [dlc dbytes]. rewrite upd4, upd5.
    rewrite (u8_byte direction D). rewrite u8_byte by apply bool_byte. reflexivity.
  - destruct OK as (A & B & C & D). unfold fr_S88Event. rewrite mkId_value by cmd.
    unfold s88_setStates, s88_setContactId, s88_setDeviceId, s88_setSubtype, s88_initData, set_dlc, dset, data0. cbn [dlc dbytes upd repeat].
    rewrite (u8_byte old C), (u8_byte new D). rewrite !Z.shiftr_div_pow2 by lia. reflexivity.
  - destruct OK as (A & B & D). unfold fr_S88Event_new. unfold fr_S88Event. rewrite mkId_value by cmd.
    unfold s88_setStates, s88_setContactId, s88_setDeviceId, s88_setSubtype, s88_initData, set_dlc, dset, data0. cbn [dlc dbytes upd repeat].
    rewrite (u8_byte new D). rewrite !Z.shiftr_div_pow2 by lia. unfold SENSOR_OPEN, SENSOR_CLOSED. destruct (new =? 0); reflexivity.
  - unfold fr_System_Stop, fr_System. rewrite resp_value by cmd. reflexivity.
  - unfold fr_System_Go, fr_System. rewrite resp_value by cmd. reflexivity.
  - unfold fr_System_Halt, fr_System. rewrite resp_value by cmd. reflexivity.
  - unfold fr_System_GetStatus. rewrite resp_value by cmd. reflexivity.
  - unfold fr_System_LocoEmStop. rewrite resp_value by cmd. rewrite padded5. unfold sys_initData, sys_setLocid.
    change (set_dlc (set_dlc data0 5) 5) with (set_dlc data0 5). rewrite setLocid0 by (try exact OK; unfold byte; lia). reflexivity.
  - destruct OK as (U & V). unfold fr_LocoSpeed. rewrite resp_value by cmd. rewrite setLocid0 by (try exact U; unfold byte; lia).
    unfold dset. cbn [dlc dbytes]. rewrite upd4, upd5. unfold low16. rewrite padded6. rewrite Z.shiftr_div_pow2 by lia. change (2 ^ 8) with 256.
    replace (if velocity >? kMaxEngineVelocity then kMaxEngineVelocity else velocity) with (Z.min velocity 1000); [reflexivity|].
    unfold kMaxEngineVelocity. destruct (Z.gtb_spec velocity 1000); lia.
  - destruct OK as (U & D). unfold fr_LocoDirection. rewrite resp_value by cmd. rewrite setLocid0 by (try exact U; unfold byte; lia).
    unfold dset. cbn [dlc dbytes]. rewrite upd4, padded5, (u8_byte direction D). reflexivity.
  - destruct OK as (U & F). unfold fr_LocoFunction. rewrite resp_value by cmd. rewrite setLocid0 by (try exact U; unfold byte; lia).
    unfold dset. cbn [dlc dbytes]. rewrite upd4, upd5, padded6, (u8_byte function F). rewrite u8_byte by apply bool_byte. reflexivity.
  - destruct OK as (L & C). unfold fr_Config_Data_Header. rewrite mkId_value by cmd. unfold low16. rewrite padded6.
    unfold dset, set_dlc, data0. cbn [dlc dbytes upd repeat]. rewrite !Z.shiftr_div_pow2 by lia. unfold be_bytes. cbn [app].
    change (Z.land crc 255) with (Z.land crc (Z.ones 8)). rewrite Z.land_ones by lia.
    change (2 ^ 24) with 16777216. change (2 ^ 16) with 65536. change (2 ^ 8) with 256. unfold is_u32, is_u16, u8 in *. rewrite (Z.mod_small (len / 16777216)) by lia.
    rewrite Zmod_mod. reflexivity.
Qed.

(** ** Reception *)
Lemma wire_bytes : forall x, build_ok x -> let '(cmd, resp, bytes) := wire x in
  byte cmd /\ Forall byte bytes /\ (List.length bytes <= 8)%nat.
Proof.
  assert (B : forall u, is_u32 u -> Forall byte (be_bytes u)) by (intros u U; apply be_bytes_ok; exact U).
  assert (L : forall x, Forall byte (low16 x)) by (intros x; unfold low16, byte; repeat constructor; lia).
  assert (T : forall c, byte (bit_of c)) by (intros []; unfold byte; cbn; lia).
  intros x OK. destruct x; cbn [wire build_ok] in *; (split; [cmd|]); (split; [|cbn; lia]);
    repeat match goal with H : _ /\ _ |- _ => destruct H end;
    repeat first [apply Forall_app; split | apply B; assumption | apply L | apply T | assumption | (unfold byte; lia) | (destruct (_ =? _); unfold byte; lia) | constructor].
Qed.
Lemma padded_ok : forall l, Forall byte l -> (List.length l <= 8)%nat -> payload_ok (padded l) /\ dlc (padded l) <= 9.
Proof.
  intros l B L. unfold padded, payload_ok. cbn [dlc dbytes]. unfold zlen. split; [|lia]. split; [unfold byte; lia|]. split.
  - rewrite app_length, repeat_length. lia.
  - apply Forall_app. split; [exact B|]. apply Forall_forall. intros y Y. apply repeat_spec in Y. subst. unfold byte. lia.
Qed.
Lemma needs_iff : forall x, build_ok x -> let '(cmd, resp, bytes) := wire x in unguarded cmd (padded bytes) <-> built_needs_engine x.
Proof.
  intros x OK; destruct x; cbn [wire built_needs_engine]; unfold unguarded; split; intros H;
    repeat match goal with
    | H : _ \/ _ |- _ => destruct H
    | H : _ /\ _ |- _ => destruct H
    | H : _ = _ |- _ => discriminate H
    end; try exact Logic.I; try contradiction.
  - cbn in H1. split; assumption.
  - left. repeat split; cbn; assumption.
  - right. repeat split; assumption.
Qed.
Lemma heard_built : forall c x, build_ok x -> let '(cmd, resp, bytes) := wire x in heard c cmd resp (padded bytes) = built_heard c x.
Proof.
  assert (U : forall u n r, is_u32 u -> uid_of (mkData n (be_bytes u ++ r)) = u).
  { intros u n r U. unfold uid_of, b, be, be_bytes in *. cbn [dbytes nth app]. unfold is_u32 in U. lia. }
  intros c x OK; destruct x; cbn [wire built_heard build_ok] in *; try reflexivity.
  - rewrite padded5. unfold heard. cbn [Z.eqb Z.ltb CMD_SYSTEM dlc Z.compare Pos.compare Pos.compare_cont]. rewrite U by exact OK. reflexivity.
  - destruct OK as (O1 & O2). unfold low16. rewrite padded6. unfold heard. cbn [Z.eqb CMD_SYSTEM CMD_SPEED dlc Pos.eqb]. rewrite U by exact O1.
    unfold b. cbn [dbytes nth app be_bytes]. replace (((Z.min velocity 1000 / 256) mod 256) * 256 + Z.min velocity 1000 mod 256) with (Z.min velocity 1000); [reflexivity|].
    unfold is_u16 in O2. lia.
  - destruct OK as (O1 & O2). rewrite padded5. unfold heard. cbn [Z.eqb CMD_SYSTEM CMD_SPEED CMD_DIRECTION dlc Pos.eqb]. rewrite U by exact O1.
    unfold b. cbn [dbytes nth app be_bytes]. destruct (Z.eqb_spec direction 1) as [->|]; [reflexivity|]. destruct (Z.eqb_spec direction 2) as [->|]; reflexivity.
  - destruct OK as (O1 & O2). rewrite padded6. unfold heard. cbn [Z.eqb CMD_SYSTEM CMD_SPEED CMD_DIRECTION CMD_FUNCTION dlc Pos.eqb]. rewrite U by exact O1.
    unfold b. cbn [dbytes nth app be_bytes]. destruct on; reflexivity.
Qed.
Lemma built_received : forall lw w s st x, station_at w s st -> build_ok x -> (forall l c, x <> BHeader l c) ->
  ~ (cb_eng (st_cbs st) = None /\ built_needs_engine x) ->
  exists tr, step lw (OnStation s (HandlePacket (built x))) w = Ok (w, tr) /\ calls tr = built_heard (st_cbs st) x.
Proof.
  intros lw w s st x S0 OK NH NE. pose proof (built_wire x OK) as W. pose proof (wire_bytes x OK) as B. pose proof (needs_iff x OK) as N. pose proof (heard_built (st_cbs st) x OK) as H.
  assert (C : let '(cmd, _, _) := wire x in cmd <> CMD_CONFIG_DATA).
  { destruct x; cbn [wire]; try discriminate. intros _. eapply NH. reflexivity. }
  destruct (wire x) as [[cmd resp] bytes]. destruct B as (B1 & B2 & B3). destruct (padded_ok bytes B2 B3) as (P & D). rewrite W, <- H.
  apply handle_spec; try assumption; [apply hash_fields; [exact B1|unfold is_u16; lia]|]. intros [X Y]. apply NE. split; [exact X|apply N; exact Y].
Qed.

(** ** Requests for config data *)
Lemma nf : forall s, ~ In 0 s -> nulfree s.
Proof. intros s H. apply Forall_forall. intros x X E. subst. auto. Qed.
Lemma request_n : forall mem s n, c_text mem s -> byte n ->
  fr_Request_Config_Data_n mem n = Ok (mkFrame (id_value 0 0 CMD_REQUEST_CONFIG false 0) (mkData (Z.min 8 n) (nine s))).
Proof.
  intros mem s n (r & -> & N) B. unfold fr_Request_Config_Data_n. rewrite c_strncpy_eq by (try (apply nf; exact N); cbn; lia).
  cbn [bind]. rewrite mkId_value by cmd. f_equal. f_equal. unfold limitToCANDataLength, CanDataMaxLength. unfold byte in B. f_equal.
  - destruct (Z.gtb_spec n 8); [lia|]. unfold u8. rewrite Z.mod_small by lia. lia.
  - unfold nine. change (Z.to_nat kDataBufferLength) with 9%nat. change (skipn 9 (repeat 0 9)) with (@nil Z). rewrite app_nil_r. rewrite firstn_length. f_equal. f_equal. lia.
Qed.
Lemma request_text : forall mem s, c_text mem s ->
  fr_Request_Config_Data mem = Ok (mkFrame (id_value 0 0 CMD_REQUEST_CONFIG false 0) (mkData (Z.min 8 (zlen s mod 256)) (nine s))).
Proof.
  intros mem s T. unfold fr_Request_Config_Data. destruct T as (r & E & N). rewrite E at 1. rewrite c_strlen_eq by (apply nf; exact N). cbn [bind].
  rewrite request_n with (s := s); [|exists r; split; assumption|unfold byte, u8; lia]. reflexivity.
Qed.
Lemma request_unterminated : forall mem, ~ In 0 mem -> fr_Request_Config_Data mem = UB OutOfBounds.
Proof. intros mem N. unfold fr_Request_Config_Data. rewrite c_strlen_none by (apply nf; exact N). reflexivity. Qed.
Lemma request_n_short : forall mem n, ~ In 0 mem -> (fr_Request_Config_Data_n mem n = UB OutOfBounds <-> (List.length mem < 9)%nat).
Proof.
  intros mem n N. unfold fr_Request_Config_Data_n, c_strncpy. change (zlen (repeat 0 9) <? kDataBufferLength) with false. cbv iota.
  change (Z.to_nat kDataBufferLength) with 9%nat.
  assert (G : forall k m, ~ In 0 m -> strncpy_bytes m k = if (List.length m <? k)%nat then UB OutOfBounds else Ok (firstn k m)).
  { induction k as [|k IH]; intros m M; [destruct m; reflexivity|]. destruct m as [|x m]; [reflexivity|]. cbn [strncpy_bytes].
    destruct (Z.eqb_spec x 0) as [->|X]; [exfalso; apply M; left; reflexivity|]. rewrite IH by (intros Y; apply M; right; exact Y).
    cbn [List.length]. change (S (List.length m) <? S k)%nat with (List.length m <? k)%nat. destruct (List.length m <? k)%nat; reflexivity. }
  rewrite G by exact N. destruct (Nat.ltb_spec (List.length mem) 9) as [L|L]; cbn [bind]; [tauto|]. split; [|lia].
  change (repeat 0 9) with ([] ++ repeat 0 9 ++ []) at 1. rewrite wr_mid; [cbn [bind]; discriminate|reflexivity|rewrite firstn_length, repeat_length; lia].
Qed.

(** ** Addresses *)
Lemma helper_lor : forall z a, 0 <= a < 1024 -> Z.lor a (z * 2 ^ 10) = z * 2 ^ 10 + a.
Proof. intros z a A. rewrite lor_add' by lia. lia. Qed.
Lemma turnout_helpers_eq : forall p f a, In (p, f) turnout_helpers -> 0 <= a < 1024 ->
  f a = turnout_base p + a /\ f a = turnout_setProtocol a p /\ turnout_getNumericAddress (f a) = a.
Proof.
  intros p f a I A.
  assert (E : f a = turnout_base p + a /\ p <> P_UNKNOWN).
  { cbn [In turnout_helpers] in I. destruct I as [I|[I|[I|[]]]]; injection I as <- <-; (split; [|discriminate]).
    - exact (helper_lor 12 a A).
    - exact (helper_lor 14 a A).
    - exact (helper_lor 10 a A). }
  destruct E as (E & NP). assert (S0 : f a = turnout_setProtocol a p) by (rewrite turnout_setProtocol_eq by exact NP; rewrite Z.mod_small by lia; exact E).
  split; [exact E|]. split; [exact S0|]. rewrite S0. rewrite numeric_turnout by exact NP. apply Z.mod_small. lia.
Qed.
Lemma loco_helpers_eq : forall p f a, In (p, f) loco_helpers -> 0 <= a < 1024 ->
  f a = loco_base p + a /\ f a = loco_setProtocol a p /\ loco_getNumericAddress (f a) = a.
Proof.
  intros p f a I A.
  assert (E : f a = loco_base p + a /\ p <> P_UNKNOWN).
  { cbn [In loco_helpers] in I. destruct I as [I|[I|[I|[]]]]; injection I as <- <-; (split; [|discriminate]).
    - exact (helper_lor 48 a A).
    - exact (helper_lor 2 a A).
    - exact (helper_lor 16 a A). }
  destruct E as (E & NP). assert (S0 : f a = loco_setProtocol a p) by (rewrite loco_setProtocol_eq by exact NP; rewrite Z.mod_small by lia; exact E).
  split; [exact E|]. split; [exact S0|]. rewrite S0. rewrite numeric_loco by exact NP. apply Z.mod_small. lia.
Qed.
Lemma mm2_loco_eq : forall a, 0 <= a < 1024 -> MM2_loco a = 0x2000 + a /\ loco_setProtocol a P_MM2 = a.
Proof.
  intros a A. split; [exact (helper_lor 8 a A)|]. rewrite loco_setProtocol_eq by discriminate. cbn [loco_base]. rewrite Z.mod_small by lia. reflexivity.
Qed.
Lemma helper_frame : forall p f a r d pw, In (p, f) turnout_helpers -> 0 <= a < 1024 -> byte d ->
  to_getRailProtocol (fdata (fr_Turnout r (f a) d pw)) = protocol_class p /\ turnout_getNumericAddress (to_getLocid (fdata (fr_Turnout r (f a) d pw))) = a.
Proof.
  intros p f a r d pw I A D. destruct (turnout_helpers_eq p f a I A) as (E & S0 & N).
  assert (U : is_u32 (f a)). { rewrite E. pose proof (base_u32 p). cbn [In turnout_helpers] in I. destruct I as [I|[I|[I|[]]]]; injection I as <- <-; unfold is_u32; cbn [turnout_base]; lia. }
  pose proof (built_wire (BTurnout r (f a) d pw) (conj U D)) as W. cbn [wire built] in W. rewrite W. cbn [fdata]. rewrite padded6.
  replace (mkData 6 (be_bytes (f a) ++ [d; bit_of pw; 0; 0; 0])) with (to_setLocid (mkData 6 [0; 0; 0; 0; d; bit_of pw; 0; 0; 0]) (f a)).
  2:{ unfold to_setLocid. rewrite setLocid_eq; [reflexivity| |exact U]. split; [unfold byte; cbn; lia|]. split; [reflexivity|]. cbn [dbytes]. repeat (apply Forall_cons; [first [exact D|(destruct pw; unfold byte; cbn; lia)|(unfold byte; lia)]|]). constructor. }
  assert (P : payload_ok (mkData 6 [0; 0; 0; 0; d; bit_of pw; 0; 0; 0])).
  { split; [unfold byte; cbn; lia|]. split; [reflexivity|]. cbn [dbytes]. repeat (apply Forall_cons; [first [exact D|(destruct pw; unfold byte; cbn; lia)|(unfold byte; lia)]|]). constructor. }
  split.
  - rewrite S0. apply setProtocol_recognised; [exact P|unfold is_u32; lia].
  - rewrite <- N at 2. f_equal. unfold to_getLocid, to_setLocid. apply getLocid_setLocid; assumption.
Qed.
Lemma decoder_base : forall a, is_u32 a -> DecoderBaseAddress a = a - a mod 4.
Proof.
  intros a A. unfold DecoderBaseAddress, is_u32 in *. change 0xFFFFFFFC with ((2 ^ 30 - 1) * 2 ^ 2 + 0).
  replace a with (a / 4 * 2 ^ 2 + a mod 4) at 1 by lia. rewrite land_split by lia. rewrite Z.land_0_r, land_mask by lia.
  rewrite (Z.mod_small (a / 4)) by lia. lia.
Qed.
Lemma decoder_group : forall a c, is_u32 a -> is_u32 c -> (DecoderBaseAddress a = DecoderBaseAddress c <-> a / 4 = c / 4).
Proof. intros a c A C. rewrite !decoder_base by assumption. unfold is_u32 in *. lia. Qed.
Lemma helper_out_of_range : exists a, is_u32 a /\ to_getRailProtocol (fdata (fr_Turnout false (MM2_turnout a) 0 true)) = P_DCC.
Proof. exists 2048. split; [unfold is_u32; lia|reflexivity]. Qed.
Lemma long_text_empty : exists s, List.length s = 256%nat /\ ~ In 0 s /\ exists f, fr_Request_Config_Data (s ++ [0]) = Ok f /\ dlc (fdata f) = 0.
Proof.
  exists (repeat 65 256). split; [reflexivity|]. split; [intros H; apply repeat_spec in H; discriminate|].
  eexists. split; [vm_compute; reflexivity|reflexivity].
Qed.
Lemma data_wire : forall b0 b1 b2 b3 b4 b5 b6 b7 rest,
  fr_Config_Data (b0 :: b1 :: b2 :: b3 :: b4 :: b5 :: b6 :: b7 :: rest) =
  Ok (mkFrame (id_value 0 0 CMD_CONFIG_DATA false 0) (padded [b0; b1; b2; b3; b4; b5; b6; b7])).
Proof.
  intros. unfold fr_Config_Data, CanDataMaxLength. rewrite rd_blk_ok by (unfold zlen; cbn [List.length]; lia). reflexivity.
Qed.
