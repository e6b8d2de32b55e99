(* PropsStation.v -- property theorems about the station: C11, C12, C14-C24.
   Vocabulary: SpecStation.v (outgoing frames, the callback table [heard], reset effects). *)
From Verif Require Import SpecStation ProofsStation ProofsRequest Demo.

(** ** C11: what one station sends, another station reports *)
Theorem C11_sent_command_is_reported : forall lw w s st tx lw' w' s' st' o,
  station_at w s st -> cb_tx (st_cbs st) = Some tx -> args_ok o -> is_command o ->
  station_at w' s' st' -> (needs_engine o -> cb_eng (st_cbs st') <> None) ->
  exists f tr, step lw (OnStation s o) w = Ok (w, [EvTx tx f]) /\
    step lw' (OnStation s' (HandlePacket f)) w' = Ok (w', tr) /\ calls tr = reception (st_cbs st') o.
Proof. exact send_receive. Qed.
Print Assumptions C11_sent_command_is_reported.
(** [reception] is a single callback when the callbacks are registered, none of them a transmission *)
Theorem C11_one_callback : forall c o, is_command o -> cb_eng c <> None -> cb_sys c <> None -> cb_acc c <> None ->
  exists e, reception c o = [e] /\ forall x f, e <> EvTx x f.
Proof.
  intros c o IC E Y A. unfold reception, told_engine, told_system, told_accessory.
  destruct (cb_eng c) as [e|]; [|contradiction]. destruct (cb_sys c) as [y|]; [|contradiction]. destruct (cb_acc c) as [a|]; [|contradiction].
  destruct o; cbn in IC; try contradiction; try (eexists; split; [reflexivity|intros; discriminate]).
  destruct (direction =? 3); eexists; (split; [reflexivity|intros; discriminate]).
Qed.
Print Assumptions C11_one_callback.
Example C11_case :
  is_command (SendEngineVelocity 0x4005 1200) /\ args_ok (SendEngineVelocity 0x4005 1200) /\
  reception (st_cbs demo_st1) (SendEngineVelocity 0x4005 1200) = [EvVelocity 12 0x4005 1000] /\
  run 64 [OnStation 0 (SendEngineVelocity 0x4005 1200)] demo =
    Ok (demo, [EvTx 0 (mkFrame 0x00080318 (mkData 6 [0; 0; 0x40; 5; 3; 0xE8; 0; 0; 0]))]) /\
  step 64 (OnStation 1 (HandlePacket (mkFrame 0x00080318 (mkData 6 [0; 0; 0x40; 5; 3; 0xE8; 0; 0; 0])))) demo =
    Ok (demo, [EvVelocity 12 0x4005 1000]).
Proof. split; [exact I|]. split; [split; [unfold is_u32|unfold is_u16]; lia|]. repeat split. Qed.
(** without an engine callback the receiver of a direction command dereferences a null pointer *)
Theorem C11_without_engine_callback_refuted : exists w s o f w' s', is_command o /\
  step 64 (OnStation s o) w = Ok (w, [EvTx 0 f]) /\ step 64 (OnStation s' (HandlePacket f)) w' = UB NullDeref.
Proof.
  exists demo, 0%nat, (SendEngineDirection 5 1), (outgoing 0x0318 CMD_DIRECTION [0; 0; 0; 5; 1]), demo, 2%nat.
  split; [cbn; lia|]. split; reflexivity.
Qed.

(** ** C12: every transmitted frame is well formed and carries the station's hash *)
Theorem C12_every_transmitted_frame : forall lw w s st o w' t x f,
  station_at w s st -> args_ok o -> is_sendpacket o = false -> names_ok w o ->
  step lw (OnStation s o) w = Ok (w', t) -> In (EvTx x f) t ->
  cb_tx (st_cbs st) = Some x /\
  exists l, Forall byte l /\ zlen l <= 8 /\ f = outgoing (st_hash st) (command_of o) l.
Proof. exact all_proper_in. Qed.
Print Assumptions C12_every_transmitted_frame.
(** the operations that only send: exactly these frames, and nothing else happens *)
Theorem C12_exact_frames : forall lw w s st tx o fs,
  station_at w s st -> cb_tx (st_cbs st) = Some tx -> args_ok o -> output (st_hash st) o = Some fs ->
  step lw (OnStation s o) w = Ok (w, map (EvTx tx) fs).
Proof. exact sends. Qed.
Print Assumptions C12_exact_frames.
(** a command with a 32-bit engine number, and the request that makes 16 frames *)
Example C12_case_exact : args_ok (SendEngineFunction 0xDEADBEEF 7 true) /\ cb_tx (st_cbs demo_st1) = Some 10%nat /\
  output 0x0A42 (SendEngineFunction 0xDEADBEEF 7 true) = Some [outgoing 0x0A42 CMD_FUNCTION [0xDE; 0xAD; 0xBE; 0xEF; 7; 1]] /\
  (exists fs, output 0x0A42 (RequestEngineAllFunctions 5) = Some fs /\ zlen fs = 16) /\
  step 64 (OnStation 1 (SendEngineFunction 0xDEADBEEF 7 true)) demo =
    Ok (demo, [EvTx 10 (mkFrame 0x000C0A42 (mkData 6 [0xDE; 0xAD; 0xBE; 0xEF; 7; 1; 0; 0; 0]))]).
Proof.
  split; [unfold args_ok, is_u32, byte; lia|]. split; [reflexivity|]. split; [vm_compute; reflexivity|].
  split; [eexists; split; [reflexivity|vm_compute; reflexivity]|vm_compute; reflexivity].
Qed.
Theorem C12_no_transmit_callback : forall lw w s st o fs,
  station_at w s st -> cb_tx (st_cbs st) = None -> output (st_hash st) o = Some fs ->
  step lw (OnStation s o) w = match fs with [] => Ok (w, []) | _ => UB NullDeref end.
Proof. exact sends_null. Qed.
Print Assumptions C12_no_transmit_callback.
Example C12_case_no_transmitter : station_at demo 2 demo_bare /\ cb_tx (st_cbs demo_bare) = None /\
  output 1 SendSystemStop = Some [outgoing 1 CMD_SYSTEM [0; 0; 0; 0; 0]] /\ output 1 (SendEngineDirection 5 9) = Some [] /\
  step 64 (OnStation 2 SendSystemStop) demo = UB NullDeref /\ step 64 (OnStation 2 (SendEngineDirection 5 9)) demo = Ok (demo, []).
Proof. split; [exact demo_at2|]. repeat split. Qed.
Theorem C12_SendPacket_overwrites_only_the_hash : forall lw w s st tx t p c r h d,
  station_at w s st -> cb_tx (st_cbs st) = Some tx -> id_fields_ok t p c h ->
  step lw (OnStation s (SendPacket (mkFrame (id_value t p c r h) d))) w =
  Ok (w, [EvTx tx (mkFrame (id_value t p c r (st_hash st)) d)]).
Proof. exact sendPacket. Qed.
Print Assumptions C12_SendPacket_overwrites_only_the_hash.
Example C12_case_SendPacket : id_fields_ok 5 9 CMD_DEBUG_TEXT 0x1234 /\
  step 64 (OnStation 1 (SendPacket (mkFrame (id_value 5 9 CMD_DEBUG_TEXT true 0x1234) (mkData 1 [65; 0; 0; 0; 0; 0; 0; 0; 0])))) demo =
    Ok (demo, [EvTx 10 (mkFrame (id_value 5 9 CMD_DEBUG_TEXT true 0x0A42) (mkData 1 [65; 0; 0; 0; 0; 0; 0; 0; 0]))]).
Proof. split; [unfold id_fields_ok, CMD_DEBUG_TEXT, is_u16; lia|vm_compute; reflexivity]. Qed.
Example C12_case : station_at demo 0 demo_st0 /\ names_ok demo (RequestEngine (RefEngine 0) (Some 0%nat)) /\
  exists w' t, step 64 (OnStation 0 (RequestEngine (RefEngine 0) (Some 0%nat))) demo = Ok (w', t) /\
    sent t = [outgoing 0x0318 CMD_REQUEST_CONFIG (zs "lokinfo" ++ [0]); outgoing 0x0318 CMD_REQUEST_CONFIG (zs "BR 103 1");
              outgoing 0x0318 CMD_REQUEST_CONFIG (zs "13-7" ++ [0; 0; 0; 0])].
Proof.
  split; [exact demo_at0|]. split.
  - exists NAME_KNOWN, (zs "BR 103 113-7"). split; [|apply zs_bytes]. exists (lo_info demo_engine). split; [reflexivity|].
    split; [split; [|split; [cbn; lia|reflexivity]]|exists demo_engine; split; reflexivity].
    unfold nulfree. repeat constructor; discriminate.
  - eexists. eexists. split; [vm_compute; reflexivity|vm_compute; reflexivity].
Qed.

(** ** C14: engine list request *)
Theorem C14_engine_list_request : forall lw w s st tx off q w1 t1,
  station_at w s st -> cb_tx (st_cbs st) = Some tx -> byte off -> valid_ptr w q ->
  reset_effect lw w (cb_cfg (st_cbs st)) w1 t1 ->
  step lw (OnStation s (RequestEngineList off q)) w =
  Ok (started (with_station w1 s (now_using st q)) q,
      t1 ++ start_call q ++
      map (EvTx tx) [outgoing (st_hash st) CMD_REQUEST_CONFIG (zs "loknamen");
                     outgoing (st_hash st) CMD_REQUEST_CONFIG (decimal off ++ zs " 2")]).
Proof. exact list_request. Qed.
Print Assumptions C14_engine_list_request.
(** different offsets give different frames *)
Theorem C14_offset_readable : forall o1 o2, byte o1 -> byte o2 -> decimal o1 = decimal o2 -> o1 = o2.
Proof.
  assert (D : forall x, byte x -> fold_left (fun a d => a * 10 + (d - 48)) (decimal x) 0 = x).
  { intros x X. unfold byte in X. unfold decimal. destruct (Z.ltb_spec x 10); [|destruct (Z.ltb_spec x 100)]; cbn [fold_left]; lia. }
  intros a c A C H. rewrite <- (D a A), <- (D c C), H. reflexivity.
Qed.
Print Assumptions C14_offset_readable.
Example C14_case : valid_ptr demo (Some 1%nat) /\
  reset_effect 64 demo (cb_cfg (st_cbs demo_st1)) (with_parser demo 2 (UserP demo_beh [CStart; CReset])) [EvCfg 2 CReset] /\
  exists w', step 64 (OnStation 1 (RequestEngineList 254 (Some 1%nat))) demo =
    Ok (w', [EvCfg 2 CReset; EvCfg 1 CStart; EvTx 10 (mkFrame 0x00400A42 (mkData 8 (zs "loknamen" ++ [0])));
             EvTx 10 (mkFrame 0x00400A42 (mkData 5 (zs "254 2" ++ [0; 0; 0; 0])))]).
Proof. split; [discriminate|]. split; [split; reflexivity|]. eexists. vm_compute. reflexivity. Qed.

(** ** C15: engine request *)
Theorem C15_engine_request : forall lw w s st tx r q av name w1 t1,
  station_at w s st -> cb_tx (st_cbs st) = Some tx ->
  refers_to w r av name -> av <> EMPTY -> ~ processing w (cb_cfg (st_cbs st)) -> valid_ptr w q ->
  reset_effect lw w (cb_cfg (st_cbs st)) w1 t1 ->
  step lw (OnStation s (RequestEngine r q)) w =
  Ok (started (with_station w1 s (now_using st q)) q,
      t1 ++ start_call q ++ map (EvTx tx) (engine_request (st_hash st) name)) /\
  t1 = match cb_cfg (st_cbs st) with Some p => [EvCfg p CReset] | None => [] end.
Proof. exact engine_request_accepted. Qed.
Print Assumptions C15_engine_request.
Theorem C15_same_frames_iff_first_16_agree : forall h n1 n2, nulfree n1 -> nulfree n2 ->
  (engine_request h n1 = engine_request h n2 <-> firstn 16 n1 = firstn 16 n2).
Proof. exact same_request. Qed.
Print Assumptions C15_same_frames_iff_first_16_agree.
(** two names of more than 16 characters that cannot be told apart, and two that can *)
Example C15_case_names : nulfree (zs "Schienenbus VT98 rot") /\ nulfree (zs "Schienenbus VT98 blau") /\
  firstn 16 (zs "Schienenbus VT98 rot") = firstn 16 (zs "Schienenbus VT98 blau") /\
  engine_request 7 (zs "Schienenbus VT98 rot") = engine_request 7 (zs "Schienenbus VT98 blau") /\
  engine_request 7 (zs "V200") <> engine_request 7 (zs "V201").
Proof.
  split; [unfold nulfree; repeat constructor; discriminate|]. split; [unfold nulfree; repeat constructor; discriminate|].
  split; [reflexivity|]. split; [reflexivity|]. vm_compute. discriminate.
Qed.
Example C15_case : refers_to demo (RefEngine 1) FULL_DETAILS (zs "V200") /\ ~ processing demo (cb_cfg (st_cbs demo_st0)) /\
  reset_effect 64 demo (cb_cfg (st_cbs demo_st0)) demo [].
Proof.
  split; [|split; [intros (p & x & H & _); discriminate|split; reflexivity]].
  exists (lo_info demo_engine2). split; [reflexivity|].
  split; [split; [|split; [cbn; lia|reflexivity]]|exists demo_engine2; split; reflexivity]. unfold nulfree. repeat constructor; discriminate.
Qed.

(** ** C16: dropped requests *)
Theorem C16_dropped_without_effect : forall lw w s st r q av name,
  station_at w s st -> refers_to w r av name ->
  av = EMPTY \/ processing w (cb_cfg (st_cbs st)) ->
  step lw (OnStation s (RequestEngine r q)) w = Ok (w, []).
Proof. exact engine_request_dropped. Qed.
Print Assumptions C16_dropped_without_effect.
Example C16_case : processing demo (cb_cfg (st_cbs demo_st1)) /\
  step 64 (OnStation 1 (RequestEngine (RefEngine 0) (Some 0%nat))) demo = Ok (demo, []) /\
  refers_to demo (RefEntry 1 0) EMPTY [] /\ step 64 (OnStation 0 (RequestEngine (RefEntry 1 0) (Some 0%nat))) demo = Ok (demo, []).
Proof.
  split; [exists 2%nat; eexists; split; [reflexivity|split; [reflexivity|left; reflexivity]]|]. split; [reflexivity|]. split; [|reflexivity].
  exists si_reset. split; [reflexivity|]. split; [split; [constructor|split; [cbn; lia|reflexivity]]|].
  do 5 eexists. split; reflexivity.
Qed.

(** ** C17: dispatch depends on command, response flag and payload only *)
Theorem C17_dispatch : forall lw s t p c r h t' p' r' h' d,
  id_fields_ok t p c h -> id_fields_ok t' p' c h' ->
  r = r' \/ (c <> CMD_SYSTEM /\ c <> CMD_ACCESSORY) ->
  forall w, step lw (OnStation s (HandlePacket (mkFrame (id_value t p c r h) d))) w =
            step lw (OnStation s (HandlePacket (mkFrame (id_value t' p' c r' h') d))) w.
Proof. exact dispatch. Qed.
Print Assumptions C17_dispatch.
(** the response flag does matter for the other two commands *)
Example C17_response_matters : forall c, c = CMD_SYSTEM \/ c = CMD_ACCESSORY -> exists d,
  step 64 (OnStation 0 (HandlePacket (mkFrame (id_value 0 0 c false 0) d))) demo <>
  step 64 (OnStation 0 (HandlePacket (mkFrame (id_value 0 0 c true 0) d))) demo.
Proof.
  intros c [-> | ->]; exists (mkData 6 [0; 0; 0; 0; 1; 1; 0; 0; 0]); vm_compute; discriminate.
Qed.
Example C17_case : id_fields_ok 0 3 CMD_SPEED 0x1111 /\ id_fields_ok 5 0 CMD_SPEED 0x0300.
Proof. unfold id_fields_ok, byte, is_u16, CMD_SPEED; lia. Qed.

(** ** C18: receiving never transmits and never modifies a station *)
Theorem C18_receiving : forall lw w s st o w' t, station_at w s st -> is_receive o = true ->
  step lw (OnStation s o) w = Ok (w', t) -> w_stations w' = w_stations w /\ sent t = [].
Proof. intros lw w s st o w' t S0 R H. destruct (receive_keeps _ _ _ _ _ _ _ S0 R H) as [A B]. split; [exact A|exact (not_tx_sent _ B)]. Qed.
Print Assumptions C18_receiving.
Example C18_case : exists w' t, w' <> demo /\
  step 64 (OnStation 1 (HandlePacket (mkFrame (id_value 0 0 CMD_CONFIG_DATA false 0) (mkData 8 (zs "abcdefgh" ++ [0]))))) demo = Ok (w', t).
Proof. eexists. eexists. split; [|vm_compute; reflexivity]. vm_compute. discriminate. Qed.

(** ** C19: missing callbacks *)
Theorem C19_null_dereference_iff : forall lw w s st t p c r h d,
  station_at w s st -> id_fields_ok t p c h -> payload_ok d -> dlc d <= 9 ->
  (step lw (OnStation s (HandlePacket (mkFrame (id_value t p c r h) d))) w = UB NullDeref <->
   cb_eng (st_cbs st) = None /\ unguarded c d).
Proof. exact null_iff. Qed.
Print Assumptions C19_null_dereference_iff.
(** all other frames that are not config data are entirely safe, and change nothing *)
Theorem C19_otherwise_safe : forall lw w s st t p c r h d,
  station_at w s st -> id_fields_ok t p c h -> payload_ok d -> dlc d <= 9 -> c <> CMD_CONFIG_DATA ->
  ~ (cb_eng (st_cbs st) = None /\ unguarded c d) ->
  exists tr, step lw (OnStation s (HandlePacket (mkFrame (id_value t p c r h) d))) w = Ok (w, tr).
Proof.
  intros lw w s st t p c r h d S0 F P D N U. destruct (handle_spec lw w s st t p c r h d S0 F P D N U) as (tr & H & _). exists tr. exact H.
Qed.
Print Assumptions C19_otherwise_safe.
(** no engine callback, but the frame is too short to need one; and a command nobody handles *)
Example C19_case_safe : ~ (cb_eng (st_cbs demo_bare) = None /\ unguarded CMD_DIRECTION (mkData 4 [0; 0; 0x40; 5; 1; 0; 0; 0; 0])) /\
  payload_ok (mkData 4 [0; 0; 0x40; 5; 1; 0; 0; 0; 0]) /\ ~ (cb_eng (st_cbs demo_bare) = None /\ unguarded 0x77 data0).
Proof.
  split; [intros [_ [H|H]]; cbn in H; lia|]. split; [split; [unfold byte; cbn; lia|split; [reflexivity|repeat constructor; discriminate]]|].
  intros [_ [H|H]]; unfold CMD_DIRECTION, CMD_FUNCTION in H; lia.
Qed.
(** the length restriction is needed: longer payloads are dumped out of bounds *)
Theorem C19_too_long : forall lw w s st t p c r h d,
  station_at w s st -> id_fields_ok t p c h -> payload_ok d -> 9 < dlc d ->
  dumped c -> c <> CMD_CONFIG_DATA ->
  step lw (OnStation s (HandlePacket (mkFrame (id_value t p c r h) d))) w = UB OutOfBounds.
Proof. exact too_long. Qed.
Print Assumptions C19_too_long.
Example C19_case_too_long : payload_ok (mkData 12 (repeat 65 9)) /\ dumped CMD_DEBUG_TEXT /\ dumped 0x77 /\
  step 64 (OnStation 2 (HandlePacket (mkFrame (id_value 0 0 CMD_DEBUG_TEXT false 0) (mkData 12 (repeat 65 9))))) demo = UB OutOfBounds.
Proof.
  split; [split; [unfold byte; cbn; lia|split; [reflexivity|repeat constructor; discriminate]]|].
  split; [intros H; vm_compute in H; intuition discriminate|]. split; [intros H; vm_compute in H; intuition discriminate|]. vm_compute. reflexivity.
Qed.
Example C19_case : unguarded CMD_DIRECTION (mkData 5 [0; 0; 0x40; 5; 1; 0; 0; 0; 0]) /\ cb_eng (st_cbs demo_bare) = None /\
  step 64 (OnStation 2 (HandlePacket (mkFrame (id_value 0 0 CMD_DIRECTION true 7) (mkData 5 [0; 0; 0x40; 5; 1; 0; 0; 0; 0])))) demo = UB NullDeref /\
  step 64 (OnStation 2 (HandlePacket (mkFrame (id_value 0 0 CMD_DIRECTION true 7) (mkData 5 [0; 0; 0x40; 5; 4; 0; 0; 0; 0])))) demo = Ok (demo, []).
Proof. split; [left; cbn; lia|]. repeat split. Qed.

(** ** C20, C21: decoding of received engine and system commands *)
(** [heard] is the table of callbacks; specialised below to the commands of the two properties *)
Theorem C20_received_commands : forall lw w s st t p c r h d,
  station_at w s st -> id_fields_ok t p c h -> payload_ok d -> dlc d <= 9 -> c <> CMD_CONFIG_DATA ->
  ~ (cb_eng (st_cbs st) = None /\ unguarded c d) ->
  exists tr, step lw (OnStation s (HandlePacket (mkFrame (id_value t p c r h) d))) w = Ok (w, tr) /\
    calls tr = heard (st_cbs st) c r d.
Proof. exact handle_spec. Qed.
Print Assumptions C20_received_commands.
Theorem C20_engine_commands : forall lw w s st o t p c r h d,
  station_at w s st -> cb_eng (st_cbs st) = Some o -> id_fields_ok t p c h -> payload_ok d -> dlc d <= 9 ->
  c = CMD_SPEED \/ c = CMD_DIRECTION \/ c = CMD_FUNCTION ->
  exists tr, step lw (OnStation s (HandlePacket (mkFrame (id_value t p c r h) d))) w = Ok (w, tr) /\
    let uid := be (b d 0) (b d 1) (b d 2) (b d 3) in
    (c = CMD_SPEED -> calls tr = if dlc d =? 6 then [EvVelocity o uid (b d 4 * 256 + b d 5)] else []) /\
    (c = CMD_DIRECTION -> calls tr = if dlc d =? 5 then
        (if (b d 4 =? 1) || (b d 4 =? 2) then [EvDirection o uid (b d 4)] else if b d 4 =? 3 then [EvChangeDirection o uid] else []) else []) /\
    (c = CMD_FUNCTION -> calls tr = if dlc d =? 6 then [EvFunction o uid (b d 4) (negb (b d 5 =? 0))] else []).
Proof.
  intros lw w s st o t p c r h d S0 E F P D K.
  destruct (handle_spec lw w s st t p c r h d S0 F P D) as (tr & H & C).
  - destruct K as [->|[->| ->]]; discriminate.
  - rewrite E. intros [X _]. discriminate.
  - exists tr. split; [exact H|]. cbv zeta. unfold heard, told_engine, uid_of in C. rewrite E in C.
    destruct K as [->|[->| ->]]; (split; [|split]); intros X; try discriminate X; rewrite C; cbn [Z.eqb CMD_SPEED CMD_DIRECTION CMD_FUNCTION CMD_SYSTEM Pos.eqb]; try reflexivity.
    destruct (dlc d =? 5); [|reflexivity]. destruct (Z.eqb_spec (b d 4) 1) as [->|]; [reflexivity|]. destruct (Z.eqb_spec (b d 4) 2) as [->|]; reflexivity.
Qed.
Print Assumptions C20_engine_commands.
Example C20_case : payload_ok (mkData 6 [0; 0; 0x40; 5; 3; 0xE8; 0; 0; 0]) /\
  calls [EvVelocity 2 0x4005 1000] = heard (st_cbs demo_st0) CMD_SPEED true (mkData 6 [0; 0; 0x40; 5; 3; 0xE8; 0; 0; 0]).
Proof. split; [|reflexivity]. split; [unfold byte; cbn; lia|]. split; [reflexivity|]. repeat constructor; unfold byte; lia. Qed.

Theorem C21_system_commands : forall lw w s st y e t p r h d,
  station_at w s st -> cb_sys (st_cbs st) = Some y -> cb_eng (st_cbs st) = Some e ->
  id_fields_ok t p CMD_SYSTEM h -> payload_ok d -> dlc d <= 9 ->
  exists tr, step lw (OnStation s (HandlePacket (mkFrame (id_value t p CMD_SYSTEM r h) d))) w = Ok (w, tr) /\
    calls tr = if dlc d <? 5 then []
               else if b d 4 =? 0 then [EvSystem y false r]
               else if b d 4 =? 1 then [EvSystem y true r]
               else if b d 4 =? 2 then [EvVelocityAll e 0]
               else if b d 4 =? 3 then [EvVelocity e (be (b d 0) (b d 1) (b d 2) (b d 3)) 0]
               else [].
Proof.
  intros lw w s st y e t p r h d S0 Y E F P D. destruct (handle_spec lw w s st t p CMD_SYSTEM r h d S0 F P D) as (tr & H & C).
  - discriminate.
  - rewrite E. intros [X _]. discriminate.
  - exists tr. split; [exact H|]. rewrite C. unfold heard, told_engine, told_system. rewrite Y, E. reflexivity.
Qed.
Print Assumptions C21_system_commands.
Example C21_case : exists tr, calls tr = [EvVelocity 2 0x4005 0] /\
  step 64 (OnStation 0 (HandlePacket (mkFrame (id_value 0 0 CMD_SYSTEM false 9) (mkData 5 [0; 0; 0x40; 5; 3; 0; 0; 0; 0])))) demo = Ok (demo, tr).
Proof. eexists. split; [|vm_compute; reflexivity]. reflexivity. Qed.

(** ** C22: forwarding of config data *)
(** A user's config consumer sees exactly one more call with the unmodified payload; a parser of
    the library does with it what its addMessage does. *)
Theorem C22_forwarded_once : forall lw w s st q x t p r h d,
  station_at w s st -> id_fields_ok t p CMD_CONFIG_DATA h ->
  cb_cfg (st_cbs st) = Some q -> nth_error (w_parsers w) q = Some x -> processing w (Some q) ->
  step lw (OnStation s (HandlePacket (mkFrame (id_value t p CMD_CONFIG_DATA r h) d))) w =
  match x with
  | UserP beh hist => Ok (with_parser w q (UserP beh (hist ++ [CAdd d])), [EvCfg q (CAdd d)])
  | LibP _ => '(w', t') <- step lw (ParserAddMessage q d) w ;; Ok (w', EvCfg q (CAdd d) :: t')
  end.
Proof. exact config_forward. Qed.
Print Assumptions C22_forwarded_once.
Theorem C22_otherwise_only_console : forall lw w s st t p r h d,
  station_at w s st -> id_fields_ok t p CMD_CONFIG_DATA h -> payload_ok d -> dlc d <= 9 ->
  valid_ptr w (cb_cfg (st_cbs st)) -> ~ processing w (cb_cfg (st_cbs st)) ->
  exists tr, step lw (OnStation s (HandlePacket (mkFrame (id_value t p CMD_CONFIG_DATA r h) d))) w = Ok (w, tr) /\
    calls tr = [] /\ console tr = zs "Ignoring ConfigData Stream: " ++ firstn (Z.to_nat (dlc d)) (dbytes d).
Proof. exact config_ignored. Qed.
Print Assumptions C22_otherwise_only_console.
Example C22_case : processing demo (cb_cfg (st_cbs demo_st1)) /\ ~ processing demo (cb_cfg (st_cbs demo_st0)) /\ valid_ptr demo (cb_cfg (st_cbs demo_st0)).
Proof.
  split; [exists 2%nat; eexists; split; [reflexivity|split; [reflexivity|left; reflexivity]]|].
  split; [intros (p & x & H & _); discriminate|exact I].
Qed.

(** ** C23: commands that are not handled *)
Theorem C23_no_effect : forall lw w s st t p c r h d,
  station_at w s st -> id_fields_ok t p c h -> payload_ok d -> dlc d <= 9 ->
  ~ In c [CMD_SYSTEM; CMD_SPEED; CMD_DIRECTION; CMD_FUNCTION; CMD_ACCESSORY; CMD_CONFIG_DATA] ->
  exists tr, step lw (OnStation s (HandlePacket (mkFrame (id_value t p c r h) d))) w = Ok (w, tr) /\ calls tr = [] /\
    (c = CMD_DEBUG_TEXT -> console tr = zs "Debug Text: '" ++ firstn (Z.to_nat (dlc d)) (dbytes d) ++ zs "'" ++ [10]) /\
    (c = CMD_PING \/ c = CMD_REQUEST_CONFIG -> tr = []).
Proof. exact quiet. Qed.
Print Assumptions C23_no_effect.
Example C23_case : exists tr,
  step 64 (OnStation 0 (HandlePacket (mkFrame (id_value 0 0 CMD_DEBUG_TEXT false 0) (mkData 5 (zs "Hello" ++ [0; 0; 0; 0]))))) demo = Ok (demo, tr) /\
  console tr = zs "Debug Text: 'Hello'" ++ [10].
Proof. eexists. split; [vm_compute; reflexivity|vm_compute; reflexivity]. Qed.

(** ** C24: begin *)
Theorem C24_begin : forall lw w s st u c w2 t, station_at w s st -> is_u16 u ->
  (step lw (OnStation s (Begin u c)) w = Ok (w2, t) <->
   exists w1, reset_effect lw w (cb_cfg (st_cbs st)) w1 t /\
     w2 = with_station w1 s (mkStation (u / 2048 * 256 + u mod 128) c)).
Proof. exact begin_iff. Qed.
Print Assumptions C24_begin.
(** finish, abort and notify-received all reset the current config consumer and drop it *)
Theorem C24_finish : forall lw w s st o w2 t, station_at w s st ->
  In o [FinishCurrentConfigRequest; AbortCurrentConfigRequest; NotifyConfigStreamReceived] ->
  (step lw (OnStation s o) w = Ok (w2, t) <->
   exists w1, reset_effect lw w (cb_cfg (st_cbs st)) w1 t /\ w2 = with_station w1 s (now_using st None)).
Proof. intros lw w s st o w2 t S0 I. rewrite (finish_ops lw s o I). exact (finish_iff lw w s st w2 t S0). Qed.
Print Assumptions C24_finish.
Example C24_case_finish : reset_effect 64 demo (cb_cfg (st_cbs demo_st1)) (with_parser demo 2 (UserP demo_beh [CStart; CReset])) [EvCfg 2 CReset] /\
  step 64 (OnStation 1 FinishCurrentConfigRequest) demo =
    Ok (with_station (with_parser demo 2 (UserP demo_beh [CStart; CReset])) 1 (now_using demo_st1 None), [EvCfg 2 CReset]).
Proof. split; [split; reflexivity|reflexivity]. Qed.
Example C24_case : step 64 (OnStation 1 (Begin 0x1801 (st_cbs demo_bare))) demo =
  Ok (with_station (with_parser demo 2 (UserP demo_beh [CStart; CReset])) 1 (mkStation 0x0301 (st_cbs demo_bare)), [EvCfg 2 CReset]).
Proof. reflexivity. Qed.
