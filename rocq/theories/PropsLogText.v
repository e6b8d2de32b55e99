(* PropsLogText.v -- property theorems about the text the logging builds print: C84-C86.
   Vocabulary: SpecLogText.v.  lstep lw g, lrun lw g are the library built with the setting g. *)
From Verif Require Import ZLib SpecLogText ProofsStation ProofsText ProofsStream ProofsCrc ProofsConsole ProofsLogText Demo DemoStream PropsStation PropsLogged.

(** ** C84: commands sent *)
(** a turnout command prints its line, if the setting says so, and then sends its frame *)
Theorem C84_turnout_log : forall lw g w s st tx a p dir pw, station_at w s st -> cb_tx (st_cbs st) = Some tx -> is_u32 a -> byte dir ->
  exists f t, lstep lw g (OnStation s (SendAccessoryPacket a p dir pw)) w = Ok (w, t ++ [EvTx tx f]) /\ calls t = [] /\
    step lw (OnStation s (SendAccessoryPacket a p dir pw)) w = Ok (w, [EvTx tx f]) /\
    console t = opt (lg_out g) (setting_turnout (Z.lor a (turnout_base p)) dir (negb (pw =? 0))).
Proof. exact accessory_log. Qed.
Print Assumptions C84_turnout_log.
(** the number in that line: the address for MM2 and MFX, 2048 more for DCC and SX *)
Theorem C84_turnout_number : forall a p, 0 <= a < 1024 -> p <> P_UNKNOWN ->
  shown_turnout (Z.lor a (turnout_base p)) = match p with P_MM1 | P_MM2 | P_MFX => a | _ => a + 2048 end.
Proof. exact shown_number. Qed.
Print Assumptions C84_turnout_number.
(** so the line does not always show the address given in the call *)
Theorem C84_shows_the_address_refuted : exists a p w', step 64 (OnStation 0 (SendAccessoryPacket a p 1 1)) demo = Ok (demo, w') /\ a < 1024 /\
  exists t, lstep 64 verbose (OnStation 0 (SendAccessoryPacket a p 1 1)) demo = Ok (demo, t) /\ console t = zs "Setting turnout 2053 to position GREEN (ON) " ++ newline /\ a = 5.
Proof. exists 5, P_DCC. eexists. split; [vm_compute; reflexivity|]. split; [lia|]. eexists. split; [vm_compute; reflexivity|]. split; vm_compute; reflexivity. Qed.
Print Assumptions C84_shows_the_address_refuted.
(** dropped requests for an engine say why; others say nothing *)
Theorem C84_request_log : forall lw g w s st r q av name w' t, station_at w s st -> refers_to w r av name ->
  lstep lw g (OnStation s (RequestEngine r q)) w = Ok (w', t) ->
  (av = EMPTY -> console t = opt (lg_out g) no_name) /\
  (av <> EMPTY -> processing w (cb_cfg (st_cbs st)) -> console t = opt (lg_out g) still_busy) /\
  (av <> EMPTY -> ~ processing w (cb_cfg (st_cbs st)) -> console t = []).
Proof. exact request_engine_log. Qed.
Print Assumptions C84_request_log.
Example C84_case : station_at demo 0 demo_st0 /\ cb_tx (st_cbs demo_st0) = Some 0%nat /\ is_u32 5 /\ byte 0 /\
  (exists t, lstep 64 verbose (OnStation 0 (SendAccessoryPacket 5 P_MM2 0 0)) demo = Ok (demo, t) /\ console t = zs "Setting turnout 5 to position RED  (OFF)" ++ newline) /\
  (exists t, lstep 64 verbose (OnStation 1 (RequestEngine (RefEngine 0) (Some 0%nat))) demo = Ok (demo, t) /\ console t = still_busy) /\
  (exists t, lstep 64 verbose (OnStation 0 (RequestEngine (RefEntry 1 0) (Some 0%nat))) demo = Ok (demo, t) /\ console t = no_name).
Proof.
  split; [exact demo_at0|]. split; [reflexivity|]. split; [unfold is_u32; lia|]. split; [unfold byte; lia|].
  split; [eexists; split; vm_compute; reflexivity|]. split; eexists; split; vm_compute; reflexivity.
Qed.

(** ** C85: frames received *)
(** every frame that is not config data *)
Theorem C85_frame_log : forall lw g w s st tp p c r h d w' t, station_at w s st -> id_fields_ok tp p c h -> payload_ok d -> c <> CMD_CONFIG_DATA ->
  lstep lw g (OnStation s (HandlePacket (mkFrame (id_value tp p c r h) d))) w = Ok (w', t) ->
  console t = identifier_log g p c r h ++ if c =? CMD_REQUEST_CONFIG then request_log g d else frame_text c d.
Proof. exact frame_log. Qed.
Print Assumptions C85_frame_log.
(** config data: what the handler prints, behind the frame's announcement *)
Theorem C85_config_data_frame : forall lw g w s tp p r h d w' t, id_fields_ok tp p CMD_CONFIG_DATA h ->
  lstep lw g (OnStation s (HandlePacket (mkFrame (id_value tp p CMD_CONFIG_DATA r h) d))) w = Ok (w', t) ->
  exists t', lstep lw g (OnStation s (HandleConfigDataStream d)) w = Ok (w', t') /\ console t = identifier_log g p CMD_CONFIG_DATA r h ++ stream_log g ++ console t'.
Proof. exact stream_frame. Qed.
Print Assumptions C85_config_data_frame.
(** ... the handler: nobody waits, or a parser of the library does *)
Theorem C85_config_data_handler : forall lw g w s st d w' t, station_at w s st -> payload_ok d -> lstep lw g (OnStation s (HandleConfigDataStream d)) w = Ok (w', t) ->
  (~ processing w (cb_cfg (st_cbs st)) -> console t = ignored_text d) /\
  (forall q sp, cb_cfg (st_cbs st) = Some q -> lib_at w q sp -> in_progress sp = true ->
     exists t', lstep lw g (ParserAddMessage q d) w = Ok (w', t') /\ console t = content_log g d ++ console t').
Proof. exact handed_log. Qed.
Print Assumptions C85_config_data_handler.
Definition show_logged (cmd : Z) (d : Data) : list Z :=
  match lstep 64 verbose (OnStation 0 (HandlePacket (mkFrame (id_value 0 0 cmd false 0x4711) d))) demo with Ok (_, t) => console t | UB _ => [] end.
Example C85_case : station_at demo 0 demo_st0 /\
  show_logged CMD_REQUEST_CONFIG (mkData 8 (zs "loknamen" ++ [0])) = zs "Prio: 0000, Command: 0X20, Response: 0000, Hash: 0X4711" ++ newline ++ zs "Request Config Data. Payload: loknamen" ++ newline /\
  show_logged CMD_CONFIG_DATA (mkData 3 (zs "abc" ++ repeat 0 6)) =
    zs "Prio: 0000, Command: 0X21, Response: 0000, Hash: 0X4711" ++ newline ++ zs "Config Data Stream." ++ newline ++ zs "Ignoring ConfigData Stream: abc".
Proof. split; [exact demo_at0|]. vm_compute. split; reflexivity. Qed.

(** ** C86: streams *)
(** A whole download, for every setting, every consumer and any number of frames: the header, then
    for each data frame its content, the lines it completes, and how far the stream has got, with
    the checksum of the bytes received so far.  If the checksum is right, the last frame ends with
    what the consumer prints. *)
Theorem C86_download_log : forall lw g w p sp a c x hd ds crc sums w' t, lib_at w p sp -> sp_text sp = parser a (sp_cons sp) -> fits a -> consumer_at w c x ->
  header_for hd (8 * zlen ds) crc -> ds <> [] -> Forall data_frame ds -> (forall k, checksum_is (received (firstn k ds)) (sums k)) ->
  lrun lw g (download p c hd ds) w = Ok (w', t) ->
  exists final, console t = header_log g hd (8 * zlen ds) crc 0xFFFF ++ data_log g x (8 * zlen ds) crc sums final a [] 0 ds /\
    (checksum_is (received ds) crc -> end_text w' x final).
Proof. exact download_log. Qed.
Print Assumptions C86_download_log.
(** a stream without data *)
Theorem C86_empty_stream_log : forall lw g w p sp c x d w' t crc, lib_at w p sp -> sp_state sp = SS_FIRST -> sp_crc sp = crc_reset -> sp_cons sp = Some c -> consumer_at w c x -> header_for d 0 crc ->
  lstep lw g (ParserAddMessage p d) w = Ok (w', t) -> exists final, console t = header_log g d 0 crc 0xFFFF ++ final /\ end_text w' x final.
Proof. exact empty_log. Qed.
Print Assumptions C86_empty_stream_log.
(** an empty stream for an engine whose details were filled in before *)
Example C86_case_empty : let w := mkW (w_stations demo) (upd 0 (LibP (sp_startStream (demo_parser (Some 0%nat)))) (w_parsers demo)) [LocoC (Def (Some 1%nat)) (Def (Some 7%nat))] (w_engines demo) in
  let d := mkData 6 [0; 0; 0; 0; 255; 255; 0; 0; 0] in
  lib_at w 0 (sp_startStream (demo_parser (Some 0%nat))) /\ sp_state (sp_startStream (demo_parser (Some 0%nat))) = SS_FIRST /\
  sp_crc (sp_startStream (demo_parser (Some 0%nat))) = crc_reset /\ consumer_at w 0 (LocoC (Def (Some 1%nat)) (Def (Some 7%nat))) /\ header_for d 0 0xFFFF /\
  exists w' t, lstep 64 verbose (ParserAddMessage 0 d) w = Ok (w', t) /\
    console t = zs " Stream length: 0 Bytes. CRC requested: 0xffff CRC actual: 0xffff." ++ newline ++
      zs "Downloaded Engine:   EngineShortInfo: 'V200'UID:     0x4005 Addr: 5 V: 0 Dir: 1, F: 0000" ++ newline ++ zs " Proto: mfx" ++ newline ++ newline.
Proof.
  cbv zeta. split; [reflexivity|]. split; [reflexivity|]. split; [reflexivity|]. split; [reflexivity|]. split; [split; [vm_compute; repeat (split || constructor); congruence|split; [left|split]; reflexivity]|].
  do 2 eexists. split; vm_compute; reflexivity.
Qed.
(** a frame the parser cannot use: the same text in every build *)
Theorem C86_rejected_frame_log : forall lw g w p sp d w' t, lib_at w p sp -> lstep lw g (ParserAddMessage p d) w = Ok (w', t) ->
  (in_progress sp = false \/ malformed sp d) -> console t = parser_text sp d.
Proof. exact rejected_log. Qed.
Print Assumptions C86_rejected_frame_log.
(** a stream of 16 bytes for an engine's consumer: every setting prints exactly the lines described *)
Definition tiny : list Z := zs "[lok].uid=0x7" ++ newline.
Definition tiny_sums (k : nat) : Z := crc_of 0xFFFF (received (firstn k (body tiny))).
Definition show_download (g : logcfg) : list Z :=
  match lrun 64 g (download 0 0 (head tiny) (body tiny)) demo with Ok (_, t) => console t | UB _ => [] end.
Example C86_case : lib_at demo 0 (demo_parser (Some 0%nat)) /\ sp_text (demo_parser (Some 0%nat)) = parser astart (Some 0%nat) /\ fits astart /\
  consumer_at demo 0 (LocoC (Def (Some 0%nat)) (Def (Some 7%nat))) /\
  header_for (head tiny) (8 * zlen (body tiny)) (crc_of 0xFFFF (DemoStream.padded tiny)) /\ Forall data_frame (body tiny) /\ body tiny <> [] /\
  (forall k, checksum_is (received (firstn k (body tiny))) (tiny_sums k)) /\
  show_download verbose =
    zs " Stream length: 16 Bytes. CRC requested: 0x3331 CRC actual: 0xffff." ++ newline ++
    zs "[lok].ui" ++ zs "Stream continues. Bytes remaining: 8, Current CRC: 0x79e5" ++ newline ++
    zs "d=0x7" ++ newline ++ [0; 0] ++ zs "EngineControl::consumeConfigData(" ++ [34] ++ zs "lok" ++ [34] ++ zs ", " ++ [34] ++ zs "uid" ++ [34] ++ zs ", " ++ [34] ++ zs "0x7" ++ [34] ++ zs ")" ++ newline ++
    zs "Setting UID" ++ newline ++ zs "Stream complete!" ++ newline ++
    zs "Downloaded Engine:   EngineShortInfo: 'BR 103 113-7'UID:        0x7 Addr: 0 V: 0 Dir: 0, F: 0000" ++ newline ++ zs " Proto: " ++ newline ++ newline.
Proof.
  assert (B : streamb tiny (crc_of 0xFFFF (DemoStream.padded tiny)) = true) by (vm_compute; reflexivity). destruct (stream_b _ _ B) as (H1 & H2 & H3 & _).
  split; [reflexivity|]. split; [reflexivity|]. split; [apply start_fits|]. split; [reflexivity|]. split; [exact H1|]. split; [exact H2|]. split; [exact H3|]. split; [intros k; apply checksum_exists|].
  vm_compute. reflexivity.
Qed.
