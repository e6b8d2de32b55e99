(* PropsConsole.v -- property theorems about the text on the console: C75-C79.
   Vocabulary: SpecPrint.v (texts), SpecConsumer.v (numerals and how the library reads them).
   console t is all text printed during the trace t.  The texts printed while a library consumer
   receives lines are part of C50, C51 and C52. *)
From Verif Require Import ZLib SpecConsumer SpecReentry ProofsStation ProofsPrint ProofsStream ProofsConsole Demo.

(** ** C75 *)
(** %d: the decimal numeral of the number, behind a minus sign if it is negative *)
Theorem C75_decimal : forall x, fmt_d x = dec_text x /\
  (0 <= x -> dec_text x <> [] /\ decdigits 0 (dec_text x) x) /\
  (x < 0 -> exists t, dec_text x = zs "-" ++ t /\ t <> [] /\ decdigits 0 t (- x)).
Proof. intros x. split; [apply fmt_d_text|]. split; [apply dec_text_reads|apply negative_text]. Qed.
Print Assumptions C75_decimal.
(** two numbers never look the same *)
Theorem C75_decimal_distinct : forall x y, fmt_d x = fmt_d y -> x = y.
Proof. intros x y. rewrite !fmt_d_text. apply dec_text_inj. Qed.
Print Assumptions C75_decimal_distinct.
(** %#0nx, %#nx, %#0nX: a hexadecimal numeral of at least n characters *)
Theorem C75_hexadecimal : forall n x, 0 <= x ->
  (fmt_alt0x n x = hex_zeros n x /\ numeral (fmt_alt0x n x) x) /\
  (fmt_altx n x = hex_blanks n x /\ exists k t, fmt_altx n x = repeat 32 k ++ t /\ numeral t x) /\
  fmt_alt0X n x = map capital (fmt_alt0x n x) /\
  List.length (fmt_alt0x n x) = Nat.max n (List.length (hex_mark x ++ hex_text x)) /\
  List.length (fmt_altx n x) = Nat.max n (List.length (hex_mark x ++ hex_text x)).
Proof.
  intros n x X. rewrite fmt_alt0X_text, fmt_alt0x_text, fmt_altx_text by exact X. destruct (hex_widths n x) as (A & B). pose proof (zeros_numeral n x X). pose proof (blanks_numeral n x X). auto 10.
Qed.
Print Assumptions C75_hexadecimal.
(** a number printed by the library and sent to it as config text is read as the same number *)
Theorem C75_read_back : forall lw n x, 32 <= lw -> is_u32 x ->
  hex_value lw (fmt_alt0x n x) = x /\ hex_value lw (fmt_altx n x) = x /\ (x < 2 ^ 31 -> dec_value lw (fmt_d x) = x).
Proof.
  intros lw n x LW X. pose proof X as (X0 & X1). rewrite fmt_alt0x_text, fmt_altx_text, fmt_d_text by exact X0.
  split; [apply zeros_read; assumption|]. split; [apply blanks_read; assumption|]. intros B. destruct (dec_text_reads x X0). apply decimal_read; assumption.
Qed.
Print Assumptions C75_read_back.
(** but an address is printed as a signed number: some do not read back *)
Theorem C75_addresses_refuted : exists lw d, 32 <= lw /\ details_ok d /\ dec_value lw (dec_text (as_signed (ld_addr d))) <> ld_addr d /\
  ld_print d = zs "UID:          0 Addr: -1 V: 0 Dir: 0, F: 0000" ++ newline.
Proof.
  exists 64, (mkLD 0 0 0 0xFFFFFFFF 0). split; [lia|]. split; [unfold details_ok, is_u32, is_u16, byte; cbn; lia|]. split; [vm_compute; discriminate|]. vm_compute. reflexivity.
Qed.
Print Assumptions C75_addresses_refuted.
Example C75_case : is_u32 0x4007 /\ fmt_altx 10 0x4007 = zs "    0x4007" /\ fmt_alt0x 2 5 = zs "0x5" /\ fmt_alt0x 2 0 = zs "00" /\ fmt_alt0x 4 0x1F = zs "0x1f" /\
  fmt_alt0X 6 0x0A0 = zs "0X00A0" /\ fmt_d 1000 = zs "1000" /\ fmt_d (-42) = zs "-42" /\ hex_value 32 (zs "    0x4007") = 0x4007.
Proof. split; [unfold is_u32; lia|]. vm_compute. repeat split; reflexivity. Qed.

(** ** C76 *)
(** the text for every frame that is not config data, whatever the state of the world *)
Theorem C76_frame_text : forall lw w s st tp p c r h d w' t, station_at w s st -> id_fields_ok tp p c h -> payload_ok d -> c <> CMD_CONFIG_DATA ->
  step lw (OnStation s (HandlePacket (mkFrame (id_value tp p c r h) d))) w = Ok (w', t) -> console t = frame_text c d.
Proof. exact frame_console. Qed.
Print Assumptions C76_frame_text.
(** config data while the station waits for none *)
Theorem C76_ignored_config_data : forall lw w s st tp p r h d w' t, station_at w s st -> id_fields_ok tp p CMD_CONFIG_DATA h -> payload_ok d ->
  ~ processing w (cb_cfg (st_cbs st)) ->
  step lw (OnStation s (HandlePacket (mkFrame (id_value tp p CMD_CONFIG_DATA r h) d))) w = Ok (w', t) -> console t = ignored_text d.
Proof.
  intros lw w s st tp p r h d w' t S0 F P N H. cbn [step st_step] in H. unfold st_handlePacket in H. cbn [fid fdata] in H. rewrite ProofsCodec.id_getCommand_value in H by assumption.
  change (st_handleConfigDataStream lw s d w = Ok (w', t)) in H. eapply ignored_console; eassumption.
Qed.
Print Assumptions C76_ignored_config_data.
(** the handlers called directly print the same *)
Theorem C76_handlers : forall lw w s st d w' t, station_at w s st -> payload_ok d ->
  (forall i, step lw (OnStation s (HandleSystemCommand i d)) w = Ok (w', t) -> console t = system_text d) /\
  (forall r, step lw (OnStation s (HandleAccessoryPacket d r)) w = Ok (w', t) -> console t = turnout_text d) /\
  (~ processing w (cb_cfg (st_cbs st)) -> step lw (OnStation s (HandleConfigDataStream d)) w = Ok (w', t) -> console t = ignored_text d).
Proof.
  intros lw w s st d w' t S0 P. split; [|split].
  - intros i H. eapply system_console; eassumption.
  - intros r H. eapply accessory_console; eassumption.
  - intros N H. eapply ignored_console; eassumption.
Qed.
Print Assumptions C76_handlers.
(** identifiers *)
Theorem C76_identifier : forall tp p c r h, id_fields_ok tp p c h -> id_printAll (id_value tp p c r h) = identifier_text p c r h.
Proof. exact identifier_print. Qed.
Print Assumptions C76_identifier.
Definition show_frame (cmd : Z) (d : Data) : list Z :=
  match step 64 (OnStation 0 (HandlePacket (mkFrame (id_value 0 0 cmd false 0x4711) d))) demo with Ok (_, t) => console t | UB _ => [] end.
Example C76_case : station_at demo 0 demo_st0 /\ payload_ok (mkData 6 [0; 0; 48; 2; 1; 1; 0; 0; 0]) /\
  show_frame CMD_ACCESSORY (mkData 6 [0; 0; 48; 2; 1; 1; 0; 0; 0]) =
    zs "Accessory Switch. Details: Turnout:     0x3002, Human Value: 12291, Position: 1 (on, straight, green) Power: 1 (on, button press)" ++ [10] /\
  show_frame CMD_SYSTEM (mkData 5 [0; 0; 0; 0; 1; 0; 0; 0; 0]) = zs "System Command.  Subcommand: GO!" ++ [10] /\
  show_frame CMD_DEBUG_TEXT (mkData 5 (zs "hello" ++ repeat 0 4)) = zs "Debug Text: 'hello'" ++ [10] /\
  show_frame 0x1A (mkData 2 [0; 255; 0; 0; 0; 0; 0; 0; 0]) = zs "Unknown or not implemented. Dump: 0x1a" ++ [10] ++ zs " 00 0xff" ++ [10] /\
  show_frame CMD_CONFIG_DATA (mkData 3 (zs "abc" ++ repeat 0 6)) = zs "Ignoring ConfigData Stream: abc" /\
  show_frame CMD_SPEED (mkData 6 [0; 0; 64; 7; 1; 0; 0; 0; 0]) = [] /\
  id_printAll (id_value 0 2 0x21 true 0x0318) = zs "Prio: 0X02, Command: 0X21, Response: 0X01, Hash: 0X0318".
Proof.
  split; [exact demo_at0|]. split; [repeat split; cbn; try lia; repeat (apply Forall_cons; [unfold byte; lia|]); apply Forall_nil|]. vm_compute. repeat split; reflexivity.
Qed.

(** ** C77 *)
(** what printing an engine shows, and when it is defined at all *)
Theorem C77_engine_text : forall l t, details_ok (lo_data l) ->
  (lo_print l = Ok t <-> t = engine_text l /\ (si_avail (lo_info l) <> EMPTY -> In 0 (si_name (lo_info l))) /\ (si_avail (lo_info l) = FULL_DETAILS -> In 0 (lo_proto l))).
Proof. intros l t D. apply engine_print. exact D. Qed.
Print Assumptions C77_engine_text.
(** printing a list of engines changes nothing and calls nobody *)
Theorem C77_list_text : forall lw w c co i n o cb w' t, consumer_at w c (ListC co i (Def n) o cb) -> step lw (ListPrintAll c) w = Ok (w', t) ->
  w' = w /\ calls t = [] /\ console t = zs "EngineBrowser: " ++ dec_text n ++ zs " total engines." ++ newline ++ flat_map short_text i.
Proof. exact table_print. Qed.
Print Assumptions C77_list_text.
Example C77_case : details_ok (lo_data demo_engine2) /\ In 0 (si_name (lo_info demo_engine2)) /\ In 0 (lo_proto demo_engine2) /\
  lo_print demo_engine2 = Ok (zs "  EngineShortInfo: 'V200'UID:     0x4005 Addr: 5 V: 0 Dir: 1, F: 0000" ++ [10] ++ zs " Proto: mfx" ++ [10]) /\
  lo_print demo_engine = Ok (zs "  EngineShortInfo: 'BR 103 113-7'") /\
  consumer_at demo 1 (ListC (Def false) [si_reset; si_reset] (Def 0) (Def 0) (Def (Some 8%nat))) /\
  exists t, step 64 (ListPrintAll 1) demo = Ok (demo, t) /\
    console t = zs "EngineBrowser: 0 total engines." ++ [10] ++ zs "  EngineShortInfo: Empty." ++ [10] ++ zs "  EngineShortInfo: Empty." ++ [10].
Proof.
  split; [unfold details_ok, is_u32, is_u16, byte; cbn; lia|]. split; [cbn; tauto|]. split; [cbn; tauto|]. split; [vm_compute; reflexivity|]. split; [vm_compute; reflexivity|]. split; [reflexivity|].
  eexists. split; vm_compute; reflexivity.
Qed.

(** ** C78 *)
(** a frame the parser cannot use, whoever its consumer is *)
Theorem C78_complaints : forall lw w p sp d w' t, lib_at w p sp -> step lw (ParserAddMessage p d) w = Ok (w', t) ->
  (in_progress sp = false \/ malformed sp d) -> console t = parser_text sp d.
Proof. exact complaint. Qed.
Print Assumptions C78_complaints.
(** any frame, if the consumer is an object of the user's *)
Theorem C78_user_consumer : forall lw w p sp d w' t, lib_at w p sp -> step lw (ParserAddMessage p d) w = Ok (w', t) -> usable sp ->
  (forall c, sp_cons sp = Some c -> user_consumer w c) -> console t = parser_text sp d.
Proof.
  intros lw w p sp d w' t L H (a & _ & E) M. apply (user_parser_text lw w p sp d w' t L H M). rewrite E. exact M.
Qed.
Print Assumptions C78_user_consumer.
(** a proper header, handed to a parser whose consumer is the user's, prints nothing; a second one does *)
Example C78_case_user : let w := with_parser (mkW (w_stations demo) (w_parsers demo) [UserC] (w_engines demo)) 0 (LibP (sp_startStream (demo_parser (Some 0%nat)))) in
  let d := mkData 6 [0; 0; 0; 8; 1; 2; 0; 0; 0] in
  lib_at w 0 (sp_startStream (demo_parser (Some 0%nat))) /\ usable (sp_startStream (demo_parser (Some 0%nat))) /\ user_consumer w 0 /\
  exists w1 t1 w2 t2, step 64 (ParserAddMessage 0 d) w = Ok (w1, t1) /\ console t1 = [] /\
    step 64 (ParserAddMessage 0 d) w1 = Ok (w2, t2) /\ console t2 = parser_text (match nth_error (w_parsers w1) 0 with Some (LibP sp) => sp | _ => sp_new end) d /\ console t2 <> [] /\ calls t2 = [EvStreamAborted 0%nat].
Proof.
  cbv zeta. split; [reflexivity|]. split; [exists astart; split; [apply ProofsText.start_fits|reflexivity]|]. split; [reflexivity|].
  do 4 eexists. split; [vm_compute; reflexivity|]. split; [reflexivity|]. split; [vm_compute; reflexivity|]. split; [vm_compute; reflexivity|]. split; [discriminate|]. reflexivity.
Qed.
(** so a complaint is printed exactly for the frames the parser does not accept *)
Theorem C78_quiet_iff_accepted : forall sp d, parser_text sp d = [] <-> in_progress sp = true /\ ~ malformed sp d.
Proof.
  intros sp d. unfold parser_text, in_progress, malformed. destruct (sp_state sp).
  - split; [discriminate|intros (H & _); discriminate].
  - destruct ((dlc d =? 6) || (dlc d =? 7)) eqn:E; split; intros H; [split; [reflexivity|lia]|reflexivity|destruct (dlc d <? 6); discriminate|exfalso; lia].
  - destruct (Z.eqb_spec (dlc d) 8) as [E|E]; split; intros H; [split; [reflexivity|lia]|reflexivity|discriminate|exfalso; lia].
  - split; [discriminate|intros (H & _); discriminate].
Qed.
Print Assumptions C78_quiet_iff_accepted.
Example C78_case : let w := with_parser demo 0 (LibP (sp_startStream (demo_parser (Some 0%nat)))) in let d := mkData 5 (repeat 0 9) in
  lib_at w 0 (sp_startStream (demo_parser (Some 0%nat))) /\ malformed (sp_startStream (demo_parser (Some 0%nat))) d /\
  exists w' t, step 64 (ParserAddMessage 0 d) w = Ok (w', t) /\ console t = zs "Undersized first packet! Aborting parse." ++ [10] /\
    calls t = [EvStreamAborted 0; EvEndAborted 7 0].
Proof. cbv zeta. split; [reflexivity|]. split; [cbn; lia|]. eexists. eexists. split; [vm_compute; reflexivity|]. split; vm_compute; reflexivity. Qed.

(** ** C79 *)
(** every other call prints nothing, in any state *)
Theorem C79_silent_calls : forall lw o w w' t, may_print o = false -> step lw o w = Ok (w', t) -> console t = [].
Proof. intros lw o w w' t M. apply silent_calls. exact M. Qed.
Print Assumptions C79_silent_calls.
(** and so does every sequence of them *)
Theorem C79_silent_histories : forall lw os w w' t, Forall (fun o => may_print o = false) os -> run lw os w = Ok (w', t) -> console t = [].
Proof.
  intros lw. induction os as [|o os IH]; intros w w' t F H; [injection H as <- <-; reflexivity|]. apply Forall_cons_iff in F. destruct F as (M & F). cbn [run] in H.
  apply seq_inv in H. destruct H as (w1 & t1 & t2 & H1 & H2 & ->). rewrite console_app, (silent_calls lw o M _ _ _ H1), (IH _ _ _ F H2). reflexivity.
Qed.
Print Assumptions C79_silent_histories.
Example C79_case : let os := [OnStation 0 (RequestEngine (RefEngine 0) (Some 0%nat)); OnStation 0 (SendEngineVelocity 0x4005 500); OnStation 0 AbortCurrentConfigRequest] in
  Forall (fun o => may_print o = false) os /\ exists w' t, run 64 os demo = Ok (w', t) /\ List.length (sent t) = 4%nat /\ In (EvEndAborted 7 0) t.
Proof. cbv zeta. split; [repeat constructor|]. eexists. eexists. split; [vm_compute; reflexivity|]. split; [reflexivity|]. vm_compute. tauto. Qed.
