(* PropsConsumer.v -- property theorems about the consumers of config data: C49-C53.
   Vocabulary: SpecConsumer.v.  zb cap s is the parser's buffer of capacity cap holding s. *)
From Verif Require Import ZLib SpecConsumer ProofsCrc ProofsText ProofsStream ProofsConsumer Demo DemoStream.

(** ** C49 *)
(** which lines set which attribute: a token counts as a word if it is a beginning of that word *)
Definition beginning (token word : list Z) : Prop := exists r, word = token ++ r.
Theorem C49_which_lines : forall s k, nulfree s -> nulfree k ->
  (attribute_of s k = Some Uid <-> beginning s (zs "lokomotive") /\ beginning k (zs "uid")) /\
  (attribute_of s k = Some Protocol <-> beginning s (zs "lokomotive") /\ ~ beginning k (zs "uid") /\ beginning k (zs "typ")) /\
  (attribute_of s k = Some Address <-> beginning s (zs "lokomotive") /\ ~ beginning k (zs "uid") /\ ~ beginning k (zs "typ") /\ beginning k (zs "adresse")) /\
  (attribute_of s k = None <-> ~ beginning s (zs "lokomotive") \/
     (~ beginning k (zs "uid") /\ ~ beginning k (zs "typ") /\ ~ beginning k (zs "adresse"))).
Proof. exact which_lines. Qed.
Print Assumptions C49_which_lines.
(** the effect of a line on the world: only the engine changes, and of it only that attribute *)
Theorem C49_line_effect : forall lw w c e cb l s k v,
  consumer_at w c (LocoC (Def (Some e)) cb) -> engine_at w e l -> List.length (lo_proto l) = 8%nat -> (List.length v < 26)%nat ->
  exists l', cons_consume lw c (zb max_section s) (zb max_key k) (zb max_value v) w =
    Ok (with_engine w e l', [EvConsume c (zb max_section s) (zb max_key k) (zb max_value v)]) /\
  lo_info l' = lo_info l /\ ld_vel (lo_data l') = ld_vel (lo_data l) /\ ld_dir (lo_data l') = ld_dir (lo_data l) /\ ld_fbits (lo_data l') = ld_fbits (lo_data l) /\
  ld_uid (lo_data l') = match attribute_of s k with Some Uid => hex_value lw v mod 2 ^ 32 | _ => ld_uid (lo_data l) end /\
  ld_addr (lo_data l') = match attribute_of s k with Some Address => hex_value lw v mod 2 ^ 32 | _ => ld_addr (lo_data l) end /\
  lo_proto l' = match attribute_of s k with
                | Some Protocol => firstn 8 (until_nul v) ++ repeat 0 (8 - List.length (until_nul v))
                | _ => lo_proto l end.
Proof. exact line_effect. Qed.
Print Assumptions C49_line_effect.
(** hexadecimal numerals are read as the number they show, saturating at the size of unsigned long *)
Theorem C49_numerals : forall lw t x, numeral t x -> hex_value lw t = Z.min x (2 ^ lw - 1).
Proof. exact numeral_read. Qed.
Print Assumptions C49_numerals.
(** a consumer without an engine ignores every line *)
Theorem C49_no_engine_no_effect : forall lw w c cb s k v, consumer_at w c (LocoC (Def None) cb) ->
  cons_consume lw c s k v w = Ok (w, [EvConsume c s k v]).
Proof. exact consume_detached. Qed.
Print Assumptions C49_no_engine_no_effect.
(** so it is false that only lines of section 'lokomotive' with key 'uid' set the uid *)
Theorem C49_exact_words_refuted : exists s k lw l v, s <> zs "lokomotive" /\ k <> zs "uid" /\ nulfree s /\ nulfree k /\
  ld_uid (lo_data (after_line lw l (s, k, v))) <> ld_uid (lo_data l).
Proof.
  exists (zs "lok"), [], 64, demo_engine, (zs "0x4711"). split; [discriminate|]. split; [discriminate|].
  split; [repeat constructor; discriminate|]. split; [constructor|]. vm_compute. discriminate.
Qed.
Print Assumptions C49_exact_words_refuted.
Example C49_case : consumer_at demo 0 (LocoC (Def (Some 0%nat)) (Def (Some 7%nat))) /\ engine_at demo 0 demo_engine /\
  attribute_of (zs "lokomotive") (zs "uid") = Some Uid /\ attribute_of (zs "lokomotive") (zs "typ") = Some Protocol /\
  attribute_of (zs "lokomotive") (zs "adresse") = Some Address /\ attribute_of (zs "lokomotive") (zs "name") = None /\
  attribute_of (zs "version") (zs "uid") = None /\ attribute_of [] [] = Some Uid /\ attribute_of (zs "l") (zs "a") = Some Address /\
  numeral (zs "0x4007") 0x4007 /\ numeral (zs "c0de") 0xC0DE /\ hex_value 64 (zs "0x4007") = 0x4007.
Proof.
  repeat (split; [reflexivity|]). split; [|split; [|reflexivity]].
  - exists (zs "4007"). split; [discriminate|]. split; [right; reflexivity|]. change (zs "4007") with [52; 48; 48; 55]. repeat (eapply HexDigit; [left; split; [|reflexivity]; lia|]). apply HexEnd.
  - exists (zs "c0de"). split; [discriminate|]. split; [left; reflexivity|]. change (zs "c0de") with [99; 48; 100; 101].
    eapply HexDigit; [right; left; split; [|reflexivity]; lia|]. eapply HexDigit; [left; split; [|reflexivity]; lia|].
    eapply HexDigit; [right; left; split; [|reflexivity]; lia|]. eapply HexDigit; [right; left; split; [|reflexivity]; lia|]. apply HexEnd.
Qed.

(** ** C50 *)
(** An idle station with a transmit callback; a parser between two lines; an engine consumer; a
    known engine.  The answer carries a document that gives uid, address and protocol once each. *)
Theorem C50_engine_download : forall lw w s st tx p c e sp sec cb e0 l name hd ds d id tu u ta a tp,
  32 <= lw -> station_at w s st -> cb_tx (st_cbs st) = Some tx -> cb_cfg (st_cbs st) = None ->
  lib_at w p sp -> between_lines sp sec -> consumer_at w c (LocoC e0 (Def cb)) -> engine_at w e l -> si_avail (lo_info l) <> EMPTY ->
  shows_name (si_name (lo_info l)) name -> List.length (lo_proto l) = 8%nat -> config_id id ->
  doc_ok d -> carries ds d -> proper_stream hd ds -> Forall line_fits (reports sec d) ->
  values_of Uid (reports sec d) = [tu] -> numeral tu u -> u < 2 ^ 32 ->
  values_of Address (reports sec d) = [ta] -> numeral ta a -> a < 2 ^ 32 ->
  values_of Protocol (reports sec d) = [tp] -> nulfree tp -> (List.length tp <= 7)%nat ->
  exists w' t, run lw (engine_download s p c e id (hd :: ds)) w = Ok (w', t) /\
    w_engines w' = upd e (mkLoco (mkSI FULL_DETAILS (si_name (lo_info l)))
                                 (mkLD u (ld_vel (lo_data l)) (ld_dir (lo_data l)) a (ld_fbits (lo_data l)))
                                 (tp ++ repeat 0 (8 - List.length tp))) (w_engines w) /\
    notes t = EvStreamComplete c :: callback_note cb (fun cb => EvEndComplete cb c) /\
    (details_ok (lo_data l) ->
     console t = downloaded_text (mkLoco (mkSI FULL_DETAILS (si_name (lo_info l)))
                                         (mkLD u (ld_vel (lo_data l)) (ld_dir (lo_data l)) a (ld_fbits (lo_data l)))
                                         (tp ++ repeat 0 (8 - List.length tp)))).
Proof. exact described_download. Qed.
Print Assumptions C50_engine_download.
(** any document, right or wrong checksum: the engine has been changed by all lines; only a right
    checksum marks it fully known; the parser is again between two lines *)
Theorem C50_any_document : forall lw w s st tx p c e sp sec cb e0 l name hd ds crc id d,
  station_at w s st -> cb_tx (st_cbs st) = Some tx -> cb_cfg (st_cbs st) = None ->
  lib_at w p sp -> between_lines sp sec -> consumer_at w c (LocoC e0 (Def cb)) -> engine_at w e l -> si_avail (lo_info l) <> EMPTY ->
  shows_name (si_name (lo_info l)) name -> List.length (lo_proto l) = 8%nat -> config_id id ->
  header_for hd (8 * zlen ds) crc -> ds <> [] -> 8 * zlen ds < 2 ^ 32 -> doc_ok d -> carries ds d -> Forall line_fits (reports sec d) ->
  let l' := after_lines lw l (reports sec d) in In 0 (lo_proto l') ->
  exists w' t, run lw (engine_download s p c e id (hd :: ds)) w = Ok (w', t) /\
    (checksum_is (received ds) crc ->
       w_engines w' = upd e (lo_setAvailability l' FULL_DETAILS) (w_engines w) /\ notes t = EvStreamComplete c :: callback_note cb (fun cb => EvEndComplete cb c)) /\
    (~ checksum_is (received ds) crc ->
       w_engines w' = upd e l' (w_engines w) /\ notes t = EvStreamAborted c :: callback_note cb (fun cb => EvEndAborted cb c)) /\
    (details_ok (lo_data l) -> (checksum_is (received ds) crc -> console t = downloaded_text (lo_setAvailability l' FULL_DETAILS)) /\
       (~ checksum_is (received ds) crc -> console t = [])) /\
    exists sp', lib_at w' p sp' /\ between_lines sp' (last_section sec d).
Proof. exact any_download. Qed.
Print Assumptions C50_any_document.
(** an 8-character protocol is stored without a NUL, and completing the stream reads past it *)
Theorem C50_long_protocol_refuted : exists w s p c e id hd ds d,
  doc_ok d /\ carries ds d /\ proper_stream hd ds /\ Forall line_fits (reports [] d) /\
  run 64 (engine_download s p c e id (hd :: ds)) w = UB OutOfBounds.
Proof. exact long_protocol. Qed.
Print Assumptions C50_long_protocol_refuted.

Example C50_case : station_at demo 0 demo_st0 /\ lib_at demo 0 (demo_parser (Some 0%nat)) /\ between_lines (demo_parser (Some 0%nat)) [] /\
  consumer_at demo 0 (LocoC (Def (Some 0%nat)) (Def (Some 7%nat))) /\ engine_at demo 0 demo_engine /\ si_avail (lo_info demo_engine) <> EMPTY /\
  shows_name (si_name (lo_info demo_engine)) (zs "BR 103 113-7") /\ config_id demo_id /\
  doc_ok demo_doc /\ carries (body (show_doc demo_doc)) demo_doc /\ proper_stream (head (show_doc demo_doc)) (body (show_doc demo_doc)) /\
  Forall line_fits (reports [] demo_doc) /\ values_of Uid (reports [] demo_doc) = [zs "0x4007"] /\
  values_of Address (reports [] demo_doc) = [zs "0x7"] /\ values_of Protocol (reports [] demo_doc) = [zs "mfx"] /\
  exists w' t, run 64 (engine_download 0 0 0 0 demo_id (head (show_doc demo_doc) :: body (show_doc demo_doc))) demo = Ok (w', t) /\
    w_engines w' = [mkLoco (mkSI FULL_DETAILS (si_name (lo_info demo_engine))) (mkLD 0x4007 0 0 7 0) (zs "mfx" ++ repeat 0 5); demo_engine2] /\
    notes t = [EvStreamComplete 0; EvEndComplete 7 0] /\ details_ok (lo_data demo_engine) /\
    console t = zs "Downloaded Engine:   EngineShortInfo: 'BR 103 113-7'UID:     0x4007 Addr: 7 V: 0 Dir: 0, F: 0000" ++ [10] ++ zs " Proto: mfx" ++ [10; 10].
Proof.
  destruct (carries_b _ demo_doc_ok) as (A & B & C & D).
  split; [exact demo_at0|]. split; [reflexivity|]. split; [split; [reflexivity|cbn; lia]|]. split; [reflexivity|]. split; [reflexivity|]. split; [discriminate|].
  split; [split; [repeat constructor; discriminate|split; [cbn; lia|reflexivity]]|]. split; [apply demo_id_ok|]. repeat (split; [assumption|]).
  split; [reflexivity|]. split; [reflexivity|]. split; [reflexivity|]. eexists. eexists. split; [vm_compute; reflexivity|]. split; [reflexivity|]. split; [reflexivity|].
  split; [unfold details_ok, is_u32, is_u16, byte; cbn; lia|]. vm_compute; reflexivity.
Qed.

(** ** C51 *)
(** one line: a name goes to the first free entry, a count is stored modulo 256, nothing else changes *)
Theorem C51_line_effect : forall lw w c co i n o cb s k v, consumer_at w c (ListC co i n o cb) -> list_line_fits (s, k, v) ->
  exists t, cons_consume lw c (zb max_section s) (zb max_key k) (zb max_value v) w =
    Ok (with_consumer w c (match list_entry_of (s, k, v) with
                           | NameEntry x => ListC co (filled i [until_nul x]) n o cb
                           | CountEntry x => ListC co i (Def (dec_value lw x mod 256)) o cb
                           | NoEntry => ListC co i n o cb
                           end), EvConsume c (zb max_section s) (zb max_key k) (zb max_value v) :: t) /\ calls t = [] /\
    console t = list_talk (free_count i) [(s, k, v)].
Proof. exact list_line_effect. Qed.
Print Assumptions C51_line_effect.
(** a whole download, right or wrong checksum *)
Theorem C51_list_download : forall lw w s st tx p c sp sec co i num o cb off hd ds crc id d,
  station_at w s st -> cb_tx (st_cbs st) = Some tx -> cb_cfg (st_cbs st) = None ->
  lib_at w p sp -> between_lines sp sec -> consumer_at w c (ListC co i num o (Def cb)) -> byte off -> config_id id ->
  header_for hd (8 * zlen ds) crc -> ds <> [] -> 8 * zlen ds < 2 ^ 32 -> doc_ok d -> carries ds d -> Forall list_line_fits (reports sec d) ->
  exists w' t, run lw (list_download s p c off id (hd :: ds)) w = Ok (w', t) /\ w_engines w' = w_engines w /\
    console t = list_talk (free_count i) (reports sec d) /\
    (checksum_is (received ds) crc ->
       w_conss w' = upd c (ListC (Def true) (filled i (names_in (reports sec d)))
                             (last (map (fun v => Def (dec_value lw v mod 256)) (counts_in (reports sec d))) num) o (Def cb)) (w_conss w) /\
       notes t = EvStreamComplete c :: callback_note cb (fun cb => EvEndComplete cb c)) /\
    (~ checksum_is (received ds) crc ->
       w_conss w' = upd c (ListC (Def false) (map (fun _ => si_reset) i) (Def 0) (Def 0) (Def cb)) (w_conss w) /\
       notes t = EvStreamAborted c :: callback_note cb (fun cb => EvEndAborted cb c)).
Proof. exact named_list_download. Qed.
Print Assumptions C51_list_download.
(** with an empty table of two: the first two names, in order *)
Theorem C51_first_two_names : forall ns, filled [si_reset; si_reset] ns =
  match ns with [] => [si_reset; si_reset] | [a] => [named a; si_reset] | a :: b :: _ => [named a; named b] end.
Proof. intros [|a [|b ns]]; reflexivity. Qed.
Print Assumptions C51_first_two_names.
(** a table filled by an earlier download keeps its entries: the new names are dropped *)
Theorem C51_full_table_keeps_old_names : forall i ns, Forall (fun x => free_entry x = false) i -> filled i ns = i.
Proof. exact filled_full. Qed.
Print Assumptions C51_full_table_keeps_old_names.
(** counts given in decimal digits are read as the number they show *)
Theorem C51_counts : forall lw v x, 32 <= lw -> v <> [] -> decdigits 0 v x -> x < 2 ^ 31 -> dec_value lw v mod 256 = x mod 256.
Proof. exact decimal_count. Qed.
Print Assumptions C51_counts.
Example C51_case_counts : decdigits 0 (zs "259") 259 /\ dec_value 32 (zs "259") mod 256 = 3.
Proof.
  split; [|vm_compute; reflexivity]. apply (DecDigit 0 50 2); [unfold decdigit; lia|]. apply (DecDigit 2 53 5); [unfold decdigit; lia|].
  apply (DecDigit 25 57 9); [unfold decdigit; lia|]. apply DecEnd.
Qed.
(** a reset in the middle of a stream clears the whole table *)
Theorem C51_reset_clears_table : forall lw w p c sp co i num o cb, lib_at w p sp -> usable sp -> in_progress sp = true -> sp_cons sp = Some c ->
  consumer_at w c (ListC co i num o (Def cb)) ->
  exists w' t, run lw [ParserReset p] w = Ok (w', t) /\
    w_conss w' = upd c (ListC (Def false) (map (fun _ => si_reset) i) (Def 0) (Def 0) (Def cb)) (w_conss w) /\ w_engines w' = w_engines w /\
    t = EvStreamAborted c :: callback_note cb (fun cb => EvEndAborted cb c).
Proof. intros. eexists. eexists. split; [eapply reset_clears_list; eassumption|]. auto. Qed.
Print Assumptions C51_reset_clears_table.
(** a list being downloaded, one name stored, and the parser is reset *)
Example C51_case_reset :
  let ops := [ParserStartStream 1; ParserAddMessage 1 (head (show_doc demo_list))] ++ map (ParserAddMessage 1) (firstn 3 (body (show_doc demo_list))) in
  exists w t sp i num, run 64 ops demo = Ok (w, t) /\ lib_at w 1 sp /\ in_progress sp = true /\ sp_cons sp = Some 1%nat /\
    consumer_at w 1 (ListC (Def false) i num (Def 0) (Def (Some 8%nat))) /\ i <> map (fun _ => si_reset) i /\
  exists w' t', run 64 [ParserReset 1] w = Ok (w', t') /\ nth_error (w_conss w') 1 = Some (ListC (Def false) [si_reset; si_reset] (Def 0) (Def 0) (Def (Some 8%nat))) /\
    t' = [EvStreamAborted 1; EvEndAborted 8 1].
Proof.
  cbv zeta. do 5 eexists. split; [vm_compute; reflexivity|]. split; [reflexivity|]. split; [reflexivity|]. split; [reflexivity|].
  split; [reflexivity|]. split; [vm_compute; discriminate|]. do 2 eexists. split; [vm_compute; reflexivity|]. split; reflexivity.
Qed.
Example C51_case : consumer_at demo 1 (ListC (Def false) [si_reset; si_reset] (Def 0) (Def 0) (Def (Some 8%nat))) /\
  doc_ok demo_list /\ carries (body (show_doc demo_list)) demo_list /\ Forall list_line_fits (reports [] demo_list) /\
  names_in (reports [] demo_list) = [zs "0"; zs "V200"; zs "BR 18"] /\ counts_in (reports [] demo_list) = [zs "259"] /\
  exists w' t, run 64 (list_download 0 1 1 0 demo_id (head (show_doc demo_list) :: body (show_doc demo_list))) demo = Ok (w', t) /\
    nth_error (w_conss w') 1 = Some (ListC (Def true) [named (zs "0"); named (zs "V200")] (Def 3) (Def 0) (Def (Some 8%nat))) /\
    notes t = [EvStreamComplete 1; EvEndComplete 8 1] /\
    console t = zs "Storing Engine 0" ++ [10] ++ zs "Storing Engine V200" ++ [10] ++ zs "No free Engine buffer found." ++ [10].
Proof.
  destruct (carries_b _ demo_list_ok) as (A & B & C & D). split; [reflexivity|]. split; [exact A|]. split; [exact B|].
  split; [vm_compute; repeat constructor|]. split; [reflexivity|]. split; [reflexivity|]. eexists. eexists. split; [vm_compute; reflexivity|]. split; [reflexivity|]. split; [reflexivity|]. vm_compute; reflexivity.
Qed.

(** ** C52 *)
(** text with an overlong token after document d, then anything: completion is reported, the engine
    is marked fully known, and it has been changed by the lines of d only *)
Theorem C52_parse_error_still_completes : forall lw w s st tx p c e sp sec cb e0 l name hd ds id d rest,
  station_at w s st -> cb_tx (st_cbs st) = Some tx -> cb_cfg (st_cbs st) = None ->
  lib_at w p sp -> between_lines sp sec -> consumer_at w c (LocoC e0 (Def cb)) -> engine_at w e l -> si_avail (lo_info l) <> EMPTY ->
  shows_name (si_name (lo_info l)) name -> List.length (lo_proto l) = 8%nat -> config_id id ->
  proper_stream hd ds -> doc_ok d -> carries_broken ds d rest -> Forall line_fits (reports sec d) ->
  let l' := after_lines lw l (reports sec d) in In 0 (lo_proto l') ->
  exists w' t, run lw (engine_download s p c e id (hd :: ds)) w = Ok (w', t) /\
    w_engines w' = upd e (lo_setAvailability l' FULL_DETAILS) (w_engines w) /\
    notes t = EvStreamComplete c :: callback_note cb (fun cb => EvEndComplete cb c) /\
    (details_ok (lo_data l) -> console t = downloaded_text (lo_setAvailability l' FULL_DETAILS)).
Proof. exact broken_download. Qed.
Print Assumptions C52_parse_error_still_completes.
(** the address line follows a key of 12 characters: it never arrives *)
Example C52_case : let d := [([], ISection (zs "lokomotive")); (nl ++ zs " ", IPair (zs "uid") (zs "0x4007"))] in
  let rest := zs "n=1" ++ nl ++ zs " .adresse=0x7" ++ repeat NEWLINE 7 in let bs := show_doc d ++ zs " " ++ zs ".funktionen_x" ++ rest in
  doc_ok d /\ carries_broken (body bs) d rest /\ proper_stream (head bs) (body bs) /\
  exists w' t, run 64 (engine_download 0 0 0 0 demo_id (head bs :: body bs)) demo = Ok (w', t) /\
    w_engines w' = [mkLoco (mkSI FULL_DETAILS (si_name (lo_info demo_engine))) (mkLD 0x4007 0 0 0 0) (repeat 0 8); demo_engine2] /\
    notes t = [EvStreamComplete 0; EvEndComplete 7 0].
Proof.
  intros d rest bs. split; [apply doc_b; reflexivity|]. split.
  - split; [apply frame_b; vm_compute; reflexivity|]. exists (zs " "), (zs ".funktionen_x"). split; [apply free_of_b; reflexivity|]. split; [|vm_compute; reflexivity].
    right. left. exists (zs "funktionen_x"). split; [reflexivity|]. split; [apply free_of_b; reflexivity|reflexivity].
  - split; [apply proper_b; vm_compute; reflexivity|]. eexists. eexists. split; [vm_compute; reflexivity|]. split; reflexivity.
Qed.

(** ** C53 *)
(** The station still refers to parser p.  Whatever consumer is then set on p, a request that the
    station does not drop leaves p without a consumer, and later config frames reach no consumer.
    If a stream was in progress, the new consumer is told that it was aborted. *)
Theorem C53_second_request_loses_consumer : forall lw w s st tx p sp c o w1 t1,
  station_at w s st -> cb_tx (st_cbs st) = Some tx -> cb_cfg (st_cbs st) = Some p ->
  lib_at w p sp -> usable sp -> config_request w sp o p ->
  run lw [ParserSetConsumer p (Some c); OnStation s o] w = Ok (w1, t1) ->
  ends t1 = (if in_progress sp then [EvStreamAborted c] else []) /\
  (exists sp1, lib_at w1 p sp1 /\ sp_cons sp1 = None /\ sp_state sp1 = SS_FIRST) /\
  forall id ds, config_id id -> Forall payload_ok ds -> Forall (fun d => dlc d <= 8) ds ->
    exists w2 t2, run lw (arriving s id ds) w1 = Ok (w2, t2) /\ Forall (fun ev => exists d, In d ds /\ ev = EvCfg p (CAdd d)) (calls t2) /\
      w_conss w2 = w_conss w1 /\ w_engines w2 = w_engines w1.
Proof.
  intros. edestruct second_request_loses as (A & B & C); try eassumption. split; [exact A|]. split; [|exact C]. eexists. split; [exact B|]. split; reflexivity.
Qed.
Print Assumptions C53_second_request_loses_consumer.
(** finishing the first request before setting the consumer keeps it *)
Theorem C53_finish_first : forall lw w s st tx p sp c o w2 t,
  station_at w s st -> cb_tx (st_cbs st) = Some tx -> cb_cfg (st_cbs st) = Some p ->
  lib_at w p sp -> usable sp -> in_progress sp = false ->
  ((exists off, byte off /\ o = RequestEngineList off (Some p)) \/ (exists r av name, refers_to w r av name /\ av <> EMPTY /\ o = RequestEngine r (Some p))) ->
  run lw [OnStation s FinishCurrentConfigRequest; ParserSetConsumer p (Some c); OnStation s o] w = Ok (w2, t) ->
  (exists sp2, lib_at w2 p sp2 /\ sp_cons sp2 = Some c /\ sp_state sp2 = SS_FIRST /\ sp_text sp2 = parser astart (Some c)) /\
  notes t = [] /\ nth_error (w_stations w2) s = Some (now_using st (Some p)).
Proof. exact finish_first. Qed.
Print Assumptions C53_finish_first.
(** setting the consumer before finishing is as bad as not finishing *)
Theorem C53_finish_after_setting_refuted : exists lw w s st p sp c o w2 t,
  station_at w s st /\ cb_cfg (st_cbs st) = Some p /\ lib_at w p sp /\ usable sp /\ in_progress sp = false /\ config_request w sp o p /\
  run lw [ParserSetConsumer p (Some c); OnStation s FinishCurrentConfigRequest; OnStation s o] w = Ok (w2, t) /\
  exists sp2, lib_at w2 p sp2 /\ sp_cons sp2 = None.
Proof.
  exists 64, (mkW [now_using demo_st0 (Some 0%nat)] (w_parsers demo) (w_conss demo) (w_engines demo)), 0%nat, (now_using demo_st0 (Some 0%nat)), 0%nat, (demo_parser (Some 0%nat)), 0%nat,
    (RequestEngineList 0 (Some 0%nat)).
  eexists. eexists. split; [split; [reflexivity|unfold is_u16; cbn; lia]|]. split; [reflexivity|]. split; [reflexivity|].
  split; [exists astart; split; [apply start_fits|reflexivity]|]. split; [reflexivity|]. split; [left; exists 0; split; [unfold byte; lia|reflexivity]|].
  split; [vm_compute; reflexivity|]. eexists. split; reflexivity.
Qed.
Print Assumptions C53_finish_after_setting_refuted.
(** two downloads in a row with the same parser: the second engine is never filled in *)
Example C53_case : let frames := head (show_doc demo_doc) :: body (show_doc demo_doc) in
  exists w1 t1 st sp w2 t2, run 64 (engine_download 0 0 0 0 demo_id frames) demo = Ok (w1, t1) /\
    station_at w1 0 st /\ cb_cfg (st_cbs st) = Some 0%nat /\ lib_at w1 0 sp /\ in_progress sp = false /\
    run 64 (engine_download 0 0 0 1 demo_id frames) w1 = Ok (w2, t2) /\ notes t2 = [] /\ w_engines w2 = w_engines w1.
Proof.
  cbv zeta. do 6 eexists. split; [vm_compute; reflexivity|]. split; [split; [reflexivity|unfold is_u16; cbn; lia]|]. split; [reflexivity|]. split; [reflexivity|].
  split; [reflexivity|]. split; [vm_compute; reflexivity|]. split; reflexivity.
Qed.
