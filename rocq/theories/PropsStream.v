(* PropsStream.v -- property theorems about config-data streams: C25-C28, C33, C54.
   Vocabulary: SpecStream.v.  [download p c hd ds] is: set consumer c, start, header hd, data ds. *)
From Verif Require Import ZLib SpecStream ProofsCrc ProofsText ProofsStream Demo.

Definition demo_data (s : list Z) : Data := mkData 8 (s ++ [0]).
Definition demo_header (len crc : Z) : Data := fdata (fr_Config_Data_Header len crc).
(** a world with a user consumer *)
Definition demo_user : world := mkW [demo_st0] [LibP (demo_parser None)] [UserC] [].

(** every parser reached by any history of operations from parsers as constructed is [usable] *)
Theorem C25_reachable_parsers_are_usable : forall lw ops w w' t,
  all_usable w -> Forall frames_ok ops -> run lw ops w = Ok (w', t) -> all_usable w'.
Proof. exact always_usable. Qed.
Print Assumptions C25_reachable_parsers_are_usable.
Example C25_case_reachable : all_usable demo /\
  exists w' t, run 64 [ParserStartStream 0; ParserAddMessage 0 (demo_header 16 0); ParserAddMessage 0 (demo_data (zs "[lok]" ++ [10] ++ zs " ."))] demo = Ok (w', t) /\ w' <> demo.
Proof.
  split.
  - intros p sp H. unfold lib_at in H. destruct p as [|[|[|p]]]; cbn in H; try discriminate; [| |destruct p; discriminate];
      injection H as <-; exists astart; (split; [apply start_fits|reflexivity]).
  - eexists. eexists. split; [vm_compute; reflexivity|]. intros H. apply (f_equal w_parsers) in H. discriminate.
Qed.
Theorem C25_new_parser_is_usable : usable sp_new.
Proof. exists astart. split; [apply start_fits|reflexivity]. Qed.
Print Assumptions C25_new_parser_is_usable.

(** ** C25 *)
Theorem C25_stream_outcome : forall lw p c hd ds n crc w sp w' t,
  lib_at w p sp -> usable sp -> header_for hd (8 * n) crc -> 0 < n -> 8 * n < 2 ^ 32 ->
  Forall data_frame ds -> run lw (download p c hd ds) w = Ok (w', t) ->
  exists sp', lib_at w' p sp' /\ usable sp' /\ sp_cons sp' = Some c /\
    (zlen ds < n -> ends t = [] /\ sp_state sp' = SS_DATA) /\
    (n <= zlen ds -> checksum_is (received (firstn (Z.to_nat n) ds)) crc ->
       ends t = [EvStreamComplete c] /\ sp_state sp' = SS_DONE) /\
    (n <= zlen ds -> ~ checksum_is (received (firstn (Z.to_nat n) ds)) crc ->
       ends t = [EvStreamAborted c] /\ sp_state sp' = SS_IDLE).
Proof. exact download_ends. Qed.
Print Assumptions C25_stream_outcome.
(** with a consumer of the user's own the run always succeeds, nothing but the parser changes, and
    the calls are exactly: the lines of the text, then the end notification *)
Theorem C25_exact_calls : forall lw p c hd ds n crc w sp a,
  lib_at w p sp -> fits a -> sp_text sp = parser a (sp_cons sp) -> user_consumer w c ->
  header_for hd (8 * n) crc -> 0 < n -> 8 * n < 2 ^ 32 -> Forall data_frame ds -> zlen ds = n ->
  exists sp' t last, run lw (download p c hd ds) w = Ok (with_parser w p (LibP sp'), t) /\
    calls t = consumed c (snd (aadds a (map content ds))) ++ [last] /\
    (checksum_is (received ds) crc -> last = EvStreamComplete c) /\
    (~ checksum_is (received ds) crc -> last = EvStreamAborted c).
Proof.
  intros lw p c hd ds n crc w sp a L F T U H N1 N2 FD ZL.
  destruct (download_user lw p c hd ds n crc w sp a L F T U H N1 N2 FD ZL) as (sp' & t & R1 & R2). exists sp', t. eexists. split; [exact R1|]. split; [exact R2|].
  unfold ending. split; intros V.
  - apply verdict_true in V. rewrite V. reflexivity.
  - destruct (verdict _ crc) eqn:Q; [apply verdict_true in Q; contradiction|reflexivity].
Qed.
Print Assumptions C25_exact_calls.
(** an object of the user's own is told about the line and then about the end *)
Example C25_case_exact : let ds := [demo_data (zs "[numloks"); demo_data (zs "]" ++ [10] ++ zs " .w=1" ++ [10])] in
  Forall data_frame ds /\ user_consumer demo_user 0 /\ lib_at demo_user 0 sp_new /\ sp_text sp_new = parser astart (sp_cons sp_new) /\ fits astart /\
  exists w' t, run 64 (download 0 0 (demo_header 16 (crc_of 0xFFFF (received ds))) ds) demo_user = Ok (w', t) /\
    calls t = consumed 0 [(zs "numloks", zs "w", zs "1")] ++ [EvStreamComplete 0%nat].
Proof.
  cbv zeta. split; [repeat constructor; try discriminate; vm_compute; congruence|]. split; [reflexivity|]. split; [reflexivity|].
  split; [reflexivity|]. split; [apply start_fits|]. eexists. eexists. split; [vm_compute; reflexivity|vm_compute; reflexivity].
Qed.
(** a header announcing zero bytes completes at once, whatever its checksum field says *)
Theorem C25_empty_stream : forall lw p c hd ds crc w sp w' t,
  lib_at w p sp -> usable sp -> header_for hd 0 crc -> Forall payload_ok ds ->
  run lw (download p c hd ds) w = Ok (w', t) -> ends t = [EvStreamComplete c].
Proof. exact download_empty. Qed.
Print Assumptions C25_empty_stream.
Example C25_case_empty : header_for (demo_header 0 0x1234) 0 0x1234 /\
  exists w' t, run 64 (download 0 0 (demo_header 0 0x1234) [demo_data (zs "12345678")]) demo_user = Ok (w', t) /\ ends t = [EvStreamComplete 0%nat].
Proof.
  split; [apply header_built; unfold is_u32, is_u16; lia|]. eexists. eexists. split; [vm_compute; reflexivity|vm_compute; reflexivity].
Qed.
Example C25_case : exists crc,
  header_for (demo_header 16 crc) (8 * 2) crc /\ Forall data_frame [demo_data (zs "[numloks"); demo_data (zs "]" ++ [10] ++ zs " .w=12")] /\
  checksum_is (received [demo_data (zs "[numloks"); demo_data (zs "]" ++ [10] ++ zs " .w=12")]) crc /\
  lib_at demo 1 (demo_parser (Some 1%nat)) /\ usable (demo_parser (Some 1%nat)) /\ user_consumer demo_user 0 /\
  exists w' t, run 64 (download 1 1 (demo_header 16 crc) [demo_data (zs "[numloks"); demo_data (zs "]" ++ [10] ++ zs " .w=12")]) demo = Ok (w', t) /\
    ends t = [EvStreamComplete 1%nat].
Proof.
  exists (crc_of 0xFFFF (zs "[numloks" ++ zs "]" ++ [10] ++ zs " .w=12")).
  split; [apply header_built; unfold is_u32, is_u16; vm_compute; split; congruence|].
  split; [repeat constructor; try discriminate; vm_compute; congruence|].
  split; [apply checksum_fun; vm_compute; reflexivity|]. split; [reflexivity|]. split; [exists astart; split; [apply start_fits|reflexivity]|].
  split; [reflexivity|]. eexists. eexists. split; [vm_compute; reflexivity|vm_compute; reflexivity].
Qed.

(** ** C26 *)
Theorem C26_odd_length_never_ends : forall lw p c hd ds len crc w sp w' t,
  lib_at w p sp -> usable sp -> header_for hd len crc -> len mod 8 <> 0 ->
  Forall data_frame ds -> run lw (download p c hd ds) w = Ok (w', t) ->
  exists sp', lib_at w' p sp' /\ sp_cons sp' = Some c /\ ends t = [] /\ sp_state sp' = SS_DATA.
Proof. exact download_endless. Qed.
Print Assumptions C26_odd_length_never_ends.
(** in particular, 9 announced bytes are not complete after 16 bytes *)
Example C26_case : header_for (demo_header 9 0) 9 0 /\ 9 mod 8 <> 0 /\
  exists w' t, run 64 (download 0 0 (demo_header 9 0) (repeat (demo_data (zs "12345678")) 5)) demo_user = Ok (w', t) /\ ends t = [].
Proof.
  split; [apply header_built; unfold is_u32, is_u16; lia|]. split; [discriminate|]. eexists. eexists. split; vm_compute; reflexivity.
Qed.

(** ** C27: frame d does not fit the state the parser waits in *)
Theorem C27_malformed_frame_aborts_once : forall lw p d ds w sp c w' t,
  lib_at w p sp -> usable sp -> sp_cons sp = Some c ->
  (sp_state sp = SS_FIRST /\ dlc d <> 6 /\ dlc d <> 7) \/ (sp_state sp = SS_DATA /\ dlc d <> 8) ->
  run lw (map (ParserAddMessage p) (d :: ds)) w = Ok (w', t) ->
  exists sp', lib_at w' p sp' /\ sp_state sp' = SS_IDLE /\ sp_cons sp' = None /\ sp_text sp' = tp_new /\ ends t = [EvStreamAborted c].
Proof.
  intros lw p d ds w sp c w' t L U C W H. destruct (bad_frame lw p d ds w sp w' t L U W H) as (A & B). rewrite C in B. eexists. split; [exact A|]. repeat split. exact B.
Qed.
Print Assumptions C27_malformed_frame_aborts_once.
(** an idle parser ignores frames: nothing changes and nobody is called *)
Theorem C27_idle_parser_ignores : forall lw p d w sp w' t,
  lib_at w p sp -> (sp_state sp = SS_IDLE \/ sp_state sp = SS_DONE) ->
  step lw (ParserAddMessage p d) w = Ok (w', t) -> w' = w /\ calls t = [].
Proof. exact ignored. Qed.
Print Assumptions C27_idle_parser_ignores.
Example C27_case_idle : lib_at demo 0 (demo_parser (Some 0%nat)) /\ sp_state (demo_parser (Some 0%nat)) = SS_IDLE /\
  exists t, step 64 (ParserAddMessage 0 (demo_header 16 0)) demo = Ok (demo, t).
Proof. split; [reflexivity|]. split; [reflexivity|]. eexists. vm_compute. reflexivity. Qed.
Example C27_case : exists w' t, run 64 (download 0 0 (demo_header 16 0) [demo_data (zs "12345678"); mkData 7 (zs "1234567" ++ [0; 0]); demo_data (zs "12345678")]) demo_user = Ok (w', t) /\
  calls t = [EvStreamAborted 0%nat].
Proof. eexists. eexists. split; vm_compute; reflexivity. Qed.

(** ** C28 *)
Theorem C28_at_most_one_end_per_start : forall lw p ops w sp w' t,
  lib_at w p sp -> Forall (on_parser p) ops -> Forall (fun o => is_start o = false) ops ->
  run lw (ParserStartStream p :: ops) w = Ok (w', t) -> (List.length (ends t) <= 1)%nat.
Proof. exact one_end_per_start. Qed.
Print Assumptions C28_at_most_one_end_per_start.
Theorem C28_none_before_the_first_start : forall lw p ops w sp w' t,
  lib_at w p sp -> Forall (on_parser p) ops -> Forall (fun o => is_start o = false) ops ->
  in_progress sp = false -> run lw ops w = Ok (w', t) -> ends t = [].
Proof. exact no_end_before_start. Qed.
Print Assumptions C28_none_before_the_first_start.
Example C28_case_no_start : lib_at demo_user 0 sp_new /\ in_progress sp_new = false /\
  exists w' t, run 64 [ParserSetConsumer 0 (Some 0%nat); ParserAddMessage 0 (demo_header 16 0); ParserReset 0] demo_user = Ok (w', t) /\ ends t = [].
Proof. split; [reflexivity|]. split; [reflexivity|]. eexists. eexists. split; [vm_compute; reflexivity|reflexivity]. Qed.
(** in total: at most as many ends as starts, plus one if a stream was under way *)
Theorem C28_ends_bounded_by_starts : forall lw p ops w sp w' t,
  lib_at w p sp -> Forall (on_parser p) ops -> run lw ops w = Ok (w', t) ->
  (List.length (ends t) <= List.length (filter is_start ops) + (if in_progress sp then 1 else 0))%nat.
Proof. exact ends_bounded. Qed.
Print Assumptions C28_ends_bounded_by_starts.
Example C28_case : exists w' t, run 64 [ParserSetConsumer 0 (Some 0%nat); ParserStartStream 0; ParserReset 0; ParserReset 0; ParserSetConsumer 0 (Some 0%nat); ParserAddMessage 0 (demo_header 16 0); ParserStartStream 0; ParserAddMessage 0 (demo_header 16 0); ParserAddMessage 0 (demo_header 16 0)] demo_user = Ok (w', t) /\
  calls t = [EvStreamAborted 0%nat; EvStreamAborted 0%nat].
Proof. eexists. eexists. split; vm_compute; reflexivity. Qed.

(** ** C33: a corrupted payload is reported aborted *)
Theorem C33_corruption_is_reported : forall lw p c hd ds n crc w sp w' t lw2 p2 c2 ds2 w2 sp2 w2' t2,
  header_for hd (8 * n) crc -> 0 < n -> 8 * n < 2 ^ 32 ->
  lib_at w p sp -> usable sp -> Forall data_frame ds -> zlen ds = n ->
  run lw (download p c hd ds) w = Ok (w', t) -> In (EvStreamComplete c) t ->
  lib_at w2 p2 sp2 -> usable sp2 -> Forall data_frame ds2 -> corrupted (received ds) (received ds2) ->
  run lw2 (download p2 c2 hd ds2) w2 = Ok (w2', t2) ->
  ends t2 = [EvStreamAborted c2].
Proof. exact corruption_reported. Qed.
Print Assumptions C33_corruption_is_reported.
(** the same header with the right bytes, and with two of them changed *)
Example C33_case_runs :
  let ds := [demo_data (zs "abcdefgh"); demo_data (zs "12345678")] in let ds2 := [demo_data (zs "abcdefXY"); demo_data (zs "12345678")] in
  let hd := demo_header 16 (crc_of 0xFFFF (received ds)) in
  Forall data_frame ds /\ Forall data_frame ds2 /\ lib_at demo_user 0 sp_new /\
  (exists w' t, run 64 (download 0 0 hd ds) demo_user = Ok (w', t) /\ In (EvStreamComplete 0) t) /\
  (exists w' t, run 64 (download 0 0 hd ds2) demo_user = Ok (w', t) /\ ends t = [EvStreamAborted 0%nat]).
Proof.
  cbv zeta. split; [repeat constructor; try discriminate; vm_compute; congruence|]. split; [repeat constructor; try discriminate; vm_compute; congruence|].
  split; [reflexivity|]. split.
  - eexists. eexists. split; [vm_compute; reflexivity|]. vm_compute. tauto.
  - eexists. eexists. split; [vm_compute; reflexivity|]. vm_compute. reflexivity.
Qed.
Example C33_case : corrupted (zs "abcdefgh12345678") (zs "abcdefXY12345678").
Proof. split; [reflexivity|]. left. exists (difference (zs "gh") (zs "XY")), 64. split; [lia|]. split; [vm_compute; split; congruence|vm_compute; reflexivity]. Qed.

(** ** C54 *)
Theorem C54_header_frame : forall len crc, is_u32 len -> is_u16 crc ->
  header_for (fdata (fr_Config_Data_Header len crc)) len crc /\
  id_getCommand (fid (fr_Config_Data_Header len crc)) = CMD_CONFIG_DATA.
Proof. exact header_built. Qed.
Print Assumptions C54_header_frame.
Theorem C54_data_frame : forall bs, (8 <= List.length bs)%nat -> Forall byte bs ->
  exists f, fr_Config_Data bs = Ok f /\ data_frame (fdata f) /\ content (fdata f) = firstn 8 bs /\
    id_getCommand (fid f) = CMD_CONFIG_DATA.
Proof. exact data_built. Qed.
Print Assumptions C54_data_frame.
(** fewer than eight bytes: the builder reads past their end *)
Theorem C54_short_data : forall bs, (List.length bs < 8)%nat -> fr_Config_Data bs = UB OutOfBounds.
Proof. exact data_short. Qed.
Print Assumptions C54_short_data.
(** a text of 8*n bytes cut into frames by the builders, with its checksum in the header, arrives:
    the consumer is told the lines of exactly that text, then completion *)
Theorem C54_built_stream_arrives : forall lw p c w sp a n bs crc,
  lib_at w p sp -> fits a -> sp_text sp = parser a (sp_cons sp) -> user_consumer w c ->
  0 < n -> 8 * n < 2 ^ 32 -> zlen bs = 8 * n -> Forall byte bs -> checksum_is bs crc ->
  exists fs sp' t, build (pieces (Z.to_nat n) bs) = Ok fs /\
    run lw (download p c (fdata (fr_Config_Data_Header (8 * n) crc)) (map fdata fs)) w = Ok (with_parser w p (LibP sp'), t) /\
    calls t = consumed c (snd (aadds a (pieces (Z.to_nat n) bs))) ++ [EvStreamComplete c].
Proof. exact built_download. Qed.
Print Assumptions C54_built_stream_arrives.
Example C54_case_arrives : let bs := zs "[a]" ++ [10] ++ zs " .k=v" ++ [10] ++ repeat 0 6 in
  exists fs w' t, build (pieces 2 bs) = Ok fs /\
    run 64 (download 0 0 (fdata (fr_Config_Data_Header 16 (crc_of 0xFFFF bs))) (map fdata fs)) demo_user = Ok (w', t) /\
    calls t = consumed 0 [(zs "a", zs "k", zs "v")] ++ [EvStreamComplete 0%nat].
Proof. cbv zeta. do 3 eexists. split; [vm_compute; reflexivity|]. split; [vm_compute; reflexivity|vm_compute; reflexivity]. Qed.
Theorem C54_pieces_make_up_the_text : forall n bs, List.length bs = (8 * n)%nat -> List.concat (pieces n bs) = bs.
Proof. exact pieces_concat. Qed.
Print Assumptions C54_pieces_make_up_the_text.
Example C54_case : is_u32 0x01020304 /\ fdata (fr_Config_Data_Header 0x01020304 0xA0B0) = mkData 6 [1; 2; 3; 4; 0xA0; 0xB0; 0; 0; 0] /\
  lib_at demo_user 0 (demo_parser None) /\ user_consumer demo_user 0 /\ zlen (zs "[a]" ++ [10] ++ zs " .k=v" ++ [10] ++ repeat 0 6) = 8 * 2.
Proof. split; [unfold is_u32; lia|]. repeat split. Qed.
