(* PropsChannel.v -- property theorems C72-C74: streams with lost, doubled or swapped frames.
   Vocabulary: SpecChannel.v.  [stream_of hd ds]: header and data frames as sent. *)
From Verif Require Import ZLib SpecChannel ProofsCrc ProofsStream ProofsChannel Demo PropsStream.

(** ** C72: lost frames *)
(** if data frames are lost, nothing is reported and the parser waits for more *)
Theorem C72_lost_frames_never_complete : forall lw p c hd ds arrived w sp w' t,
  stream_of hd ds -> left_out arrived ds -> lib_at w p sp -> usable sp ->
  run lw (download p c hd arrived) w = Ok (w', t) ->
  exists sp', lib_at w' p sp' /\ usable sp' /\ sp_cons sp' = Some c /\ ends t = [] /\ sp_state sp' = SS_DATA.
Proof. exact lost. Qed.
Print Assumptions C72_lost_frames_never_complete.
(** the next frame of another length, such as the header of the next stream, aborts it; that header and
    everything behind it is ignored *)
Theorem C72_next_stream_is_lost_too : forall lw p c hd ds arrived hd2 rest w sp w' t,
  stream_of hd ds -> left_out arrived ds -> lib_at w p sp -> usable sp -> dlc hd2 <> 8 ->
  run lw (download p c hd arrived ++ arriving_at p (hd2 :: rest)) w = Ok (w', t) ->
  ends t = [EvStreamAborted c] /\ lib_at w' p (mkSP SS_IDLE 0 tp_new crc_reset None).
Proof. intros lw p c hd ds arrived hd2 rest w sp w' t S A L U D H. destruct (lost_then _ _ _ _ _ _ _ _ _ _ _ _ S A L U D H). auto. Qed.
Print Assumptions C72_next_stream_is_lost_too.
(** if the header is lost, the first data frame aborts the stream *)
Theorem C72_lost_header_aborts : forall lw p c ds w sp w' t,
  ds <> [] -> Forall data_frame ds -> lib_at w p sp -> usable sp ->
  run lw (ParserSetConsumer p (Some c) :: ParserStartStream p :: arriving_at p ds) w = Ok (w', t) ->
  ends t = [EvStreamAborted c] /\ lib_at w' p (mkSP SS_IDLE 0 tp_new crc_reset None).
Proof. intros lw p c ds w sp w' t N F L U H. destruct (lost_header _ _ _ _ _ _ _ _ N F L U H). auto. Qed.
Print Assumptions C72_lost_header_aborts.

(** a stream of three frames: a section and the lines a=acq, a=paa *)
Definition line_frame (v : string) : Data := demo_data (zs " .a=" ++ zs v ++ [10]).
Definition section_frame : Data := demo_data (zs "[secto]" ++ [10]).
Definition demo_stream (v1 v2 : string) : list Data := [section_frame; line_frame v1; line_frame v2].
Definition header_of (ds : list Data) : Data := demo_header (8 * zlen ds) (crc_of 0xFFFF (received ds)).
Lemma demo_stream_of : forall ds, ds <> [] -> 8 * zlen ds < 2 ^ 32 -> Forall data_frame ds -> stream_of (header_of ds) ds.
Proof.
  intros ds NE B F. assert (P : 0 < zlen ds) by (destruct ds; [congruence|unfold zlen; cbn [List.length]; lia]).
  exists (zlen ds), (crc_of 0xFFFF (received ds)). split.
  - apply header_built; [unfold is_u32; lia|]. destruct (checksum_total _ (received_bytes _ F)) as (r & R & Q). apply checksum_fun in R. rewrite <- R. exact Q.
  - split; [exact P|]. split; [exact B|]. split; [reflexivity|]. split; [exact F|]. apply checksum_exists.
Qed.
Lemma demo_frames : forall v1 v2, In (v1, v2) [("acq", "paa"); ("b04", "haa")]%string -> Forall data_frame (demo_stream v1 v2).
Proof. intros v1 v2 [H|[H|[]]]; injection H as <- <-; repeat constructor; try discriminate; vm_compute; congruence. Qed.
Lemma demo_stream_ok : forall v1 v2, In (v1, v2) [("acq", "paa"); ("b04", "haa")]%string -> stream_of (header_of (demo_stream v1 v2)) (demo_stream v1 v2).
Proof. intros v1 v2 H. apply demo_stream_of; [discriminate|reflexivity|apply demo_frames; exact H]. Qed.

Example C72_case : exists w' t,
  let ds := demo_stream "acq" "paa" in
  stream_of (header_of ds) ds /\ left_out [section_frame; line_frame "paa"] ds /\ lib_at demo_user 0 (demo_parser None) /\ usable (demo_parser None) /\
  dlc (header_of ds) <> 8 /\
  run 64 (download 0 0 (header_of ds) [section_frame; line_frame "paa"] ++ arriving_at 0 (header_of ds :: ds)) demo_user = Ok (w', t) /\
  calls t = consumed 0 [(zs "secto", zs "a", zs "paa")] ++ [EvStreamAborted 0%nat].
Proof.
  eexists. eexists. cbv zeta. split; [apply demo_stream_ok; left; reflexivity|]. split; [apply out_keep, out_one|]. split; [reflexivity|].
  split; [exists astart; split; [apply ProofsText.start_fits|reflexivity]|]. split; [vm_compute; discriminate|]. split; vm_compute; reflexivity.
Qed.
(** the header is lost and the frames of the example stream arrive without it *)
Example C72_case_header : exists w' t, let ds := demo_stream "acq" "paa" in
  ds <> [] /\ Forall data_frame ds /\ lib_at demo_user 0 (demo_parser None) /\ usable (demo_parser None) /\
  run 64 (ParserSetConsumer 0 (Some 0%nat) :: ParserStartStream 0 :: arriving_at 0 ds) demo_user = Ok (w', t) /\ calls t = [EvStreamAborted 0%nat].
Proof.
  eexists. eexists. cbv zeta. split; [discriminate|]. split; [destruct (demo_stream_ok "acq" "paa" (or_introl eq_refl)) as (n & crc & _ & _ & _ & _ & F & _); exact F|].
  split; [reflexivity|]. split; [exists astart; split; [apply ProofsText.start_fits|reflexivity]|]. split; vm_compute; reflexivity.
Qed.

(** ** C73: a doubled data frame *)
(** the stream ends with the last-but-one frame; it is reported complete exactly if the bytes received
    by then differ from those sent by a multiple of the checksum polynomial; doubling the last frame is
    harmless *)
Theorem C73_doubled_frame : forall lw p c hd before y after w sp w' t,
  stream_of hd (before ++ y :: after) -> lib_at w p sp -> usable sp ->
  run lw (download p c hd (before ++ y :: y :: after)) w = Ok (w', t) ->
  outcome_is (multiple_of ccitt (difference (received (before ++ y :: after))
                                            (received (firstn (List.length (before ++ y :: after)) (before ++ y :: y :: after))))) c t /\
  (after = [] -> ends t = [EvStreamComplete c]).
Proof. exact doubled. Qed.
Print Assumptions C73_doubled_frame.
(** that a doubled frame is always noticed is false: sent are a=acq and a=paa, received and reported
    complete are a=acq and a=acq *)
Theorem C73_doubled_frame_noticed_refuted : exists w' t,
  stream_of (header_of (demo_stream "acq" "paa")) (demo_stream "acq" "paa") /\
  lib_at demo_user 0 (demo_parser None) /\ usable (demo_parser None) /\ user_consumer demo_user 0 /\
  run 64 (download 0 0 (header_of (demo_stream "acq" "paa")) [section_frame; line_frame "acq"; line_frame "acq"; line_frame "paa"]) demo_user = Ok (w', t) /\
  calls t = consumed 0 [(zs "secto", zs "a", zs "acq"); (zs "secto", zs "a", zs "acq")] ++ [EvStreamComplete 0%nat].
Proof.
  eexists. eexists. split; [apply demo_stream_ok; left; reflexivity|]. split; [reflexivity|].
  split; [exists astart; split; [apply ProofsText.start_fits|reflexivity]|]. split; [reflexivity|]. split; vm_compute; reflexivity.
Qed.
Print Assumptions C73_doubled_frame_noticed_refuted.
(** in most cases it is *)
Example C73_case : exists w' t,
  stream_of (header_of (demo_stream "b04" "haa")) ([section_frame] ++ line_frame "b04" :: [line_frame "haa"]) /\
  run 64 (download 0 0 (header_of (demo_stream "b04" "haa")) ([section_frame] ++ line_frame "b04" :: line_frame "b04" :: [line_frame "haa"])) demo_user = Ok (w', t) /\
  ends t = [EvStreamAborted 0%nat].
Proof. eexists. eexists. split; [apply demo_stream_ok; right; left; reflexivity|]. split; vm_compute; reflexivity. Qed.

(** ** C74: two neighbouring data frames arrive in the wrong order *)
(** reported complete exactly if the two differ by a multiple of the checksum polynomial divided by x + 1,
    wherever in the stream they are *)
Theorem C74_swapped_frames : forall lw p c hd before y z after w sp w' t,
  stream_of hd (before ++ y :: z :: after) -> lib_at w p sp -> usable sp ->
  run lw (download p c hd (before ++ z :: y :: after)) w = Ok (w', t) ->
  outcome_is (multiple_of ccitt_cofactor (difference (content y) (content z))) c t.
Proof. exact swapped. Qed.
Print Assumptions C74_swapped_frames.
(** in particular if they differ within at most 15 neighbouring bits, the swap is noticed *)
Theorem C74_similar_frames_noticed : forall lw p c hd before y z after w sp w' t e k,
  stream_of hd (before ++ y :: z :: after) -> lib_at w p sp -> usable sp ->
  0 <= k -> 0 < e < 2 ^ 15 -> difference (content y) (content z) = Z.shiftl e k ->
  run lw (download p c hd (before ++ z :: y :: after)) w = Ok (w', t) -> ends t = [EvStreamAborted c].
Proof.
  intros lw p c hd before y z after w sp w' t e k S L U K E D H. destruct (swapped _ _ _ _ _ _ _ _ _ _ _ _ S L U H) as (_ & B).
  apply B. rewrite D. apply cof_small; assumption.
Qed.
Print Assumptions C74_similar_frames_noticed.
(** (x + 1) * cofactor is the polynomial *)
Theorem C74_cofactor : clmul 3 ccitt_cofactor = ccitt.
Proof. reflexivity. Qed.
Print Assumptions C74_cofactor.
(** that swapped frames are always noticed is false: the lines a=b04 and a=haa arrive in the other
    order and the stream is reported complete *)
Theorem C74_swapped_frames_noticed_refuted : exists w' t,
  stream_of (header_of (demo_stream "b04" "haa")) (demo_stream "b04" "haa") /\
  lib_at demo_user 0 (demo_parser None) /\ usable (demo_parser None) /\ user_consumer demo_user 0 /\
  run 64 (download 0 0 (header_of (demo_stream "b04" "haa")) [section_frame; line_frame "haa"; line_frame "b04"]) demo_user = Ok (w', t) /\
  calls t = consumed 0 [(zs "secto", zs "a", zs "haa"); (zs "secto", zs "a", zs "b04")] ++ [EvStreamComplete 0%nat].
Proof.
  eexists. eexists. split; [apply demo_stream_ok; right; left; reflexivity|]. split; [reflexivity|].
  split; [exists astart; split; [apply ProofsText.start_fits|reflexivity]|]. split; [reflexivity|]. split; vm_compute; reflexivity.
Qed.
Print Assumptions C74_swapped_frames_noticed_refuted.
(** swapping the lines a=acq and a=act, which differ in one byte, is noticed *)
Example C74_case : difference (content (line_frame "acq")) (content (line_frame "act")) = Z.shiftl 5 8 /\
  exists w' t, run 64 (download 0 0 (header_of (demo_stream "acq" "act")) [section_frame; line_frame "act"; line_frame "acq"]) demo_user = Ok (w', t) /\
    ends t = [EvStreamAborted 0%nat].
Proof. split; [reflexivity|]. eexists. eexists. split; vm_compute; reflexivity. Qed.
