(* PropsRecover.v -- property theorems about recovering from any history: C91.
   Vocabulary: SpecRecover.v, and SpecSafe.v for valid calls and excessive lines. *)
From Verif Require Import ZLib SpecRecover ProofsCrc ProofsText ProofsStream ProofsConsumer ProofsSafe ProofsRecover Demo DemoStream PropsSafe.

(** ** C91 *)
(** After any history of valid calls (C57), finishing the station's request and resetting the
    parser reports no completion and changes no engine, and then a download with this station,
    parser and consumer fills in the engine and is reported complete once. *)
Theorem C91_engine_download_after_any_history : forall lw w0 ops s p c e hd ds d id u a tp, 32 <= lw ->
  sound w0 -> Forall (valid_op w0) ops -> (forall pre o post w1 t1, ops = pre ++ o :: post -> run lw pre w0 = Ok (w1, t1) -> ~ excessive_line w1 o) ->
  a_parser w0 p -> an_engine_consumer w0 c -> config_id id -> carries ds d -> proper_stream hd ds -> describes d u a tp ->
  exists w t, run lw ops w0 = Ok (w, t) /\
  forall st l, station_at w s st -> engine_at w e l -> si_avail (lo_info l) <> EMPTY ->
  exists w1 t1 w2 t2 e0 x, run lw (make_ready s p) w = Ok (w1, t1) /\ w_engines w1 = w_engines w /\ (forall c', ~ In (EvStreamComplete c') t1) /\
    run lw (engine_download s p c e id (hd :: ds)) w1 = Ok (w2, t2) /\ w_engines w2 = upd e (described l u a tp) (w_engines w) /\
    consumer_at w c (LocoC e0 (Def x)) /\ notes t2 = EvStreamComplete c :: callback_note x (fun cb => EvEndComplete cb c).
Proof. exact engine_after_history. Qed.
Print Assumptions C91_engine_download_after_any_history.
(** the same for lists: with the list consumer reset, its table of n entries then holds the first n
    names, and the count is the last one given *)
Theorem C91_list_download_after_any_history : forall lw w0 ops s p c n off hd ds d id,
  sound w0 -> Forall (valid_op w0) ops -> (forall pre o post w1 t1, ops = pre ++ o :: post -> run lw pre w0 = Ok (w1, t1) -> ~ excessive_line w1 o) ->
  a_parser w0 p -> (exists co i k o cb, consumer_at w0 c (ListC co i k o cb) /\ List.length i = n) -> byte off -> config_id id ->
  carries ds d -> proper_stream hd ds -> doc_ok d -> Forall list_line_fits (reports [] d) ->
  exists w t, run lw ops w0 = Ok (w, t) /\
  forall st, station_at w s st ->
  exists w1 t1 w2 t2 co i k o x, run lw (make_ready s p) w = Ok (w1, t1) /\ (forall c', ~ In (EvStreamComplete c') t1) /\
    run lw (ListReset c :: list_download s p c off id (hd :: ds)) w1 = Ok (w2, t2) /\ w_engines w2 = w_engines w /\
    consumer_at w c (ListC co i k o (Def x)) /\
    consumer_at w2 c (ListC (Def true) (map named (firstn n (names_in (reports [] d))) ++ repeat si_reset (n - List.length (names_in (reports [] d))))
                           (last (map (fun v => Def (dec_value lw v mod 256)) (counts_in (reports [] d))) (Def 0)) (Def 0) (Def x)) /\
    notes t2 = EvStreamComplete c :: callback_note x (fun cb => EvEndComplete cb c).
Proof. exact list_after_history. Qed.
Print Assumptions C91_list_download_after_any_history.
(** a station that uses the parser need only be told to finish *)
Theorem C91_finishing_is_enough : forall lw w s st p c e e0 cb l hd ds d id u a tp, 32 <= lw -> sound w -> station_at w s st ->
  cb_cfg (st_cbs st) = Some p -> a_parser w p -> consumer_at w c (LocoC e0 cb) -> engine_at w e l -> si_avail (lo_info l) <> EMPTY ->
  config_id id -> carries ds d -> proper_stream hd ds -> describes d u a tp ->
  exists w2 t2 x, cb = Def x /\ run lw (OnStation s FinishCurrentConfigRequest :: engine_download s p c e id (hd :: ds)) w = Ok (w2, t2) /\
    w_engines w2 = upd e (described l u a tp) (w_engines w) /\
    exists t0, (forall c', ~ In (EvStreamComplete c') t0) /\ notes t2 = t0 ++ EvStreamComplete c :: callback_note x (fun cb => EvEndComplete cb c).
Proof.
  intros lw w s st p c e e0 cb l hd ds d id u a tp LW S Q CF P C E AV ID CA PS DE.
  destruct (finished_ready lw w s st p S Q P CF) as (w1 & t1 & E1 & R & NC).
  destruct (ready_engine lw w w1 s st p c e e0 cb l hd ds d id u a tp LW S R Q C E AV ID CA PS DE) as (w2 & t2 & x & X0 & X1 & X2 & X3).
  exists w2, (t1 ++ t2), x. split; [exact X0|]. split; [|split; [exact X2|]].
  - change (OnStation s FinishCurrentConfigRequest :: engine_download s p c e id (hd :: ds)) with ([OnStation s FinishCurrentConfigRequest] ++ engine_download s p c e id (hd :: ds)).
    rewrite (run_app _ _ _ _ _ _ E1), X1. reflexivity.
  - exists (notes t1). split; [intros c' I; apply filter_In in I; exact (NC _ (proj1 I))|]. unfold notes at 1. rewrite filter_app. f_equal. exact X3.
Qed.
Print Assumptions C91_finishing_is_enough.

Lemma demo_describes : describes demo_doc 0x4007 7 (zs "mfx").
Proof.
  destruct (carries_b _ demo_doc_ok) as (A & _ & _ & D). split; [exact A|]. split; [exact D|]. split.
  { exists (zs "0x4007"). split; [reflexivity|]. exists (zs "4007"). split; [discriminate|]. split; [right; reflexivity|]. change (zs "4007") with [52; 48; 48; 55]. repeat (eapply HexDigit; [left; split; [|reflexivity]; lia|]). apply HexEnd. }
  split; [lia|]. split.
  { exists (zs "0x7"). split; [reflexivity|]. exists (zs "7"). split; [discriminate|]. split; [right; reflexivity|]. change (zs "7") with [55]. eapply HexDigit; [left; split; [|reflexivity]; lia|]. apply HexEnd. }
  split; [lia|]. split; [reflexivity|]. split; [repeat constructor; discriminate|cbn; lia].
Qed.
(** The history: a download broken off in the middle of a line.  [demo_half] has sent its first two
    data frames. *)
Definition demo_half : list op := firstn 5 (demo_ops 0 0 (show_doc demo_doc)).
Lemma forall_firstn : forall A (P : A -> Prop) n l, Forall P l -> Forall P (firstn n l).
Proof. intros A P n l F. apply Forall_forall. intros x X. rewrite Forall_forall in F. apply F. rewrite <- (firstn_skipn n l). apply in_or_app. left. exact X. Qed.
Lemma demo_half_valid : Forall (valid_op demo_good) demo_half.
Proof. apply forall_firstn. apply demo_valid; [cbn; lia|exists (demo_parser (Some 0%nat)); reflexivity|cbn; lia|cbn; lia|vm_compute; reflexivity]. Qed.
(** [ParserReset] alone is not enough: the station still refers to the parser, so the next request
    drops the consumer (C53) and the download is not noticed *)
Theorem C91_without_finishing_refuted : exists w0 ops w t s st p c e e0 x l id hd ds d u a tp,
  sound w0 /\ Forall (valid_op w0) ops /\ run 64 ops w0 = Ok (w, t) /\ station_at w s st /\ a_parser w p /\ consumer_at w c (LocoC e0 (Def x)) /\
  engine_at w e l /\ si_avail (lo_info l) <> EMPTY /\ config_id id /\ carries ds d /\ proper_stream hd ds /\ describes d u a tp /\
  exists w1 t1 w2 t2, run 64 [ParserReset p] w = Ok (w1, t1) /\ run 64 (engine_download s p c e id (hd :: ds)) w1 = Ok (w2, t2) /\
    w_engines w2 = w_engines w /\ notes t2 = [].
Proof.
  destruct (carries_b _ demo_doc_ok) as (_ & B & C & _).
  exists demo_good, demo_half. eexists. eexists. exists 0%nat. eexists. exists 0%nat, 0%nat, 0%nat. eexists. eexists. eexists.
  exists demo_id, (head (show_doc demo_doc)), (body (show_doc demo_doc)), demo_doc, 0x4007, 7, (zs "mfx").
  split; [exact demo_sound|]. split; [exact demo_half_valid|]. split; [vm_compute; reflexivity|]. split; [split; [reflexivity|unfold is_u16; cbn; lia]|].
  split; [eexists; reflexivity|]. split; [reflexivity|]. split; [reflexivity|]. split; [discriminate|]. split; [apply demo_id_ok|]. split; [exact B|]. split; [exact C|]. split; [exact demo_describes|].
  eexists. eexists. eexists. eexists. split; [vm_compute; reflexivity|]. split; [vm_compute; reflexivity|]. split; vm_compute; reflexivity.
Qed.
Print Assumptions C91_without_finishing_refuted.
(** Finishing alone is not enough if another station used the parser: the rest of the broken line
    swallows the first lines of the new text, completion is reported, and the engine is wrong *)
Theorem C91_without_reset_refuted : exists w0 ops w t s st p c e e0 x l id hd ds d u a tp,
  sound w0 /\ Forall (valid_op w0) ops /\ run 64 ops w0 = Ok (w, t) /\ station_at w s st /\ a_parser w p /\ consumer_at w c (LocoC e0 (Def x)) /\
  engine_at w e l /\ si_avail (lo_info l) <> EMPTY /\ config_id id /\ carries ds d /\ proper_stream hd ds /\ describes d u a tp /\
  exists w1 t1 w2 t2, run 64 [OnStation s FinishCurrentConfigRequest] w = Ok (w1, t1) /\ run 64 (engine_download s p c e id (hd :: ds)) w1 = Ok (w2, t2) /\
    w_engines w2 <> upd e (described l u a tp) (w_engines w) /\ In (EvStreamComplete c) t2.
Proof.
  destruct (carries_b _ demo_doc_ok) as (_ & B & C & _).
  exists demo_good, demo_half. eexists. eexists. exists 1%nat. eexists. exists 0%nat, 0%nat, 0%nat. eexists. eexists. eexists.
  exists demo_id, (head (show_doc demo_doc)), (body (show_doc demo_doc)), demo_doc, 0x4007, 7, (zs "mfx").
  split; [exact demo_sound|]. split; [exact demo_half_valid|]. split; [vm_compute; reflexivity|]. split; [split; [reflexivity|unfold is_u16; cbn; lia]|].
  split; [eexists; reflexivity|]. split; [reflexivity|]. split; [reflexivity|]. split; [discriminate|]. split; [apply demo_id_ok|]. split; [exact B|]. split; [exact C|]. split; [exact demo_describes|].
  eexists. eexists. eexists. eexists. split; [vm_compute; reflexivity|]. split; [vm_compute; reflexivity|]. split; [vm_compute; discriminate|]. vm_compute. tauto.
Qed.
Print Assumptions C91_without_reset_refuted.
(** the same history with both calls; and a list download after another engine description *)
Example C91_case : sound demo_good /\ Forall (valid_op demo_good) demo_half /\ describes demo_doc 0x4007 7 (zs "mfx") /\
  (exists w t w1 t1 w2 t2, run 64 demo_half demo_good = Ok (w, t) /\ run 64 (make_ready 0 0) w = Ok (w1, t1) /\ notes t1 = [EvStreamAborted 0; EvEndAborted 7 0] /\
    run 64 (engine_download 0 0 0 0 demo_id (head (show_doc demo_doc) :: body (show_doc demo_doc))) w1 = Ok (w2, t2) /\
    w_engines w2 = [described demo_engine 0x4007 7 (zs "mfx"); demo_engine2] /\ notes t2 = [EvStreamComplete 0; EvEndComplete 7 0]) /\
  (exists w t w1 t1 w2 t2, run 64 demo_half demo_good = Ok (w, t) /\ run 64 (make_ready 0 1) w = Ok (w1, t1) /\
    run 64 (ListReset 1 :: list_download 0 1 1 0 demo_id (head (show_doc demo_list) :: body (show_doc demo_list))) w1 = Ok (w2, t2) /\
    nth_error (w_conss w2) 1 = Some (ListC (Def true) [named (zs "0"); named (zs "V200")] (Def 3) (Def 0) (Def (Some 8%nat)))).
Proof.
  split; [exact demo_sound|]. split; [exact demo_half_valid|]. split; [exact demo_describes|]. split.
  - do 6 eexists. split; [vm_compute; reflexivity|]. split; [vm_compute; reflexivity|]. split; [vm_compute; reflexivity|]. split; [vm_compute; reflexivity|]. split; vm_compute; reflexivity.
  - do 6 eexists. split; [vm_compute; reflexivity|]. split; [vm_compute; reflexivity|]. split; [vm_compute; reflexivity|]. vm_compute; reflexivity.
Qed.
