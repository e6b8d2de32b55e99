(* ProofsRetry.v -- lemmas for C105-C107. *)
From Verif Require Import ZLib ProofsBuffer SpecRetry ProofsWorld ProofsCrc ProofsText ProofsStation ProofsRequest ProofsStream ProofsLoco ProofsConsumer ProofsSafe ProofsRecover SpecWork ProofsWork ProofsCatalog.

Lemma pass_all : forall m fs, nothing_lost m fs = true -> pass m fs = fs.
Proof. induction m as [|b m IH]; intros [|f fs] H; try reflexivity. cbn in *. apply andb_prop in H. destruct H as (-> & H). rewrite IH by exact H. reflexivity. Qed.
Lemma pass_len : forall m fs, (List.length (pass m fs) <= List.length fs)%nat.
Proof. induction m as [|b m IH]; intros [|f fs]; cbn; try lia. specialize (IH fs). destruct b; cbn; lia. Qed.
Lemma pass_lost : forall m fs, nothing_lost m fs = false -> (List.length (pass m fs) < List.length fs)%nat.
Proof.
  induction m as [|b m IH]; intros [|f fs] H; try discriminate. cbn in *. destruct b; cbn in *; [specialize (IH _ H); lia|]. pose proof (pass_len m fs). lia.
Qed.
Lemma pass_Forall : forall (P : Data -> Prop) m fs, Forall P fs -> Forall P (pass m fs).
Proof. induction m as [|b m IH]; intros [|f fs] F; try exact F. cbn. inversion F; subst. destruct b; [constructor; auto|auto]. Qed.

(** a parser object that is fine whatever its consumer does *)
Definition fine_sp (c : nat) (sp : SP) : Prop :=
  usable sp /\ (sp_cons sp = None \/ sp_cons sp = Some c) /\
  match sp_state sp with
  | SS_FIRST => initialised (crc_acc (sp_crc sp))
  | SS_DATA => initialised (crc_acc (sp_crc sp)) /\ initialised (crc_ref (sp_crc sp))
  | _ => True
  end.
Lemma fine_sound : forall w c sp, (c < List.length (w_conss w))%nat -> fine_sp c sp -> sound_parser w (LibP sp).
Proof. intros w c sp C (U & Q & S). split; [exact U|]. split; [|exact S]. destruct Q as [-> | ->]; [exact Logic.I|exact C]. Qed.

(** frames for an idle parser change nothing *)
Lemma idle_arriving : forall lw s st p id, is_u16 (st_hash st) -> cb_cfg (st_cbs st) = Some p -> config_id id ->
  forall ds w sp, nth_error (w_stations w) s = Some st -> lib_at w p sp -> in_progress sp = false -> Forall data_frame ds ->
  exists t, run lw (arriving s id ds) w = Ok (w, t).
Proof.
  intros lw s st p id H16 C (top & prio & resp & h & IF & ->). induction ds as [|d ds IH]; intros w sp S0 L IP F; [exists []; reflexivity|]. inversion F as [|? ? (P & D) F2]; subst.
  destruct (config_ignored lw w s st top prio resp h d (conj S0 H16) IF P ltac:(lia)) as (tr & E & _ & _).
  - rewrite C. cbn. rewrite L. discriminate.
  - rewrite C. eapply in_progress_processing; eassumption.
  - destruct (IH w sp S0 L IP F2) as (t2 & E2). exists (tr ++ t2). cbn [arriving map run]. rewrite (seq_ok _ _ _ _ _ E). unfold arriving in E2. rewrite E2. reflexivity.
Qed.
(** a data frame instead of a header: the parser resets itself *)
Lemma oversized : forall lw p d w sp w' t, lib_at w p sp -> sp_state sp = SS_FIRST -> data_frame d -> run lw [ParserReset p] w = Ok (w', t) ->
  exists t', lib_addMessage lw p d w = Ok (w', t').
Proof.
  intros lw p d w sp w' t L S (_ & D) H. cbn [run step] in H. unfold lib_addMessage. rewrite (ask_ok _ _ _ _ _ (lib_get _ _ _ L)). rewrite S, D. cbn [Z.eqb Pos.eqb orb]. change (8 >=? 8) with true. cbn iota.
  unfold print. rewrite emit_seq. apply seq_inv in H. destruct H as (w1 & t1 & t2 & H & H2 & _). injection H2 as <- <-. rewrite H. eexists. reflexivity.
Qed.

(** ** An incomplete answer, list consumer *)
Lemma lossy_list : forall lw s st p c k x id hd ds crc m w sp,
  nth_error (w_stations w) s = Some st -> is_u16 (st_hash st) -> cb_cfg (st_cbs st) = Some p -> config_id id ->
  lib_at w p sp -> sp_state sp = SS_FIRST -> sp_crc sp = crc_reset -> sp_cons sp = Some c -> sp_text sp = parser astart (Some c) ->
  header_for hd (8 * zlen ds) crc -> ds <> [] -> 8 * zlen ds < 2 ^ 32 -> Forall data_frame ds ->
  (forall m', Forall list_line_fits (lines_seen (pass m' ds))) ->
  consumer_at w c (ListC (Def false) (repeat si_reset k) (Def 0) (Def 0) (Def x)) ->
  nothing_lost m (hd :: ds) = false ->
  exists w' t sp' i' n', run lw (arriving s id (pass m (hd :: ds))) w = Ok (w', t) /\
    w_stations w' = w_stations w /\ w_engines w' = w_engines w /\ w_parsers w' = upd p (LibP sp') (w_parsers w) /\
    w_conss w' = upd c (ListC (Def false) i' (Def n') (Def 0) (Def x)) (w_conss w) /\ List.length i' = k /\ Forall sound_short i' /\ fine_sp c sp'.
Proof.
  intros lw s st p c k x id hd ds crc m w sp S0 H16 C ID L SF SC SQ ST HF NE SZ DF FIT HC LOST.
  pose proof (nonempty_pos _ NE) as POS. change (2 ^ 32) with 4294967296 in SZ.
  assert (IP : in_progress sp = true) by (unfold in_progress; rewrite SF; reflexivity).
  assert (US : usable sp) by (exists astart; split; [apply start_fits|rewrite SQ; exact ST]).
  destruct m as [|b m]; [discriminate|]. cbn [pass nothing_lost] in *. destruct b.
  - (* the header arrives *)
    cbn [andb] in LOST. pose proof (pass_lost _ _ LOST) as SH. pose proof (pass_Forall data_frame m ds DF) as DK. specialize (FIT m). set (kept := pass m ds) in *.
    destruct (header_decodes _ _ _ HF) as (HL & HCR). pose proof HF as (PH & DH & _).
    pose proof (config_deliver lw s st p id H16 C ID w sp hd L IP S0 PH) as E0.
    rewrite (add_header lw w p sp (Some c) hd L SF DH ltac:(lia) SQ SC astart ST) in E0. rewrite HL, HCR in E0. set (w0 := with_parser w p _) in E0.
    assert (L0 : lib_at w0 p (body_sp (8 * zlen ds) crc [] astart (Some c) SS_DATA)) by (eapply lib_with; exact L).
    set (I := fun rs w' => w_engines w' = w_engines w /\ w_conss w' = upd c (after_list lw (Def false) (repeat si_reset k) (Def 0) (Def 0) (Def x) rs) (w_conss w)).
    destruct (body_run lw p c I list_line_fits (fun d => OnStation s (HandlePacket (mkFrame id d))) (fun d => [EvCfg p (CAdd d)]) (fun w => nth_error (w_stations w) s = Some st) (list_talk (free_count (repeat si_reset k))))
      with (ds := kept) (rest := 8 * zlen ds) (expected := crc) (got := @nil Z) (a := astart) (l := @nil report) (w := w0) as (w1 & t1 & E1 & L1 & (IE & IC) & _ & _ & S1 & P1); try assumption; try reflexivity.
    + intros rs w2 y H. exact H.
    + intros rs sx kx vx w2 V (HE0 & HC0).
      assert (C0 : consumer_at w2 c (after_list lw (Def false) (repeat si_reset k) (Def 0) (Def 0) (Def x) rs)) by (unfold consumer_at; rewrite HC0; eapply upd_at; exact HC).
      unfold after_list in C0. destruct (consume_list lw _ _ _ _ _ _ _ _ kx vx C0 V) as (t & E & K & Y). eexists. eexists. split; [exact E|].
      split; [|split; [reflexivity|split; [reflexivity|split]]].
      * split; [exact HE0|]. cbn [with_consumer w_conss]. rewrite HC0, upd_upd. f_equal. rewrite after_list_snoc.
        change [(sx, kx, vx)] with ([] ++ [(sx, kx, vx)]). rewrite after_list_snoc. cbn [names_in flat_map counts_in rev]. rewrite filled_nil. unfold after_list. cbn [names_in flat_map counts_in rev].
        rewrite filled_nil. destruct (list_entry_of (sx, kx, vx)); reflexivity.
      * cbn [notes filter is_note]. unfold calls in K. clear - K. induction t as [|z t IH]; [reflexivity|]. cbn in *. destruct z; cbn in *; try discriminate; auto.
      * rewrite list_talk_snoc. f_equal. change (console (EvConsume c (zb max_section sx) (zb max_key kx) (zb max_value vx) :: t)) with (console t). rewrite Y, free_filled. reflexivity.
    + intros wa wb Y1 Y2. rewrite Y1. exact Y2.
    + intros. eapply config_deliver; eassumption.
    + apply start_fits.
    + unfold zlen in *. lia.
    + split; [reflexivity|]. unfold after_list. cbn [names_in flat_map counts_in rev]. rewrite filled_nil. unfold w0. cbn. symmetry. apply ZLib.upd_same_id. exact HC.
    + cbn [app] in IC. set (rs := lines_of astart kept) in *.
      eexists. eexists. eexists. exists (filled (repeat si_reset k) (names_in rs)), (match rev (counts_in rs) with v :: _ => dec_value lw v mod 256 | [] => 0 end).
      split; [cbn [arriving map run]; rewrite (seq_ok _ _ _ _ _ E0); rewrite E1; reflexivity|]. split; [rewrite S1; reflexivity|]. split; [exact IE|].
      split; [rewrite P1; unfold w0; cbn [with_parser w_parsers]; apply upd_upd|]. split; [rewrite IC; unfold after_list; destruct (rev (counts_in rs)); reflexivity|].
      split; [rewrite filled_len; apply repeat_length|]. split; [|split; [|split; [right; reflexivity|split; eexists; reflexivity]]].
      * pose proof (names_small _ FIT) as NS. change (lines_seen kept) with rs in NS. rewrite filled_empty. apply Forall_app. split.
        -- apply Forall_map. apply Forall_firstn. eapply Forall_impl; [|exact NS]. intros nn (A1 & A2). apply named_sound; [exact A1|lia].
        -- apply Forall_forall. intros y Y. apply repeat_spec in Y. subst y. exact reset_sound.
      * eexists. split; [|reflexivity]. apply after_fits. apply start_fits.
  - (* it does not *)
    pose proof (pass_Forall data_frame m ds DF) as DK. destruct (pass m ds) as [|d kept].
    + (* nothing arrives at all *)
      exists w, [], sp, (repeat si_reset k), 0. split; [reflexivity|]. split; [reflexivity|]. split; [reflexivity|]. split; [symmetry; apply ZLib.upd_same_id; exact L|].
      split; [symmetry; apply ZLib.upd_same_id; exact HC|]. split; [apply repeat_length|]. split; [apply Forall_forall; intros y Y; apply repeat_spec in Y; subst y; exact reset_sound|].
      split; [exact US|]. split; [right; exact SQ|]. rewrite SF, SC. eexists. reflexivity.
    + inversion DK as [|? ? D1 D2]; subst.
      pose proof (reset_clears_list lw w p c sp _ _ _ _ _ L US IP SQ HC) as RE. set (w1 := mkW _ _ _ _) in RE.
      destruct (oversized lw p d w sp _ _ L SF D1 RE) as (t1 & E1).
      pose proof (config_deliver lw s st p id H16 C ID w sp d L IP S0 (proj1 D1)) as E0. rewrite E1 in E0.
      assert (L1 : lib_at w1 p (blank SS_IDLE None)) by (eapply lib_upd; exact L).
      destruct (idle_arriving lw s st p id H16 C ID kept w1 (blank SS_IDLE None) S0 L1 eq_refl D2) as (t2 & E2).
      exists w1. eexists. exists (blank SS_IDLE None), (repeat si_reset k), 0. split; [cbn [arriving map run]; rewrite (seq_ok _ _ _ _ _ E0); unfold arriving in E2; rewrite E2; reflexivity|].
      split; [reflexivity|]. split; [reflexivity|]. split; [reflexivity|]. split; [unfold w1; cbn; rewrite map_reset, repeat_length; reflexivity|]. split; [apply repeat_length|].
      split; [apply Forall_forall; intros y Y; apply repeat_spec in Y; subst y; exact reset_sound|].
      split; [exists astart; split; [apply start_fits|reflexivity]|]. split; [left; reflexivity|exact Logic.I].
Qed.

(** ** An incomplete answer, engine consumer *)
Lemma lossy_loco : forall lw s st p c e x id hd ds crc m w sp l,
  nth_error (w_stations w) s = Some st -> is_u16 (st_hash st) -> cb_cfg (st_cbs st) = Some p -> config_id id ->
  lib_at w p sp -> sp_state sp = SS_FIRST -> sp_crc sp = crc_reset -> sp_cons sp = Some c -> sp_text sp = parser astart (Some c) ->
  header_for hd (8 * zlen ds) crc -> ds <> [] -> 8 * zlen ds < 2 ^ 32 -> Forall data_frame ds ->
  (forall m', Forall line_fits (lines_seen (pass m' ds))) ->
  consumer_at w c (LocoC (Def (Some e)) (Def x)) -> engine_at w e l -> List.length (lo_proto l) = 8%nat ->
  nothing_lost m (hd :: ds) = false ->
  exists w' t sp' l', run lw (arriving s id (pass m (hd :: ds))) w = Ok (w', t) /\
    w_stations w' = w_stations w /\ w_conss w' = w_conss w /\ w_parsers w' = upd p (LibP sp') (w_parsers w) /\
    w_engines w' = upd e l' (w_engines w) /\ lo_info l' = lo_info l /\ fine_sp c sp'.
Proof.
  intros lw s st p c e x id hd ds crc m w sp l S0 H16 C ID L SF SC SQ ST HF NE SZ DF FIT HC HE P8 LOST.
  pose proof (nonempty_pos _ NE) as POS. change (2 ^ 32) with 4294967296 in SZ.
  assert (IP : in_progress sp = true) by (unfold in_progress; rewrite SF; reflexivity).
  assert (US : usable sp) by (exists astart; split; [apply start_fits|rewrite SQ; exact ST]).
  destruct m as [|b m]; [discriminate|]. cbn [pass nothing_lost] in *. destruct b.
  - cbn [andb] in LOST. pose proof (pass_lost _ _ LOST) as SH. pose proof (pass_Forall data_frame m ds DF) as DK. specialize (FIT m). set (kept := pass m ds) in *.
    destruct (header_decodes _ _ _ HF) as (HL & HCR). pose proof HF as (PH & DH & _).
    pose proof (config_deliver lw s st p id H16 C ID w sp hd L IP S0 PH) as E0.
    rewrite (add_header lw w p sp (Some c) hd L SF DH ltac:(lia) SQ SC astart ST) in E0. rewrite HL, HCR in E0. set (w0 := with_parser w p _) in E0.
    assert (L0 : lib_at w0 p (body_sp (8 * zlen ds) crc [] astart (Some c) SS_DATA)) by (eapply lib_with; exact L).
    set (I := fun rs w' => w_conss w' = w_conss w /\ w_engines w' = upd e (after_lines lw l rs) (w_engines w)).
    destruct (body_run lw p c I line_fits (fun d => OnStation s (HandlePacket (mkFrame id d))) (fun d => [EvCfg p (CAdd d)]) (fun w => nth_error (w_stations w) s = Some st) (fun _ => []))
      with (ds := kept) (rest := 8 * zlen ds) (expected := crc) (got := @nil Z) (a := astart) (l := @nil report) (w := w0) as (w1 & t1 & E1 & L1 & (IC & IE) & _ & _ & S1 & P1); try assumption; try reflexivity.
    + intros rs w2 y H. exact H.
    + intros rs sx kx vx w2 (_ & _ & V) (HC0 & HE0).
      assert (E2 : engine_at w2 e (after_lines lw l rs)) by (unfold engine_at; rewrite HE0; eapply upd_at; exact HE).
      assert (C2 : consumer_at w2 c (LocoC (Def (Some e)) (Def x))) by (unfold consumer_at; rewrite HC0; exact HC).
      eexists. eexists. split; [apply (consume_loco _ _ _ _ _ _ _ _ _ C2 E2 (lines_proto _ _ _ P8) V)|].
      split; [|split; [reflexivity|split; [reflexivity|split; reflexivity]]]. split; [exact HC0|]. cbn [with_engine w_engines]. rewrite HE0, upd_upd, lines_snoc. reflexivity.
    + intros wa wb Y1 Y2. rewrite Y1. exact Y2.
    + intros. eapply config_deliver; eassumption.
    + apply start_fits.
    + unfold zlen in *. lia.
    + split; [reflexivity|]. unfold w0. cbn. symmetry. apply ZLib.upd_same_id. exact HE.
    + cbn [app] in IE. eexists. eexists. eexists. exists (after_lines lw l (lines_of astart kept)).
      split; [cbn [arriving map run]; rewrite (seq_ok _ _ _ _ _ E0); rewrite E1; reflexivity|]. split; [rewrite S1; reflexivity|]. split; [exact IC|].
      split; [rewrite P1; unfold w0; cbn [with_parser w_parsers]; apply upd_upd|]. split; [exact IE|]. split; [apply lines_info|].
      split; [|split; [right; reflexivity|split; eexists; reflexivity]]. eexists. split; [|reflexivity]. apply after_fits. apply start_fits.
  - pose proof (pass_Forall data_frame m ds DF) as DK. destruct (pass m ds) as [|d kept].
    + exists w, [], sp, l. split; [reflexivity|]. split; [reflexivity|]. split; [reflexivity|]. split; [symmetry; apply ZLib.upd_same_id; exact L|].
      split; [symmetry; apply ZLib.upd_same_id; exact HE|]. split; [reflexivity|].
      split; [exact US|]. split; [right; exact SQ|]. rewrite SF, SC. eexists. reflexivity.
    + inversion DK as [|? ? D1 D2]; subst.
      pose proof (loco_request_aborted lw w p c sp _ _ L US IP SQ HC) as RE. set (w1 := mkW _ _ _ _) in RE.
      destruct (oversized lw p d w sp _ _ L SF D1 RE) as (t1 & E1).
      pose proof (config_deliver lw s st p id H16 C ID w sp d L IP S0 (proj1 D1)) as E0. rewrite E1 in E0.
      assert (L1 : lib_at w1 p (blank SS_IDLE None)) by (eapply lib_upd; exact L).
      destruct (idle_arriving lw s st p id H16 C ID kept w1 (blank SS_IDLE None) S0 L1 eq_refl D2) as (t2 & E2).
      exists w1. eexists. exists (blank SS_IDLE None), l. split; [cbn [arriving map run]; rewrite (seq_ok _ _ _ _ _ E0); unfold arriving in E2; rewrite E2; reflexivity|].
      split; [reflexivity|]. split; [reflexivity|]. split; [reflexivity|]. split; [symmetry; apply ZLib.upd_same_id; exact HE|]. split; [reflexivity|].
      split; [exists astart; split; [apply start_fits|reflexivity]|]. split; [left; reflexivity|exact Logic.I].
Qed.

(** ** One attempt for a page *)
Lemma ask_all : forall lw s id answer m ops w w1 t1 w2, run lw ops w = Ok (w1, t1) ->
  nothing_lost m (fst (answer (sent t1)) :: snd (answer (sent t1))) = true -> ask_master lw s id answer ops w = Ok w2 ->
  ask_through lw s id answer m ops w = Ok (w2, fst (answer (sent t1)) :: snd (answer (sent t1))).
Proof.
  intros lw s id answer m ops w w1 t1 w2 E N A. unfold ask_master in A. unfold ask_through. rewrite E in *. cbn [bind] in *. rewrite (pass_all _ _ N).
  destruct (run lw (arriving s id _) w1) as [(w3 & t3)|]; [|discriminate]. cbn [bind] in *. injection A as <-. reflexivity.
Qed.
Lemma page_tried : forall lw cat answer s p c id m first w, 32 <= lw -> serves cat answer -> loss_tolerant cat answer -> config_id id -> byte first -> zlen cat < 2 ^ 31 ->
  equipped w s p -> has_list w c ->
  exists w' frames, try_page lw s p c id answer m first w = Ok (w', frames) /\
    equipped w' s p /\ has_list w' c /\ w_engines w' = w_engines w /\ same_objects w w' /\
    q_isStreamComplete w' c = Ok (nothing_lost m frames) /\
    (nothing_lost m frames = true -> exists i, q_getEngineInfos w' c = Ok i /\ map name_of (filter (fun i => negb (si_isFree i)) i) = part first 2 (map e_name cat) /\
       q_getNumEngines w' c = Ok (zlen cat mod 256)).
Proof.
  intros lw cat answer s p c id m first w LW SV LT ID FB CL EQ HL. pose proof EQ as (S & (st & Q) & P). pose proof HL as (co & i & n & o & cb & C & L2).
  destruct (made_ready lw w s st p S Q P) as (w1 & t1 & E1 & R & _). pose proof (ready_sends _ _ _ _ _ _ S E1) as T1.
  destruct R as [S1 Q1 L1 EN C1]. destruct (sound_tx _ _ _ S1 Q1) as (tx & T). destruct (C1 _ _ C) as (x' & C' & M).
  assert (X : exists co' i' n' o', x' = ListC co' i' n' o' cb /\ List.length i' = List.length i).
  { destruct M as [->|(?&?&?&?&?&M&->)]; [repeat eexists|]. injection M as <- <- <- <- <-. repeat eexists. apply map_length. }
  destruct X as (co' & i' & n' & o' & -> & LI).
  assert (SC : sound_consumer w (ListC co i n o cb)). { destruct S as (_ & _ & S & _). rewrite Forall_forall in S. exact (S _ (nth_error_In _ _ C)). }
  destruct SC as (_ & _ & _ & (x & ->) & _).
  set (obj := ListC (Def false) (repeat si_reset (List.length i)) (Def 0) (Def 0) (Def x)).
  assert (ER : step lw (ListReset c) w1 = Ok (with_consumer w1 c obj, [])).
  { cbn [step]. unfold ask, get_cons, at_. unfold consumer_at in C'. rewrite C'. cbn [bind]. unfold put_cons, list_reset_obj, list_cleared, obj, with_consumer. rewrite map_reset, LI. reflexivity. }
  set (w2 := with_consumer w1 c obj) in *.
  assert (C2 : consumer_at w2 c obj) by (eapply upd_at; exact C').
  assert (B : between_lines (blank SS_IDLE None) []) by (split; [reflexivity|cbn; lia]).
  pose proof (list_prefix lw w2 s (now_using st None) tx p c _ [] first Q1 T eq_refl L1 B FB) as E3. cbv zeta in E3.
  change (st_hash (now_using st None)) with (st_hash st) in E3.
  set (sp1 := mkSP SS_FIRST _ _ _ _) in E3. set (w3 := mkW _ _ _ _) in E3.
  assert (E4 : run lw (make_list_ready s p c ++ [ParserSetConsumer p (Some c); OnStation s (RequestEngineList first (Some p))]) w = Ok (w3, t1 ++ EvCfg p CStart :: map (EvTx tx) (ProofsRequest.list_frames (st_hash st) first))).
  { unfold make_list_ready. rewrite <- app_assoc, (run_app _ _ _ _ _ _ E1). cbn [app run]. unfold World.seq at 1. rewrite ER. cbn [bind]. cbn [run] in E3. rewrite E3. reflexivity. }
  assert (SE : sent (t1 ++ EvCfg p CStart :: map (EvTx tx) (ProofsRequest.list_frames (st_hash st) first)) = ProofsRequest.list_frames (st_hash st) first).
  { rewrite sent_app, T1. change (sent (EvCfg p CStart :: ?l)) with (sent l). apply sent_tx. }
  pose proof (list_wish (st_hash st) first (proj2 Q) FB) as RW. set (fs := ProofsRequest.list_frames (st_hash st) first) in *.
  destruct (nothing_lost m (fst (answer fs) :: snd (answer fs))) eqn:NL.
  - destruct (page lw cat answer s p c id first w LW SV ID FB CL EQ HL) as (w' & i1 & o1 & cb1 & A1 & A2 & A3 & A4 & A5 & A6 & A7).
    exists w', (fst (answer fs) :: snd (answer fs)). split.
    { unfold try_page. rewrite <- SE in NL. pose proof (ask_all _ _ _ _ _ _ _ _ _ _ E4 NL A1) as G. rewrite SE in G. exact G. }
    split; [exact A2|]. split; [exact A3|]. split; [exact A4|]. split; [exact A7|]. rewrite NL.
    unfold q_isStreamComplete, q_getEngineInfos, q_getNumEngines, get_cons, at_. unfold consumer_at in A5. rewrite A5. cbn [bind mread]. split; [reflexivity|]. intros _. exists i1. auto.
  - pose proof (SV _ _ RW) as GA. cbn [good_answer] in GA. destruct GA as (d & (crc & HF & CK & NE & SZ & DF) & _).
    assert (L3 : lib_at w3 p sp1) by (eapply lib_upd; exact L1).
    assert (Q3 : nth_error (w_stations w3) s = Some (now_using st (Some p))) by (eapply upd_at; apply (proj1 Q1)).
    assert (H16 : is_u16 (st_hash (now_using st (Some p)))) by (apply (proj2 Q)).
    destruct (lossy_list lw s (now_using st (Some p)) p c (List.length i) x id (fst (answer fs)) (snd (answer fs)) crc m w3 sp1) as (w4 & t4 & sp' & i4 & n4 & E5 & S5 & EE5 & P5 & CC5 & LI5 & SI5 & F5); try assumption; try reflexivity.
    + intros m'. exact (proj1 LT fs first m' RW).
    + exists w4, (fst (answer fs) :: snd (answer fs)). split.
      { unfold try_page, ask_through. rewrite E4. cbn [bind]. rewrite SE. cbv zeta. rewrite E5. reflexivity. }
      pose proof (ready_kinds lw s p st w w1 t1 S Q P E1) as (K1 & K2 & K3 & K4).
      assert (PC : (c < List.length (w_conss w1))%nat) by (apply nth_error_Some; unfold consumer_at in C'; congruence).
      assert (PP : (p < List.length (w_parsers w1))%nat) by (apply nth_error_Some; unfold lib_at in L1; congruence).
      assert (XP : w_parsers w4 = upd p (LibP sp') (w_parsers w1)) by (rewrite P5; unfold w3; cbn [w_parsers]; unfold w2, with_consumer; cbn [w_parsers]; apply upd_upd).
      assert (XC : w_conss w4 = upd c (ListC (Def false) i4 (Def n4) (Def 0) (Def x)) (w_conss w1)).
      { rewrite CC5. unfold w3. cbn [w_conss]. unfold w2, with_consumer. cbn [w_conss]. apply upd_upd. }
      assert (C4 : consumer_at w4 c (ListC (Def false) i4 (Def n4) (Def 0) (Def x))) by (unfold consumer_at; rewrite XC; eapply upd_at; exact C').
      split; [split; [|split]|split; [|split; [|split; [|split]]]].
      * eapply sound_like; [exact S1| | | | | | |].
        -- rewrite XP, upd_len. reflexivity.
        -- rewrite XC, upd_len. reflexivity.
        -- rewrite EE5. reflexivity.
        -- rewrite S5. unfold w3. cbn [w_stations]. destruct S1 as (S1 & _). apply Forall_upd; [exact S1|].
           rewrite Forall_forall in S1. pose proof (S1 _ (nth_error_In _ _ (proj1 Q1))) as (A & B' & _). split; [exact A|]. split; [exact B'|]. cbn. exact PP.
        -- rewrite XP. apply Forall_upd; [apply S1|]. eapply fine_sound; [exact PC|exact F5].
        -- rewrite XC. apply Forall_upd; [apply S1|]. split; [eexists; reflexivity|]. split; [eexists; reflexivity|]. split; [eexists; reflexivity|]. split; [eexists; reflexivity|]. exact SI5.
        -- rewrite EE5. unfold w3. cbn. apply S1.
      * exists (now_using st (Some p)). split; [rewrite S5; exact Q3|exact H16].
      * eexists. unfold lib_at. rewrite P5. eapply upd_at. exact L3.
      * exists (Def false), i4, (Def n4), (Def 0), (Def x). split; [exact C4|lia].
      * rewrite EE5. unfold w3. cbn. exact EN.
      * split; [|split; [|split]].
        -- rewrite S5. unfold w3. cbn [w_stations]. rewrite upd_len. exact K1.
        -- rewrite XP, <- K2. eapply upd_map; [exact L1|reflexivity].
        -- rewrite XC, <- K3. eapply upd_map; [exact C'|]. cbn. congruence.
        -- rewrite EE5. exact K4.
      * rewrite NL. unfold q_isStreamComplete, get_cons, at_. unfold consumer_at in C4. rewrite C4. reflexivity.
      * rewrite NL. discriminate.
Qed.

(** ** One attempt for an engine *)
Lemma engine_tried : forall lw cat answer s p c e id m name x w, 32 <= lw -> serves cat answer -> loss_tolerant cat answer -> config_id id -> nulfree name ->
  find (fun y => same_text (e_name y) (firstn 16 name)) cat = Some x ->
  equipped w s p -> an_engine_consumer w c -> has_engine w e ->
  exists w' frames l, try_engine lw s p c e id answer m name w = Ok (w', frames) /\ get_engine e w' = Ok l /\
    q_isValid w' c = Ok (nothing_lost m frames) /\ w_engines w' = upd e l (w_engines w) /\ same_objects w w' /\
    (nothing_lost m frames = true -> l = filed name x /\ equipped w' s p) /\
    (nothing_lost m frames = false -> exists w2, run lw [OnEngine e EReset] w' = Ok (w2, []) /\ equipped w2 s p /\ same_objects w w2 /\ w_engines w2 = upd e lo_reset (w_engines w)).
Proof.
  intros lw cat answer s p c e id m name x w LW SV LT ID NF FD EQ EC HE. pose proof EQ as (S & (st & Q) & P). pose proof EC as (e0 & cb & C). pose proof HE as (l & EL).
  destruct (made_ready lw w s st p S Q P) as (w1 & t1 & E1 & R & _). pose proof (ready_sends _ _ _ _ _ _ S E1) as T1.
  pose proof (ready_kinds lw s p st w w1 t1 S Q P E1) as (K1 & K2 & K3 & K4).
  destruct R as [S1 Q1 L1 EN C1]. destruct (sound_tx _ _ _ S1 Q1) as (tx & T). destruct (C1 _ _ C) as (x' & C' & M).
  assert (x' = LocoC e0 cb) by (destruct M as [M|(?&?&?&?&?&M&_)]; [exact M|discriminate]). subst x'.
  assert (SC : sound_consumer w (LocoC e0 cb)). { destruct S as (_ & _ & S & _). rewrite Forall_forall in S. exact (S _ (nth_error_In _ _ C)). }
  destruct SC as (_ & (xb & ->)).
  assert (N32 : nulfree (firstn 32 name)) by (apply nulfree_firstn; exact NF).
  assert (L32 : (List.length (firstn 32 name) <= 32)%nat) by (rewrite firstn_length; lia).
  assert (EL1 : engine_at w1 e l) by (unfold engine_at; rewrite EN; exact EL).
  set (fresh := mkLoco (named (firstn 32 name)) ld_reset (repeat 0 8)).
  assert (ER : step lw (OnEngine e (ESetName (name ++ [0]))) w1 = Ok (mkW (w_stations w1) (w_parsers w1) (w_conss w1) (upd e fresh (w_engines w1)), [])).
  { cbn [step]. unfold ask, get_engine, at_. rewrite EL1. cbn [bind eop_apply]. unfold lo_setName. change (si_name (lo_info lo_reset)) with erased_name. rewrite name_copy by exact NF. reflexivity. }
  set (w2 := mkW (w_stations w1) (w_parsers w1) (w_conss w1) (upd e fresh (w_engines w1))) in *.
  assert (EL2 : engine_at w2 e fresh) by (eapply upd_at; exact EL1).
  assert (B : between_lines (blank SS_IDLE None) []) by (split; [reflexivity|cbn; lia]).
  assert (SN : shows_name (si_name (lo_info fresh)) (firstn 32 name)) by (split; [exact N32|]; split; [exact L32|reflexivity]).
  assert (AV : si_avail (lo_info fresh) <> EMPTY) by discriminate.
  pose proof (engine_prefix lw w2 s (now_using st None) tx p c e _ [] (Def xb) e0 fresh (firstn 32 name) Q1 T eq_refl L1 B C' EL2 AV SN) as E3. cbv zeta in E3.
  change (st_hash (now_using st None)) with (st_hash st) in E3.
  set (sp1 := mkSP SS_FIRST _ _ _ _) in E3. set (w3 := mkW _ _ _ _) in E3. set (fs := engine_request (st_hash st) (firstn 32 name)) in *.
  assert (E4 : run lw (make_ready s p ++ [OnEngine e (ESetName (name ++ [0])); ParserSetConsumer p (Some c); LocoSetEngine c (Some e); OnStation s (RequestEngine (RefEngine e) (Some p))]) w =
               Ok (w3, t1 ++ EvCfg p CStart :: map (EvTx tx) fs)).
  { rewrite (run_app _ _ _ _ _ _ E1). cbn [run]. unfold World.seq at 1. rewrite ER. cbn [bind]. cbn [run] in E3. rewrite E3. reflexivity. }
  assert (SE : sent (t1 ++ EvCfg p CStart :: map (EvTx tx) fs) = fs).
  { rewrite sent_app, T1. change (sent (EvCfg p CStart :: ?l)) with (sent l). apply sent_tx. }
  pose proof (any_wish (st_hash st) name (proj2 Q) NF) as RW. fold fs in RW.
  pose proof (SV _ _ RW) as GA. cbn [good_answer] in GA. rewrite FD in GA. destruct GA as (d & (crc & HF & CK & NE & SZ & DF) & _).
  assert (L3 : lib_at w3 p sp1) by (eapply lib_upd; exact L1).
  assert (Q3 : nth_error (w_stations w3) s = Some (now_using st (Some p))) by (eapply upd_at; apply (proj1 Q1)).
  assert (H16 : is_u16 (st_hash (now_using st (Some p)))) by (apply (proj2 Q)).
  assert (C3 : consumer_at w3 c (LocoC (Def (Some e)) (Def xb))) by (eapply upd_at; exact C').
  assert (PC : (c < List.length (w_conss w1))%nat) by (apply nth_error_Some; unfold consumer_at in C'; congruence).
  assert (PP : (p < List.length (w_parsers w1))%nat) by (apply nth_error_Some; unfold lib_at in L1; congruence).
  assert (PE : (e < List.length (w_engines w1))%nat) by (apply nth_error_Some; unfold engine_at in EL1; congruence).
  (* what resetting the engine leaves *)
  assert (G : forall w4 sp' l', w_stations w4 = w_stations w3 -> w_conss w4 = w_conss w3 -> w_parsers w4 = upd p (LibP sp') (w_parsers w1) -> w_engines w4 = upd e l' (w_engines w) -> fine_sp c sp' ->
     same_objects w w4 /\ exists w5, run lw [OnEngine e EReset] w4 = Ok (w5, []) /\ equipped w5 s p /\ same_objects w w5 /\ w_engines w5 = upd e lo_reset (w_engines w)).
  { intros w4 sp' l' XS XC XP XE F. assert (XC' : w_conss w4 = upd c (LocoC (Def (Some e)) (Def xb)) (w_conss w1)) by (rewrite XC; reflexivity).
    assert (SO : same_objects w w4).
    { split; [|split; [|split]].
      - rewrite XS. unfold w3. cbn [w_stations]. rewrite upd_len. exact K1.
      - rewrite XP, <- K2. eapply upd_map; [exact L1|reflexivity].
      - rewrite XC', <- K3. eapply upd_map; [exact C'|]. reflexivity.
      - rewrite XE. apply upd_len. }
    split; [exact SO|]. set (w5 := mkW (w_stations w4) (w_parsers w4) (w_conss w4) (upd e lo_reset (w_engines w4))).
    assert (XE5 : w_engines w5 = upd e lo_reset (w_engines w)) by (unfold w5; cbn [w_engines]; rewrite XE; apply upd_upd).
    exists w5. split; [|split; [split; [|split]|split; [|exact XE5]]].
    - cbn [run step]. unfold World.seq, ask, get_engine, at_. assert (Y : nth_error (w_engines w4) e = Some l') by (rewrite XE; eapply upd_at; exact EL). rewrite Y. reflexivity.
    - eapply sound_like; [exact S1| | | | | | |].
      + unfold w5. cbn [w_parsers]. rewrite XP. apply upd_len.
      + unfold w5. cbn [w_conss]. rewrite XC'. apply upd_len.
      + rewrite XE5, EN. apply upd_len.
      + unfold w5. cbn [w_stations]. rewrite XS. unfold w3. cbn [w_stations]. destruct S1 as (S1 & _). apply Forall_upd; [exact S1|].
        rewrite Forall_forall in S1. pose proof (S1 _ (nth_error_In _ _ (proj1 Q1))) as (A' & B' & _). split; [exact A'|]. split; [exact B'|]. exact PP.
      + unfold w5. cbn [w_parsers]. rewrite XP. apply Forall_upd; [apply S1|]. eapply fine_sound; [exact PC|exact F].
      + unfold w5. cbn [w_conss]. rewrite XC'. apply Forall_upd; [apply S1|]. split; [|eexists; reflexivity]. eexists. split; [reflexivity|exact PE].
      + rewrite XE5. apply Forall_upd; [rewrite <- EN; apply S1|]. split; [exact reset_sound|]. split; [reflexivity|left; reflexivity].
    - exists (now_using st (Some p)). split; [unfold w5; cbn [w_stations]; rewrite XS; exact Q3|exact H16].
    - eexists. unfold lib_at, w5. cbn [w_parsers]. rewrite XP. eapply upd_at. exact L1.
    - destruct SO as (Y1 & Y2 & Y3 & Y4). split; [exact Y1|]. split; [exact Y2|]. split; [exact Y3|]. rewrite XE5. apply upd_len. }
  destruct (nothing_lost m (fst (answer fs) :: snd (answer fs))) eqn:NL.
  - destruct (one_engine lw cat answer s p c e id name x w LW SV ID NF FD EQ EC HE) as (w' & A1 & A2 & A3 & A4 & A5 & A6).
    unfold fetch_engine in A1. destruct (ask_master lw s id answer _ w) as [w''|] eqn:AM in A1; [|discriminate]. cbn [bind] in A1.
    destruct (get_engine e w'') as [l''|] eqn:GE; [|discriminate]. injection A1 as -> ->.
    exists w', (fst (answer fs) :: snd (answer fs)), (filed name x). split.
    { unfold try_engine. rewrite <- SE in NL. pose proof (ask_all _ _ _ _ _ _ _ _ _ _ E4 NL AM) as GG. rewrite SE in GG. exact GG. }
    split; [exact GE|]. rewrite NL.
    split; [unfold q_isValid; rewrite A6; cbn [bind]; rewrite GE; reflexivity|]. split; [exact A4|]. split; [exact A5|]. split; [auto|discriminate].
  - destruct (lossy_loco lw s (now_using st (Some p)) p c e xb id (fst (answer fs)) (snd (answer fs)) crc m w3 sp1 fresh) as (w4 & t4 & sp' & l' & E5 & S5 & CC5 & P5 & EE5 & I5 & F5); try assumption; try reflexivity.
    + intros m'. exact (proj2 LT fs (firstn 16 name) x m' RW FD).
    + assert (XP : w_parsers w4 = upd p (LibP sp') (w_parsers w1)) by (rewrite P5; unfold w3; cbn [w_parsers]; unfold w2; cbn [w_parsers]; apply upd_upd).
      assert (XE : w_engines w4 = upd e l' (w_engines w)) by (rewrite EE5; unfold w3; cbn [w_engines]; unfold w2; cbn [w_engines]; rewrite upd_upd, EN; reflexivity).
      destruct (G w4 sp' l' S5 CC5 XP XE F5) as (G1 & G2).
      assert (GE : get_engine e w4 = Ok l') by (unfold get_engine, at_; assert (Y : nth_error (w_engines w4) e = Some l') by (rewrite XE; eapply upd_at; exact EL); rewrite Y; reflexivity).
      exists w4, (fst (answer fs) :: snd (answer fs)), l'. split.
      { unfold try_engine, ask_through. rewrite E4. cbn [bind]. rewrite SE. cbv zeta. rewrite E5. reflexivity. }
      split; [exact GE|]. rewrite NL. split.
      { unfold q_isValid, q_getEngine, get_cons, at_. assert (Y : nth_error (w_conss w4) c = Some (LocoC (Def (Some e)) (Def xb))) by (rewrite CC5; exact C3). rewrite Y. cbn [bind mread]. rewrite GE. cbn [bind].
        unfold lo_isFullDetailsKnown. rewrite I5. reflexivity. }
      split; [exact XE|]. split; [exact G1|]. split; [discriminate|intros _; exact G2].
Qed.

(** ** Repeated attempts *)
Lemma clean_mask : forall m fs, forallb (fun b => b) m = true -> nothing_lost m fs = true.
Proof. induction m as [|b m IH]; intros [|f fs] H; try reflexivity. cbn in *. apply andb_prop in H. destruct H as (-> & H). apply IH. exact H. Qed.
Lemma undisturbed_cons : forall m l, undisturbed (m :: l) = ((if forallb (fun b => b) m then 1 else 0) + undisturbed l)%nat.
Proof. intros. unfold undisturbed. cbn [filter]. destruct (forallb _ m); reflexivity. Qed.

Lemma page_got : forall lw cat answer s p c id first, 32 <= lw -> serves cat answer -> loss_tolerant cat answer -> config_id id -> byte first -> zlen cat < 2 ^ 31 ->
  forall tries w, equipped w s p -> has_list w c ->
  exists r, get_page lw s p c id answer first tries w = Ok r /\
    match r with
    | None => undisturbed tries = 0%nat
    | Some (w', more) => equipped w' s p /\ has_list w' c /\ w_engines w' = w_engines w /\ same_objects w w' /\ (undisturbed tries <= 1 + undisturbed more)%nat /\
        exists i, q_getEngineInfos w' c = Ok i /\ map name_of (filter (fun i => negb (si_isFree i)) i) = part first 2 (map e_name cat) /\ q_getNumEngines w' c = Ok (zlen cat mod 256)
    end.
Proof.
  intros lw cat answer s p c id first LW SV LT ID FB CL. induction tries as [|m tries IH]; intros w EQ HL; [exists None; split; reflexivity|]. cbn [get_page].
  destruct (page_tried lw cat answer s p c id m first w LW SV LT ID FB CL EQ HL) as (w1 & fr & E1 & EQ1 & HL1 & EN1 & SO1 & D1 & N1). rewrite E1. cbn [bind]. rewrite D1. cbn [bind]. rewrite undisturbed_cons.
  destruct (nothing_lost m fr) eqn:NL.
  - exists (Some (w1, tries)). split; [reflexivity|]. split; [exact EQ1|]. split; [exact HL1|]. split; [exact EN1|]. split; [exact SO1|]. split; [destruct (forallb _ m); lia|]. apply N1. reflexivity.
  - assert (CM : forallb (fun b => b) m = false) by (destruct (forallb (fun b => b) m) eqn:X; [rewrite (clean_mask m fr X) in NL; discriminate|reflexivity]). rewrite CM.
    destruct (IH w1 EQ1 HL1) as (r & E2 & R). exists r. split; [exact E2|]. destruct r as [(w2 & more)|]; [|exact R]. destruct R as (R1 & R2 & R3 & R4 & R5 & R6).
    split; [exact R1|]. split; [exact R2|]. split; [congruence|]. split; [eapply same_trans; eassumption|]. split; [exact R5|exact R6].
Qed.
Definition pages (total first : Z) : nat := Z.to_nat (Z.max 1 ((total - first + 1) / 2)).
Lemma names_got : forall lw cat answer s p c id, 32 <= lw -> serves cat answer -> loss_tolerant cat answer -> config_id id -> zlen cat < 2 ^ 31 ->
  forall fuel first tries w, 0 <= first < 256 -> zlen cat mod 256 - first <= 2 * Z.of_nat fuel -> (0 < fuel)%nat -> equipped w s p -> has_list w c ->
  exists r, get_names lw s p c id answer fuel first tries w = Ok r /\
    match r with
    | None => (undisturbed tries < pages (zlen cat mod 256) first)%nat
    | Some (ns, w', more) => ns = part first (fetched (zlen cat mod 256) first) (map e_name cat) /\ equipped w' s p /\ has_list w' c /\ w_engines w' = w_engines w /\ same_objects w w' /\
        (undisturbed tries <= pages (zlen cat mod 256) first + undisturbed more)%nat
    end.
Proof.
  intros lw cat answer s p c id LW SV LT ID CL. pose proof (Z.mod_pos_bound (zlen cat) 256 ltac:(lia)) as TB. induction fuel as [|fuel IH]; intros first tries w FB FU F0 EQ HL; [lia|]. cbn [get_names].
  destruct (page_got lw cat answer s p c id first LW SV LT ID FB CL tries w EQ HL) as (r1 & E1 & R1). rewrite E1. cbn [bind]. set (total := zlen cat mod 256) in *.
  assert (DV : 2 * ((total - first + 1) / 2) <= total - first + 1 < 2 * ((total - first + 1) / 2) + 2) by (pose proof (Z.div_mod (total - first + 1) 2 ltac:(lia)); pose proof (Z.mod_pos_bound (total - first + 1) 2 ltac:(lia)); lia).
  assert (DV2 : 2 * ((total - (first + 2) + 1) / 2) <= total - (first + 2) + 1 < 2 * ((total - (first + 2) + 1) / 2) + 2) by (pose proof (Z.div_mod (total - (first + 2) + 1) 2 ltac:(lia)); pose proof (Z.mod_pos_bound (total - (first + 2) + 1) 2 ltac:(lia)); lia).
  destruct r1 as [(w1 & more)|]; [|exists None; split; [reflexivity|unfold pages; lia]].
  destruct R1 as (EQ1 & HL1 & EN1 & SO1 & U1 & i & I1 & I2 & I3). rewrite I1. cbn [bind]. rewrite I3. cbn [bind]. rewrite I2. destruct (first + 2 <? total) eqn:T.
  - apply Z.ltb_lt in T. assert (A1 : 0 <= first + 2 < 256) by lia. assert (A2 : total - (first + 2) <= 2 * Z.of_nat fuel) by lia. assert (A3 : (0 < fuel)%nat) by lia.
    destruct (IH (first + 2) more w1 A1 A2 A3 EQ1 HL1) as (r2 & E2 & R2). rewrite E2. cbn [bind].
    assert (PG : pages total first = Datatypes.S (pages total (first + 2))) by (unfold pages; lia).
    destruct r2 as [((ns & w2) & unused)|]; [|exists None; split; [reflexivity|lia]]. destruct R2 as (-> & EQ2 & HL2 & EN2 & SO2 & U2).
    eexists. split; [reflexivity|]. cbn beta iota. split; [|split; [exact EQ2|split; [exact HL2|split; [congruence|split; [eapply same_trans; eassumption|lia]]]]].
    rewrite part_both by (unfold fetched; lia). f_equal. unfold fetched. lia.
  - apply Z.ltb_ge in T. eexists. split; [reflexivity|]. cbn beta iota. split; [f_equal; unfold fetched; lia|]. split; [exact EQ1|]. split; [exact HL1|]. split; [exact EN1|]. split; [exact SO1|]. unfold pages. lia.
Qed.
Lemma entry_got : forall lw cat answer s p c e id name x, 32 <= lw -> serves cat answer -> loss_tolerant cat answer -> config_id id -> nulfree name ->
  find (fun y => same_text (e_name y) (firstn 16 name)) cat = Some x ->
  forall tries w, equipped w s p -> an_engine_consumer w c -> has_engine w e ->
  exists r, get_engine_entry lw s p c e id answer name tries w = Ok r /\
    match r with
    | None => undisturbed tries = 0%nat
    | Some (y, w', more) => y = mkEntry (firstn 32 name) (e_uid x) (e_addr x) (e_proto x) /\ equipped w' s p /\ same_objects w w' /\
        w_engines w' = upd e (filed name x) (w_engines w) /\ (undisturbed tries <= 1 + undisturbed more)%nat
    end.
Proof.
  intros lw cat answer s p c e id name x LW SV LT ID NF FD. induction tries as [|m tries IH]; intros w EQ EC HE; [exists None; split; reflexivity|]. cbn [get_engine_entry].
  assert (EO : entry_of (filed name x) = mkEntry (firstn 32 name) (e_uid x) (e_addr x) (e_proto x)).
  { destruct (one_engine lw cat answer s p c e id name x w LW SV ID NF FD EQ EC HE) as (? & _ & X & _). exact X. }
  destruct (engine_tried lw cat answer s p c e id m name x w LW SV LT ID NF FD EQ EC HE) as (w1 & fr & l & E1 & GE & V1 & XE & SO1 & YES & NO). rewrite E1. cbn [bind]. rewrite V1. cbn [bind]. rewrite undisturbed_cons.
  destruct (nothing_lost m fr) eqn:NL.
  - destruct (YES eq_refl) as (-> & EQ1). rewrite GE. cbn [bind]. eexists. split; [reflexivity|]. cbn beta iota. split; [exact EO|]. split; [exact EQ1|]. split; [exact SO1|]. split; [exact XE|]. destruct (forallb _ m); lia.
  - assert (CM : forallb (fun b => b) m = false) by (destruct (forallb (fun b => b) m) eqn:X; [rewrite (clean_mask m fr X) in NL; discriminate|reflexivity]). rewrite CM.
    destruct (NO eq_refl) as (w2 & E2 & EQ2 & SO2 & XE2). rewrite E2. cbn [bind].
    destruct (IH w2 EQ2 (still_engine_consumer _ _ _ SO2 EC) (still_engine _ _ _ SO2 HE)) as (r & E3 & R). exists r. split; [exact E3|]. destruct r as [((y & w3) & more)|]; [|exact R].
    destruct R as (R1 & R2 & R3 & R4 & R5). split; [exact R1|]. split; [exact R2|]. split; [eapply same_trans; eassumption|]. split; [rewrite R4, XE2; apply upd_upd|exact R5].
Qed.
Lemma entries_got : forall lw cat answer s p c e id, 32 <= lw -> serves cat answer -> loss_tolerant cat answer -> config_id id -> NoDup (map e_name cat) -> Forall (fun x => name_fits (e_name x)) cat ->
  forall xs tries w, incl xs cat -> equipped w s p -> an_engine_consumer w c -> has_engine w e ->
  exists r, get_entries lw s p c e id answer (map e_name xs) tries w = Ok r /\
    match r with
    | None => (undisturbed tries < List.length xs)%nat
    | Some (ys, w', more) => ys = xs /\ equipped w' s p /\ same_objects w w' /\ (undisturbed tries <= List.length xs + undisturbed more)%nat /\
        w_engines w' = match rev xs with x :: _ => upd e (filed (e_name x) x) (w_engines w) | [] => w_engines w end
    end.
Proof.
  intros lw cat answer s p c e id LW SV LT ID ND NF. rewrite Forall_forall in NF. induction xs as [|x xs IH]; intros tries w IN EQ EC HE.
  - eexists. split; [reflexivity|]. cbn beta iota. repeat split; auto; apply EQ.
  - assert (IX : In x cat) by (apply IN; left; reflexivity). pose proof (NF _ IX) as (NX & LX).
    assert (FD : find (fun y => same_text (e_name y) (firstn 16 (e_name x))) cat = Some x) by (rewrite firstn_all2 by exact LX; apply find_own; assumption).
    destruct (entry_got lw cat answer s p c e id (e_name x) x LW SV LT ID NX FD tries w EQ EC HE) as (r1 & E1 & R1). cbn [map get_entries]. rewrite E1. cbn [bind List.length].
    destruct r1 as [((y & w1) & more)|]; [|exists None; split; [reflexivity|lia]]. destruct R1 as (-> & EQ1 & SO1 & WE1 & U1).
    destruct (IH more w1) as (r2 & E2 & R2); [intros z Z; apply IN; right; exact Z|exact EQ1|eapply still_engine_consumer; eassumption|eapply still_engine; eassumption|].
    rewrite E2. cbn [bind]. destruct r2 as [((ys & w2) & unused)|]; [|exists None; split; [reflexivity|lia]]. destruct R2 as (-> & EQ2 & SO2 & U2 & WE2).
    eexists. split; [reflexivity|]. cbn beta iota. split; [rewrite firstn_all2 by lia; destruct x; reflexivity|]. split; [exact EQ2|]. split; [eapply same_trans; eassumption|]. split; [lia|].
    rewrite WE2, WE1. cbn [rev]. destruct (rev xs) as [|z r]; [reflexivity|]. cbn [app]. apply upd_upd.
Qed.

(** ** The statements *)
Lemma page_attempt : forall lw cat answer s p c id m first w, 32 <= lw -> serves cat answer -> loss_tolerant cat answer -> config_id id -> byte first -> zlen cat < 2 ^ 31 ->
  equipped w s p -> has_list w c ->
  exists w' frames, try_page lw s p c id answer m first w = Ok (w', frames) /\ equipped w' s p /\ has_list w' c /\ w_engines w' = w_engines w /\
    q_isStreamComplete w' c = Ok (nothing_lost m frames) /\
    (nothing_lost m frames = true -> exists i, q_getEngineInfos w' c = Ok i /\ map name_of (filter (fun i => negb (si_isFree i)) i) = part first 2 (map e_name cat) /\
       q_getNumEngines w' c = Ok (zlen cat mod 256)).
Proof.
  intros lw cat answer s p c id m first w H1 H2 H3 H4 H5 H6 H7 H8. destruct (page_tried lw cat answer s p c id m first w H1 H2 H3 H4 H5 H6 H7 H8) as (w' & fr & A & B & C & D & _ & E & F). exists w', fr. auto 10.
Qed.
Lemma engine_attempt : forall lw cat answer s p c e id m name x w, 32 <= lw -> serves cat answer -> loss_tolerant cat answer -> config_id id -> nulfree name ->
  find (fun y => same_text (e_name y) (firstn 16 name)) cat = Some x ->
  equipped w s p -> an_engine_consumer w c -> has_engine w e ->
  exists w' frames l, try_engine lw s p c e id answer m name w = Ok (w', frames) /\ get_engine e w' = Ok l /\ w_engines w' = upd e l (w_engines w) /\
    q_isValid w' c = Ok (nothing_lost m frames) /\
    (nothing_lost m frames = true -> entry_of l = mkEntry (firstn 32 name) (e_uid x) (e_addr x) (e_proto x) /\ equipped w' s p) /\
    (nothing_lost m frames = false -> exists w2, run lw [OnEngine e EReset] w' = Ok (w2, []) /\ equipped w2 s p /\ an_engine_consumer w2 c /\ w_engines w2 = upd e lo_reset (w_engines w)).
Proof.
  intros lw cat answer s p c e id m name x w H1 H2 H3 H4 H5 H6 H7 H8 H9. destruct (engine_tried lw cat answer s p c e id m name x w H1 H2 H3 H4 H5 H6 H7 H8 H9) as (w' & fr & l & A & B & C & D & _ & E & F).
  destruct (one_engine lw cat answer s p c e id name x w H1 H2 H4 H5 H6 H7 H8 H9) as (_ & _ & EO & _).
  exists w', fr, l. split; [exact A|]. split; [exact B|]. split; [exact D|]. split; [exact C|]. split.
  - intros N. destruct (E N) as (-> & Q). auto.
  - intros N. destruct (F N) as (w2 & F1 & F2 & F3 & F4). exists w2. split; [exact F1|]. split; [exact F2|]. split; [eapply still_engine_consumer; eassumption|exact F4].
Qed.
Lemma catalogue_got : forall lw cat answer s p c c' e id tries w, 32 <= lw -> serves cat answer -> loss_tolerant cat answer -> config_id id -> zlen cat <= 255 ->
  NoDup (map e_name cat) -> Forall (fun x => name_fits (e_name x)) cat ->
  equipped w s p -> has_list w c -> an_engine_consumer w c' -> has_engine w e ->
  exists r, get_catalogue lw s p c c' e id answer tries w = Ok r /\
    match r with
    | Some (copy, w', unused) => copy = cat /\ equipped w' s p /\ (undisturbed tries <= requests_needed cat + undisturbed unused)%nat /\ (forall k, k <> e -> nth_error (w_engines w') k = nth_error (w_engines w) k)
    | None => (undisturbed tries < requests_needed cat)%nat
    end.
Proof.
  intros lw cat answer s p c c' e id tries w LW SV LT ID CL ND NF EQ HL EC HE. assert (CL' : zlen cat < 2 ^ 31) by lia. assert (Z0 : 0 <= zlen cat) by (unfold zlen; lia).
  assert (ZM : zlen cat mod 256 = zlen cat) by (apply Z.mod_small; lia).
  destruct (names_got lw cat answer s p c id LW SV LT ID CL' 128 0 tries w) as (r1 & E1 & R1); try assumption; try lia.
  assert (PG : pages (zlen cat mod 256) 0 = Nat.max 1 ((List.length cat + 1) / 2)).
  { rewrite ZM. unfold pages. rewrite Z.sub_0_r. unfold zlen. rewrite Z2Nat.inj_max. f_equal. rewrite Z2Nat.inj_div by lia. change (Z.to_nat 2) with 2%nat. f_equal. lia. }
  rewrite PG in R1. unfold get_catalogue. rewrite E1. cbn [bind]. unfold requests_needed. set (n := Nat.max 1 _) in *.
  destruct r1 as [((ns & w1) & more)|]; [|exists None; split; [reflexivity|lia]]. destruct R1 as (-> & EQ1 & HL1 & EN1 & SO1 & U1).
  assert (PA : part 0 (fetched (zlen cat mod 256) 0) (map e_name cat) = map e_name cat).
  { apply part_all. rewrite ZM. pose proof (fetched_enough (zlen cat)). unfold zlen in *. rewrite map_length. lia. }
  rewrite PA. destruct (entries_got lw cat answer s p c' e id LW SV LT ID ND NF cat more w1) as (r2 & E2 & R2); [intros z Z; exact Z|exact EQ1|eapply still_engine_consumer; eassumption|eapply still_engine; eassumption|].
  exists r2. split; [exact E2|]. destruct r2 as [((ys & w2) & unused)|]; [|lia]. destruct R2 as (-> & EQ2 & SO2 & U2 & WE2). split; [reflexivity|]. split; [exact EQ2|]. split; [lia|].
  intros k K. rewrite WE2, EN1. destruct (rev cat) as [|x r]; [reflexivity|]. clear - K. revert e k K. induction (w_engines w) as [|y l IH]; intros [|e] [|k] K; cbn; try reflexivity; [congruence|]. apply IH. lia.
Qed.
