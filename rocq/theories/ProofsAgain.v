(* ProofsAgain.v -- lemmas for C115: as ProofsRecover.v, after any history that is defined. *)
From Verif Require Import ZLib SpecAgain ProofsWorld ProofsCrc ProofsText ProofsStation ProofsStream ProofsConsumer ProofsSafe ProofsRecover ProofsExact.

Lemma quiet_decent : forall lw w ops, decent w -> Forall (valid_op w) ops -> Forall no_config_data ops -> exists w' t, run lw ops w = Ok (w', t) /\ decent w'.
Proof.
  intros lw w ops S F Q. assert (F' : Forall (legal_op w) ops) by (eapply Forall_impl; [|exact F]; intros o V; left; exact V).
  destruct (history_exact lw w ops S F') as (U & D). destruct (run lw ops w) as [(w' & t)|u] eqn:E; [exists w', t; split; [reflexivity|eapply D; reflexivity]|].
  destruct (proj1 (U u) eq_refl) as (_ & pre & o & post & w1 & t1 & -> & _ & X). apply Forall_app in Q. destruct Q as (_ & Q). inversion Q as [|? ? Q0]; subst.
  destruct X as (p & d & [->|(s & st & _ & _ & [->|(f & -> & _ & C)])] & _); cbn in Q0; contradiction.
Qed.
Lemma decent_usable : forall w p sp, decent w -> lib_at w p sp -> usable sp.
Proof. intros w p sp (_ & S & _) L. rewrite Forall_forall in S. exact (proj1 (S _ (nth_error_In _ _ L))). Qed.
Lemma decent_tx : forall w s st, decent w -> station_at w s st -> exists tx, cb_tx (st_cbs st) = Some tx.
Proof. intros w s st (S & _) (Q & _). rewrite Forall_forall in S. destruct (S _ (nth_error_In _ _ Q)) as (T & _). destruct (cb_tx (st_cbs st)); [eauto|congruence]. Qed.

(** after the two calls *)
Record dready (w w1 : world) (s p : nat) (st : Station) : Prop := {
  drd_sound : decent w1;
  drd_station : station_at w1 s (now_using st None);
  drd_parser : lib_at w1 p (blank SS_IDLE None);
  drd_engines : w_engines w1 = w_engines w;
  drd_conss : forall c x, consumer_at w c x -> exists x', consumer_at w1 c x' /\ maybe_reset x x'
}.
Lemma d_made_ready : forall lw w s st p, decent w -> station_at w s st -> a_parser w p ->
  exists w1 t1, run lw (make_ready s p) w = Ok (w1, t1) /\ dready w w1 s p st /\ forall c, ~ In (EvStreamComplete c) t1.
Proof.
  intros lw w s st p S Q (sp & L). destruct (quiet_decent lw w (make_ready s p) S) as (w1 & t1 & E & S1).
  - constructor; [split; [eapply station_lt; exact Q|exact Logic.I]|]. constructor; [exists sp; exact L|constructor].
  - repeat constructor.
  - exists w1, t1. split; [exact E|]. unfold make_ready in E. cbn [run] in E. apply seq_inv in E. destruct E as (wa & ta & tb & Ea & Eb & ->). cbn [step st_step] in Ea.
    apply seq_inv in Eb. destruct Eb as (wb & tc & td & Eb & Ec & ->). injection Ec as <- <-. cbn [step] in Eb. rewrite app_nil_r.
    destruct (m_finish _ _ _ _ _ Ea) as (A1 & A2 & A3). destruct (m_reset _ _ _ _ Eb) as (B1 & B2 & B3).
    destruct (finish_inv _ _ st _ _ _ (proj1 Q) Ea) as (F1 & F2). destruct (F2 _ _ L (decent_usable _ _ _ S L)) as (sp1 & L1 & (a & FA & TA) & _).
    pose proof (reset_inv _ _ sp1 _ _ L1 Eb) as (tx & T & P & ST & _). rewrite TA, (reset_spec _ _ FA) in T. injection T as <-. split; [constructor|].
    + exact S1.
    + split; [rewrite ST; exact F1|exact (proj2 Q)].
    + unfold lib_at. rewrite P. eapply nth_error_upd_same. exact L1.
    + congruence.
    + intros c x C. destruct (A2 _ _ C) as (y & Y & M1). destruct (B2 _ _ Y) as (z & Z & M2). exists z. split; [exact Z|]. eapply maybe_trans; eassumption.
    + intros c I. apply in_app_or in I. destruct I as [I|I]; [exact (A3 _ I)|exact (B3 _ I)].
Qed.
(** finishing is enough if the station uses p *)
Lemma d_finished_ready : forall lw w s st p, decent w -> station_at w s st -> a_parser w p -> cb_cfg (st_cbs st) = Some p ->
  exists w1 t1, run lw [OnStation s FinishCurrentConfigRequest] w = Ok (w1, t1) /\ dready w w1 s p st /\ forall c, ~ In (EvStreamComplete c) t1.
Proof.
  intros lw w s st p S Q (sp & L) C. destruct (quiet_decent lw w [OnStation s FinishCurrentConfigRequest] S) as (w1 & t1 & E & S1).
  - constructor; [split; [eapply station_lt; exact Q|exact Logic.I]|constructor].
  - repeat constructor.
  - exists w1, t1. split; [exact E|]. cbn [run] in E. apply seq_inv in E. destruct E as (wa & ta & tb & Ea & Eb & ->). injection Eb as <- <-. cbn [step st_step] in Ea. rewrite app_nil_r.
    destruct (m_finish _ _ _ _ _ Ea) as (A1 & A2 & A3). destruct (finish_inv _ _ st _ _ _ (proj1 Q) Ea) as (F1 & F2).
    destruct (F2 _ _ L (decent_usable _ _ _ S L)) as (sp1 & L1 & _ & B). split; [|exact A3]. constructor; try assumption.
    + split; [exact F1|exact (proj2 Q)].
    + rewrite <- (B C). exact L1.
Qed.

Lemma d_ready_engine : forall lw w w1 s st p c e e0 cb l hd ds d id u a tp, 32 <= lw -> decent w -> dready w w1 s p st -> station_at w s st ->
  consumer_at w c (LocoC e0 cb) -> engine_at w e l -> si_avail (lo_info l) <> EMPTY -> config_id id ->
  carries ds d -> proper_stream hd ds -> describes d u a tp ->
  exists w2 t2 x, cb = Def x /\ run lw (engine_download s p c e id (hd :: ds)) w1 = Ok (w2, t2) /\
    w_engines w2 = upd e (described l u a tp) (w_engines w) /\
    notes t2 = EvStreamComplete c :: callback_note x (fun cb => EvEndComplete cb c).
Proof.
  intros lw w w1 s st p c e e0 cb l hd ds d id u a tp LW S R Q C E AV ID CA PS (DO & LF & (tu & VU & NU) & U & (ta & VA & NA) & A & VP & NP & P7).
  destruct R as [S1 Q1 L1 E1 C1]. destruct (decent_tx _ _ _ S1 Q1) as (tx & T).
  destruct (C1 _ _ C) as (x' & C' & M). assert (x' = LocoC e0 cb) by (destruct M as [M|(?&?&?&?&?&M&_)]; [exact M|discriminate]). subst x'.
  assert (SC : sound_consumer w (LocoC e0 cb)). { destruct S as (_ & _ & S & _). rewrite Forall_forall in S. exact (S _ (nth_error_In _ _ C)). }
  destruct SC as (_ & (x & ->)).
  assert (SE : decent_engine l). { destruct S as (_ & _ & _ & S). rewrite Forall_forall in S. exact (S _ (nth_error_In _ _ E)). }
  destruct SE as ((name & SN) & P8).
  assert (EE : engine_at w1 e l) by (unfold engine_at; rewrite E1; exact E).
  assert (B : between_lines (blank SS_IDLE None) []) by (split; [reflexivity|cbn; lia]).
  destruct (described_download lw w1 s _ tx p c e _ [] x e0 l name hd ds d id tu u ta a tp LW Q1 T eq_refl L1 B C' EE AV SN P8 ID DO CA PS LF VU NU U VA NA A VP NP P7) as (w2 & t2 & X1 & X2 & X3 & _).
  exists w2, t2, x. split; [reflexivity|]. split; [exact X1|]. split; [|exact X3]. rewrite X2, E1. reflexivity.
Qed.

(** ** Lists *)
Lemma d_ready_list : forall lw w w1 s st p c co i n o cb off hd ds d id, decent w -> dready w w1 s p st -> station_at w s st ->
  consumer_at w c (ListC co i n o cb) -> byte off -> config_id id -> carries ds d -> proper_stream hd ds -> doc_ok d -> Forall list_line_fits (reports [] d) ->
  exists w2 t2 x, cb = Def x /\ run lw (ListReset c :: list_download s p c off id (hd :: ds)) w1 = Ok (w2, t2) /\
    w_engines w2 = w_engines w /\
    consumer_at w2 c (ListC (Def true) (map named (firstn (List.length i) (names_in (reports [] d))) ++ repeat si_reset (List.length i - List.length (names_in (reports [] d))))
                           (last (map (fun v => Def (dec_value lw v mod 256)) (counts_in (reports [] d))) (Def 0)) (Def 0) cb) /\
    notes t2 = EvStreamComplete c :: callback_note x (fun cb => EvEndComplete cb c).
Proof.
  intros lw w w1 s st p c co i n o cb off hd ds d id S R Q C OB ID CA (crc & HF & CK & NE & SZ & DF) DO LF.
  destruct R as [S1 Q1 L1 E1 C1]. destruct (decent_tx _ _ _ S1 Q1) as (tx & T).
  destruct (C1 _ _ C) as (x' & C' & M).
  assert (X : exists co' i' n' o', x' = ListC co' i' n' o' cb /\ List.length i' = List.length i).
  { destruct M as [->|(?&?&?&?&?&M&->)]; [repeat eexists|]. injection M as <- <- <- <- <-. repeat eexists. apply map_length. }
  destruct X as (co' & i' & n' & o' & -> & LI).
  assert (SC : sound_consumer w (ListC co i n o cb)). { destruct S as (_ & _ & S & _). rewrite Forall_forall in S. exact (S _ (nth_error_In _ _ C)). }
  destruct SC as (_ & _ & _ & (x & ->) & _).
  assert (B : between_lines (blank SS_IDLE None) []) by (split; [reflexivity|cbn; lia]).
  set (obj := ListC (Def false) (repeat si_reset (List.length i)) (Def 0) (Def 0) (Def x)).
  assert (ER : step lw (ListReset c) w1 = Ok (with_consumer w1 c obj, [])).
  { cbn [step]. unfold ask, get_cons, at_. unfold consumer_at in C'. rewrite C'. cbn [bind]. unfold put_cons, list_reset_obj, list_cleared, obj, with_consumer. rewrite map_reset, LI. reflexivity. }
  assert (C2 : consumer_at (with_consumer w1 c obj) c obj) by (eapply upd_at; exact C').
  destruct (named_list_download lw (with_consumer w1 c obj) s (now_using st None) tx p c _ [] _ _ _ _ x off hd ds crc id d Q1 T eq_refl L1 B C2 OB ID HF NE SZ DO CA LF) as (w2 & t2 & X1 & X2 & _ & X3 & _).
  destruct (X3 CK) as (X4 & X5). exists w2, t2, x. split; [reflexivity|]. split.
  - cbn [run]. unfold World.seq. rewrite ER. cbn [bind app]. rewrite X1. reflexivity.
  - split; [rewrite X2; exact E1|]. split; [|exact X5]. unfold consumer_at. rewrite X4. rewrite filled_empty. eapply upd_at. exact C2.
Qed.

(** ** Histories *)

Lemma history_kept : forall lw w0 ops w t, decent w0 -> Forall (legal_op w0) ops -> run lw ops w0 = Ok (w, t) -> decent w /\ same_objects w0 w.
Proof.
  intros lw w0 ops w t S F E. destruct (run_exact lw w0 ops w0 (decent_GD w0 S) F) as [(w' & t' & E' & g & _)|(pre & o & post & w1 & t1 & _ & _ & _ & _ & E')]; rewrite E in E'; [|discriminate].
  injection E' as <- <-. split; [exact (GD_decent w0 w g)|apply g].
Qed.
Lemma engine_again : forall lw w0 ops w t s st p c e l hd ds d id u a tp, 32 <= lw ->
  decent w0 -> Forall (legal_op w0) ops -> run lw ops w0 = Ok (w, t) ->
  a_parser w0 p -> an_engine_consumer w0 c -> config_id id -> carries ds d -> proper_stream hd ds -> describes d u a tp ->
  station_at w s st -> engine_at w e l -> si_avail (lo_info l) <> EMPTY ->
  exists w1 t1 w2 t2 e0 x, run lw (make_ready s p) w = Ok (w1, t1) /\ w_engines w1 = w_engines w /\ (forall c', ~ In (EvStreamComplete c') t1) /\
    run lw (engine_download s p c e id (hd :: ds)) w1 = Ok (w2, t2) /\ w_engines w2 = upd e (described l u a tp) (w_engines w) /\
    consumer_at w c (LocoC e0 (Def x)) /\ notes t2 = EvStreamComplete c :: callback_note x (fun cb => EvEndComplete cb c).
Proof.
  intros lw w0 ops w t s st p c e l hd ds d id u a tp LW S F E P C ID CA PS DE Q EE AV. destruct (history_kept lw w0 ops w t S F E) as (SW & SO).
  destruct C as (e0 & cb0 & C). destruct (same_kind _ _ _ _ SO C) as ([e1 cb1|? ? ? ? ?|] & C1 & K); try discriminate.
  destruct (d_made_ready lw w s st p SW Q (same_parser _ _ _ SO P)) as (w1 & t1 & E1 & R & NC).
  destruct (d_ready_engine lw w w1 s st p c e e1 cb1 l hd ds d id u a tp LW SW R Q C1 EE AV ID CA PS DE) as (w2 & t2 & x & -> & X1 & X2 & X3).
  exists w1, t1, w2, t2, e1, x. split; [exact E1|]. split; [apply R|]. auto 10.
Qed.
Lemma list_again : forall lw w0 ops w t s st p c n off hd ds d id,
  decent w0 -> Forall (legal_op w0) ops -> run lw ops w0 = Ok (w, t) ->
  a_parser w0 p -> (exists co i k o cb, consumer_at w0 c (ListC co i k o cb) /\ List.length i = n) -> byte off -> config_id id ->
  carries ds d -> proper_stream hd ds -> doc_ok d -> Forall list_line_fits (reports [] d) -> station_at w s st ->
  exists w1 t1 w2 t2 co i k o x, run lw (make_ready s p) w = Ok (w1, t1) /\ (forall c', ~ In (EvStreamComplete c') t1) /\
    run lw (ListReset c :: list_download s p c off id (hd :: ds)) w1 = Ok (w2, t2) /\ w_engines w2 = w_engines w /\
    consumer_at w c (ListC co i k o (Def x)) /\
    consumer_at w2 c (ListC (Def true) (map named (firstn n (names_in (reports [] d))) ++ repeat si_reset (n - List.length (names_in (reports [] d))))
                           (last (map (fun v => Def (dec_value lw v mod 256)) (counts_in (reports [] d))) (Def 0)) (Def 0) (Def x)) /\
    notes t2 = EvStreamComplete c :: callback_note x (fun cb => EvEndComplete cb c).
Proof.
  intros lw w0 ops w t s st p c n off hd ds d id S F E P C OB ID CA PS DO LF Q. destruct (history_kept lw w0 ops w t S F E) as (SW & SO).
  destruct C as (co & i & k & o & cb0 & C & <-). destruct (same_kind _ _ _ _ SO C) as ([? ?|co1 i1 k1 o1 cb1|] & C1 & K); try discriminate. injection K as K.
  destruct (d_made_ready lw w s st p SW Q (same_parser _ _ _ SO P)) as (w1 & t1 & E1 & R & NC).
  destruct (d_ready_list lw w w1 s st p c co1 i1 k1 o1 cb1 off hd ds d id SW R Q C1 OB ID CA PS DO LF) as (w2 & t2 & x & -> & X1 & X2 & X3 & X4).
  rewrite K in X3. exists w1, t1, w2, t2, co1, i1, k1, o1, x. auto 12.
Qed.
