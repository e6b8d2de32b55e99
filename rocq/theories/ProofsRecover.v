(* ProofsRecover.v -- lemmas for C91. *)
From Verif Require Import ZLib SpecRecover ProofsWorld ProofsCrc ProofsText ProofsStation ProofsStream ProofsConsumer ProofsSafe.

(** what aborting does: engines stay, consumers stay except that list consumers may be reset *)
Definition maybe_reset (x x' : CObj) : Prop :=
  x' = x \/ exists co i n o cb, x = ListC co i n o cb /\ x' = ListC (Def false) (map (fun _ => si_reset) i) (Def 0) (Def 0) cb.
Definition mild (a : act) : Prop := forall w w' t, a w = Ok (w', t) ->
  w_engines w' = w_engines w /\ (forall c x, nth_error (w_conss w) c = Some x -> exists x', nth_error (w_conss w') c = Some x' /\ maybe_reset x x') /\
  (forall c, ~ In (EvStreamComplete c) t).
Lemma maybe_trans : forall x y z, maybe_reset x y -> maybe_reset y z -> maybe_reset x z.
Proof.
  intros x y z [->|(co & i & n & o & cb & -> & ->)] [->|(co' & i' & n' & o' & cb' & E & ->)].
  - left. reflexivity.
  - right. rewrite E. eauto 10.
  - right. eauto 10.
  - right. injection E as <- <- <- <- <-. rewrite map_map. eauto 10.
Qed.
Lemma m_same : forall a : act, (forall w w' t, a w = Ok (w', t) -> w_engines w' = w_engines w /\ w_conss w' = w_conss w /\ forall c, ~ In (EvStreamComplete c) t) -> mild a.
Proof. intros a Q w w' t H. destruct (Q _ _ _ H) as (A & B & C). split; [exact A|]. split; [|exact C]. intros c x E. exists x. rewrite B. split; [exact E|left; reflexivity]. Qed.
Lemma m_seq : forall a c, mild a -> mild c -> mild (World.seq a c).
Proof.
  intros a b A B w w' t H. apply seq_inv in H. destruct H as (w1 & t1 & t2 & H1 & H2 & ->). destruct (A _ _ _ H1) as (A1 & A2 & A3). destruct (B _ _ _ H2) as (B1 & B2 & B3).
  split; [congruence|]. split.
  - intros c x E. destruct (A2 _ _ E) as (y & Y & M1). destruct (B2 _ _ Y) as (z & Z & M2). exists z. split; [exact Z|]. eapply maybe_trans; eassumption.
  - intros c I. apply in_app_or in I. destruct I as [I|I]; [exact (A3 _ I)|exact (B3 _ I)].
Qed.
Lemma m_ask : forall A (f : world -> res A) k, (forall x, mild (k x)) -> mild (ask f k).
Proof. intros A f k K w w' t H. apply ask_inv in H. destruct H as (x & _ & H). exact (K x _ _ _ H). Qed.
Lemma m_skip : mild skip. Proof. apply m_same. intros w w' t H. injection H as <- <-. auto. Qed.
Lemma m_when : forall A (o : option A) k, (forall x, mild (k x)) -> mild (when_some o k).
Proof. intros A [x|] k K; [apply K|apply m_skip]. Qed.
Lemma m_emit : forall e, (forall c, e <> EvStreamComplete c) -> mild (emit e).
Proof. intros e N. apply m_same. intros w w' t H. injection H as <- <-. repeat split. intros c [E|[]]. exact (N c E). Qed.
Lemma m_put_parser : forall p x, mild (put_parser p x). Proof. intros. apply m_same. intros w w' t H. injection H as <- <-. repeat split. intros c []. Qed.
Lemma m_put_station : forall p x, mild (put_station p x). Proof. intros. apply m_same. intros w w' t H. injection H as <- <-. repeat split. intros c []. Qed.
Lemma m_aborted : forall c, mild (cons_aborted c).
Proof.
  intros c. unfold cons_aborted. apply m_seq; [apply m_emit; discriminate|]. intros w w' t H. apply ask_inv in H. destruct H as (o & G & H).
  unfold get_cons, at_ in G. destruct (nth_error (w_conss w) c) as [x|] eqn:Q; [|discriminate]. injection G as ->.
  assert (END : forall cb, mild (ask (fun _ => mread cb) (fun cb => when_some cb (fun cb => emit (EvEndAborted cb c))))) by (intros cb; apply m_ask; intros; apply m_when; intros; apply m_emit; discriminate).
  destruct o as [e cb|co i n off cb|].
  - exact (END _ _ _ _ H).
  - apply seq_inv in H. destruct H as (w1 & t1 & t2 & H1 & H2 & ->). destruct (END _ _ _ _ H2) as (A1 & A2 & A3). injection H1 as <- <-. split; [exact A1|]. split; [|exact A3].
    cbn [w_conss] in A2. intros q y E. destruct (Nat.eq_dec q c) as [->|N].
    + rewrite Q in E. injection E as <-. destruct (A2 c (list_reset_obj i cb)) as (z & Z & M); [eapply nth_error_upd_same; exact Q|]. exists z. split; [exact Z|]. eapply maybe_trans; [|exact M]. right. exists co, i, n, off, cb. split; reflexivity.
    + apply A2. rewrite nth_error_upd_other by congruence. exact E.
  - exact (m_skip _ _ _ H).
Qed.
Lemma m_reset : forall p, mild (lib_reset p).
Proof.
  intros p. unfold lib_reset. apply m_ask. intros sp. apply m_seq.
  - destruct (ss_processing (sp_state sp)); [apply m_when; intros; apply m_aborted|apply m_skip].
  - apply m_ask. intros. apply m_ask. intros. apply m_put_parser.
Qed.
Lemma m_call_reset : forall lw p, mild (cfg_call lw p CReset).
Proof. intros. unfold cfg_call. apply m_seq; [apply m_emit; discriminate|]. apply m_ask. intros [sp|beh h]; [apply m_reset|apply m_put_parser]. Qed.
Lemma m_finish : forall lw s, mild (st_finish lw s).
Proof. intros. unfold st_finish. apply m_ask. intros. apply m_when. intros. apply m_seq; [apply m_call_reset|]. apply m_ask. intros. apply m_put_station. Qed.

(** stations and parsers after finishing *)
Lemma call_reset_inv : forall lw q w w' t, cfg_call lw q CReset w = Ok (w', t) -> w_stations w' = w_stations w /\
  (forall p, p <> q -> nth_error (w_parsers w') p = nth_error (w_parsers w) p) /\
  (forall sp, lib_at w q sp -> usable sp -> lib_at w' q (blank SS_IDLE None)).
Proof.
  intros lw q w w' t H. unfold cfg_call in H. apply seq_inv in H. destruct H as (w1 & t1 & t2 & H1 & H2 & _). injection H1 as <- _. apply ask_inv in H2. destruct H2 as (o & G & H).
  unfold get_parser, at_ in G. destruct (nth_error (w_parsers w) q) as [x|] eqn:Q; [|discriminate]. injection G as ->. destruct o as [sp|beh h].
  - apply (reset_inv _ _ sp) in H; [|exact Q]. destruct H as (tx & T & P & S & _). split; [exact S|]. split.
    + intros p N. rewrite P. apply nth_error_upd_other. congruence.
    + intros sp' L (a & F & TX). unfold lib_at in L. rewrite Q in L. injection L as ->. rewrite TX, (reset_spec _ _ F) in T. injection T as <-. unfold lib_at. rewrite P. eapply nth_error_upd_same. exact Q.
  - injection H as <- _. split; [reflexivity|]. split; [intros p N; apply nth_error_upd_other; congruence|]. intros sp' L. unfold lib_at in L. rewrite Q in L. discriminate.
Qed.
Lemma finish_inv : forall lw s st w w' t, nth_error (w_stations w) s = Some st -> st_finish lw s w = Ok (w', t) ->
  nth_error (w_stations w') s = Some (now_using st None) /\
  (forall p sp, lib_at w p sp -> usable sp -> exists sp', lib_at w' p sp' /\ usable sp' /\ (cb_cfg (st_cbs st) = Some p -> sp' = blank SS_IDLE None)).
Proof.
  intros lw s st w w' t Q H. unfold st_finish in H. apply ask_inv in H. destruct H as (st0 & G & H). unfold get_station, at_ in G. rewrite Q in G. injection G as <-.
  destruct (cb_cfg (st_cbs st)) as [q|] eqn:C; cbn [when_some] in H.
  - apply seq_inv in H. destruct H as (w1 & t1 & t2 & H1 & H2 & _). apply call_reset_inv in H1. destruct H1 as (S & P1 & P2).
    apply ask_inv in H2. destruct H2 as (st1 & G & H). unfold get_station, at_ in G. rewrite S, Q in G. injection G as <-. injection H as <- _. split.
    + eapply nth_error_upd_same. cbn. rewrite S. exact Q.
    + intros p sp L U. destruct (Nat.eq_dec p q) as [->|N].
      * exists (blank SS_IDLE None). split; [exact (P2 sp L U)|]. split; [exists astart; split; [apply start_fits|reflexivity]|reflexivity].
      * exists sp. split; [unfold lib_at; cbn; rewrite P1 by exact N; exact L|]. split; [exact U|]. congruence.
  - injection H as <- _. split.
    + rewrite Q. unfold now_using. destruct st as [h k]. cbn in *. destruct k. cbn in *. subst. reflexivity.
    + intros p sp L U. exists sp. split; [exact L|]. split; [exact U|discriminate].
Qed.

Lemma sound_usable : forall w p sp, sound w -> lib_at w p sp -> usable sp.
Proof. intros w p sp (_ & S & _) L. rewrite Forall_forall in S. exact (proj1 (S _ (nth_error_In _ _ L))). Qed.
Lemma sound_tx : forall w s st, sound w -> station_at w s st -> exists tx, cb_tx (st_cbs st) = Some tx.
Proof. intros w s st (S & _) (Q & _). rewrite Forall_forall in S. destruct (S _ (nth_error_In _ _ Q)) as (T & _). destruct (cb_tx (st_cbs st)); [eauto|congruence]. Qed.
Lemma station_lt : forall w s st, station_at w s st -> (s < List.length (w_stations w))%nat.
Proof. intros w s st (Q & _). apply nth_error_Some. congruence. Qed.

(** after the two calls *)
Record ready (w w1 : world) (s p : nat) (st : Station) : Prop := {
  rd_sound : sound w1;
  rd_station : station_at w1 s (now_using st None);
  rd_parser : lib_at w1 p (blank SS_IDLE None);
  rd_engines : w_engines w1 = w_engines w;
  rd_conss : forall c x, consumer_at w c x -> exists x', consumer_at w1 c x' /\ maybe_reset x x'
}.
Lemma made_ready : forall lw w s st p, sound w -> station_at w s st -> a_parser w p ->
  exists w1 t1, run lw (make_ready s p) w = Ok (w1, t1) /\ ready w w1 s p st /\ forall c, ~ In (EvStreamComplete c) t1.
Proof.
  intros lw w s st p S Q (sp & L). destruct (quiet_history_safe lw w (make_ready s p) S) as (w1 & t1 & E & S1).
  - constructor; [split; [eapply station_lt; exact Q|exact Logic.I]|]. constructor; [exists sp; exact L|constructor].
  - repeat constructor.
  - exists w1, t1. split; [exact E|]. unfold make_ready in E. cbn [run] in E. apply seq_inv in E. destruct E as (wa & ta & tb & Ea & Eb & ->). cbn [step st_step] in Ea.
    apply seq_inv in Eb. destruct Eb as (wb & tc & td & Eb & Ec & ->). injection Ec as <- <-. cbn [step] in Eb. rewrite app_nil_r.
    destruct (m_finish _ _ _ _ _ Ea) as (A1 & A2 & A3). destruct (m_reset _ _ _ _ Eb) as (B1 & B2 & B3).
    destruct (finish_inv _ _ st _ _ _ (proj1 Q) Ea) as (F1 & F2). destruct (F2 _ _ L (sound_usable _ _ _ S L)) as (sp1 & L1 & (a & FA & TA) & _).
    pose proof (reset_inv _ _ sp1 _ _ L1 Eb) as (tx & T & P & ST & _). rewrite TA, (reset_spec _ _ FA) in T. injection T as <-. split; [constructor|].
    + exact S1.
    + split; [rewrite ST; exact F1|exact (proj2 Q)].
    + unfold lib_at. rewrite P. eapply nth_error_upd_same. exact L1.
    + congruence.
    + intros c x C. destruct (A2 _ _ C) as (y & Y & M1). destruct (B2 _ _ Y) as (z & Z & M2). exists z. split; [exact Z|]. eapply maybe_trans; eassumption.
    + intros c I. apply in_app_or in I. destruct I as [I|I]; [exact (A3 _ I)|exact (B3 _ I)].
Qed.
(** finishing is enough if the station uses p *)
Lemma finished_ready : forall lw w s st p, sound w -> station_at w s st -> a_parser w p -> cb_cfg (st_cbs st) = Some p ->
  exists w1 t1, run lw [OnStation s FinishCurrentConfigRequest] w = Ok (w1, t1) /\ ready w w1 s p st /\ forall c, ~ In (EvStreamComplete c) t1.
Proof.
  intros lw w s st p S Q (sp & L) C. destruct (quiet_history_safe lw w [OnStation s FinishCurrentConfigRequest] S) as (w1 & t1 & E & S1).
  - constructor; [split; [eapply station_lt; exact Q|exact Logic.I]|constructor].
  - repeat constructor.
  - exists w1, t1. split; [exact E|]. cbn [run] in E. apply seq_inv in E. destruct E as (wa & ta & tb & Ea & Eb & ->). injection Eb as <- <-. cbn [step st_step] in Ea. rewrite app_nil_r.
    destruct (m_finish _ _ _ _ _ Ea) as (A1 & A2 & A3). destruct (finish_inv _ _ st _ _ _ (proj1 Q) Ea) as (F1 & F2).
    destruct (F2 _ _ L (sound_usable _ _ _ S L)) as (sp1 & L1 & _ & B). split; [|exact A3]. constructor; try assumption.
    + split; [exact F1|exact (proj2 Q)].
    + rewrite <- (B C). exact L1.
Qed.

Lemma ready_engine : forall lw w w1 s st p c e e0 cb l hd ds d id u a tp, 32 <= lw -> sound w -> ready w w1 s p st -> station_at w s st ->
  consumer_at w c (LocoC e0 cb) -> engine_at w e l -> si_avail (lo_info l) <> EMPTY -> config_id id ->
  carries ds d -> proper_stream hd ds -> describes d u a tp ->
  exists w2 t2 x, cb = Def x /\ run lw (engine_download s p c e id (hd :: ds)) w1 = Ok (w2, t2) /\
    w_engines w2 = upd e (described l u a tp) (w_engines w) /\
    notes t2 = EvStreamComplete c :: callback_note x (fun cb => EvEndComplete cb c).
Proof.
  intros lw w w1 s st p c e e0 cb l hd ds d id u a tp LW S R Q C E AV ID CA PS (DO & LF & (tu & VU & NU) & U & (ta & VA & NA) & A & VP & NP & P7).
  destruct R as [S1 Q1 L1 E1 C1]. destruct (sound_tx _ _ _ S1 Q1) as (tx & T).
  destruct (C1 _ _ C) as (x' & C' & M). assert (x' = LocoC e0 cb) by (destruct M as [M|(?&?&?&?&?&M&_)]; [exact M|discriminate]). subst x'.
  assert (SC : sound_consumer w (LocoC e0 cb)). { destruct S as (_ & _ & S & _). rewrite Forall_forall in S. exact (S _ (nth_error_In _ _ C)). }
  destruct SC as (_ & (x & ->)).
  assert (SE : sound_engine l). { destruct S as (_ & _ & _ & S). rewrite Forall_forall in S. exact (S _ (nth_error_In _ _ E)). }
  destruct SE as ((name & SN) & P8 & _).
  assert (EE : engine_at w1 e l) by (unfold engine_at; rewrite E1; exact E).
  assert (B : between_lines (blank SS_IDLE None) []) by (split; [reflexivity|cbn; lia]).
  destruct (described_download lw w1 s _ tx p c e _ [] x e0 l name hd ds d id tu u ta a tp LW Q1 T eq_refl L1 B C' EE AV SN P8 ID DO CA PS LF VU NU U VA NA A VP NP P7) as (w2 & t2 & X1 & X2 & X3 & _).
  exists w2, t2, x. split; [reflexivity|]. split; [exact X1|]. split; [|exact X3]. rewrite X2, E1. reflexivity.
Qed.

(** ** Lists *)
Lemma filled_empty : forall n names, filled (repeat si_reset n) names = map named (firstn n names) ++ repeat si_reset (n - List.length names).
Proof.
  induction n as [|n IH]; intros names; [reflexivity|]. cbn [repeat filled]. change (free_entry si_reset) with true. cbn iota. destruct names as [|x names]; [reflexivity|]. cbn. rewrite IH. reflexivity.
Qed.
Lemma map_reset : forall (i : list ShortInfo), map (fun _ => si_reset) i = repeat si_reset (List.length i).
Proof. induction i; cbn; congruence. Qed.
Lemma ready_list : forall lw w w1 s st p c co i n o cb off hd ds d id, sound w -> ready w w1 s p st -> station_at w s st ->
  consumer_at w c (ListC co i n o cb) -> byte off -> config_id id -> carries ds d -> proper_stream hd ds -> doc_ok d -> Forall list_line_fits (reports [] d) ->
  exists w2 t2 x, cb = Def x /\ run lw (ListReset c :: list_download s p c off id (hd :: ds)) w1 = Ok (w2, t2) /\
    w_engines w2 = w_engines w /\
    consumer_at w2 c (ListC (Def true) (map named (firstn (List.length i) (names_in (reports [] d))) ++ repeat si_reset (List.length i - List.length (names_in (reports [] d))))
                           (last (map (fun v => Def (dec_value lw v mod 256)) (counts_in (reports [] d))) (Def 0)) (Def 0) cb) /\
    notes t2 = EvStreamComplete c :: callback_note x (fun cb => EvEndComplete cb c).
Proof.
  intros lw w w1 s st p c co i n o cb off hd ds d id S R Q C OB ID CA (crc & HF & CK & NE & SZ & DF) DO LF.
  destruct R as [S1 Q1 L1 E1 C1]. destruct (sound_tx _ _ _ S1 Q1) as (tx & T).
  destruct (C1 _ _ C) as (x' & C' & M).
  assert (X : exists co' i' n' o', x' = ListC co' i' n' o' cb /\ List.length i' = List.length i).
  { destruct M as [->|(?&?&?&?&?&M&->)]; [repeat eexists|]. injection M as <- <- <- <- <-. repeat eexists. apply map_length. }
  destruct X as (co' & i' & n' & o' & -> & LI).
  assert (SC : sound_consumer w (ListC co i n o cb)). { destruct S as (_ & _ & S & _). rewrite Forall_forall in S. exact (S _ (nth_error_In _ _ C)). }
  destruct SC as (_ & _ & _ & (x & ->) & _).
  assert (B : between_lines (blank SS_IDLE None) []) by (split; [reflexivity|cbn; lia]).
  set (obj := ListC (Def false) (repeat si_reset (List.length i)) (Def 0) (Def 0) (Def x)).
  assert (ER : step lw (ListReset c) w1 = Ok (with_consumer w1 c obj, [])).
  { cbn [step]. unfold ask, get_cons, at_. unfold consumer_at in C'. rewrite C'. cbn [bind]. unfold put_cons, list_reset_obj, list_cleared, obj, with_consumer. rewrite map_reset, LI. reflexivity. }
  assert (C2 : consumer_at (with_consumer w1 c obj) c obj) by (eapply upd_at; exact C').
  destruct (named_list_download lw (with_consumer w1 c obj) s (now_using st None) tx p c _ [] _ _ _ _ x off hd ds crc id d Q1 T eq_refl L1 B C2 OB ID HF NE SZ DO CA LF) as (w2 & t2 & X1 & X2 & _ & X3 & _).
  destruct (X3 CK) as (X4 & X5). exists w2, t2, x. split; [reflexivity|]. split.
  - cbn [run]. unfold World.seq. rewrite ER. cbn [bind app]. rewrite X1. reflexivity.
  - split; [rewrite X2; exact E1|]. split; [|exact X5]. unfold consumer_at. rewrite X4. rewrite filled_empty. eapply upd_at. exact C2.
Qed.

(** ** Histories *)
Lemma same_parser : forall w0 w p, same_objects w0 w -> a_parser w0 p -> a_parser w p.
Proof.
  intros w0 w p (_ & P & _) (sp & L). unfold lib_at in L. apply (map_nth_error pkind) in L. rewrite <- P in L. destruct (nth_error (w_parsers w) p) as [[sp'|beh h]|] eqn:Q.
  - exists sp'. exact Q.
  - apply (map_nth_error pkind) in Q. rewrite Q in L. discriminate.
  - apply nth_error_None in Q. assert (Q2 : nth_error (map pkind (w_parsers w)) p = None) by (apply nth_error_None; rewrite map_length; exact Q). congruence.
Qed.
Lemma same_kind : forall w0 w c x, same_objects w0 w -> consumer_at w0 c x -> exists x', consumer_at w c x' /\ kind x' = kind x.
Proof.
  intros w0 w c x (_ & _ & P & _) L. unfold consumer_at in *. apply (map_nth_error kind) in L. rewrite <- P in L. destruct (nth_error (w_conss w) c) as [x'|] eqn:Q.
  - exists x'. split; [reflexivity|]. apply (map_nth_error kind) in Q. congruence.
  - apply nth_error_None in Q. assert (Q2 : nth_error (map kind (w_conss w)) c = None) by (apply nth_error_None; rewrite map_length; exact Q). congruence.
Qed.
Lemma history_same : forall lw w0 ops, sound w0 -> Forall (valid_op w0) ops ->
  (forall pre o post w1 t1, ops = pre ++ o :: post -> run lw pre w0 = Ok (w1, t1) -> ~ excessive_line w1 o) ->
  exists w t, run lw ops w0 = Ok (w, t) /\ sound w /\ same_objects w0 w.
Proof.
  intros lw w0 ops S F X. destruct (run_safe lw w0 ops w0 (sound_G w0 S) F) as [(w & t & E & g)|(pre & o & post & w1 & t1 & E & E1 & _ & B)]; [|destruct (X _ _ _ _ _ E E1 B)].
  exists w, t. split; [exact E|]. split; [eapply G_sound; exact g|apply g].
Qed.
Lemma engine_after_history : forall lw w0 ops s p c e hd ds d id u a tp, 32 <= lw ->
  sound w0 -> Forall (valid_op w0) ops -> (forall pre o post w1 t1, ops = pre ++ o :: post -> run lw pre w0 = Ok (w1, t1) -> ~ excessive_line w1 o) ->
  a_parser w0 p -> an_engine_consumer w0 c -> config_id id -> carries ds d -> proper_stream hd ds -> describes d u a tp ->
  exists w t, run lw ops w0 = Ok (w, t) /\
  forall st l, station_at w s st -> engine_at w e l -> si_avail (lo_info l) <> EMPTY ->
  exists w1 t1 w2 t2 e0 x, run lw (make_ready s p) w = Ok (w1, t1) /\ w_engines w1 = w_engines w /\ (forall c', ~ In (EvStreamComplete c') t1) /\
    run lw (engine_download s p c e id (hd :: ds)) w1 = Ok (w2, t2) /\ w_engines w2 = upd e (described l u a tp) (w_engines w) /\
    consumer_at w c (LocoC e0 (Def x)) /\ notes t2 = EvStreamComplete c :: callback_note x (fun cb => EvEndComplete cb c).
Proof.
  intros lw w0 ops s p c e hd ds d id u a tp LW S F X P C ID CA PS DE. destruct (history_same lw w0 ops S F X) as (w & t & E & SW & SO). exists w, t. split; [exact E|].
  intros st l Q EE AV. destruct C as (e0 & cb0 & C). destruct (same_kind _ _ _ _ SO C) as ([e1 cb1|? ? ? ? ?|] & C1 & K); try discriminate.
  destruct (made_ready lw w s st p SW Q (same_parser _ _ _ SO P)) as (w1 & t1 & E1 & R & NC).
  destruct (ready_engine lw w w1 s st p c e e1 cb1 l hd ds d id u a tp LW SW R Q C1 EE AV ID CA PS DE) as (w2 & t2 & x & -> & X1 & X2 & X3).
  exists w1, t1, w2, t2, e1, x. split; [exact E1|]. split; [apply R|]. auto 10.
Qed.
Lemma list_after_history : forall lw w0 ops s p c n off hd ds d id,
  sound w0 -> Forall (valid_op w0) ops -> (forall pre o post w1 t1, ops = pre ++ o :: post -> run lw pre w0 = Ok (w1, t1) -> ~ excessive_line w1 o) ->
  a_parser w0 p -> (exists co i k o cb, consumer_at w0 c (ListC co i k o cb) /\ List.length i = n) -> byte off -> config_id id ->
  carries ds d -> proper_stream hd ds -> doc_ok d -> Forall list_line_fits (reports [] d) ->
  exists w t, run lw ops w0 = Ok (w, t) /\
  forall st, station_at w s st ->
  exists w1 t1 w2 t2 co i k o x, run lw (make_ready s p) w = Ok (w1, t1) /\ (forall c', ~ In (EvStreamComplete c') t1) /\
    run lw (ListReset c :: list_download s p c off id (hd :: ds)) w1 = Ok (w2, t2) /\ w_engines w2 = w_engines w /\
    consumer_at w c (ListC co i k o (Def x)) /\
    consumer_at w2 c (ListC (Def true) (map named (firstn n (names_in (reports [] d))) ++ repeat si_reset (n - List.length (names_in (reports [] d))))
                           (last (map (fun v => Def (dec_value lw v mod 256)) (counts_in (reports [] d))) (Def 0)) (Def 0) (Def x)) /\
    notes t2 = EvStreamComplete c :: callback_note x (fun cb => EvEndComplete cb c).
Proof.
  intros lw w0 ops s p c n off hd ds d id S F X P C OB ID CA PS DO LF. destruct (history_same lw w0 ops S F X) as (w & t & E & SW & SO). exists w, t. split; [exact E|].
  intros st Q. destruct C as (co & i & k & o & cb0 & C & <-). destruct (same_kind _ _ _ _ SO C) as ([? ?|co1 i1 k1 o1 cb1|] & C1 & K); try discriminate. injection K as K.
  destruct (made_ready lw w s st p SW Q (same_parser _ _ _ SO P)) as (w1 & t1 & E1 & R & NC).
  destruct (ready_list lw w w1 s st p c co1 i1 k1 o1 cb1 off hd ds d id SW R Q C1 OB ID CA PS DO LF) as (w2 & t2 & x & -> & X1 & X2 & X3 & X4).
  rewrite K in X3. exists w1, t1, w2, t2, co1, i1, k1, o1, x. auto 12.
Qed.
