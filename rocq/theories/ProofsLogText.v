(* ProofsLogText.v -- lemmas behind PropsLogText.v. *)
From Verif Require Import ZLib SpecLogText ProofsBuffer ProofsCodec ProofsCrc ProofsText ProofsWorld ProofsStation ProofsRequest ProofsPrint ProofsStream ProofsConsumer ProofsConsole ProofsLogged.

(** ** Printing *)
Lemma print_inv : forall x w w' t, print x w = Ok (w', t) -> w' = w /\ console t = x.
Proof. intros x w w' t H. injection H as <- <-. unfold console. cbn [map List.concat]. rewrite app_nil_r. auto. Qed.
Lemma print_res_inv : forall r w w' t, print_res r w = Ok (w', t) -> w' = w /\ r = Ok (console t).
Proof. intros r w w' t H. unfold print_res in H. apply ask_inv in H. destruct H as (x & E & H). apply print_inv in H. destruct H as (-> & <-). auto. Qed.
Lemma log_inv : forall c a w w' t x, log_if c a w = Ok (w', t) ->
  (a w = Ok (w', t) -> w' = w /\ console t = x) -> w' = w /\ console t = opt c x.
Proof. intros [] a w w' t x H A; [exact (A H)|]. injection H as <- <-. auto. Qed.
Lemma log_print : forall c x w w' t, log_if c (print x) w = Ok (w', t) -> w' = w /\ console t = opt c x.
Proof. intros c x w w' t H. apply (log_inv _ _ _ _ _ x H). apply print_inv. Qed.
Lemma signed_text : forall x, is_u32 x -> fmt_i_u32 x = dec_text (as_signed x).
Proof.
  intros x X. unfold fmt_i_u32. rewrite fmt_d_text. f_equal. unfold as_signed. change (2 ^ 31) with 0x80000000. change (2 ^ 32) with 0x100000000.
  destruct (Z.geb_spec x 0x80000000); destruct (Z.ltb_spec x 0x80000000); lia.
Qed.

(** ** Lines *)
Lemma until_pad : forall s n, until_nul (s ++ repeat 0 n) = until_nul s.
Proof. induction s as [|c s IH]; intros n; cbn [app until_nul]; [destruct n; reflexivity|]. rewrite IH. reflexivity. Qed.
Lemma str_text : forall cap s t, c_str (mem (zb cap s)) = Ok t -> t = until_nul s.
Proof. intros cap s t H. apply c_str_until in H. rewrite zb_mem, until_pad in H. exact H. Qed.
Lemma line_text : forall who s k v w w' t, log_line who (zb max_section s) (zb max_key k) (zb max_value v) w = Ok (w', t) ->
  w' = w /\ console t = announced who (s, k, v).
Proof.
  intros who s k v w w' t H. unfold log_line in H. apply ask_inv in H. destruct H as (ts & ES & H). apply ask_inv in H. destruct H as (tk & EK & H). apply ask_inv in H. destruct H as (tv & EV & H).
  apply str_text in ES, EK, EV. subst. apply print_inv in H. destruct H as (-> & ->). split; [reflexivity|]. unfold announced.
  change (zs "::consumeConfigData(""") with (zs "::consumeConfigData(" ++ [34]). change (zs """, """) with ([34] ++ zs ", " ++ [34]). change (zs """)") with ([34] ++ zs ")"). rewrite <- !app_assoc. reflexivity.
Qed.
Lemma setting_log : forall s k v w w' t, log_setting (zb max_section s) (zb max_key k) w = Ok (w', t) -> w' = w /\ console t = setting_text (s, k, v).
Proof.
  intros s k v w w' t H. destruct words as (W1 & W2 & W3 & W4 & _). unfold log_setting, kEngineResult, kEngineKeyUid, kEngineKeyProtocol, kEngineKeyAddress in H. unfold setting_text, attribute_of.
  assert (SK : forall w' t, skip w = Ok (w', t) -> w' = w /\ console t = []) by (intros a c X; injection X as <- <-; auto).
  rewrite (ask_ok _ _ _ _ _ (lit_word "lokomotive" _ s W1)) in H. destruct (taken_for (zs "lokomotive") s); [|exact (SK _ _ H)].
  rewrite (ask_ok _ _ _ _ _ (lit_word "uid" _ k W2)) in H. destruct (taken_for (zs "uid") k); [exact (print_inv _ _ _ _ H)|].
  rewrite (ask_ok _ _ _ _ _ (lit_word "typ" _ k W3)) in H. destruct (taken_for (zs "typ") k); [exact (print_inv _ _ _ _ H)|].
  rewrite (ask_ok _ _ _ _ _ (lit_word "adresse" _ k W4)) in H. destruct (taken_for (zs "adresse") k); [exact (print_inv _ _ _ _ H)|exact (SK _ _ H)].
Qed.
(** a list consumer's own text *)
Lemma free_upd : forall j x y i, free_entry x = free_entry y -> free_count (upd j x i) = free_count (upd j y i).
Proof.
  unfold free_count. induction j as [|j IH]; intros x y [|z i] E; cbn [upd filter]; try reflexivity; [rewrite E; destruct (free_entry y); reflexivity|].
  destruct (free_entry z); cbn [List.length]; rewrite (IH x y i E); reflexivity.
Qed.
Lemma list_text : forall lw c co i n o cb s k v w w' t, list_consume lw c co i n o cb (zb max_section s) (zb max_key k) (zb max_value v) w = Ok (w', t) ->
  consumer_at w c (ListC co i n o cb) ->
  console t = list_talk (free_count i) [(s, k, v)] /\ exists co' i' n' o' cb', consumer_at w' c (ListC co' i' n' o' cb') /\
    free_count i' = (free_count i - List.length (names_in [(s, k, v)]))%nat.
Proof.
  intros lw c co i n o cb s k v w w' t H C. destruct words as (_ & _ & _ & _ & W1 & W2 & W3). unfold list_consume, kEngineNames, kSectionNumEngines, kGenericValue in H.
  rewrite (ask_ok _ _ _ _ _ (buf_word "loknamen" _ s W1)) in H. cbn [list_talk list_entry_of]. unfold names_in. cbn [flat_map list_entry_of]. destruct (taken_for (zs "loknamen") s) eqn:T1.
  - pose proof (first_free i (until_nul v)) as F. destruct (findFirstFreeEntry i) as [j|].
    + destruct F as (JL & FI & FC). apply ask_inv in H. destruct H as (tx & ET & H). apply str_text in ET. subst tx. apply seq_inv in H. destruct H as (w1 & t1 & t2 & H1 & H & ->).
      apply print_inv in H1. destruct H1 as (-> & T). apply ask_inv in H. destruct H as (si & ES & H). unfold put_cons in H. injection H as <- <-. rewrite console_app, T. cbn [console map List.concat app].
      assert (FE : free_entry si = false) by (unfold si_setName in ES; destruct (c_strncpy _ _ _); [injection ES as <-; reflexivity|discriminate]).
      split.
      * destruct (free_count i) as [|m] eqn:FF; [exfalso; apply (free_zero i FF (nth j i si_reset)); [apply nth_In; exact JL|exact FC]|]. rewrite ?app_nil_r. change nl with newline. rewrite <- ?app_assoc. reflexivity.
      * exists co, (upd j si i), n, o, cb. split; [exact (upd_at _ _ _ _ _ C)|]. change ([until_nul v] ++ []) with [until_nul v].
        rewrite <- (free_filled i [until_nul v]). rewrite FI. apply free_upd. exact FE.
    + apply print_inv in H. destruct H as (-> & ->). destruct F as (_ & FA). rewrite (free_none i FA). split; [rewrite ?app_nil_r; reflexivity|]. exists co, i, n, o, cb. split; [exact C|]. rewrite (free_none i FA). reflexivity.
  - rewrite (ask_ok _ _ _ _ _ (buf_word "numloks" _ s W2)) in H. destruct (taken_for (zs "numloks") s).
    + rewrite (ask_ok _ _ _ _ _ (buf_word "wert" _ k W3)) in H. destruct (taken_for (zs "wert") k).
      * apply ask_inv in H. destruct H as (x & _ & H). unfold put_cons in H. injection H as <- <-. split; [reflexivity|]. exists co, i, (Def x), o, cb. split; [exact (upd_at _ _ _ _ _ C)|]. cbn. lia.
      * injection H as <- <-. split; [reflexivity|]. exists co, i, n, o, cb. split; [exact C|]. cbn. lia.
    + apply ask_inv in H. destruct H as (x & ET & H). apply str_text in ET. subst x. apply print_inv in H. destruct H as (-> & ->). split; [rewrite ?app_nil_r; reflexivity|]. exists co, i, n, o, cb. split; [exact C|]. cbn. lia.
Qed.

(** what a consumer is after some lines *)
Definition like (x y : CObj) (before : list report) : Prop :=
  match x, y with
  | UserC, UserC => True
  | LocoC e cb, LocoC e' cb' => e' = e /\ cb' = cb
  | ListC _ i _ _ _, ListC _ j _ _ _ => free_count j = (free_count i - List.length (names_in before))%nat
  | _, _ => False
  end.
Lemma like_refl : forall x, like x x [].
Proof. intros [e cb|co i n o cb|]; cbn; auto. lia. Qed.
Lemma names_app : forall a c, names_in (a ++ c) = names_in a ++ names_in c.
Proof. intros. unfold names_in. apply flat_map_app. Qed.
Lemma like_trans : forall x y z a c, like x y a -> like y z c -> like x z (a ++ c).
Proof.
  intros [e cb|co i n o cb|] [e1 cb1|co1 i1 n1 o1 cb1|] [e2 cb2|co2 i2 n2 o2 cb2|] a c A C; cbn in *; try contradiction; auto.
  - destruct A as (-> & ->). exact C.
  - rewrite names_app, app_length. lia.
Qed.
Lemma like_log : forall g x y before rs, like x y before -> lines_log g x before rs = lines_log g y [] rs.
Proof.
  intros g [e cb|co i n o cb|] [e1 cb1|co1 i1 n1 o1 cb1|] before rs H; cbn in H; try contradiction; try reflexivity.
  - destruct H as (-> & ->). reflexivity.
  - unfold lines_log. rewrite H. change (names_in []) with (@nil (list Z)). cbn [List.length]. rewrite Nat.sub_0_r. reflexivity.
Qed.
Lemma opt_app : forall c a d, opt c (a ++ d) = opt c a ++ opt c d. Proof. intros [] a d; reflexivity. Qed.
Lemma list_log_snoc : forall l rs n r, list_log l n (r :: rs) = list_log l n [r] ++ list_log l (n - List.length (names_in [r])) rs.
Proof. intros. cbn [list_log]. rewrite app_nil_r, <- app_assoc. reflexivity. Qed.
Lemma log_first : forall l x r rs, lines_log l x [] (r :: rs) = lines_log l x [] [r] ++ lines_log l x [r] rs.
Proof.
  intros l [e cb|co i n o cb|] r rs; cbn [lines_log]; [|change (names_in []) with (@nil (list Z)); cbn [List.length]; rewrite Nat.sub_0_r; apply list_log_snoc|reflexivity].
  destruct e as [|[e|]]; cbn [flat_map]; rewrite app_nil_r; apply opt_app.
Qed.
Lemma events_shows : forall g, events g = shows_events g.
Proof. intros g. unfold events, shows_events, LEVEL_EVENTS. destruct (Z.geb_spec (lg_level g) 2); destruct (Z.leb_spec 2 (lg_level g)); lia. Qed.
Lemma packets_shows : forall g, packets g = shows_packets g.
Proof. intros g. unfold packets, shows_packets, LEVEL_PACKETS. destruct (Z.geb_spec (lg_level g) 3); destruct (Z.leb_spec 3 (lg_level g)); lia. Qed.
Lemma everything_shows : forall g, everything g = shows_all g.
Proof. intros g. unfold everything, shows_all, LEVEL_ALL. destruct (Z.geb_spec (lg_level g) 10); destruct (Z.leb_spec 10 (lg_level g)); lia. Qed.
Lemma list_parsers : forall lw c co i n o cb s k v w w' t, list_consume lw c co i n o cb s k v w = Ok (w', t) -> w_parsers w' = w_parsers w.
Proof.
  intros lw c co i n o cb s k v w w' t H. unfold list_consume in H. apply ask_inv in H. destruct H as ([] & _ & H).
  - destruct (findFirstFreeEntry i); [|apply print_inv in H; destruct H as (-> & _); reflexivity]. apply ask_inv in H. destruct H as (x & _ & H). apply seq_inv in H. destruct H as (w1 & t1 & t2 & H1 & H & ->).
    apply print_inv in H1. destruct H1 as (-> & _). apply ask_inv in H. destruct H as (y & _ & H). injection H as <- <-. reflexivity.
  - apply ask_inv in H. destruct H as ([] & _ & H); [apply ask_inv in H; destruct H as ([] & _ & H)|]; [apply ask_inv in H; destruct H as (y & _ & H); injection H as <- <-; reflexivity|injection H as <- <-; reflexivity|].
    apply ask_inv in H. destruct H as (x & _ & H). apply print_inv in H. destruct H as (-> & _). reflexivity.
Qed.
Lemma consume_log : forall lw g c s k v w w' t x, g_cons_consume lw g c (zb max_section s) (zb max_key k) (zb max_value v) w = Ok (w', t) -> consumer_at w c x ->
  console t = lines_log (shows_events g) x [] [(s, k, v)] /\ w_parsers w' = w_parsers w /\ exists y, consumer_at w' c y /\ like x y [(s, k, v)].
Proof.
  intros lw g c s k v w w' t x H C. unfold g_cons_consume in H. apply seq_inv in H. destruct H as (w0 & t0 & t1 & H0 & H & ->). injection H0 as <- <-.
  rewrite (ask_ok _ _ _ _ _ (get_cons_ok _ _ _ C)) in H. change (console ([EvConsume c (zb max_section s) (zb max_key k) (zb max_value v)] ++ t1)) with (console t1).
  rewrite <- events_shows. destruct x as [e cb|co i n o cb|].
  - unfold g_loco_consume in H. apply seq_inv in H. destruct H as (w1 & t2 & t3 & H1 & H & ->). destruct (log_inv _ _ _ _ _ (announced "EngineControl" (s, k, v)) H1) as (-> & T2); [apply line_text|]. clear H1.
    rewrite console_app, T2. apply ask_inv in H. destruct H as (e' & E & H). destruct e as [|e0]; [discriminate|]. injection E as ->. destruct e' as [e'|].
    + apply ask_inv in H. destruct H as (l & _ & H). apply seq_inv in H. destruct H as (w1 & t4 & t5 & H1 & H & ->). apply ask_inv in H1. destruct H1 as (l' & _ & H1). unfold put_engine in H1. injection H1 as <- <-.
      destruct (log_inv _ _ _ _ _ (setting_text (s, k, v)) H) as (-> & T5); [apply setting_log|]. cbn [app]. rewrite T5. cbn [lines_log flat_map]. rewrite app_nil_r, opt_app. split; [reflexivity|]. split; [reflexivity|].
      eexists. split; [exact C|]. cbn. auto.
    + injection H as <- <-. cbn [console map List.concat app lines_log flat_map]. rewrite !app_nil_r. split; [reflexivity|]. split; [reflexivity|]. eexists. split; [exact C|]. cbn. auto.
  - unfold g_list_consume in H. apply seq_inv in H. destruct H as (w1 & t2 & t3 & H1 & H & ->). destruct (log_inv _ _ _ _ _ (announced "EngineBrowser" (s, k, v)) H1) as (-> & T2); [apply line_text|]. clear H1.
    destruct (list_text _ _ _ _ _ _ _ _ _ _ _ _ _ H C) as (T3 & co' & i' & n' & o' & cb' & C' & F). rewrite console_app, T2, T3. cbn [lines_log list_log]. change (names_in []) with (@nil (list Z)). cbn [List.length]. rewrite Nat.sub_0_r, app_nil_r. split; [reflexivity|].
    split; [|eexists; split; [exact C'|exact F]]. eapply list_parsers. exact H.
  - injection H as <- <-. split; [reflexivity|]. split; [reflexivity|]. exists UserC. split; [exact C|exact Logic.I].
Qed.
Lemma consume_all_log : forall lw g c rs w w' t x, g_cons_consume_all lw g c (map as_buffers rs) w = Ok (w', t) -> consumer_at w c x ->
  console t = lines_log (shows_events g) x [] rs /\ w_parsers w' = w_parsers w /\ exists y, consumer_at w' c y /\ like x y rs.
Proof.
  intros lw g c. induction rs as [|((s & k) & v) rs IH]; intros w w' t x H C.
  - injection H as <- <-. split; [destruct x as [[|[e|]] cb|co i n o cb|]; cbn; try destruct (shows_events g); reflexivity|]. split; [reflexivity|]. exists x. split; [exact C|apply like_refl].
  - cbn [map as_buffers g_cons_consume_all] in H. apply seq_inv in H. destruct H as (w1 & t1 & t2 & H1 & H & ->). destruct (consume_log _ _ _ _ _ _ _ _ _ _ H1 C) as (T1 & P1 & y & C1 & L1).
    destruct (IH _ _ _ _ H C1) as (T2 & P2 & z & C2 & L2). rewrite console_app, T1, T2, (log_first _ _ (s, k, v) rs), (like_log _ _ _ _ _ L1). split; [reflexivity|]. split; [congruence|]. exists z. split; [exact C2|].
    exact (like_trans _ _ _ _ _ L1 L2).
Qed.

(** ** Frames of a stream *)
Lemma crc_reads : forall a r (k : Z -> Z -> act) w, ask (fun _ => mread (crc_ref (mkCrc (Def a) (Def r)))) (fun y => ask (fun _ => mread (crc_acc (mkCrc (Def a) (Def r)))) (fun x => k y x)) w = k r a w.
Proof. reflexivity. Qed.
Lemma header_text : forall d len a r w w' t, is_u32 len -> 0 <= a -> 0 <= r -> log_header d len (mkCrc (Def a) (Def r)) w = Ok (w', t) ->
  w' = w /\ console t = zs " Stream length: " ++ dec_text (as_signed len) ++ zs " Bytes. CRC requested: " ++ hex_zeros 4 r ++
     zs " CRC actual: " ++ hex_zeros 4 a ++ zs "." ++ newline ++ (if dlc d =? 7 then zs "Compressed Data!" ++ newline else []).
Proof.
  intros d len a r w w' t L A R H. unfold log_header in H. rewrite crc_reads in H. apply seq_inv in H. destruct H as (w1 & t1 & t2 & H1 & H & ->). apply print_inv in H1. destruct H1 as (-> & T1).
  rewrite console_app, T1, signed_text by exact L. rewrite !fmt_alt0x_text by assumption. rewrite <- !app_assoc.
  destruct (dlc d =? 7); [apply print_inv in H; destruct H as (-> & ->); auto|injection H as <- <-; auto].
Qed.
Lemma mismatch_text : forall a r w w' t, 0 <= a -> 0 <= r -> log_crc_error (mkCrc (Def a) (Def r)) w = Ok (w', t) ->
  w' = w /\ console t = zs "CRC Error - Stream aborted. CRC requested: " ++ hex_zeros 4 r ++ zs ", CRC actual: " ++ hex_zeros 4 a ++ zs "." ++ newline.
Proof. intros a r w w' t A R H. unfold log_crc_error in H. rewrite crc_reads in H. apply print_inv in H. rewrite !fmt_alt0x_text in H by assumption. exact H. Qed.
Lemma continues_text : forall rest a r w w' t, is_u32 rest -> 0 <= a -> log_continues rest (mkCrc (Def a) r) w = Ok (w', t) ->
  w' = w /\ console t = zs "Stream continues. Bytes remaining: " ++ dec_text (as_signed rest) ++ zs ", Current CRC: " ++ hex_zeros 4 a ++ newline.
Proof.
  intros rest a r w w' t U A H. unfold log_continues in H. rewrite (ask_ok _ _ _ _ a eq_refl) in H. apply print_inv in H. rewrite signed_text in H by exact U. rewrite fmt_alt0x_text in H by assumption. exact H.
Qed.
(** the end of the stream *)
Lemma complete_text : forall c w w' t x, consumer_at w c x -> cons_complete c w = Ok (w', t) -> end_text w' x (console t) /\ w_parsers w' = w_parsers w.
Proof.
  intros c w w' t x C H. unfold cons_complete in H. rewrite emit_seq in H. rewrite (ask_ok _ _ _ _ _ (get_cons_ok _ _ _ C)) in H.
  assert (N : forall A (q : option A) (f : A -> event) w w' t, (forall a, is_print (f a) = false) -> when_some q (fun a => emit (f a)) w = Ok (w', t) -> w' = w /\ console t = []).
  { intros A [a|] f w1 w2 t2 F X; injection X as <- <-; [|auto]. split; [reflexivity|]. specialize (F a). destruct (f a); try discriminate F; reflexivity. }
  destruct x as [e cb|co i n o cb|]; cbn [end_text].
  - destruct e as [|[e|]].
    + discriminate.
    + rewrite (ask_ok _ _ _ _ (Some e) eq_refl) in H. cbn beta iota in H. destruct (ask _ _ _) as [(w1 & t1)|u] eqn:Q in H; [|discriminate]. cbn [bind] in H. injection H as <- <-.
      apply ask_inv in Q. destruct Q as (l & E & Q). apply seq_inv in Q. destruct Q as (w2 & t2 & t3 & H2 & Q & ->). unfold put_engine in H2. injection H2 as <- <-.
      apply seq_inv in Q. destruct Q as (w3 & t4 & t5 & H3 & Q & ->). apply print_inv in H3. destruct H3 as (-> & T4). apply seq_inv in Q. destruct Q as (w4 & t6 & t7 & H4 & Q & ->). apply print_res_inv in H4. destruct H4 as (-> & T6).
      apply seq_inv in Q. destruct Q as (w5 & t8 & t9 & H5 & Q & ->). apply print_inv in H5. destruct H5 as (-> & T8). apply ask_inv in Q. destruct Q as (cb' & _ & Q). apply N in Q; [|reflexivity]. destruct Q as (-> & T9).
      split; [|reflexivity]. exists (lo_setAvailability l FULL_DETAILS). split.
      * unfold get_engine, at_ in E. destruct (nth_error (w_engines w) e) as [l0|] eqn:Q; [|discriminate]. exact (upd_at _ _ _ _ _ Q).
      * intros D. apply lo_print_text in T6; [|exact D]. change (console (EvStreamComplete c :: [] ++ t4 ++ t6 ++ t8 ++ t9)) with (console (t4 ++ t6 ++ t8 ++ t9)). rewrite !console_app, T4, T6, T8, T9, app_nil_r. reflexivity.
    + injection H as <- <-. auto.
  - destruct (World.seq _ _ _) as [(w1 & t1)|u] eqn:Q in H; [|discriminate]. cbn [bind] in H. injection H as <- <-. apply seq_inv in Q. destruct Q as (w2 & t2 & t3 & H2 & Q & ->). unfold put_cons in H2. injection H2 as <- <-.
    apply ask_inv in Q. destruct Q as (cb' & _ & Q). apply N in Q; [|reflexivity]. destruct Q as (-> & T). split; [exact T|reflexivity].
  - injection H as <- <-. auto.
Qed.
Lemma like_end : forall w x y rs text, like x y rs -> end_text w y text -> end_text w x text.
Proof. intros w [[|[e|]] cb|co i n o cb|] [e1 cb1|co1 i1 n1 o1 cb1|] rs text L E; cbn in L; try contradiction; try (destruct L as (-> & ->)); exact E. Qed.
Lemma content_payload : forall d, dlc d = 8 -> payload d = content d. Proof. intros d D. unfold payload, content. rewrite D. reflexivity. Qed.
Lemma content_bytes : forall d, payload_ok d -> Forall byte (content d).
Proof. intros d (_ & _ & F). unfold content. rewrite Forall_forall in *. intros x X. apply F. rewrite <- (firstn_skipn 8 (dbytes d)). apply in_or_app. left. exact X. Qed.
Lemma data_frame_log : forall lw g w p sp d w' t a acc ref c x, lib_at w p sp -> sp_state sp = SS_DATA -> sp_crc sp = mkCrc (Def acc) (Def ref) -> 0 <= acc < 65536 -> 0 <= ref ->
  sp_cons sp = Some c -> sp_text sp = parser a (Some c) -> fits a -> consumer_at w c x -> data_frame d -> g_addMessage lw g p d w = Ok (w', t) ->
  let rest := (sp_remaining sp - 8) mod 2 ^ 32 in let sum := crc_of acc (content d) in let rs := snd (aadd a (content d)) in
  exists y final, like x y rs /\
    console t = opt (lg_dump g) (content d) ++ lines_log (shows_events g) x [] rs ++
      (if rest =? 0 then if ref =? sum then complete_log g ++ final else mismatch_log g ref sum else continues_log g rest sum) /\
    (rest = 0 -> ref = sum -> end_text w' x final) /\
    (rest <> 0 -> lib_at w' p (mkSP SS_DATA rest (parser (fst (aadd a (content d))) (Some c)) (mkCrc (Def sum) (Def ref)) (Some c)) /\ consumer_at w' c y).
Proof.
  intros lw g w p sp d w' t a acc ref c x L ST K A R SC TX F C (P & D) H rest sum rs. unfold g_addMessage in H. rewrite (ask_ok _ _ _ _ _ (lib_get _ _ _ L)), ST in H.
  replace (dlc d =? 8) with true in H by lia. cbn [negb] in H. cbv zeta in H. apply seq_inv in H. destruct H as (w1 & t1 & t2 & H1 & H & ->).
  destruct (log_inv _ _ _ _ _ (content d) H1) as (-> & T1). { intros Q. apply print_res_inv in Q. destruct Q as (-> & Q). apply text_print_text in Q; [|exact P]. rewrite content_payload in Q by exact D. auto. }
  clear H1. rewrite console_app, T1.
  apply ask_inv in H. destruct H as (crc & EC & H). rewrite (visited_data _ P D), K in EC. cbn [bind] in EC. rewrite crc_feed_eq in EC. fold sum in EC. assert (crc = mkCrc (Def sum) (Def ref)) by congruence. subst crc. clear EC.
  apply ask_inv in H. destruct H as (te & ET & H). rewrite TX, (addText_spec _ _ _ _ F (holds_data _ P D)) in ET. assert (te = (parser (fst (aadd a (content d))) (Some c), map as_buffers rs)) by (unfold rs; cbn [told] in ET; congruence). subst te. clear ET. cbn [fst snd] in H.
  replace (u32 (sp_remaining sp - dlc d)) with rest in H by (unfold rest; rewrite D; reflexivity).
  assert (SUM : 0 <= sum < 65536) by (apply crc_of_cong; [apply content_bytes; exact P|exact A]).
  apply seq_inv in H. destruct H as (w2 & t3 & t4 & H2 & H & ->). unfold put_lib, put_parser in H2. injection H2 as <- <-. apply seq_inv in H. destruct H as (w3 & t5 & t6 & H3 & H & ->).
  rewrite TX in H3. cbn [parser tp_cons when_some] in H3. apply (consume_all_log lw g c rs _ _ _ x) in H3; [|exact C]. destruct H3 as (T5 & P3 & y & C3 & LK). cbn [app]. rewrite console_app, T5.
  rewrite events_shows, packets_shows, SC in H. exists y.
  assert (L3 : lib_at w3 p (mkSP SS_DATA rest (parser (fst (aadd a (content d))) (Some c)) (mkCrc (Def sum) (Def ref)) (Some c))).
  { unfold lib_at. rewrite P3, <- SC. cbn [w_parsers]. exact (upd_at _ _ _ _ _ L). }
  destruct (Z.eqb_spec rest 0) as [R0|R0].
  - apply ask_inv in H. destruct H as (v & EV & H). change (Ok (sum =? ref) = Ok v) in EV. assert (v = (sum =? ref)) by congruence. subst v. clear EV.
    destruct (Z.eqb_spec sum ref) as [V|V]; cbn iota in H; apply seq_inv in H; destruct H as (w4 & t7 & t8 & H4 & H & ->); unfold put_lib, put_parser in H4; injection H4 as <- <-;
      apply seq_inv in H; destruct H as (w5 & t9 & t10 & H5 & H & ->); cbn [app].
    + apply log_print in H5. destruct H5 as (-> & T9). cbn [when_some] in H. pose proof (fun Q => complete_text c _ _ _ y Q H) as EN. specialize (EN C3). destruct EN as (EN & _). exists (console t10). split; [exact LK|].
      replace (ref =? sum) with true by lia. split; [rewrite console_app, T9; reflexivity|]. split; [intros _ _; eapply like_end; eassumption|intros X; contradiction].
    + destruct (log_inv _ _ _ _ _ (zs "CRC Error - Stream aborted. CRC requested: " ++ hex_zeros 4 ref ++ zs ", CRC actual: " ++ hex_zeros 4 sum ++ zs "." ++ newline) H5) as (-> & T9); [apply mismatch_text; lia|].
      exists []. split; [exact LK|]. replace (ref =? sum) with false by lia. cbn [when_some] in H. rewrite console_app, T9, (s_aborted c _ _ _ H), app_nil_r. split; [reflexivity|]. split; [intros _ X; congruence|intros X; contradiction].
  - assert (U : is_u32 rest) by (unfold is_u32, rest; apply Z.mod_pos_bound; reflexivity).
    destruct (log_inv _ _ _ _ _ (zs "Stream continues. Bytes remaining: " ++ dec_text (as_signed rest) ++ zs ", Current CRC: " ++ hex_zeros 4 sum ++ newline) H) as (-> & T9); [apply continues_text; [exact U|lia]|].
    exists []. split; [exact LK|]. rewrite T9. split; [reflexivity|]. split; [intros X; contradiction|]. auto.
Qed.
Lemma data_run_log : forall lw g p c x len crc sums all, 0 <= crc -> len = 8 * zlen all -> len < 2 ^ 32 -> Forall data_frame all ->
  (forall k, sums k = crc_of 0xFFFF (received (firstn k all))) ->
  forall ds pre a before y w w' t, all = pre ++ ds -> ds <> [] -> fits a -> consumer_at w c y -> like x y before ->
  lib_at w p (mkSP SS_DATA (len - 8 * zlen pre) (parser a (Some c)) (mkCrc (Def (crc_of 0xFFFF (received pre))) (Def crc)) (Some c)) ->
  lrun lw g (map (ParserAddMessage p) ds) w = Ok (w', t) ->
  exists final, console t = data_log g x len crc sums final a before (List.length pre) ds /\ (crc = sums (List.length all) -> end_text w' x final).
Proof.
  intros lw g p c x len crc sums all CR LEN LB FA SUMS. induction ds as [|d ds IH]; intros pre a before y w w' t E NE F C LK L H; [contradiction|].
  cbn [map lrun lstep] in H. apply seq_inv in H. destruct H as (w1 & t1 & t2 & H1 & H & ->).
  assert (FP : Forall data_frame pre /\ data_frame d /\ Forall data_frame ds) by (rewrite E in FA; apply Forall_app in FA; destruct FA as (A & B); apply Forall_cons_iff in B; tauto).
  destruct FP as (FP & FD & FS).
  assert (BP : Forall byte (received pre)). { unfold received. apply Forall_flat_map. eapply Forall_impl; [|exact FP]. intros q (Q & _). apply content_bytes. exact Q. }
  assert (SM : crc_of (crc_of 0xFFFF (received pre)) (content d) = sums (S (List.length pre))).
  { rewrite SUMS, E. replace (pre ++ d :: ds) with ((pre ++ [d]) ++ ds) by (rewrite <- app_assoc; reflexivity). replace (S (List.length pre)) with (List.length (pre ++ [d]) + 0)%nat by (rewrite app_length; cbn; lia).
    rewrite firstn_app_2. cbn [firstn]. rewrite app_nil_r. unfold received. rewrite flat_map_app. cbn [flat_map]. rewrite app_nil_r. symmetry. apply crc_of_app. }
  assert (ZL : len - 8 * zlen pre = 8 * (1 + zlen ds)) by (rewrite LEN, E; unfold zlen; rewrite app_length; cbn [List.length]; lia).
  assert (ZD : 0 <= zlen ds) by (unfold zlen; lia). assert (ZP : 0 <= zlen pre) by (unfold zlen; lia).
  assert (RS : (len - 8 * zlen pre - 8) mod 2 ^ 32 = len - 8 * Z.of_nat (S (List.length pre))) by (rewrite Z.mod_small; unfold zlen in *; lia).
  destruct (data_frame_log lw g w p _ d w1 t1 a _ crc c y L eq_refl eq_refl ltac:(apply crc_of_cong; [exact BP|lia]) CR eq_refl eq_refl F C FD H1) as (z & final & L1 & T1 & E1 & N1).
  cbn [sp_remaining] in T1, E1, N1. rewrite RS, SM in T1, E1, N1. rewrite console_app, T1. cbn [data_log]. rewrite (like_log _ _ _ _ _ LK).
  destruct ds as [|d2 ds].
  - assert (Z0 : len - 8 * Z.of_nat (S (List.length pre)) = 0) by (unfold zlen in *; cbn [List.length] in *; lia). rewrite Z0 in *. cbn [map lrun] in H. injection H as <- <-.
    exists final. cbn [data_log console map List.concat]. rewrite !app_nil_r. split; [reflexivity|]. intros Q. eapply like_end; [exact LK|]. apply E1; [reflexivity|]. rewrite Q, E, app_length. f_equal. cbn. lia.
  - assert (Z0 : len - 8 * Z.of_nat (S (List.length pre)) <> 0) by (unfold zlen in *; cbn [List.length] in *; lia). destruct (N1 Z0) as (L2 & C2).
    replace (len - 8 * Z.of_nat (S (List.length pre)) =? 0) with false by lia.
    destruct (IH (pre ++ [d]) (fst (aadd a (content d))) (before ++ snd (aadd a (content d))) z w1 w' t2) as (fin & T2 & E2).
    + rewrite <- app_assoc. exact E.
    + discriminate.
    + apply aadd_fits. exact F.
    + exact C2.
    + eapply like_trans; eassumption.
    + replace (crc_of 0xFFFF (received (pre ++ [d]))) with (sums (S (List.length pre))).
      * replace (len - 8 * zlen (pre ++ [d])) with (len - 8 * Z.of_nat (S (List.length pre))) by (unfold zlen; rewrite app_length; cbn [List.length]; lia). exact L2.
      * rewrite <- SM. unfold received. rewrite flat_map_app. cbn [flat_map]. rewrite app_nil_r. symmetry. apply crc_of_app.
    + exact H.
    + exists fin. split; [|exact E2]. rewrite T2. replace (List.length (pre ++ [d])) with (S (List.length pre)) by (rewrite app_length; cbn; lia). rewrite <- !app_assoc. reflexivity.
Qed.
Lemma header_frame_log : forall lw g w p sp d w' t len crc, lib_at w p sp -> sp_state sp = SS_FIRST -> sp_crc sp = crc_reset -> header_for d len crc -> 0 < len ->
  g_addMessage lw g p d w = Ok (w', t) ->
  console t = header_log g d len crc 0xFFFF /\ w_conss w' = w_conss w /\ lib_at w' p (mkSP SS_DATA len (sp_text sp) (mkCrc (Def 0xFFFF) (Def crc)) (sp_cons sp)).
Proof.
  intros lw g w p sp d w' t len crc L ST K HD LEN H. destruct (header_decodes _ _ _ HD) as (HL & HC). destruct HD as (P & D & HB & HCB).
  unfold g_addMessage in H. rewrite (ask_ok _ _ _ _ _ (lib_get _ _ _ L)), ST in H. replace ((dlc d =? 6) || (dlc d =? 7)) with true in H by lia. cbv zeta in H. cbn [sp_remaining sp_crc sp_text sp_cons] in H.
  rewrite HL, HC, K in H. apply seq_inv in H. destruct H as (w1 & t1 & t2 & H1 & H & ->).
  assert (UL : is_u32 len /\ 0 <= crc). { nine d P. unfold be, b, byte in *. cbn [dbytes nth] in *. unfold is_u32. lia. }
  destruct (log_inv _ _ _ _ _ (zs " Stream length: " ++ dec_text (as_signed len) ++ zs " Bytes. CRC requested: " ++ hex_zeros 4 crc ++
     zs " CRC actual: " ++ hex_zeros 4 0xFFFF ++ zs "." ++ newline ++ (if dlc d =? 7 then zs "Compressed Data!" ++ newline else [])) H1) as (-> & T1); [apply header_text; [apply UL|lia|apply UL]|].
  replace (len >? 0) with true in H by lia. unfold put_lib, put_parser in H. injection H as <- <-. rewrite app_nil_r, T1, packets_shows. split; [reflexivity|]. split; [reflexivity|]. exact (upd_at _ _ _ _ _ L).
Qed.
Lemma download_log : forall lw g w p sp a c x hd ds crc sums w' t, lib_at w p sp -> sp_text sp = parser a (sp_cons sp) -> fits a -> consumer_at w c x ->
  header_for hd (8 * zlen ds) crc -> ds <> [] -> Forall data_frame ds -> (forall k, checksum_is (received (firstn k ds)) (sums k)) ->
  lrun lw g (download p c hd ds) w = Ok (w', t) ->
  exists final, console t = header_log g hd (8 * zlen ds) crc 0xFFFF ++ data_log g x (8 * zlen ds) crc sums final a [] 0 ds /\
    (checksum_is (received ds) crc -> end_text w' x final).
Proof.
  intros lw g w p sp a c x hd ds crc sums w' t L TX F C HD NE FD SUMS H. unfold download in H. cbn [lrun lstep step map] in H.
  apply seq_inv in H. destruct H as (w1 & t1 & t2 & H1 & H & ->). rewrite (ask_ok _ _ _ _ _ (lib_get _ _ _ L)) in H1. unfold put_lib, put_parser in H1. injection H1 as <- <-.
  pose proof (upd_at _ p (LibP (sp_setConsumer sp (Some c))) _ _ L) as L1. apply seq_inv in H. destruct H as (w2 & t3 & t4 & H2 & H & ->).
  match type of H2 with ask _ _ ?w0 = _ => change (lib_at w0 p (sp_setConsumer sp (Some c))) in L1 end.
  rewrite (ask_ok _ _ _ _ _ (lib_get _ _ _ L1)) in H2. unfold put_lib, put_parser in H2. injection H2 as <- <-.
  pose proof (upd_at _ p (LibP (sp_startStream (sp_setConsumer sp (Some c)))) _ _ L1) as L2. apply seq_inv in H. destruct H as (w3 & t5 & t6 & H3 & H & ->).
  match type of H3 with g_addMessage _ _ _ _ ?w0 = _ => change (lib_at w0 p (sp_startStream (sp_setConsumer sp (Some c)))) in L2 end.
  assert (LP : 0 < 8 * zlen ds) by (destruct ds; [contradiction|unfold zlen; cbn [List.length]; lia]).
  destruct (header_frame_log lw g _ p _ hd w3 t5 _ crc L2 eq_refl eq_refl HD LP H3) as (T5 & C3 & L3). cbn [sp_startStream sp_setConsumer sp_text sp_cons] in L3. rewrite TX in L3.
  assert (BD : 8 * zlen ds < 2 ^ 32 /\ 0 <= crc). { destruct HD as (P & D & HB & HCB). rewrite <- HB, <- HCB. change (2 ^ 32) with 4294967296. clear - P. nine hd P. unfold be, b, byte in *. cbn [dbytes nth]. lia. }
  destruct BD as (BD & CR).
  assert (S2 : forall k, sums k = crc_of 0xFFFF (received (firstn k ds))) by (intros k; apply checksum_fun; apply SUMS).
  destruct (data_run_log lw g p c x (8 * zlen ds) crc sums ds CR eq_refl BD FD S2 ds [] a [] x w3 w' t6) as (final & T6 & EN); try assumption; try reflexivity.
  - unfold consumer_at. rewrite C3. exact C.
  - apply like_refl.
  - change (zlen (@nil Data)) with 0. rewrite Z.mul_0_r, Z.sub_0_r. exact L3.
  - exists final. cbn [app]. rewrite console_app, T5, T6. split; [reflexivity|]. intros Q. apply EN. rewrite S2, firstn_all. apply checksum_fun. exact Q.
Qed.

(** ** Calls *)
Lemma shown_mask : forall x, is_u32 x -> Z.land x 0xFFFFCFFF = shown_turnout x.
Proof.
  intros x (X0 & X1). unfold shown_turnout. assert (E : Z.land x 0x3000 = 4096 * (x / 4096 mod 4)).
  { change 0x3000 with ((2 ^ 2 - 1) * 2 ^ 12). rewrite land_himask by lia. change (2 ^ 12) with 4096. change (2 ^ 2) with 4. lia. }
  rewrite <- E. change 0xFFFFCFFF with (Z.lxor 0xFFFFFFFF 0x3000). 
  assert (M : Z.land x 0xFFFFFFFF = x) by (change 0xFFFFFFFF with (2 ^ 32 - 1); rewrite land_mask by lia; apply Z.mod_small; change (2 ^ 32) with 4294967296; lia).
  assert (D : Z.land (Z.land x (Z.lxor 0xFFFFFFFF 0x3000)) (Z.land x 0x3000) = 0).
  { apply Z.bits_inj'. intros n N. rewrite !Z.land_spec, Z.lxor_spec, Z.bits_0. change 0xFFFFFFFF with (Z.ones 32). destruct (Z.ltb_spec n 32) as [Q|Q].
    - rewrite Z.ones_spec_low by lia. destruct (Z.testbit x n); destruct (Z.testbit 0x3000 n); reflexivity.
    - rewrite Z.ones_spec_high by lia. replace (Z.testbit 0x3000 n) with false by (symmetry; apply Z.bits_above_log2; [lia|change (Z.log2 0x3000) with 13; lia]). destruct (Z.testbit x n); reflexivity. }
  assert (S : Z.lor (Z.land x (Z.lxor 0xFFFFFFFF 0x3000)) (Z.land x 0x3000) = x) by (rewrite <- Z.land_lor_distr_r; exact M).
  rewrite <- Z.lxor_lor in S by exact D. rewrite <- Z.add_nocarry_lxor in S by exact D. lia.
Qed.
Lemma accessory_log : forall lw g w s st tx a p dir pw, station_at w s st -> cb_tx (st_cbs st) = Some tx -> is_u32 a -> byte dir ->
  exists f t, lstep lw g (OnStation s (SendAccessoryPacket a p dir pw)) w = Ok (w, t ++ [EvTx tx f]) /\ calls t = [] /\
    step lw (OnStation s (SendAccessoryPacket a p dir pw)) w = Ok (w, [EvTx tx f]) /\
    console t = opt (lg_out g) (setting_turnout (Z.lor a (turnout_base p)) dir (negb (pw =? 0))).
Proof.
  intros lw g w s st tx a p dir pw S0 T A D. cbn [lstep step st_step]. unfold g_sendAccessoryPacket, st_sendAccessoryPacket. rewrite !(ask_ok _ _ _ _ _ (get_st _ _ _ S0)). cbv zeta.
  set (d := to_setPower (to_setDirection (to_setLocid (to_initData data0) (turnout_or a (getAccessoryLocIdMask p))) dir) (negb (pw =? 0))).
  exists (st_frame st kAccessorySwitch d).
  assert (U : is_u32 (Z.lor a (turnout_base p))) by (apply lor_u32; [exact A|apply base_u32]).
  assert (EU : to_getLocid d = Z.lor a (turnout_base p) /\ to_getDirection d = dir /\ to_getPower d = negb (pw =? 0)).
  { unfold d, to_setLocid, to_initData, turnout_or. rewrite mask_base, setLocid0 by (try exact U; unfold byte; lia). unfold to_setPower, to_setDirection, dset. cbn [dlc dbytes]. rewrite upd4, upd5, u8_byte by assumption.
    split; [|split; [|destruct (pw =? 0); reflexivity]].
    - unfold to_getLocid, be_bytes. cbn [app]. rewrite getLocid_eq by (unfold byte, is_u32 in *; lia). apply be_of_bytes; assumption.
    - reflexivity. }
  destruct EU as (E1 & E2 & E3). rewrite E1, E2, E3, shown_mask, fmt_d_text by exact U.
  exists (if lg_out g then [EvPrint (setting_turnout (Z.lor a (turnout_base p)) dir (negb (pw =? 0)))] else []).
  split; [|split; [destruct (lg_out g); reflexivity|split; [exact (tx_some _ _ _ _ T)|]]].
  - unfold log_if, print. destruct (lg_out g); [rewrite emit_seq|rewrite (seq_ok _ _ w w [] eq_refl)]; rewrite (tx_some _ _ _ _ T); cbn [bind app]; reflexivity.
  - destruct (lg_out g); [|reflexivity]. unfold console. cbn [map List.concat]. rewrite app_nil_r. reflexivity.
Qed.
Lemma shown_number : forall a p, 0 <= a < 1024 -> p <> P_UNKNOWN ->
  shown_turnout (Z.lor a (turnout_base p)) = match p with P_MM1 | P_MM2 | P_MFX => a | _ => a + 2048 end.
Proof.
  intros a p A N. rewrite <- shown_mask by (apply lor_u32; [unfold is_u32; lia|apply base_u32]).
  assert (G : forall hi, 0 <= hi < 64 -> Z.land (Z.lor a (hi * 2 ^ 10)) 0xFFFFCFFF = Z.land hi 0x33 * 1024 + a).
  { intros hi H. rewrite lor_add' by lia. change 0xFFFFCFFF with (0x3FFFF3 * 2 ^ 10 + 1023). rewrite land_split by lia.
    replace (Z.land a 1023) with a by (change 1023 with (2 ^ 10 - 1); rewrite land_mask by lia; symmetry; apply Z.mod_small; lia).
    change (2 ^ 10) with 1024. f_equal. f_equal. change 0x3FFFF3 with (0xFFFF * 2 ^ 6 + 0x33). rewrite <- (Z.add_0_l hi) at 1. change 0 with (0 * 2 ^ 6) at 1. rewrite land_split by lia. reflexivity. }
  destruct p; try contradiction; cbn [turnout_base]; try change 0x3000 with (12 * 2 ^ 10); try change 0x2800 with (10 * 2 ^ 10); try change 0x3800 with (14 * 2 ^ 10); rewrite G by lia;
    try change (Z.land 12 51) with 0; try change (Z.land 10 51) with 2; try change (Z.land 14 51) with 2; lia.
Qed.
Lemma busy_iff : forall w q bz, (match q with None => Ok false | Some p => cfg_isProcessing p w end) = Ok bz -> (bz = true <-> processing w q).
Proof.
  intros w [q|] bz E; [|injection E as <-; split; [discriminate|intros (p & x & X & _); discriminate]].
  unfold cfg_isProcessing, get_parser, at_ in E. destruct (nth_error (w_parsers w) q) as [x|] eqn:N; [|discriminate]. cbn [bind] in E. injection E as <-. split.
  - intros B. exists q, x. split; [reflexivity|]. split; [exact N|]. destruct (pobj_state x); try discriminate B; auto.
  - intros (p & y & X & M & B). injection X as <-. rewrite N in M. injection M as <-. destruct B as [-> | ->]; reflexivity.
Qed.
Lemma request_engine_log : forall lw g w s st r q av name w' t, station_at w s st -> refers_to w r av name ->
  lstep lw g (OnStation s (RequestEngine r q)) w = Ok (w', t) ->
  (av = EMPTY -> console t = opt (lg_out g) no_name) /\
  (av <> EMPTY -> processing w (cb_cfg (st_cbs st)) -> console t = opt (lg_out g) still_busy) /\
  (av <> EMPTY -> ~ processing w (cb_cfg (st_cbs st)) -> console t = []).
Proof.
  intros lw g w s st r q av name w' t S0 R H. cbn [lstep] in H. unfold g_requestEngine in H. apply seq_inv in H. destruct H as (w1 & t1 & t2 & H1 & H & ->).
  rewrite console_app. assert (SL : console t2 = []) by (apply (silent_calls lw (OnStation s (RequestEngine r q)) eq_refl w1 w' t2); exact H). rewrite SL, app_nil_r. clear H SL.
  destruct (get_short_ok _ _ _ _ R) as (si & G & A & _). unfold log_if in H1. destruct (lg_out g); cbn [opt]; [|injection H1 as <- <-; auto].
  rewrite (ask_ok _ _ _ _ _ G) in H1. unfold si_isNameKnown in H1. rewrite A in H1. destruct av; cbn [avail_eqb negb] in H1.
  - apply print_inv in H1. destruct H1 as (_ & ->). split; [reflexivity|]. split; intros X; congruence.
  - rewrite (ask_ok _ _ _ _ _ (get_st _ _ _ S0)) in H1. split; [discriminate|]. apply ask_inv in H1. destruct H1 as (bz & E & H1).
    assert (B : (bz = true <-> processing w (cb_cfg (st_cbs st)))) by (apply busy_iff; exact E).
    destruct bz; [apply print_inv in H1; destruct H1 as (_ & ->)|injection H1 as <- <-]; (split; intros _ X; [|]); try reflexivity; exfalso; intuition discriminate.
  - rewrite (ask_ok _ _ _ _ _ (get_st _ _ _ S0)) in H1. split; [discriminate|]. apply ask_inv in H1. destruct H1 as (bz & E & H1).
    assert (B : (bz = true <-> processing w (cb_cfg (st_cbs st)))) by (apply busy_iff; exact E).
    destruct bz; [apply print_inv in H1; destruct H1 as (_ & ->)|injection H1 as <- <-]; (split; intros _ X; [|]); try reflexivity; exfalso; intuition discriminate.
Qed.

(** ** Frames received by a station *)
Lemma raw_log : forall g w w' t tp p c r h, id_fields_ok tp p c h -> log_if (lg_raw g) (print (id_printAll (id_value tp p c r h)) ;;; print nl) w = Ok (w', t) ->
  w' = w /\ console t = identifier_log g p c r h.
Proof.
  intros g w w' t tp p c r h F H. apply (log_inv _ _ _ _ _ (identifier_text p c r h ++ newline) H). intros Q. apply seq_inv in Q. destruct Q as (w1 & t1 & t2 & H1 & Q & ->). apply print_inv in H1, Q.
  destruct H1 as (-> & T1). destruct Q as (-> & T2). rewrite console_app, T1, T2, identifier_print by exact F. auto.
Qed.
Lemma frame_log : forall lw g w s st tp p c r h d w' t, station_at w s st -> id_fields_ok tp p c h -> payload_ok d -> c <> CMD_CONFIG_DATA ->
  lstep lw g (OnStation s (HandlePacket (mkFrame (id_value tp p c r h) d))) w = Ok (w', t) ->
  console t = identifier_log g p c r h ++ if c =? CMD_REQUEST_CONFIG then request_log g d else frame_text c d.
Proof.
  intros lw g w s st tp p c r h d w' t S0 F P NC H. cbn [lstep] in H. unfold g_handlePacket in H. cbn [fid fdata] in H. rewrite id_getCommand_value in H by assumption.
  apply seq_inv in H. destruct H as (w1 & t1 & t2 & H1 & H & ->). destruct (raw_log _ _ _ _ _ _ _ _ _ F H1) as (-> & T1). rewrite console_app, T1. f_equal.
  destruct (Z.eqb_spec c CMD_REQUEST_CONFIG) as [Q|Q].
  - subst c. change (CMD_REQUEST_CONFIG =? kSystemCommand) with false in H. change (CMD_REQUEST_CONFIG =? kPing) with false in H. change (CMD_REQUEST_CONFIG =? kAccessorySwitch) with false in H.
    change (CMD_REQUEST_CONFIG =? kLocoDirection) with false in H. change (CMD_REQUEST_CONFIG =? kLocoSpeed) with false in H. change (CMD_REQUEST_CONFIG =? kLocoFunction) with false in H.
    change (CMD_REQUEST_CONFIG =? kRequestConfigData) with true in H. cbv iota in H. rewrite everything_shows in H.
    apply (log_inv _ _ _ _ _ (zs "Request Config Data. Payload: " ++ payload d ++ newline)) in H; [destruct H as (_ & ->); reflexivity|]. intros X. apply seq_inv in X. destruct X as (w2 & t3 & t4 & H2 & X & ->).
    apply print_inv in H2. destruct H2 as (-> & T3). apply seq_inv in X. destruct X as (w3 & t5 & t6 & H3 & X & ->). apply print_res_inv in H3. destruct H3 as (-> & T5). apply text_print_text in T5; [|exact P].
    apply print_inv in X. destruct X as (-> & T6). rewrite !console_app, T3, T5, T6. auto.
  - apply (frame_console lw w s st tp p c r h d w' t2 S0 F P NC). cbn [step st_step]. unfold st_handlePacket. cbn [fid fdata]. rewrite id_getCommand_value by assumption.
    change kRequestConfigData with CMD_REQUEST_CONFIG in *. change kConfigDataStream with CMD_CONFIG_DATA in *.
    replace (c =? CMD_REQUEST_CONFIG) with false in * by lia. replace (c =? CMD_CONFIG_DATA) with false in * by lia. exact H.
Qed.
Lemma stream_frame : forall lw g w s tp p r h d w' t, id_fields_ok tp p CMD_CONFIG_DATA h ->
  lstep lw g (OnStation s (HandlePacket (mkFrame (id_value tp p CMD_CONFIG_DATA r h) d))) w = Ok (w', t) ->
  exists t', lstep lw g (OnStation s (HandleConfigDataStream d)) w = Ok (w', t') /\ console t = identifier_log g p CMD_CONFIG_DATA r h ++ stream_log g ++ console t'.
Proof.
  intros lw g w s tp p r h d w' t F H. cbn [lstep] in H. unfold g_handlePacket in H. cbn [fid fdata] in H. rewrite id_getCommand_value in H by assumption.
  apply seq_inv in H. destruct H as (w1 & t1 & t2 & H1 & H & ->). destruct (raw_log _ _ _ _ _ _ _ _ _ F H1) as (-> & T1).
  change (CMD_CONFIG_DATA =? kSystemCommand) with false in H. change (CMD_CONFIG_DATA =? kPing) with false in H. change (CMD_CONFIG_DATA =? kAccessorySwitch) with false in H.
  change (CMD_CONFIG_DATA =? kLocoDirection) with false in H. change (CMD_CONFIG_DATA =? kLocoSpeed) with false in H. change (CMD_CONFIG_DATA =? kLocoFunction) with false in H.
  change (CMD_CONFIG_DATA =? kRequestConfigData) with false in H. change (CMD_CONFIG_DATA =? kConfigDataStream) with true in H. cbv iota in H.
  apply seq_inv in H. destruct H as (w2 & t3 & t4 & H2 & H & ->). rewrite everything_shows in H2. apply log_print in H2. destruct H2 as (-> & T3). exists t4. split; [exact H|]. rewrite !console_app, T1, T3. reflexivity.
Qed.
Lemma handed_log : forall lw g w s st d w' t, station_at w s st -> payload_ok d -> lstep lw g (OnStation s (HandleConfigDataStream d)) w = Ok (w', t) ->
  (~ processing w (cb_cfg (st_cbs st)) -> console t = ignored_text d) /\
  (forall q sp, cb_cfg (st_cbs st) = Some q -> lib_at w q sp -> in_progress sp = true ->
     exists t', lstep lw g (ParserAddMessage q d) w = Ok (w', t') /\ console t = content_log g d ++ console t').
Proof.
  intros lw g w s st d w' t S0 P H. cbn [lstep] in H. unfold g_handleConfigDataStream in H. rewrite (ask_ok _ _ _ _ _ (get_st _ _ _ S0)) in H. apply ask_inv in H. destruct H as (target & E & H). split.
  - intros NP. assert (target = None).
    { destruct (cb_cfg (st_cbs st)) as [q|] eqn:Q; [|congruence]. destruct (cfg_isProcessing q w) as [bz|] eqn:B; [|discriminate]. cbn [bind] in E. destruct bz; [|congruence]. exfalso. apply NP.
      apply (busy_iff w (Some q) true); [exact B|reflexivity]. }
    subst target. apply seq_inv in H. destruct H as (w1 & t1 & t2 & H1 & H & ->). apply print_inv in H1. destruct H1 as (-> & T1). apply print_res_inv in H. destruct H as (-> & T2). apply text_print_text in T2; [|exact P].
    rewrite console_app, T1, T2. reflexivity.
  - intros q sp Q L IP. rewrite Q in E. unfold cfg_isProcessing, get_parser, at_ in E. unfold lib_at in L. rewrite L in E. cbn [bind pobj_state] in E.
    assert (TG : target = Some q) by (unfold in_progress in IP; destruct (sp_state sp); try discriminate IP; cbn in E; congruence). subst target.
    apply seq_inv in H. destruct H as (w1 & t1 & t2 & H1 & H & ->). rewrite everything_shows in H1.
    apply (log_inv _ _ _ _ _ (payload_hex d ++ zs " '" ++ payload d ++ zs "' ")) in H1.
    2:{ intros X. apply seq_inv in X. destruct X as (w2 & t3 & t4 & H2 & X & ->). apply print_res_inv in H2. destruct H2 as (-> & T3). apply hex_print_text in T3; [|exact P].
        apply seq_inv in X. destruct X as (w3 & t5 & t6 & H3 & X & ->). apply print_inv in H3. destruct H3 as (-> & T5). apply seq_inv in X. destruct X as (w4 & t7 & t8 & H4 & X & ->). apply print_res_inv in H4. destruct H4 as (-> & T7).
        apply text_print_text in T7; [|exact P]. apply print_inv in X. destruct X as (-> & T8). rewrite !console_app, T3, T5, T7, T8. auto. }
    destruct H1 as (-> & T1). unfold g_cfg_add in H. apply seq_inv in H. destruct H as (w2 & t3 & t4 & H2 & H & ->). injection H2 as <- <-. apply ask_inv in H. destruct H as (o & G & H).
    unfold get_parser, at_ in G. rewrite L in G. injection G as <-. exists t4. split; [exact H|]. rewrite !console_app, T1. reflexivity.
Qed.
Lemma rejected_log : forall lw g w p sp d w' t, lib_at w p sp -> lstep lw g (ParserAddMessage p d) w = Ok (w', t) ->
  (in_progress sp = false \/ malformed sp d) -> console t = parser_text sp d.
Proof.
  intros lw g w p sp d w' t L H B. apply (complaint lw w p sp d w' t L); [|exact B]. rewrite <- H. cbn [lstep]. unfold lib_addMessage, g_addMessage. rewrite !(ask_ok _ _ _ _ _ (lib_get _ _ _ L)).
  unfold in_progress, malformed in B. destruct (sp_state sp); try reflexivity.
  - replace ((dlc d =? 6) || (dlc d =? 7)) with false by lia. reflexivity.
  - replace (dlc d =? 8) with false by lia. reflexivity.
Qed.
Lemma empty_log : forall lw g w p sp c x d w' t crc, lib_at w p sp -> sp_state sp = SS_FIRST -> sp_crc sp = crc_reset -> sp_cons sp = Some c -> consumer_at w c x -> header_for d 0 crc ->
  lstep lw g (ParserAddMessage p d) w = Ok (w', t) -> exists final, console t = header_log g d 0 crc 0xFFFF ++ final /\ end_text w' x final.
Proof.
  intros lw g w p sp c x d w' t crc L ST K SC C HD H. cbn [lstep] in H. destruct (header_decodes _ _ _ HD) as (HL & HC). destruct HD as (P & D & HB & HCB).
  unfold g_addMessage in H. rewrite (ask_ok _ _ _ _ _ (lib_get _ _ _ L)), ST in H. replace ((dlc d =? 6) || (dlc d =? 7)) with true in H by lia. cbv zeta in H. cbn [sp_remaining sp_crc sp_text sp_cons] in H.
  rewrite HL, HC, K, SC in H. apply seq_inv in H. destruct H as (w1 & t1 & t2 & H1 & H & ->). assert (UL : 0 <= crc) by (nine d P; unfold be, b, byte in *; cbn [dbytes nth] in *; lia).
  destruct (log_inv _ _ _ _ _ (zs " Stream length: " ++ dec_text (as_signed 0) ++ zs " Bytes. CRC requested: " ++ hex_zeros 4 crc ++
     zs " CRC actual: " ++ hex_zeros 4 0xFFFF ++ zs "." ++ newline ++ (if dlc d =? 7 then zs "Compressed Data!" ++ newline else [])) H1) as (-> & T1); [apply header_text; [unfold is_u32; lia|lia|exact UL]|].
  change (0 >? 0) with false in H. cbv iota in H. apply seq_inv in H. destruct H as (w2 & t3 & t4 & H2 & H & ->). unfold put_lib, put_parser in H2. injection H2 as <- <-. cbn [when_some] in H.
  pose proof (fun Q => complete_text c _ _ _ x Q H) as EN. specialize (EN C). destruct EN as (EN & _). exists (console t4). cbn [app]. rewrite console_app, T1, packets_shows. auto.
Qed.
