(* ProofsPassiveLogged.v -- callbacks that do not call back: LoggedReentry.v reaches the same state as
   Logged.v, with the same trace. *)
From Verif Require Import ZLib LoggedReentry ProofsWorld ProofsReentry ProofsSafe ProofsPassive ProofsLogged.

Section Lines.
Variable lw : Z.
Variable g : logcfg.
(** library consumers do not look at the parsers *)
Definition pblind (a : act) : Prop := forall w w' t p sp x, a w = Ok (w', t) -> a (wt w p sp x) = Ok (wt w' p sp x, t) /\ w_parsers w' = w_parsers w.
Lemma pb_skip : pblind skip. Proof. intros w w' t p sp x H. inversion H; subst; auto. Qed.
Lemma pb_fail : forall u, pblind (fail u). Proof. intros u w w' t p sp x H. discriminate. Qed.
Lemma pb_emit : forall e, pblind (emit e). Proof. intros e w w' t p sp x H. inversion H; subst; auto. Qed.
Lemma pb_engine : forall i l, pblind (put_engine i l). Proof. intros i l w w' t p sp x H. inversion H; subst. split; reflexivity. Qed.
Lemma pb_cons : forall i l, pblind (put_cons i l). Proof. intros i l w w' t p sp x H. inversion H; subst. split; reflexivity. Qed.
Lemma pb_seq : forall a b, pblind a -> pblind b -> pblind (World.seq a b).
Proof.
  intros a b HA HB w w' t p sp x H. apply seq_inv in H. destruct H as (w1 & t1 & t2 & E1 & E2 & ->). destruct (HA _ _ _ p sp x E1) as [A1 A2]. destruct (HB _ _ _ p sp x E2) as [B1 B2].
  split; [|congruence]. unfold World.seq. rewrite A1. cbn [bind]. rewrite B1. reflexivity.
Qed.
Lemma pb_ask : forall A (f : world -> res A) k, (forall w p sp x, f (wt w p sp x) = f w) -> (forall y, pblind (k y)) -> pblind (ask f k).
Proof.
  intros A f k HF HK w w' t p sp x H. apply ask_inv in H. destruct H as (y & E & H). destruct (HK y _ _ _ p sp x H) as [K1 K2]. split; [|exact K2].
  unfold ask. rewrite HF, E. exact K1.
Qed.
Ltac pb := repeat first [ apply pb_skip | apply pb_fail | apply pb_emit | apply pb_engine | apply pb_cons | apply pb_seq | apply pb_ask; [reflexivity|intros]
  | match goal with |- pblind (if ?b then _ else _) => destruct b | |- pblind (match ?x with _ => _ end) => destruct x end ].
Lemma pb_consume : forall c s k v, pblind (g_cons_consume lw g c s k v).
Proof.
  intros. unfold g_cons_consume, g_loco_consume, g_list_consume, list_consume, log_line, log_setting, log_if, print. pb.
Qed.
Lemma consume_other : forall c s k v w w' t p sp x, g_cons_consume lw g c s k v w = Ok (w', t) ->
  g_cons_consume lw g c s k v (wt w p sp x) = Ok (wt w' p sp x, t) /\ w_parsers w' = w_parsers w.
Proof. intros. apply pb_consume. assumption. Qed.

(** the calls made, on the world without the parser's own changes *)
Definition told (c : option nat) (l : list triple) : act := when_some c (fun c => g_cons_consume_all lw g c l).
Lemma told_nil : forall c w, told c [] w = Ok (w, []). Proof. intros [c|] w; reflexivity. Qed.
Lemma told_app : forall c a b w w' t, told c (a ++ b) w = Ok (w', t) -> exists w1 t1 t2, told c a w = Ok (w1, t1) /\ told c b w1 = Ok (w', t2) /\ t = t1 ++ t2.
Proof.
  intros [c|] a b; [|intros w w' t H; inversion H; subst; exists w', [], []; auto]. cbn [told when_some].
  induction a as [|[[s k] v] a IH]; intros w w' t H; [exists w, [], t; auto|]. cbn [app g_cons_consume_all] in *.
  apply seq_inv in H. destruct H as (w1 & t1 & t2 & E1 & E2 & ->). destruct (IH _ _ _ E2) as (w2 & t3 & t4 & E3 & E4 & ->).
  exists w2, (t1 ++ t3), t4. unfold World.seq. rewrite E1. cbn [bind]. rewrite E3. cbn [bind]. rewrite app_assoc. auto.
Qed.

Lemma told_parsers : forall c l w w' t, told c l w = Ok (w', t) -> w_parsers w' = w_parsers w.
Proof.
  intros [c|] l; [|intros w w' t H; inversion H; reflexivity]. cbn [told when_some].
  induction l as [|[[s k] v] l IH]; intros w w' t H; [inversion H; reflexivity|]. cbn [g_cons_consume_all] in H.
  apply seq_inv in H. destruct H as (w1 & t1 & t2 & E1 & E2 & ->). destruct (consume_other _ _ _ _ _ _ _ 0%nat sp_new tp_new E1) as [_ L].
  rewrite (IH _ _ _ E2). exact L.
Qed.
Section Outcome.
Variable Good : world -> Prop.
Variable ins : list event -> list event -> Prop.
Hypothesis ins_nil : ins [] [].
Hypothesis ins_app : forall a a' b b', ins a a' -> ins b b' -> ins (a ++ b) (a' ++ b').
Notation out := (ProofsPassive.out Good ins).
Section Text.
Variable react : list event -> code.
Variable inner : code -> ract unit.
Variable p : nat.
(** Good depends on a text parser only through its consumer *)
Hypothesis good_wt2 : forall w sp t t', tp_cons t' = tp_cons t -> Good (wt w p sp t) -> Good (wt w p sp t').
Hypothesis consume_out : forall w0 sp t0 c s k v w' t tr, inside w0 p -> tp_cons t0 = Some c -> Good (wt w0 p sp t0) -> g_cons_consume lw g c s k v (wt w0 p sp t0) = Ok (w', t) ->
  out (vcons_consume lw g react inner c s k v (mkR (wt w0 p sp t0) tr)) tt w' tr t.

(** heap action h simulates the pure result r of the text parser started in t *)
Definition hsim {R} (sp : SP) (t : TP) (r : res (TP * list triple * R)) (h : ract R) : Prop :=
  forall w tr t' evs x w' tr', inside w p -> Good (wt w p sp t) -> r = Ok (t', evs, x) -> told (tp_cons t) evs w = Ok (w', tr') ->
    out (h (mkR (wt w p sp t) tr)) x (wt w' p sp t') tr tr' /\ inside w' p.

Lemma report_sim : forall sp t, hsim sp t (Ok (t, tp_emit t, tt)) (vtp_report lw g react inner p).
Proof.
  intros sp t w tr t' evs x w' tr' I GD E T. inversion E; subst. clear E. unfold vtp_report. rewrite read_tp by exact I. unfold tp_emit in T.
  destruct (tp_cons t') as [c|] eqn:TC; cbn [told when_some rwhen_some] in *; [|inversion T; subst; split; [apply out_ret; [exact ins_nil|]; exact GD|exact I]].
  cbn [g_cons_consume_all] in T. apply seq_inv in T. destruct T as (w1 & t1 & t2 & E1 & E2 & ->). inversion E2; subst. rewrite app_nil_r.
  destruct (consume_other _ _ _ _ _ _ _ p sp t' E1) as [K L]. split; [apply consume_out; assumption|]. unfold inside. rewrite L. exact I.
Qed.
Lemma error_sim : forall sp t, hsim sp t (noval (tp_reportParseError t)) (vtp_reportParseError lw g react inner p).
Proof.
  intros sp t w tr t' evs x w' tr' I GD E T. unfold noval, tp_reportParseError in E. unfold vtp_reportParseError. rewrite read_tp by exact I.
  destruct (bset (tp_sec (set_state t ERROR)) (lit "ERROR")) as [s|] eqn:E1; cbn [bind] in E; [|discriminate].
  destruct (bset (tp_key (set_state t ERROR)) (lit "ERROR")) as [k|] eqn:E2; cbn [bind] in E; [|discriminate].
  destruct (bset (tp_val (set_state t ERROR)) (lit "ERROR")) as [v|] eqn:E3; cbn [bind] in E; [|discriminate].
  inversion E; subst. erewrite then_val by reflexivity. rewrite then_write by exact I.
  refine (report_sim sp _ w tr _ _ _ _ _ I (good_wt2 w sp t (set_val (set_key (set_sec (set_state t ERROR) s) k) v) eq_refl GD) eq_refl T).
Qed.
Lemma find_sim : forall sp t o cs d, hsim sp t (tp_findToken t o cs d) (vtp_findToken lw g react inner p o cs d).
Proof.
  intros sp t o cs d w tr t' evs x w' tr' I GD E T. unfold tp_findToken in E. unfold vtp_findToken. rewrite read_tp by exact I.
  destruct (bfind_chars (tp_buf t) cs o) as [found|] eqn:F; cbn [bind] in E; [|discriminate].
  destruct (if found =? npos then Ok (blen (tp_buf t), false, 0) else c <- bget (tp_buf t) found;; Ok (found, true, c)) as [[[consumed success] mch]|] eqn:G; cbn [bind] in E; [|discriminate].
  erewrite then_val by (cbn [bind]; exact G). destruct d as [d|].
  - destruct (bsub (tp_buf t) o consumed) as [partial|] eqn:B; cbn [bind] in E; [|discriminate].
    destruct (bpush (dest_get t d) partial) as [[b' pushed]|] eqn:P; cbn [bind] in E; [|discriminate].
    rewrite bind_assoc. erewrite then_val by (cbn [bind]; rewrite P; cbn [bind]; reflexivity). cbn [fst snd].
    rewrite bind_assoc. rewrite then_write by exact I. apply (good_wt2 _ _ _ (dest_set t d b')) in GD; [|destruct d; reflexivity]. destruct (pushed <? blen partial) eqn:Q.
    + destruct (tp_reportParseError (dest_set t d b')) as [[t1 e1]|] eqn:RE; cbn [bind] in E; [|discriminate]. inversion E; subst.
      assert (TC : tp_cons (dest_set t d b') = tp_cons t) by (destruct d; reflexivity). rewrite <- TC in T.
      destruct (error_sim sp (dest_set t d b') w tr t' evs tt w' tr' I GD) as [K L]; [unfold noval; rewrite RE; reflexivity|exact T|].
      split; [|exact L]. rewrite bind_assoc. eapply out_bind_l; try exact ins_nil; try exact ins_app; [exact K|]. intros tr1 G1. apply out_ret; [exact ins_nil|]. exact G1.
    + cbn [bind] in E. inversion E; subst. rewrite told_nil in T. inversion T; subst. split; [apply out_ret; [exact ins_nil|]; exact GD|exact I].
  - cbn [bind] in E. inversion E; subst. rewrite told_nil in T. inversion T; subst. split; [apply out_ret; [exact ins_nil|]; exact GD|exact I].
Qed.
Lemma iteration_sim : forall sp t c, hsim sp t ('(t, e, c, r) <- tp_iteration t c ;; Ok (t, e, (c, r))) (vtp_iteration lw g react inner p c).
Proof.
  intros sp t c w tr t' evs x w' tr' I GD E T.
  destruct (tp_iteration t c) as [[[[t0 e0] c0] r0]|] eqn:H; cbn [bind] in E; [|discriminate]. inversion E; subst. clear E.
  unfold tp_iteration in H. unfold vtp_iteration. rewrite read_tp by exact I. destruct (tp_state t).
  - destruct (tp_findToken t c kKeyOrSectionStart None) as [[[t1 e1] r]|] eqn:E1; cbn [bind] in H; [|discriminate].
    assert (e1 = []).
    { unfold tp_findToken in E1. destruct (bfind_chars (tp_buf t) kKeyOrSectionStart c) as [f|]; cbn [bind] in E1; [|discriminate].
      destruct (if f =? npos then _ else _) as [[[? ?] ?]|]; cbn [bind] in E1; [|discriminate]. inversion E1; reflexivity. } subst e1.
    destruct (find_sim sp t c kKeyOrSectionStart None w tr t1 [] r w [] I GD E1 (told_nil _ _)) as [K L].
    pose proof (findToken_cons _ _ _ _ _ _ _ E1) as TC.
    eapply out_bind_and; try exact ins_nil; try exact ins_app; [exact K|].
    intros tr1 G1. destruct (ft_success r).
    + rewrite read_tp by exact I. destruct (bget (tp_buf t1) (u8 (ft_consumed r - 1))) as [ch|] eqn:B; cbn [bind] in H; [|discriminate].
      erewrite then_val by reflexivity. destruct (ch =? kSectionStart).
      * destruct (berase (tp_sec t1)) as [s|] eqn:BE; cbn [bind] in H; [|discriminate]. inversion H; subst. erewrite then_val by reflexivity. rewrite then_write by exact I.
        rewrite told_nil in T. inversion T; subst. split; [apply out_ret; [exact ins_nil|]; refine (good_wt2 _ _ _ _ _ G1); reflexivity|exact I].
      * rewrite ?B in H. cbn [bind] in H. destruct (ch =? kKeyStart).
        -- inversion H; subst. rewrite then_write by exact I. rewrite told_nil in T. inversion T; subst. split; [apply out_ret; [exact ins_nil|]; refine (good_wt2 _ _ _ _ _ G1); reflexivity|exact I].
        -- destruct (tp_reportParseError t1) as [[t2 e2]|] eqn:RE; cbn [bind] in H; [|discriminate]. inversion H; subst. rewrite <- TC in T.
           destruct (error_sim sp t1 w tr1 t' evs tt w' tr' I G1) as [K2 L2]; [unfold noval; rewrite RE; reflexivity|exact T|].
           split; [|exact L2]. eapply out_bind_l; try exact ins_nil; try exact ins_app; [exact K2|]. intros. apply out_ret; [exact ins_nil|]. assumption.
    + inversion H; subst. rewrite told_nil in T. inversion T; subst. split; [apply out_ret; [exact ins_nil|]; exact G1|exact I].
  - destruct (tp_findToken t c kSectionStop (Some DSec)) as [[[t1 e1] r]|] eqn:E1; cbn [bind] in H; [|discriminate]. inversion H; subst.
    destruct (find_sim sp t c kSectionStop (Some DSec) w tr t1 evs r w' tr' I GD E1 T) as [K L].
    split; [|exact L]. eapply out_bind_l; try exact ins_nil; try exact ins_app; [exact K|]. intros tr1 G1. destruct (ft_success r).
    + rewrite bind_assoc. rewrite read_tp by exact L. rewrite then_write by exact L. apply out_ret; [exact ins_nil|]. refine (good_wt2 _ _ _ _ _ G1); reflexivity.
    + apply out_ret; [exact ins_nil|]. exact G1.
  - destruct (tp_findToken t c kKeyOrValueStop (Some DKey)) as [[[t1 e1] r]|] eqn:E1; cbn [bind] in H; [|discriminate].
    pose proof (findToken_cons _ _ _ _ _ _ _ E1) as TC.
    destruct (ft_success r) eqn:SU.
    + destruct (ft_match r =? kKeyStop) eqn:M1.
      * inversion H; subst. destruct (find_sim sp t c _ _ w tr t1 evs r w' tr' I GD E1 T) as [K L]. split; [|exact L].
        eapply out_bind_l; try exact ins_nil; try exact ins_app; [exact K|]. intros tr1 G1. rewrite SU, bind_assoc.
        rewrite read_tp by exact L. rewrite M1. rewrite then_write by exact L. apply out_ret; [exact ins_nil|]. refine (good_wt2 _ _ _ _ _ G1); reflexivity.
      * destruct (ft_match r =? kValueStop) eqn:M2.
        -- destruct (berase (tp_val t1)) as [v|] eqn:BV; cbn [bind] in H; [|discriminate].
           cbn [tp_key set_val] in H. destruct (berase (tp_key t1)) as [k|] eqn:BK; cbn [bind] in H; [|discriminate]. inversion H; subst. clear H.
           apply told_app in T. destruct T as (w1 & x1 & x2 & T1 & T2 & ->).
           destruct (find_sim sp t c _ _ w tr t1 e1 r w1 x1 I GD E1 T1) as [K L].
           assert (T3 : told (tp_cons (set_val t1 v)) (tp_emit (set_val t1 v)) w1 = Ok (w', x2)) by (cbn [set_val tp_cons]; rewrite TC; exact T2).
           assert (G0 : Good (wt w1 p sp t1)) by (destruct K as [G0 _]; exact G0).
           destruct (report_sim sp (set_val t1 v) w1 [] _ _ tt w' x2 L (good_wt2 w1 sp t1 (set_val t1 v) eq_refl G0) eq_refl T3) as [_ L2].
           split; [|exact L2]. eapply out_bind; try exact ins_nil; try exact ins_app; [exact K|]. intros tr1 G1. rewrite SU, bind_assoc.
           rewrite read_tp by exact L. rewrite M1, M2. rewrite bind_assoc. erewrite then_val by exact BV. rewrite bind_assoc, then_write by exact L.
           destruct (report_sim sp (set_val t1 v) w1 tr1 _ _ tt w' x2 L (good_wt2 w1 sp t1 (set_val t1 v) eq_refl G0) eq_refl T3) as [K2 _].
           rewrite bind_assoc. eapply out_bind_l; try exact ins_nil; try exact ins_app; [exact K2|]. intros tr2 G2. rewrite bind_assoc. rewrite read_tp by exact L2. rewrite bind_assoc.
           erewrite then_val by exact BK. rewrite then_write by exact L2. apply out_ret; [exact ins_nil|]. refine (good_wt2 _ _ _ _ _ G2); reflexivity.
        -- inversion H; subst. destruct (find_sim sp t c _ _ w tr t' evs r w' tr' I GD E1 T) as [K L]. split; [|exact L].
           eapply out_bind_l; try exact ins_nil; try exact ins_app; [exact K|]. intros tr1 G1. rewrite SU, bind_assoc.
           rewrite read_tp by exact L. rewrite M1, M2. apply out_ret; [exact ins_nil|]. exact G1.
    + inversion H; subst. destruct (find_sim sp t c _ _ w tr t' evs r w' tr' I GD E1 T) as [K L]. split; [|exact L].
      eapply out_bind_l; try exact ins_nil; try exact ins_app; [exact K|]. intros tr1 G1. rewrite SU. apply out_ret; [exact ins_nil|]. exact G1.
  - destruct (tp_findToken t c kValueStop_str (Some DVal)) as [[[t1 e1] r]|] eqn:E1; cbn [bind] in H; [|discriminate].
    pose proof (findToken_cons _ _ _ _ _ _ _ E1) as TC.
    destruct (ft_success r) eqn:SU.
    + destruct (berase (tp_key t1)) as [k|] eqn:BK; cbn [bind] in H; [|discriminate]. destruct (berase (tp_val t1)) as [v|] eqn:BV; cbn [bind] in H; [|discriminate].
      inversion H; subst. clear H. apply told_app in T. destruct T as (w1 & x1 & x2 & T1 & T2 & ->).
      destruct (find_sim sp t c _ _ w tr t1 e1 r w1 x1 I GD E1 T1) as [K L]. rewrite <- TC in T2.
      assert (G0 : Good (wt w1 p sp t1)) by (destruct K as [G0 _]; exact G0).
      destruct (report_sim sp t1 w1 [] _ _ tt w' x2 L G0 eq_refl T2) as [_ L2].
      split; [|exact L2]. eapply out_bind; try exact ins_nil; try exact ins_app; [exact K|]. intros tr1 G1. rewrite SU, bind_assoc.
      destruct (report_sim sp t1 w1 tr1 _ _ tt w' x2 L G1 eq_refl T2) as [K2 _].
      eapply out_bind_l; try exact ins_nil; try exact ins_app; [exact K2|]. intros tr2 G2. rewrite bind_assoc. rewrite read_tp by exact L2. rewrite bind_assoc.
      erewrite then_val by exact BK. rewrite bind_assoc. erewrite then_val by exact BV. rewrite then_write by exact L2. apply out_ret; [exact ins_nil|]. refine (good_wt2 _ _ _ _ _ G2); reflexivity.
    + inversion H; subst. destruct (find_sim sp t c _ _ w tr t' evs r w' tr' I GD E1 T) as [K L]. split; [|exact L].
      eapply out_bind_l; try exact ins_nil; try exact ins_app; [exact K|]. intros tr1 G1. rewrite SU. apply out_ret; [exact ins_nil|]. exact G1.
  - inversion H; subst. rewrite told_nil in T. inversion T; subst. split; [apply out_ret; [exact ins_nil|]; exact GD|exact I].
Qed.
Lemma process_sim : forall sp fuel t c, hsim sp t (tp_process fuel t c) (vtp_process lw g react inner p fuel c).
Proof.
  intros sp fuel. induction fuel; intros t c w tr t' evs x w' tr' I GD E T; cbn [tp_process vtp_process] in *; rewrite read_tp by exact I.
  - destruct (c <? blen (tp_buf t)); [discriminate|]. inversion E; subst. rewrite told_nil in T. inversion T; subst. split; [apply out_ret; [exact ins_nil|]; exact GD|exact I].
  - destruct (c <? blen (tp_buf t)).
    + destruct (tp_iteration t c) as [[[[t1 e1] c1] r1]|] eqn:H; cbn [bind] in E; [|discriminate].
      pose proof (iteration_cons _ _ _ _ _ _ H) as TC. destruct r1.
      * inversion E; subst. destruct (iteration_sim sp t c w tr t' evs (x, true) w' tr' I GD) as [K L]; [rewrite H; reflexivity|exact T|].
        split; [|exact L]. eapply out_bind_l; try exact ins_nil; try exact ins_app; [exact K|]. intros tr1 G1. apply out_ret; [exact ins_nil|]. exact G1.
      * destruct (tp_process fuel t1 c1) as [[[t2 e2] c2]|] eqn:H2; cbn [bind] in E; [|discriminate]. inversion E; subst. clear E.
        apply told_app in T. destruct T as (w1 & x1 & x2 & T1 & T2 & ->).
        destruct (iteration_sim sp t c w tr t1 e1 (c1, false) w1 x1 I GD) as [K L]; [rewrite H; reflexivity|exact T1|]. rewrite <- TC in T2.
        assert (G0 : Good (wt w1 p sp t1)) by (destruct K as [G0 _]; exact G0).
        destruct (IHfuel t1 c1 w1 [] t' e2 x w' x2 L G0 H2 T2) as [_ L2].
        split; [|exact L2]. eapply out_bind; try exact ins_nil; try exact ins_app; [exact K|]. intros tr1 G1. cbn [fst snd].
        destruct (IHfuel t1 c1 w1 tr1 t' e2 x w' x2 L G1 H2 T2) as [K2 _]. exact K2.
    + inversion E; subst. rewrite told_nil in T. inversion T; subst. split; [apply out_ret; [exact ins_nil|]; exact GD|exact I].
Qed.
Lemma addLoop_sim : forall sp input fuel t i, hsim sp t (noval (tp_addLoop fuel t input i)) (vtp_addLoop lw g react inner p fuel input i).
Proof.
  intros sp input fuel. induction fuel; intros t i w tr t' evs x w' tr' I GD E T; cbn [tp_addLoop vtp_addLoop] in *.
  - destruct (i <? blen input); [discriminate|]. inversion E; subst. rewrite told_nil in T. inversion T; subst. split; [apply out_ret; [exact ins_nil|]; exact GD|exact I].
  - destruct (i <? blen input).
    + rewrite read_tp by exact I. destruct (bfull (tp_buf t) || match tp_state t with ERROR => true | _ => false end).
      * apply (error_sim sp t w tr t' evs x w' tr' I GD E T).
      * unfold noval in E. destruct (bsub1 input i) as [view|] eqn:B1; cbn [bind] in E; [|discriminate].
        destruct (bpush (tp_buf t) view) as [[b n]|] eqn:B2; cbn [bind] in E; [|discriminate].
        destruct (tp_processBuffer (set_buf t b)) as [[[t1 e1] cb]|] eqn:H; cbn [bind] in E; [|discriminate].
        destruct (bpop_front (tp_buf t1) cb) as [b3|] eqn:B3; cbn [bind] in E; [|discriminate].
        destruct (tp_addLoop fuel (set_buf t1 b3) input (u8 (i + n))) as [[t2 e2]|] eqn:H2; cbn [bind] in E; [|discriminate]. inversion E; subst. clear E.
        apply told_app in T. destruct T as (w1 & x1 & x2 & T1 & T2 & ->).
        erewrite then_val by (cbn [bind]; exact B2). cbn [fst snd]. rewrite then_write by exact I.
        unfold tp_processBuffer in H. pose proof (process_cons _ _ _ _ _ _ H) as TC.
        apply (good_wt2 _ _ _ (set_buf t b)) in GD; [|reflexivity].
        destruct (process_sim sp _ (set_buf t b) 0 w tr t1 e1 cb w1 x1 I GD H T1) as [K L].
        assert (G0 : Good (wt w1 p sp t1)) by (destruct K as [G0 _]; exact G0).
        assert (T3 : told (tp_cons (set_buf t1 b3)) e2 w1 = Ok (w', x2)) by (cbn [set_buf tp_cons]; rewrite TC; exact T2).
        assert (E3 : noval (tp_addLoop fuel (set_buf t1 b3) input (u8 (i + n))) = Ok (t', e2, tt)) by (rewrite H2; reflexivity).
        destruct (IHfuel (set_buf t1 b3) (u8 (i + n)) w1 [] t' e2 tt w' x2 L (good_wt2 w1 sp t1 (set_buf t1 b3) eq_refl G0) E3 T3) as [_ L2].
        split; [|exact L2]. eapply out_bind; try exact ins_nil; try exact ins_app; [unfold vtp_processBuffer; rewrite read_tp by exact I; exact K|]. intros tr1 G1. rewrite read_tp by exact L.
        erewrite then_val by exact B3. rewrite then_write by exact L.
        destruct (IHfuel (set_buf t1 b3) (u8 (i + n)) w1 tr1 t' e2 tt w' x2 L (good_wt2 w1 sp t1 (set_buf t1 b3) eq_refl G0) E3 T3) as [K2 _]. exact K2.
    + inversion E; subst. rewrite told_nil in T. inversion T; subst. split; [apply out_ret; [exact ins_nil|]; exact GD|exact I].
Qed.
Lemma addText_sim : forall sp t input, hsim sp t (noval (tp_addText t input)) (vtp_addText lw g react inner p input).
Proof.
  intros sp t input w tr t' evs x w' tr' I GD E T. unfold tp_addText, vtp_addText in *. rewrite read_tp by exact I.
  destruct ((blen input >? kBufferLength) || match tp_state t with ERROR => true | _ => false end).
  - apply (error_sim sp t w tr t' evs x w' tr' I GD E T).
  - apply (addLoop_sim sp input _ t 0 w tr t' evs x w' tr' I GD E T).
Qed.
(** the text of one data frame, with the other members already updated *)
Lemma message_text : forall w sp d crc t1 evs w1 x1 tr, inside w p -> sp_state sp = SS_DATA ->
  tp_addText (sp_text sp) (mkBuf (dbytes d) CanDataMaxLength (dlc d)) = Ok (t1, evs) ->
  let spX := mkSP SS_DATA (u32 (sp_remaining sp - dlc d)) t1 crc (sp_cons sp) in
  let W := mkW (w_stations w) (upd p (LibP spX) (w_parsers w)) (w_conss w) (w_engines w) in
  Good (wt W p spX (sp_text sp)) -> told (tp_cons (sp_text sp)) evs W = Ok (w1, x1) ->
  out (vtp_addText lw g react inner p (mkBuf (dbytes d) CanDataMaxLength (dlc d))
        (mkR (mkW (w_stations w) (upd p (LibP (mkSP SS_DATA (u32 (sp_remaining sp - dlc d)) (sp_text sp) crc (sp_cons sp))) (w_parsers w)) (w_conss w) (w_engines w)) tr))
      tt (mkW (w_stations w1) (upd p (LibP spX) (w_parsers w1)) (w_conss w1) (w_engines w1)) tr x1
  /\ inside w1 p /\ mkW (w_stations w1) (upd p (LibP spX) (w_parsers w1)) (w_conss w1) (w_engines w1) = w1.
Proof.
  intros w sp d crc t1 evs w1 x1 tr I ST T spX W GD E1.
  assert (IW : inside W p) by (unfold inside, W; cbn [w_parsers]; rewrite upd_len; exact I).
  assert (S0 : mkW (w_stations w) (upd p (LibP (mkSP SS_DATA (u32 (sp_remaining sp - dlc d)) (sp_text sp) crc (sp_cons sp))) (w_parsers w)) (w_conss w) (w_engines w)
    = wt W p spX (sp_text sp)) by (unfold wt, W, spX; cbn; rewrite upd_twice; reflexivity).
  rewrite S0.
  destruct (addText_sim spX (sp_text sp) (mkBuf (dbytes d) CanDataMaxLength (dlc d)) W tr t1 evs tt w1 x1 IW) as [K L];
    [exact GD|unfold noval; rewrite T; reflexivity|exact E1|].
  split; [exact K|]. split; [exact L|]. rewrite (told_parsers _ _ _ _ _ E1). unfold W. cbn [w_parsers]. rewrite upd_twice.
  change (upd p (LibP spX) (w_parsers w)) with (w_parsers W). rewrite <- (told_parsers _ _ _ _ _ E1). destruct w1; reflexivity.
Qed.
End Text.
End Outcome.
End Lines.

(** ** Passive callbacks *)
Lemma quiet_ss : forall a, quiet a -> st_same a.
Proof.
  intros a Q w w' t H. destruct (Q _ _ _ H) as (-> & F). split; [reflexivity|]. eapply Forall_impl; [|exact F]. intros [] E; try discriminate; exact Logic.I.
Qed.
(** what a log section prints does not depend on the world *)
Definition fixed (a : act) : Prop := forall w w' t, a w = Ok (w', t) -> w' = w /\ forall w2, a w2 = Ok (w2, t).
Lemma fx_skip : fixed skip. Proof. intros w w' t H. inversion H; subst. auto. Qed.
Lemma fx_print : forall b, fixed (print b). Proof. intros b w w' t H. inversion H; subst. auto. Qed.
Lemma fx_ask : forall A (r : res A) k, (forall x, fixed (k x)) -> fixed (ask (fun _ => r) k).
Proof. intros A r k K w w' t H. unfold ask in *. destruct r as [x|u]; [|discriminate]. cbn [bind] in *. destruct (K x _ _ _ H) as (-> & H2). split; [reflexivity|]. intros w2. apply H2. Qed.
Lemma fx_seq : forall a b, fixed a -> fixed b -> fixed (World.seq a b).
Proof.
  intros a b A B w w' t H. apply seq_inv in H. destruct H as (w1 & t1 & t2 & E1 & E2 & ->). destruct (A _ _ _ E1) as (-> & A2). destruct (B _ _ _ E2) as (-> & B2).
  split; [reflexivity|]. intros w2. unfold World.seq. rewrite A2. cbn [bind]. rewrite B2. reflexivity.
Qed.
Ltac fx := repeat first [ apply fx_skip | apply fx_print | apply fx_ask; intros | apply fx_seq | match goal with |- fixed (if ?b then _ else _) => destruct b end ].

Section Calm.
Variable lw : Z.
Variable g : logcfg.
Variable react : list event -> code.
Variable inner : code -> ract unit.
Variable N : nat.
Hypothesis passive : forall h s, inner (react h) s = (Ok tt, s).
Notation any := (fun _ => True).
Notation good := (ProofsPassive.good any N).
Notation out := (ProofsPassive.out good eq).
Notation br := (ProofsPassive.br any N eq).
Let eq_refl' : forall a : list event, Forall no_tx a -> a = a := fun a _ => eq_refl.
Lemma eq_app' : forall a a' b b' : list event, a = a' -> b = b' -> a ++ b = a' ++ b'. Proof. intros; subst; reflexivity. Qed.
Lemma calm : forall (h : list event) (e : event) (s : rst), True -> good (r_w s) -> exists xs, inner (react (h ++ [e])) s = (Ok tt, mkR (r_w s) (r_t s ++ xs)) /\ [e] = e :: xs.
Proof. intros h e s _ _. exists []. rewrite passive, app_nil_r. split; [destruct s; reflexivity|reflexivity]. Qed.
Let other : forall e : event, (match e with EvTx _ _ => False | _ => True end) -> any e := fun _ _ => Logic.I.

Let b_skip := br_skip any N eq eq_refl'.
Let b_lift := br_lift any N eq eq_refl'.
Let b_emit := br_emit react inner any any N eq calm.
Let b_seq := br_seq any N eq eq_app'.
Let b_ask := br_ask any N eq.
Let b_when := br_when any N eq eq_refl'.
Let b_read := br_read any N eq.
Let b_if := br_if any N eq.
Let b_emit_ask := br_emit_ask any N eq.
Let b_emit_skip := br_emit_skip react inner any any N eq calm.
Let b_complete := br_complete react inner any any other N eq eq_refl' eq_app' calm.
Let b_aborted := br_aborted react inner any any other N eq eq_refl' eq_app' calm.
Let b_reset := br_reset react inner any any other N eq eq_refl' eq_app' calm.
Let b_step := br_step lw react inner any (fun _ _ _ => Logic.I) any other N eq eq_refl' eq_app' calm.
Let b_tx := br_tx react inner any any N eq calm.

Lemma b_log : forall b a w, quiet a -> br w (log_if b a) (vlog b a).
Proof. intros b a w Q. apply b_lift. apply quiet_ss. apply q_log. exact Q. Qed.
Lemma q_log_line : forall who s k v, quiet (log_line who s k v). Proof. intros. unfold log_line. quiet_tac. Qed.
Lemma q_log_setting : forall s k, quiet (log_setting s k). Proof. intros. unfold log_setting. quiet_tac. Qed.

Lemma v_consume : forall w c s k v, br w (g_cons_consume lw g c s k v) (vcons_consume lw g react inner c s k v).
Proof.
  intros. apply b_emit_ask. intros [e cb|co i n off cb|] F; [| |apply b_emit_skip; exact Logic.I].
  - apply b_seq; [apply b_lift; apply ss_emit; exact Logic.I|intros w1 t1 _]. unfold g_loco_consume. apply b_seq; [apply b_log; apply q_log_line|intros w2 t2 _].
    apply b_ask. intros [x|] M; [|apply b_skip]. cbn [rwhen_some]. intros G t w' t' E.
    assert (E' : World.seq (loco_consume lw e s k v) (log_if (events g) (log_setting s k)) w2 = Ok (w', t')).
    { apply ask_inv in E. destruct E as (l & GE & E). apply seq_inv in E. destruct E as (w3 & t3 & t4 & E3 & E4 & ->). apply seq_mk with (w1 := w3); [|exact E4].
      unfold loco_consume, ask. rewrite M. cbn [bind]. rewrite GE. cbn [bind]. exact E3. }
    refine (b_seq w2 _ _ _ _ _ _ G t w' t' E'); [apply b_lift; apply ss_loco|]. intros. apply b_log. apply q_log_setting.
  - apply b_seq; [apply b_lift; apply ss_emit; exact Logic.I|intros w1 t1 _]. unfold g_list_consume. apply b_seq; [apply b_log; apply q_log_line|intros w2 t2 _]. apply b_lift. apply ss_list.
Qed.
Lemma fx_header : forall d r c, fixed (log_header d r c). Proof. intros. unfold log_header. fx. Qed.
Lemma fx_crc_error : forall c, fixed (log_crc_error c). Proof. intros. unfold log_crc_error. fx. Qed.
Lemma fx_log : forall b a, fixed a -> fixed (log_if b a). Proof. intros [] a F; [exact F|apply fx_skip]. Qed.
(** a log section between two writes *)
Lemma log_then : forall b a w w1 t1 A (k : ract A) s, fixed a -> log_if b a w = Ok (w1, t1) -> (vlog b a ~;; k) s = k (mkR (r_w s) (r_t s ++ t1)).
Proof. intros b a w w1 t1 A k s F E. destruct (fx_log b a F _ _ _ E) as (-> & H). unfold vlog, rbind, rlift. rewrite H. reflexivity. Qed.
Lemma out_more : forall A (r : res A * rst) x w tr t1 t2, out r x w (tr ++ t1) t2 -> out r x w tr (t1 ++ t2).
Proof. intros A r x w tr t1 t2 (G & y & <- & E). split; [exact G|]. exists (t1 ++ t2). split; [reflexivity|]. rewrite E, app_assoc. reflexivity. Qed.

Lemma v_message : forall w p d, br w (g_addMessage lw g p d) (vlib_addMessage lw g react inner p d).
Proof.
  intros w p d. unfold g_addMessage, vlib_addMessage. apply b_ask. intros sp G. destruct (get_lib_inside _ _ _ G) as [I _].
  destruct (sp_state sp) eqn:ST.
  - apply b_lift. apply ss_print.
  - apply b_if; intros B.
    + cbv zeta. cbn [sp_remaining sp_text sp_crc sp_cons]. intros GD tr w' t' E. rewrite put_then.
      apply seq_inv in E. destruct E as (w0 & t0 & t1 & E0 & E & ->). rewrite (log_then _ _ _ _ _ _ _ _ (fx_header _ _ _) E0). cbn [r_w r_t].
      destruct (fx_log _ _ (fx_header _ _ _) _ _ _ E0) as (-> & _). apply out_more. generalize (tr ++ t0). clear tr. intros tr.
      destruct (header_length d >? 0).
      * inversion E; subst. pose proof (put_state unit w p (mkSP SS_FIRST (header_length d) (sp_text sp) (crc_loadReference (sp_crc sp) (header_crc d)) (sp_cons sp)) SS_DATA tr (rret tt) I) as Q.
        unfold rbind at 1 in Q. cbn [sp_remaining sp_text sp_crc sp_cons] in Q.
        match type of Q with (match ?x with _ => _ end) = _ => destruct x as [[[]|u] s'] eqn:X end; [|discriminate]. unfold rret in Q. inversion Q; subst.
        apply out_ret; [reflexivity|]. eapply good_same; [exact GD|reflexivity].
      * apply put_lib_seq' in E. rewrite (put_state unit w p) by exact I. cbn [sp_remaining sp_text sp_crc sp_cons]. rewrite get_put by exact I. cbn [sp_cons].
        refine (b_when _ _ _ _ _ _ _ tr w' t1 E); [intros; apply b_complete|]. eapply good_same; [exact GD|reflexivity].
    + apply b_if; intros; (apply b_seq; [apply b_lift; apply ss_print|intros; apply b_reset]).
  - apply b_if; intros B; [apply b_seq; [apply b_lift; apply ss_print|intros; apply b_reset]|].
    intros GD tr w' t' E. apply seq_inv in E. destruct E as (w0 & t0 & t9 & E0 & E & ->).
    assert (FD : fixed (print_res (printAsText d))) by (unfold print_res; fx).
    rewrite (log_then _ _ _ _ _ _ _ _ FD E0). cbn [r_w r_t].
    destruct (fx_log _ _ FD _ _ _ E0) as (-> & _). apply out_more. generalize (tr ++ t0). clear tr. intros tr.
    apply ask_inv in E. destruct E as (crc & C & E). apply ask_inv in E. destruct E as ([t1 evs] & T & E). cbn [fst snd] in E.
    apply put_lib_seq' in E. apply seq_inv in E. destruct E as (w1 & x1 & x2 & E1 & E2 & ->).
    erewrite then_val by exact C. rewrite put_then.
    destruct (message_text lw g good eq eq_refl eq_app' react inner p (fun w sp t t' _ G => good_same _ _ _ (wt w p sp t') G eq_refl)
      (fun w sp t0 c s k v w' t tr _ _ G => v_consume (wt w p sp t0) c s k v G tr w' t) w sp d crc t1 evs w1 x1 tr I ST T (good_same _ _ _ _ GD eq_refl) E1) as (K & L & S2).
    set (spX := mkSP SS_DATA (u32 (sp_remaining sp - dlc d)) t1 crc (sp_cons sp)) in *.
    eapply out_bind; [exact eq_app'|exact K|]. intros tr1 G1. rewrite get_put by exact L. unfold spX at 1. cbn [sp_remaining].
    destruct (u32 (sp_remaining sp - dlc d) =? 0) eqn:Z0.
    + apply ask_inv in E2. destruct E2 as (valid & V & E2). cbn [sp_crc spX]. erewrite then_val by exact V. destruct valid.
      * apply put_lib_seq' in E2. rewrite (put_state unit w1 p) by exact L. unfold spX at 1 2 3 4. cbn [sp_remaining sp_text sp_crc sp_cons].
        apply seq_inv in E2. destruct E2 as (w2 & t2 & t3 & E2 & E3 & ->). rewrite (log_then _ _ _ _ _ _ _ _ (fx_print _) E2). cbn [r_w r_t].
        destruct (fx_log _ _ (fx_print _) _ _ _ E2) as (-> & _). apply out_more. rewrite get_put by exact L. cbn [sp_cons].
        refine (b_when _ _ _ _ _ _ _ _ w' t3 E3); [intros; apply b_complete|]. eapply good_same; [exact G1|reflexivity].
      * apply put_lib_seq' in E2. rewrite (put_state unit w1 p) by exact L. unfold spX at 1 2 3 4. cbn [sp_remaining sp_text sp_crc sp_cons].
        apply seq_inv in E2. destruct E2 as (w2 & t2 & t3 & E2 & E3 & ->). rewrite (log_then _ _ _ _ _ _ _ _ (fx_crc_error _) E2). cbn [r_w r_t].
        destruct (fx_log _ _ (fx_crc_error _) _ _ _ E2) as (-> & _). apply out_more. rewrite get_put by exact L. cbn [sp_cons].
        refine (b_when _ _ _ _ _ _ _ _ w' t3 E3); [intros; apply b_aborted|]. eapply good_same; [exact G1|reflexivity].
    + rewrite S2 in *. cbn [sp_remaining sp_crc spX]. refine (b_log _ _ _ _ G1 tr1 w' x2 E2). unfold log_continues. quiet_tac.
  - apply b_lift. apply ss_print.
Qed.
Lemma v_add : forall w p d, br w (g_cfg_add lw g p d) (vcfg_add lw g react inner p d).
Proof.
  intros. apply b_emit_ask. intros [sp|beh h] F.
  - apply b_seq; [apply b_lift; apply ss_emit; exact Logic.I|]. intros w1 t1 E. apply v_message.
  - intros G t w' t' E. apply seq_inv in E. destruct E as (w1 & t1 & t2 & E1 & E2 & ->). inversion E1; subst. inversion E2; subst.
    change ([EvCfg p (CAdd d)] ++ []) with ([] ++ [EvCfg p (CAdd d)]). eapply out_bind; [exact eq_app'|apply b_lift; [apply ss_parser|exact G|reflexivity]|].
    intros tr1 G1. apply b_emit; [exact Logic.I|exact G1|reflexivity].
Qed.
Lemma v_config : forall w s d, br w (g_handleConfigDataStream lw g s d) (vst_handleConfigDataStream lw g react inner s d).
Proof.
  intros. unfold g_handleConfigDataStream, vst_handleConfigDataStream. apply b_ask; intros. apply b_ask; intros. destruct x0.
  - apply b_seq; [apply b_log; quiet_tac|intros; apply v_add].
  - apply b_seq; [apply b_lift; apply ss_puts|intros; apply b_lift; apply ss_print_res].
Qed.
Lemma any_begins : forall o, begins_ok any o. Proof. intros o. destruct o; try exact Logic.I. destruct o; cbn; auto. Qed.
Lemma any_sends : forall o, sends_ok any any o. Proof. intros o st tx f _ _. exact Logic.I. Qed.
Lemma v_packet : forall w s f, br w (g_handlePacket lw g s f) (vst_handlePacket lw g react inner s f).
Proof.
  intros. unfold g_handlePacket, vst_handlePacket. apply b_seq; [apply b_log; quiet_tac|intros w1 t1 _].
  destruct (id_getCommand (fid f) =? kRequestConfigData) eqn:C1.
  { apply Z.eqb_eq in C1. rewrite C1. cbn [Z.eqb kRequestConfigData kSystemCommand]. apply b_log. quiet_tac. }
  destruct (id_getCommand (fid f) =? kConfigDataStream) eqn:C2.
  { apply Z.eqb_eq in C2. rewrite C2. apply b_seq; [apply b_log; quiet_tac|intros; apply v_config]. }
  intros GD t w' t' E. refine (b_step w1 (OnStation s (HandlePacket f)) (any_begins _) (any_sends _) GD t w' t' _).
  cbn [step st_step]. unfold st_handlePacket. rewrite C1, C2. exact E.
Qed.
Lemma v_step : forall w o, br w (lstep lw g o) (vstep lw g react inner o).
Proof.
  intros w o. destruct o as [s x| | | | | | | | | | |]; try (exact (b_step w _ (any_begins _) (any_sends _))); [|apply v_message].
  destruct x; try (exact (b_step w _ (any_begins _) (any_sends _))).
  - apply v_packet.
  - apply v_config.
  - cbn [lstep vstep]. unfold g_sendAccessoryPacket, vst_sendAccessoryPacket. apply b_ask. intros st G. cbv zeta. apply b_seq; [apply b_log; quiet_tac|].
    intros w1 t1 E. destruct (fx_log _ _ (fx_print _) _ _ _ E) as (-> & _). apply b_tx; [exact G|]. intros; exact Logic.I.
  - cbn [lstep vstep]. unfold g_requestEngine, vst_requestEngine. apply b_seq; [apply b_log; quiet_tac|]. intros w1 t1 _. exact (b_step w1 (OnStation s (RequestEngine _ _)) (any_begins _) (any_sends _)).
Qed.
End Calm.

Lemma passive_logged : forall lw g react n ops w t w' t', (forall h, react h = Ret) -> lrun lw g ops w = Ok (w', t') ->
  vexec lw g react (S n) (ops_code ops) (mkR w t) = (Ok tt, mkR w' (t ++ t')).
Proof.
  intros lw g react n ops w t w' t' P. revert w t w' t'. induction ops as [|o ops IH]; intros w t w' t' E.
  - inversion E; subst. rewrite app_nil_r. reflexivity.
  - cbn [lrun] in E. apply seq_inv in E. destruct E as (w1 & t1 & t2 & E1 & E2 & ->).
    change (vexec lw g react (S n) (ops_code (o :: ops)) (mkR w t)) with ((vstep lw g react (vexec lw g react n) o ~;; vexec lw g react (S n) (ops_code ops)) (mkR w t)).
    assert (PH : forall h s, vexec lw g react n (react h) s = (Ok tt, s)) by (intros h s; rewrite P; destruct n; reflexivity).
    assert (GD : good (fun _ => True) (List.length (w_stations w)) w) by (split; [reflexivity|apply Forall_forall; auto]).
    destruct (v_step lw g react (vexec lw g react n) _ PH w o GD t w1 t1 E1) as (_ & y & <- & R).
    unfold rbind. rewrite R, (IH _ _ _ _ E2), app_assoc. reflexivity.
Qed.
