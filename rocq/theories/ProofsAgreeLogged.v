(* ProofsAgreeLogged.v -- ProofsAgree.v for the logging builds: with callbacks that do not call back,
   LoggedReentry.v and Logged.v have the same outcomes, undefined behaviour included. *)
From Verif Require Import ZLib LoggedReentry ProofsWorld ProofsReentry ProofsSafe ProofsPassive ProofsLogged ProofsPassiveLogged ProofsAgree.

(** ** Actions that do not look at the parsers *)
Definition pblind2 (a : act) : Prop := forall w p sp x, a (wt w p sp x) = match a w with Ok (w', t) => Ok (wt w' p sp x, t) | UB u => UB u end.
Lemma p2_skip : pblind2 skip. Proof. intros w p sp x. reflexivity. Qed.
Lemma p2_fail : forall u, pblind2 (fail u). Proof. intros u w p sp x. reflexivity. Qed.
Lemma p2_emit : forall e, pblind2 (emit e). Proof. intros e w p sp x. reflexivity. Qed.
Lemma p2_engine : forall i l, pblind2 (put_engine i l). Proof. intros i l w p sp x. reflexivity. Qed.
Lemma p2_cons : forall i l, pblind2 (put_cons i l). Proof. intros i l w p sp x. reflexivity. Qed.
Lemma p2_seq : forall a b, pblind2 a -> pblind2 b -> pblind2 (World.seq a b).
Proof.
  intros a b HA HB w p sp x. unfold World.seq. rewrite HA. destruct (a w) as [[w1 t1]|]; cbn [bind]; [|reflexivity]. rewrite HB.
  destruct (b w1) as [[w2 t2]|]; reflexivity.
Qed.
Lemma p2_ask : forall A (f : world -> res A) k, (forall w p sp x, f (wt w p sp x) = f w) -> (forall y, pblind2 (k y)) -> pblind2 (ask f k).
Proof. intros A f k HF HK w p sp x. unfold ask. rewrite HF. destruct (f w); cbn [bind]; [apply HK|reflexivity]. Qed.
Ltac p2 := repeat first [ apply p2_skip | apply p2_fail | apply p2_emit | apply p2_engine | apply p2_cons | apply p2_seq | apply p2_ask; [reflexivity|intros]
  | match goal with |- pblind2 (if ?b then _ else _) => destruct b | |- pblind2 (match ?x with _ => _ end) => destruct x end ].

(** ** Log sections print the same in every world *)
Definition const (a : act) : Prop := exists r : res (list event), forall w, a w = match r with Ok t => Ok (w, t) | UB u => UB u end.
Lemma c_skip : const skip. Proof. exists (Ok []). reflexivity. Qed.
Lemma c_print : forall b, const (print b). Proof. intros b. exists (Ok [EvPrint b]). reflexivity. Qed.
Lemma c_ask : forall A (r : res A) k, (forall x, const (k x)) -> const (ask (fun _ => r) k).
Proof. intros A [x|u] k K; [destruct (K x) as [t E]; exists t; intros w; apply E|exists (UB u); reflexivity]. Qed.
Lemma c_seq : forall a b, const a -> const b -> const (World.seq a b).
Proof.
  intros a b [[t|u] A] [[t2|u2] B].
  - exists (Ok (t ++ t2)). intros w. unfold World.seq. rewrite A. cbn [bind]. rewrite B. reflexivity.
  - exists (UB u2). intros w. unfold World.seq. rewrite A. cbn [bind]. rewrite B. reflexivity.
  - exists (UB u). intros w. unfold World.seq. rewrite A. reflexivity.
  - exists (UB u). intros w. unfold World.seq. rewrite A. reflexivity.
Qed.
Lemma c_log : forall b a, const a -> const (log_if b a). Proof. intros [] a C; [exact C|apply c_skip]. Qed.
Ltac ct := repeat first [ apply c_skip | apply c_print | apply c_ask; intros | apply c_seq | match goal with |- const (if ?b then _ else _) => destruct b end ].
Lemma c_header : forall d r c, const (log_header d r c). Proof. intros. unfold log_header. ct. Qed.
Lemma c_crc_error : forall c, const (log_crc_error c). Proof. intros. unfold log_crc_error. ct. Qed.
Lemma c_dump : forall d, const (print_res (printAsText d)). Proof. intros. unfold print_res. ct. Qed.

Section Exact.
Variable lw : Z.
Variable g : logcfg.
Variable react : list event -> code.
Variable inner : code -> ract unit.
Hypothesis calm : forall h s, inner (react h) s = (Ok tt, s).
Let s_emit := sim_emit react inner calm.
Let s_emit_skip := sim_emit_skip react inner calm.
Let s_complete := sim_complete react inner calm.
Let s_aborted := sim_aborted react inner calm.
Let s_reset := sim_reset react inner calm.
Let s_step := sim_step lw react inner calm.
Let s_tx := sim_tx react inner calm.
(** a log section that the plain model runs elsewhere *)
Lemma sim_log : forall w w' a b (k : ract unit), const a ->
  (forall t, match b w with Ok (w2, t') => k (mkR w' t) = (Ok tt, mkR w2 (t ++ t')) | UB _ => bad (k (mkR w' t)) end) ->
  forall t, match World.seq a b w with Ok (w2, t') => (rlift a ~;; k) (mkR w' t) = (Ok tt, mkR w2 (t ++ t')) | UB _ => bad ((rlift a ~;; k) (mkR w' t)) end.
Proof.
  intros w w' a b k [r C] H t. unfold World.seq, rbind, rlift. cbn [r_w r_t]. rewrite !C. destruct r as [t0|u]; cbn [bind]; [|eexists _, _; reflexivity].
  specialize (H (t ++ t0)). destruct (b w) as [[w2 t2]|u]; cbn [bind]; [rewrite app_assoc; exact H|exact H].
Qed.
Lemma v_consume : forall w c s k v, sim w (g_cons_consume lw g c s k v) (vcons_consume lw g react inner c s k v).
Proof.
  intros. apply sim_emit_ask. intros [e cb|co i n off cb|] F; [| |apply s_emit_skip].
  - apply sim_seq; [apply sim_lift|intros w1 t1 _]. unfold g_loco_consume. apply sim_seq; [apply sim_lift|intros w2 t2 _].
    apply sim_ask. intros [x|] M; [|apply sim_skip]. cbn [rwhen_some].
    apply sim_ext with (a := World.seq (loco_consume lw e s k v) (log_if (events g) (log_setting s k))).
    + intros w3. unfold loco_consume, World.seq, ask. rewrite M. cbn [bind]. destruct (get_engine x w3); reflexivity.
    + apply sim_seq; [apply sim_lift|intros; apply sim_lift].
  - apply sim_seq; [apply sim_lift|intros w1 t1 _]. unfold g_list_consume. apply sim_seq; [apply sim_lift|intros w2 t2 _]. apply sim_lift.
Qed.
Lemma consume_wt : forall c s k v, pblind2 (g_cons_consume lw g c s k v).
Proof. intros. unfold g_cons_consume, g_loco_consume, g_list_consume, list_consume, log_line, log_setting, log_if, print. p2. Qed.

Section Text.
Variable p : nat.
Variable sp : SP.
Notation told := (ProofsPassiveLogged.told lw g).
(** heap action h has the outcomes of the pure result r of the text parser started in t *)
Definition esim {R} (t : TP) (r : res (TP * list triple * R)) (h : ract R) : Prop :=
  forall w tr, inside w p ->
    match r with
    | UB _ => bad (h (mkR (wt w p sp t) tr))
    | Ok (t', evs, x) =>
        tp_cons t' = tp_cons t /\
        match told (tp_cons t) evs w with
        | Ok (w', tr') => h (mkR (wt w p sp t) tr) = (Ok x, mkR (wt w' p sp t') (tr ++ tr')) /\ inside w' p
        | UB _ => bad (h (mkR (wt w p sp t) tr))
        end
    end.
Definition req {R} (a b : res R) : Prop := match a, b with Ok x, Ok y => x = y | UB _, UB _ => True | _, _ => False end.
Lemma esim_req : forall R t (r r' : res (TP * list triple * R)) h, req r r' -> esim t r h -> esim t r' h.
Proof. intros R t r r' h Q H w tr I. specialize (H w tr I). destruct r as [x|u], r' as [y|u']; cbn [req] in Q; try contradiction; [subst; exact H|exact H]. Qed.
Lemma esim_ret : forall R t (x : R), esim t (Ok (t, [], x)) (rret x).
Proof. intros R t x w tr I. split; [reflexivity|]. rewrite told_nil. split; [rewrite app_nil_r; reflexivity|exact I]. Qed.
Lemma esim_read : forall R t (r : res (TP * list triple * R)) k, esim t r (k t) -> esim t r (x <~ rtp p ~; k x).
Proof. intros R t r k H w tr I. rewrite read_tp by exact I. apply H. exact I. Qed.
Lemma esim_put : forall R t t' (r : res (TP * list triple * R)) k, tp_cons t' = tp_cons t -> esim t' r k -> esim t r (rtp_put p t' ~;; k).
Proof. intros R t t' r k C H w tr I. rewrite then_write by exact I. specialize (H w tr I). rewrite C in H. exact H. Qed.
Lemma esim_val : forall A R t (v : res A) (f : A -> res (TP * list triple * R)) k, (forall x, v = Ok x -> esim t (f x) (k x)) -> esim t (bind v f) (x <~ rval v ~; k x).
Proof.
  intros A R t v f k H w tr I. destruct v as [x|u]; cbn [bind]; [rewrite then_val with (x := x) by reflexivity; apply H; auto|].
  exists u, (mkR (wt w p sp t) tr). reflexivity.
Qed.
Lemma esim_ub : forall R t u, esim (R := R) t (UB u) (rval (UB u)).
Proof. intros R t u w tr I. exists u, (mkR (wt w p sp t) tr). reflexivity. Qed.
Lemma told_join : forall c a b w, told c (a ++ b) w = World.seq (told c a) (told c b) w.
Proof.
  intros [c|] a b; [|reflexivity]. cbn [ProofsPassiveLogged.told when_some].
  induction a as [|[[s k] v] a IH]; intros w.
  - cbn [app g_cons_consume_all]. unfold World.seq, skip. cbn [bind]. destruct (g_cons_consume_all lw g c b w) as [[w1 t1]|]; reflexivity.
  - cbn [app g_cons_consume_all]. unfold World.seq. destruct (g_cons_consume lw g c s k v w) as [[w1 t1]|]; cbn [bind]; [|reflexivity].
    rewrite IH. unfold World.seq. destruct (g_cons_consume_all lw g c a w1) as [[w2 t2]|]; cbn [bind]; [|reflexivity].
    destruct (g_cons_consume_all lw g c b w2) as [[w3 t3]|]; cbn [bind]; [rewrite app_assoc; reflexivity|reflexivity].
Qed.
Definition andthen {A B} (r : res (TP * list triple * A)) (f : TP -> A -> res (TP * list triple * B)) : res (TP * list triple * B) :=
  '(t, e, x) <- r ;; '(t2, e2, y) <- f t x ;; Ok (t2, e ++ e2, y).
Lemma esim_bind : forall A B t (r : res (TP * list triple * A)) (f : TP -> A -> res (TP * list triple * B)) h k,
  esim t r h -> (forall t' e x, r = Ok (t', e, x) -> esim t' (f t' x) (k x)) -> esim t (andthen r f) (rbind h k).
Proof.
  intros A B t r f h k H K w tr I. specialize (H w tr I). unfold andthen. destruct r as [[[t1 e1] x]|u]; cbn [bind]; [|apply bad_bind; exact H].
  destruct H as [C H]. pose proof (K t1 e1 x eq_refl) as K1. destruct (told (tp_cons t) e1 w) as [[w1 x1]|u1] eqn:T1.
  - destruct H as [H I1]. specialize (K1 w1 (tr ++ x1) I1). destruct (f t1 x) as [[[t2 e2] y]|u2]; cbn [bind].
    + destruct K1 as [C2 K1]. split; [congruence|]. rewrite told_join. unfold World.seq. rewrite T1. cbn [bind]. rewrite C in K1. unfold rbind. rewrite H.
      destruct (told (tp_cons t) e2 w1) as [[w2 x2]|u2]; cbn [bind]; [rewrite app_assoc; exact K1|exact K1].
    + unfold rbind. rewrite H. exact K1.
  - assert (Q : bad (rbind h k (mkR (wt w p sp t) tr))) by (apply bad_bind; exact H).
    destruct (f t1 x) as [[[t2 e2] y]|u2] eqn:F; cbn [bind]; [|exact Q]. split; [|rewrite told_join; unfold World.seq; rewrite T1; exact Q].
    destruct (K1 w [] I) as [C2 _]. congruence.
Qed.
Lemma esim_assoc : forall A B C t (r : res (TP * list triple * C)) (a : ract A) (f : A -> ract B) (f2 : B -> ract C),
  esim t r (rbind a (fun x => rbind (f x) f2)) -> esim t r (rbind (rbind a f) f2).
Proof. intros A B C t r a f f2 H w tr I. rewrite bind_assoc. apply H. exact I. Qed.

Lemma esim_report : forall t, esim t (Ok (t, tp_emit t, tt)) (vtp_report lw g react inner p).
Proof.
  intros t w tr I. split; [reflexivity|]. unfold vtp_report. rewrite read_tp by exact I. unfold tp_emit.
  destruct (tp_cons t) as [c|]; cbn [ProofsPassiveLogged.told when_some rwhen_some g_cons_consume_all]; [|split; [unfold rret; rewrite app_nil_r; reflexivity|exact I]].
  pose proof (v_consume (wt w p sp t) c (tp_sec t) (tp_key t) (tp_val t) tr) as S. rewrite (consume_wt c (tp_sec t) (tp_key t) (tp_val t)) in S.
  unfold World.seq, skip. destruct (g_cons_consume lw g c (tp_sec t) (tp_key t) (tp_val t) w) as [[w1 t1]|u] eqn:E; cbn [bind]; [|exact S].
  rewrite app_nil_r. split; [exact S|]. destruct (ProofsPassiveLogged.consume_other lw g _ _ _ _ _ _ _ p sp t E) as [_ L]. unfold inside. rewrite L. exact I.
Qed.
Lemma esim_error : forall t, esim t (noval (tp_reportParseError t)) (vtp_reportParseError lw g react inner p).
Proof.
  intros t. unfold vtp_reportParseError. apply esim_read. cbv zeta.
  eapply esim_req; [|apply esim_val with (f := fun t' => Ok (t', tp_emit t', tt))].
  - unfold noval, tp_reportParseError. cbv zeta. destruct (bset (tp_sec (set_state t ERROR)) (lit "ERROR")); cbn [bind req]; [|exact Logic.I].
    destruct (bset (tp_key (set_state t ERROR)) (lit "ERROR")); cbn [bind req]; [|exact Logic.I].
    destruct (bset (tp_val (set_state t ERROR)) (lit "ERROR")); cbn [bind req]; [reflexivity|exact Logic.I].
  - intros t' E. apply esim_put; [|apply esim_report].
    destruct (bset (tp_sec (set_state t ERROR)) (lit "ERROR")); cbn [bind] in E; [|discriminate].
    destruct (bset (tp_key (set_state t ERROR)) (lit "ERROR")); cbn [bind] in E; [|discriminate].
    destruct (bset (tp_val (set_state t ERROR)) (lit "ERROR")); cbn [bind] in E; [|discriminate]. inversion E; reflexivity.
Qed.
Lemma esim_error_then : forall R t (x : R), esim t ('(t', e) <- tp_reportParseError t ;; Ok (t', e, x)) (vtp_reportParseError lw g react inner p ~;; rret x).
Proof.
  intros R t x. eapply esim_req; [|apply esim_bind with (f := fun t' _ => Ok (t', [], x)); [apply esim_error|intros; apply esim_ret]].
  unfold andthen, noval. destruct (tp_reportParseError t) as [[t' e]|]; cbn [bind req]; [rewrite app_nil_r; reflexivity|exact Logic.I].
Qed.
Lemma esim_find : forall t o cs d, esim t (tp_findToken t o cs d) (vtp_findToken lw g react inner p o cs d).
Proof.
  intros t o cs d. unfold tp_findToken, vtp_findToken. apply esim_read.
  eapply esim_req; [|apply esim_val with (f := fun r : Z * bool * Z => let '(consumed, success, mch) := r in
    andthen (match d with
      | None => Ok (t, [], success)
      | Some d => bind (partial <- bsub (tp_buf t) o consumed ;; '(b', pushed) <- bpush (dest_get t d) partial ;; Ok (dest_set t d b', pushed <? blen partial))
          (fun r => if snd r : bool then '(t', e) <- tp_reportParseError (fst r) ;; Ok (t', e, false) else Ok (fst r, [], success))
      end) (fun t success => Ok (t, [], mkFT (if success : bool then u8 (consumed + 1) else consumed) success mch)))].
  - destruct (bfind_chars (tp_buf t) cs o) as [found|]; cbn [bind req]; [|exact Logic.I].
    destruct (if found =? npos then Ok (blen (tp_buf t), false, 0) else c <- bget (tp_buf t) found;; Ok (found, true, c)) as [[[consumed success] mch]|]; cbn [bind req]; [|exact Logic.I].
    unfold andthen. destruct d as [d|]; [|reflexivity].
    destruct (bsub (tp_buf t) o consumed) as [partial|]; cbn [bind req]; [|exact Logic.I].
    destruct (bpush (dest_get t d) partial) as [[b' pushed]|]; cbn [bind req fst snd]; [|exact Logic.I].
    destruct (pushed <? blen partial); [|reflexivity].
    destruct (tp_reportParseError (dest_set t d b')) as [[t1 e1]|]; cbn [bind req]; [rewrite app_nil_r; reflexivity|exact Logic.I].
  - intros [[consumed success] mch] _. apply esim_bind; [|intros; apply esim_ret]. destruct d as [d|]; [|apply esim_ret].
    apply esim_val. intros [t' b] E. cbn [fst snd].
    apply esim_put; [|destruct b; [apply esim_error_then|apply esim_ret]].
    destruct (bsub (tp_buf t) o consumed) as [partial|]; cbn [bind] in E; [|discriminate].
    destruct (bpush (dest_get t d) partial) as [[b' pushed]|]; cbn [bind] in E; [|discriminate]. inversion E; destruct d; reflexivity.
Qed.
Definition eiter (t : TP) (c : Z) : res (TP * list triple * (Z * bool)) := '(t, e, c, r) <- tp_iteration t c ;; Ok (t, e, (c, r)).
(** one more write and the result *)
Lemma esim_put_ret : forall R t t' (x : R), tp_cons t' = tp_cons t -> esim t (Ok (t', [], x)) (rtp_put p t' ~;; rret x).
Proof. intros. apply esim_put; [assumption|apply esim_ret]. Qed.
Lemma esim_iteration : forall t c, esim t (eiter t c) (vtp_iteration lw g react inner p c).
Proof.
  intros t c. unfold eiter, tp_iteration, vtp_iteration. apply esim_read. destruct (tp_state t).
  - eapply esim_req; [|apply esim_bind with (r := tp_findToken t c kKeyOrSectionStart None) (f := fun t r =>
      if ft_success r then bind (bget (tp_buf t) (u8 (ft_consumed r - 1))) (fun ch => if ch =? kSectionStart then bind (berase (tp_sec t)) (fun s => Ok (set_state (set_sec t s) PARSING_SECTION, [], (ft_consumed r, false)))
        else if ch =? kKeyStart then Ok (set_state t PARSING_KEY, [], (ft_consumed r, false)) else '(t', e) <- tp_reportParseError t ;; Ok (t', e, (c, true)))
      else Ok (t, [], (ft_consumed r, false))); [apply esim_find|]].
    + unfold andthen. destruct (tp_findToken t c kKeyOrSectionStart None) as [[[t1 e1] r]|]; cbn [bind req]; [|exact Logic.I].
      destruct (ft_success r); [|cbn [bind req]; rewrite app_nil_r; reflexivity].
      destruct (bget (tp_buf t1) (u8 (ft_consumed r - 1))) as [ch|]; cbn [bind req]; [|exact Logic.I]. destruct (ch =? kSectionStart).
      * destruct (berase (tp_sec t1)); cbn [bind req]; [rewrite app_nil_r; reflexivity|exact Logic.I].
      * destruct (ch =? kKeyStart); [cbn [bind req]; rewrite app_nil_r; reflexivity|].
        destruct (tp_reportParseError t1) as [[t2 e2]|]; cbn [bind req]; [reflexivity|exact Logic.I].
    + intros t1 e1 r _. destruct (ft_success r); [|apply esim_ret]. apply esim_read. apply esim_val. intros ch _. destruct (ch =? kSectionStart).
      * apply esim_val. intros s _. apply esim_put_ret. reflexivity.
      * destruct (ch =? kKeyStart); [apply esim_put_ret; reflexivity|apply esim_error_then].
  - eapply esim_req; [|apply esim_bind with (r := tp_findToken t c kSectionStop (Some DSec)) (f := fun t r =>
      Ok (if ft_success r then set_state t LOOKING else t, [], (ft_consumed r, false))); [apply esim_find|]].
    + unfold andthen. destruct (tp_findToken t c kSectionStop (Some DSec)) as [[[t1 e1] r]|]; cbn [bind req]; [|exact Logic.I]. rewrite app_nil_r. reflexivity.
    + intros t1 e1 r _. destruct (ft_success r); [|apply esim_ret]. apply esim_assoc. apply esim_read. apply esim_put_ret. reflexivity.
  - eapply esim_req; [|apply esim_bind with (r := tp_findToken t c kKeyOrValueStop (Some DKey)) (f := fun t r =>
      if ft_success r then
        if ft_match r =? kKeyStop then Ok (set_state t PARSING_VALUE, [], (ft_consumed r, false))
        else if ft_match r =? kValueStop then
          bind (berase (tp_val t)) (fun v => andthen (Ok (set_val t v, tp_emit (set_val t v), tt)) (fun t _ => bind (berase (tp_key t)) (fun k => Ok (set_state (set_key t k) LOOKING, [], (ft_consumed r, false)))))
        else Ok (t, [], (ft_consumed r, false))
      else Ok (t, [], (ft_consumed r, false))); [apply esim_find|]].
    + unfold andthen. destruct (tp_findToken t c kKeyOrValueStop (Some DKey)) as [[[t1 e1] r]|]; cbn [bind req]; [|exact Logic.I].
      destruct (ft_success r); [|cbn [bind req]; rewrite app_nil_r; reflexivity].
      destruct (ft_match r =? kKeyStop); [cbn [bind req]; rewrite app_nil_r; reflexivity|].
      destruct (ft_match r =? kValueStop); [|cbn [bind req]; rewrite app_nil_r; reflexivity].
      destruct (berase (tp_val t1)) as [v|]; cbn [bind req]; [|exact Logic.I].
      destruct (berase (tp_key (set_val t1 v))) as [k|]; cbn [bind req]; [rewrite app_nil_r; reflexivity|exact Logic.I].
    + intros t1 e1 r _. destruct (ft_success r); [|apply esim_ret]. apply esim_assoc. apply esim_read.
      destruct (ft_match r =? kKeyStop); [apply esim_put_ret; reflexivity|].
      destruct (ft_match r =? kValueStop); [|apply esim_ret].
      apply esim_assoc. apply esim_val. intros v _. apply esim_assoc. apply esim_put; [reflexivity|]. apply esim_assoc.
      apply esim_bind; [apply esim_report|]. intros t2 e2 x _. apply esim_assoc. apply esim_read. apply esim_assoc. apply esim_val. intros k _. apply esim_put_ret. reflexivity.
  - eapply esim_req; [|apply esim_bind with (r := tp_findToken t c kValueStop_str (Some DVal)) (f := fun t r =>
      if ft_success r then andthen (Ok (t, tp_emit t, tt)) (fun t _ => bind (berase (tp_key t)) (fun k => bind (berase (tp_val t)) (fun v => Ok (set_state (set_val (set_key t k) v) LOOKING, [], (ft_consumed r, false)))))
      else Ok (t, [], (ft_consumed r, false))); [apply esim_find|]].
    + unfold andthen. destruct (tp_findToken t c kValueStop_str (Some DVal)) as [[[t1 e1] r]|]; cbn [bind req]; [|exact Logic.I].
      destruct (ft_success r); [|cbn [bind req]; rewrite app_nil_r; reflexivity]. cbn [bind].
      destruct (berase (tp_key t1)) as [k|]; cbn [bind req]; [|exact Logic.I]. destruct (berase (tp_val t1)) as [v|]; cbn [bind req]; [rewrite app_nil_r; reflexivity|exact Logic.I].
    + intros t1 e1 r _. destruct (ft_success r); [|apply esim_ret]. apply esim_assoc.
      apply esim_bind; [apply esim_report|]. intros t2 e2 x _. apply esim_assoc. apply esim_read. apply esim_assoc. apply esim_val. intros k _.
      apply esim_assoc. apply esim_val. intros v _. apply esim_put_ret. reflexivity.
  - apply esim_ret.
Qed.
Lemma esim_process : forall fuel t c, esim t (tp_process fuel t c) (vtp_process lw g react inner p fuel c).
Proof.
  induction fuel; intros t c; cbn [tp_process vtp_process]; apply esim_read; (destruct (c <? blen (tp_buf t)); [|apply esim_ret]); [apply esim_ub|].
  eapply esim_req; [|apply esim_bind with (r := eiter t c) (f := fun t x => if snd x : bool then Ok (t, [], fst x) else tp_process fuel t (fst x)); [apply esim_iteration|]].
  - unfold andthen, eiter. destruct (tp_iteration t c) as [[[[t1 e1] c1] [|]]|]; cbn [bind req fst snd]; [rewrite app_nil_r; reflexivity| |exact Logic.I].
    destruct (tp_process fuel t1 c1) as [[[t2 e2] c2]|]; cbn [bind req]; [reflexivity|exact Logic.I].
  - intros t1 e1 [c1 b] _. cbn [fst snd]. destruct b; [apply esim_ret|apply IHfuel].
Qed.
Lemma esim_addLoop : forall input fuel t i, esim t (noval (tp_addLoop fuel t input i)) (vtp_addLoop lw g react inner p fuel input i).
Proof.
  intros input. induction fuel; intros t i; cbn [tp_addLoop vtp_addLoop]; (destruct (i <? blen input); [|apply esim_ret]); [apply esim_ub|].
  apply esim_read. destruct (bfull (tp_buf t) || match tp_state t with ERROR => true | _ => false end); [apply esim_error|].
  eapply esim_req; [|apply esim_val with (f := fun r => andthen (tp_processBuffer (set_buf t (fst r))) (fun t cb => bind (bpop_front (tp_buf t) cb) (fun b => noval (tp_addLoop fuel (set_buf t b) input (u8 (i + snd r))))))].
  - unfold andthen, noval. destruct (bsub1 input i) as [view|]; cbn [bind req]; [|exact Logic.I].
    destruct (bpush (tp_buf t) view) as [[b n]|]; cbn [bind req fst snd]; [|exact Logic.I].
    destruct (tp_processBuffer (set_buf t b)) as [[[t1 e1] cb]|]; cbn [bind req]; [|exact Logic.I].
    destruct (bpop_front (tp_buf t1) cb) as [b3|]; cbn [bind req]; [|exact Logic.I].
    destruct (tp_addLoop fuel (set_buf t1 b3) input (u8 (i + n))) as [[t2 e2]|]; cbn [bind req]; [reflexivity|exact Logic.I].
  - intros r _. apply esim_put; [reflexivity|]. apply esim_bind.
    + unfold vtp_processBuffer, tp_processBuffer. apply esim_read. apply esim_process.
    + intros t1 e1 cb _. apply esim_read. apply esim_val. intros b _. apply esim_put; [reflexivity|apply IHfuel].
Qed.
Lemma esim_addText : forall t input, esim t (noval (tp_addText t input)) (vtp_addText lw g react inner p input).
Proof.
  intros t input. unfold tp_addText, vtp_addText. apply esim_read.
  destruct ((blen input >? kBufferLength) || match tp_state t with ERROR => true | _ => false end); [apply esim_error|apply esim_addLoop].
Qed.
End Text.

(** ** The stream parser *)
Lemma v_message : forall w p d, sim w (g_addMessage lw g p d) (vlib_addMessage lw g react inner p d).
Proof.
  intros w p d. unfold g_addMessage, vlib_addMessage. apply sim_ask. intros sp G. destruct (get_lib_inside _ _ _ G) as [I _].
  destruct (sp_state sp) eqn:ST.
  - apply sim_lift.
  - apply sim_if; intros B.
    + cbv zeta. cbn [sp_remaining sp_text sp_crc sp_cons]. intros tr. rewrite put_then. revert tr.
      apply sim_log; [apply c_log; apply c_header|]. destruct (header_length d >? 0).
      * intros t.
        pose proof (put_state unit w p (mkSP SS_FIRST (header_length d) (sp_text sp) (crc_loadReference (sp_crc sp) (header_crc d)) (sp_cons sp)) SS_DATA t (rret tt) I) as Q.
        unfold rbind at 1 in Q. cbn [sp_remaining sp_text sp_crc sp_cons] in Q.
        match type of Q with (match ?x with _ => _ end) = _ => destruct x as [[[]|u] s'] eqn:X end; [|discriminate]. unfold rret in Q. inversion Q; subst.
        unfold put_lib, put_parser. rewrite app_nil_r. reflexivity.
      * intros t. rewrite (put_state unit w p) by exact I. cbn [sp_remaining sp_text sp_crc sp_cons]. rewrite get_put by exact I. cbn [sp_cons]. fold (pw w p (mkSP SS_DONE (header_length d) (sp_text sp) (crc_loadReference (sp_crc sp) (header_crc d)) (sp_cons sp))).
        pose proof (sim_when (pw w p (mkSP SS_DONE (header_length d) (sp_text sp) (crc_loadReference (sp_crc sp) (header_crc d)) (sp_cons sp))) nat (sp_cons sp) cons_complete (rcons_complete react inner) (fun x _ => s_complete _ x) t) as S.
        unfold World.seq, put_lib, put_parser. cbn [bind]. fold (pw w p (mkSP SS_DONE (header_length d) (sp_text sp) (crc_loadReference (sp_crc sp) (header_crc d)) (sp_cons sp))).
        match type of S with match ?x with _ => _ end => destruct x as [[w2 t2]|u2] end; exact S.
    + apply sim_if; intros; (apply sim_seq; [apply sim_lift|intros; apply s_reset]).
  - apply sim_if; intros B; [apply sim_seq; [apply sim_lift|intros; apply s_reset]|]. cbv zeta.
    intros tr. revert tr. apply sim_log; [apply c_log; apply c_dump|].
    refine (_ : sim w _ _).
    apply sim_ask. intros crc _.
    set (rem := u32 (sp_remaining sp - dlc d)). set (sp0 := mkSP SS_DATA rem (sp_text sp) crc (sp_cons sp)).
    intros tr. rewrite put_then. fold sp0. fold (pw w p sp0).
    assert (W0 : forall t0, pw w p sp0 = wt (pw w p t0) p sp0 (sp_text sp)) by (intros t0; unfold pw, wt, sp0; cbn; rewrite upd_twice; reflexivity).
    assert (IW : forall t0, inside (pw w p t0) p) by (intros t0; unfold inside, pw; cbn [w_parsers]; rewrite upd_len; exact I).
    unfold ask at 1. destruct (tp_addText (sp_text sp) (mkBuf (dbytes d) CanDataMaxLength (dlc d))) as [[t1 evs]|u] eqn:T; cbn [bind].
    2:{ apply bad_bind. pose proof (esim_addText p sp0 (sp_text sp) (mkBuf (dbytes d) CanDataMaxLength (dlc d)) (pw w p sp0) tr (IW _)) as S.
        rewrite T in S. cbn [noval bind] in S. rewrite <- W0 in S. exact S. }
    cbn [fst snd]. set (spX := mkSP SS_DATA rem t1 crc (sp_cons sp)).
    pose proof (esim_addText p sp0 (sp_text sp) (mkBuf (dbytes d) CanDataMaxLength (dlc d)) (pw w p spX) tr (IW _)) as S.
    rewrite T in S. unfold noval in S. cbn [bind] in S. rewrite <- W0 in S. destruct S as [_ S].
    change (when_some (tp_cons (sp_text sp)) (fun c => g_cons_consume_all lw g c evs)) with (told lw g (tp_cons (sp_text sp)) evs).
    revert tr S. match goal with |- forall tr, _ -> match (World.seq _ ?b) w with _ => _ end => set (rest := b) end. intros tr S.
    replace (World.seq (put_lib p spX) rest w) with (rest (pw w p spX)) by (unfold World.seq, put_lib, put_parser, pw; cbn [bind]; destruct (rest _) as [[? ?]|]; reflexivity).
    unfold rest. unfold World.seq at 1. destruct (told lw g (tp_cons (sp_text sp)) evs (pw w p spX)) as [[w1 x1]|u1] eqn:E1; cbn [bind].
    2:{ apply bad_bind. exact S. }
    destruct S as [S L]. rewrite (bind_ok _ _ _ _ _ _ _ S).
    assert (S2 : wt w1 p sp0 t1 = w1).
    { unfold wt, sp0. cbn [sp_state sp_remaining sp_crc sp_cons]. fold spX. rewrite (ProofsPassiveLogged.told_parsers lw g _ _ _ _ _ E1). unfold pw. cbn [w_parsers]. rewrite upd_twice.
      change (upd p (LibP spX) (w_parsers w)) with (w_parsers (pw w p spX)). rewrite <- (ProofsPassiveLogged.told_parsers lw g _ _ _ _ _ E1). destruct w1; reflexivity. }
    assert (S3 : w1 = pw w1 p spX) by (rewrite <- S2 at 1; reflexivity).
    rewrite S2.
    assert (F : sim w1 (if rem =? 0 then ask (fun _ => crc_isValid crc) (fun valid => if valid : bool then World.seq (put_lib p (mkSP SS_DONE rem t1 crc (sp_cons sp))) (World.seq (log_if (events g) (print (zs "Stream complete!" ++ nl))) (when_some (sp_cons sp) cons_complete))
        else World.seq (put_lib p (mkSP SS_IDLE rem t1 crc (sp_cons sp))) (World.seq (log_if (events g) (log_crc_error crc)) (when_some (sp_cons sp) cons_aborted))) else log_if (packets g) (log_continues rem crc))
      (sp <~ rask (get_lib p) ~; if sp_remaining sp =? 0 then valid <~ rval (crc_isValid (sp_crc sp)) ~;
          if valid : bool then rput_state p SS_DONE ~;; vlog (events g) (print (zs "Stream complete!" ++ nl)) ~;; sp <~ rask (get_lib p) ~; rwhen_some (sp_cons sp) (rcons_complete react inner)
          else rput_state p SS_IDLE ~;; vlog (events g) (log_crc_error (sp_crc sp)) ~;; sp <~ rask (get_lib p) ~; rwhen_some (sp_cons sp) (rcons_aborted react inner) else vlog (packets g) (log_continues (sp_remaining sp) (sp_crc sp)))).
    { eapply sim_read.
      - rewrite S3. unfold get_lib, get_parser, at_, pw. cbn [w_parsers]. rewrite nth_upd_in by exact L. reflexivity.
      - cbn [sp_remaining sp_crc spX]. apply sim_if; intros; [|apply sim_lift]. apply sim_ask. intros [|] _; apply sim_put_lib; intros t; replace (mkR w1 t) with (mkR (pw w1 p spX) t) by (rewrite <- S3; reflexivity); unfold pw at 2 3.
        + rewrite (put_state unit w1 p) by exact L. unfold spX. cbn [sp_remaining sp_text sp_crc sp_cons].
          refine (sim_log _ _ _ _ _ _ _ t); [apply c_log; apply c_print|]. intros t2. rewrite get_put by exact L. cbn [sp_cons].
          refine (sim_when _ _ _ _ _ _ t2). intros; apply s_complete.
        + rewrite (put_state unit w1 p) by exact L. unfold spX. cbn [sp_remaining sp_text sp_crc sp_cons].
          refine (sim_log _ _ _ _ _ _ _ t); [apply c_log; apply c_crc_error|]. intros t2. rewrite get_put by exact L. cbn [sp_cons].
          refine (sim_when _ _ _ _ _ _ t2). intros; apply s_aborted. }
    specialize (F (tr ++ x1)). match type of F with match ?x with _ => _ end => destruct x as [[w' x2]|u2] end; cbn [bind]; [rewrite app_assoc; exact F|exact F].
  - apply sim_lift.
Qed.
Lemma v_add : forall w p d, sim w (g_cfg_add lw g p d) (vcfg_add lw g react inner p d).
Proof.
  intros. apply sim_emit_ask. intros [sp|beh h] F.
  - apply sim_seq; [apply sim_lift|]. intros w1 t1 _. apply v_message.
  - intros t. unfold World.seq, emit, put_parser, rbind at 1, rlift. cbn [bind r_w r_t app]. rewrite app_nil_r. apply s_emit.
Qed.
Lemma v_config : forall w s d, sim w (g_handleConfigDataStream lw g s d) (vst_handleConfigDataStream lw g react inner s d).
Proof.
  intros. unfold g_handleConfigDataStream, vst_handleConfigDataStream. apply sim_ask; intros. apply sim_ask; intros. destruct x0.
  - apply sim_seq; [apply sim_lift|intros; apply v_add].
  - apply sim_seq; [apply sim_lift|intros; apply sim_lift].
Qed.
Lemma v_packet : forall w s f, sim w (g_handlePacket lw g s f) (vst_handlePacket lw g react inner s f).
Proof.
  intros. unfold g_handlePacket, vst_handlePacket. apply sim_seq; [apply sim_lift|intros w1 t1 _].
  destruct (id_getCommand (fid f) =? kRequestConfigData) eqn:C1.
  { apply Z.eqb_eq in C1. rewrite C1. cbn [Z.eqb kRequestConfigData kSystemCommand]. apply sim_lift. }
  destruct (id_getCommand (fid f) =? kConfigDataStream) eqn:C2.
  { apply Z.eqb_eq in C2. rewrite C2. apply sim_seq; [apply sim_lift|intros; apply v_config]. }
  pose proof (s_step w1 (OnStation s (HandlePacket f))) as H. cbn [step st_step rstep rst_step] in H. unfold st_handlePacket in H. rewrite C1, C2 in H. exact H.
Qed.
Lemma v_step : forall w o, sim w (lstep lw g o) (vstep lw g react inner o).
Proof.
  intros w o. destruct o as [s x| | | | | | | | | | |]; try exact (s_step w _); [|apply v_message].
  destruct x; try exact (s_step w _).
  - apply v_packet.
  - apply v_config.
  - cbn [lstep vstep]. unfold g_sendAccessoryPacket, vst_sendAccessoryPacket. apply sim_ask. intros st G. cbv zeta. apply sim_seq; [apply sim_lift|].
    intros w1 t1 E. destruct (lg_out g); inversion E; subst; apply s_tx; exact G.
  - cbn [lstep vstep]. unfold g_requestEngine, vst_requestEngine. apply sim_seq; [apply sim_lift|]. intros w1 t1 _. exact (s_step w1 (OnStation s (RequestEngine _ _))).
Qed.
End Exact.

Lemma logged_sim : forall lw g react n ops w, (forall h, react h = Ret) -> sim w (lrun lw g ops) (vexec lw g react (S n) (ops_code ops)).
Proof.
  intros lw g react n ops w P. revert w. induction ops as [|o ops IH]; intros w; [apply sim_skip|].
  change (vexec lw g react (S n) (ops_code (o :: ops))) with (vstep lw g react (vexec lw g react n) o ~;; vexec lw g react (S n) (ops_code ops)).
  cbn [lrun]. apply sim_seq; [|intros; apply IH]. apply v_step. intros h s. rewrite P. destruct n; reflexivity.
Qed.
Lemma logged_exact : forall lw g react n ops w t w' t', (forall h, react h = Ret) ->
  (lrun lw g ops w = Ok (w', t') <-> vexec lw g react (S n) (ops_code ops) (mkR w t) = (Ok tt, mkR w' (t ++ t'))).
Proof.
  intros lw g react n ops w t w' t' P. pose proof (logged_sim lw g react n ops w P t) as S. destruct (lrun lw g ops w) as [[w1 t1]|u].
  - rewrite S. split; intros E; [inversion E; reflexivity|]. inversion E as [[E1 E2]]. apply app_inv_head in E2. subst. reflexivity.
  - split; [discriminate|]. intros E. rewrite E in S. destruct S as (u' & s' & S). discriminate.
Qed.
Lemma logged_undefined : forall lw g react n ops w t, (forall h, react h = Ret) ->
  ((exists u, lrun lw g ops w = UB u) <-> exists u s, vexec lw g react (S n) (ops_code ops) (mkR w t) = (UB u, s)).
Proof.
  intros lw g react n ops w t P. pose proof (logged_sim lw g react n ops w P t) as S. destruct (lrun lw g ops w) as [[w1 t1]|u].
  - rewrite S. split; [intros [u E]; discriminate|intros (u & s & E); discriminate].
  - split; [intros _; exact S|intros _; exists u; reflexivity].
Qed.
