(* ProofsTouchDoc.v -- proofs for C131: the text parser of Reentry.v, with a consumer that uses the
   buffers, is that of Meddle.v; a whole download. *)
From Verif Require Import ZLib SpecTouch ProofsBuffer ProofsText ProofsMeddle ProofsStation ProofsStream ProofsSafe ProofsPassive ProofsReentry ProofsCrc ProofsConsumer.

Lemma handed_app : forall c a b, handed_lines c (a ++ b) = handed_lines c a ++ handed_lines c b.
Proof. intros. apply flat_map_app. Qed.
Definition lev (c : nat) (x : triple) : event := let '(s, k, v) := x in EvConsume c s k v.
Lemma handed_lev : forall c l, handed_lines c (map (lev c) l) = l.
Proof. intros c l. induction l as [|((s & k) & v) l IH]; [reflexivity|]. cbn [map lev]. unfold handed_lines. cbn [flat_map]. rewrite Nat.eqb_refl. cbn [app]. apply f_equal. exact IH. Qed.

(** lines already handed out stay *)
Lemma handed_log : forall f c log r, exists new, snd (handed f c log r) = log ++ new.
Proof. intros f [c|] log r; [exists [r]; reflexivity|exists []; symmetry; apply app_nil_r]. Qed.
Lemma mfail_log : forall f c log, exists new, snd (mfail f c log) = log ++ new.
Proof. intros f c log. destruct (handed_log f c log error_report) as (new & E). exists new. unfold mfail. destruct (handed f c log error_report) as [[[s k] v] l]. exact E. Qed.
Lemma mstep_log : forall f c x z, exists new, snd (SpecMeddle.mstep f c x z) = snd x ++ new.
Proof.
  intros f c (a, log) z. unfold SpecMeddle.mstep. cbn [snd]. assert (S0 : exists new, log = log ++ new) by (exists []; symmetry; apply app_nil_r).
  destruct (a_at a); try exact S0.
  - destruct (_ || _); [exact S0|apply mfail_log].
  - destruct (z =? NEWLINE).
    + destruct (handed_log f c log (a_sec a, a_key a, [])) as (new & E). exists new. destruct (handed f c log _) as [[[s k] v] l]. exact E.
    + destruct (_ || _); [exact S0|apply mfail_log].
  - destruct (z =? NEWLINE).
    + destruct (handed_log f c log (a_sec a, a_key a, a_val a)) as (new & E). exists new. destruct (handed f c log _) as [[[s k] v] l]. exact E.
    + destruct (_ <? _)%nat; [exact S0|apply mfail_log].
Qed.
Lemma madd_log : forall f c s x, exists new, snd (madd f c x s) = snd x ++ new.
Proof.
  intros f c s x. unfold madd. destruct (_ || _); [apply mfail_log|]. revert x. induction s as [|z s IH]; intros x; cbn [fold_left]; [exists []; symmetry; apply app_nil_r|].
  destruct (IH (SpecMeddle.mstep f c x z)) as (n2 & E2). destruct (mstep_log f c x z) as (n1 & E1). exists (n1 ++ n2). rewrite E2, E1, app_assoc. reflexivity.
Qed.

Section Sim.
Variable lw : Z.
Variable n : nat.
Variables p c : nat.
Variable q : consumer.
Notation inner := (fun (_ : code) (s : rst) => texec lw (meddles p c q) n (meddles p c q (r_t s)) s).
Notation N := no_code.
Notation hq := (code_of q).

Definition put_bufs (t : TP) (x : triple) : TP := let '(s, k, v) := x in set_val (set_key (set_sec t s) k) v.
Lemma exec_touch : forall v s, texec lw (meddles p c q) n (TTouch p v (fun _ _ => TRet)) s = touch p v s.
Proof.
  intros v s. destruct n; cbn [texec]; unfold rbind at 1; destruct (touch p v s) as [[[]|u] s']; reflexivity.
Qed.
Lemma wt_again : forall w sp t t', inside w p ->
  put_lib p (mkSP (sp_state sp) (sp_remaining sp) t' (sp_crc sp) (sp_cons sp)) (wt w p sp t) = Ok (wt w p sp t', []).
Proof. intros w sp t t' I. unfold put_lib, put_parser, wt. cbn [w_stations w_parsers w_conss w_engines]. rewrite upd_twice. reflexivity. Qed.
Lemma touched : forall w sp t tr v x, inside w p -> code_of (fun _ => v) [] (tp_sec t, tp_key t, tp_val t) = Ok x ->
  touch p v (mkR (wt w p sp t) tr) = (Ok tt, mkR (wt w p sp (put_bufs t x)) tr).
Proof.
  intros w sp t tr v ((s & k) & y) I E. unfold touch, rbind at 1, rask. cbn [r_w]. rewrite wt_get by exact I. cbn [sp_text sp_state sp_remaining sp_crc sp_cons].
  rewrite (then_val _ _ _ _ _ _ E). unfold rlift. cbn [r_w r_t]. rewrite wt_again by exact I. rewrite app_nil_r. reflexivity.
Qed.

(** action h does to the heap what the pure function did, and hands the lines to consumer c *)
Definition msim {A} (sp : SP) (x : mtp) (r : res (mtp * A)) (h : ract A) : Prop := forall w tr t' log' a,
  inside w p -> user_consumer w c -> tp_cons (fst x) = Some c -> handed_lines c tr = snd x -> r = Ok (t', log', a) ->
  exists new, log' = snd x ++ new /\ tp_cons t' = Some c /\ h (mkR (wt w p sp (fst x)) tr) = (Ok a, mkR (wt w p sp t') (tr ++ map (lev c) new)).
Definition unit_of (r : res mtp) : res (mtp * unit) := x <- r ;; Ok (x, tt).

Lemma report_m : forall sp x, msim sp x (unit_of (Meddle.m_tell hq x)) (rtp_report lw N inner p).
Proof.
  intros sp (t, log) w tr t' log' a I U C HL E. cbn [fst snd] in *. unfold unit_of, Meddle.m_tell in E. rewrite C in E.
  destruct (hq log (tp_sec t, tp_key t, tp_val t)) as [((s & k) & v)|] eqn:EQ; cbn [bind] in E; [|discriminate]. injection E as <- <- <-.
  exists [(tp_sec t, tp_key t, tp_val t)]. split; [reflexivity|]. split; [exact C|].
  unfold rtp_report. rewrite read_tp by exact I. rewrite C. cbn [rwhen_some]. unfold rcons_consume, rbind at 1, rask. cbn [r_w].
  assert (G : get_cons c (wt w p sp t) = Ok UserC) by (unfold get_cons, at_, wt; cbn [w_conss]; unfold user_consumer in U; rewrite U; reflexivity). rewrite G.
  unfold ucall, rbind at 1, rlift, emit. cbn [r_w r_t].
  assert (M : meddles p c q (tr ++ [EvConsume c (tp_sec t) (tp_key t) (tp_val t)]) = TTouch p (q log) (fun _ _ => TRet)).
  { unfold meddles. rewrite rev_app_distr. cbn [rev app]. rewrite Nat.eqb_refl, rev_involutive, HL. reflexivity. }
  rewrite M. rewrite exec_touch. rewrite (touched w sp t _ (q log) (s, k, v) I) by (exact EQ). reflexivity.
Qed.
Lemma error_m : forall sp x, msim sp x (unit_of (Meddle.m_reportParseError hq x)) (rtp_reportParseError lw N inner p).
Proof.
  intros sp (t, log) w tr t' log' a I U C HL E. cbn [fst snd] in *. unfold Meddle.m_reportParseError in E. unfold rtp_reportParseError. rewrite read_tp by exact I.
  destruct (bset (tp_sec (set_state t ERROR)) (lit "ERROR")) as [s|] eqn:E1; cbn [bind] in E; [|discriminate].
  destruct (bset (tp_key (set_state t ERROR)) (lit "ERROR")) as [k|] eqn:E2; cbn [bind] in E; [|discriminate].
  destruct (bset (tp_val (set_state t ERROR)) (lit "ERROR")) as [v|] eqn:E3; cbn [bind] in E; [|discriminate].
  erewrite then_val by reflexivity. rewrite then_write by exact I.
  exact (report_m sp (set_val (set_key (set_sec (set_state t ERROR) s) k) v, log) w tr t' log' a I U C HL E).
Qed.
Lemma find_m : forall sp x o cs d, msim sp x (Meddle.m_findToken hq x o cs d) (rtp_findToken lw N inner p o cs d).
Proof.
  intros sp (t, log) o cs d w tr t' log' x I U C HL E. cbn [fst snd] in *. unfold Meddle.m_findToken in E. unfold rtp_findToken. rewrite read_tp by exact I.
  destruct (bfind_chars (tp_buf t) cs o) as [found|] eqn:F; cbn [bind] in E; [|discriminate].
  destruct (if found =? npos then Ok (blen (tp_buf t), false, 0) else c <- bget (tp_buf t) found;; Ok (found, true, c)) as [[[consumed success] mch]|] eqn:G; cbn [bind] in E; [|discriminate].
  erewrite then_val by (cbn [bind]; exact G). destruct d as [d|].
  - destruct (bsub (tp_buf t) o consumed) as [partial|] eqn:B; cbn [bind] in E; [|discriminate].
    destruct (bpush (dest_get t d) partial) as [[b' pushed]|] eqn:P; cbn [bind] in E; [|discriminate].
    rewrite bind_assoc. erewrite then_val by (cbn [bind]; rewrite P; cbn [bind]; reflexivity). cbn [fst snd].
    rewrite bind_assoc. rewrite then_write by exact I. assert (C' : tp_cons (dest_set t d b') = Some c) by (destruct d; exact C).
    destruct (pushed <? blen partial) eqn:Q.
    + destruct (Meddle.m_reportParseError hq (dest_set t d b', log)) as [[t1 log1]|] eqn:RE; cbn [bind] in E; [|discriminate]. injection E as <- <- <-.
      destruct (error_m sp (dest_set t d b', log) w tr t1 log1 tt I U C' HL) as (new & L & C1 & K); [unfold unit_of; rewrite RE; reflexivity|].
      exists new. split; [exact L|]. split; [exact C1|]. rewrite bind_assoc. unfold rbind at 1. cbn [fst] in K. rewrite K. reflexivity.
    + cbn [bind] in E. injection E as <- <- <-. exists []. rewrite !app_nil_r. auto.
  - cbn [bind] in E. injection E as <- <- <-. exists []. rewrite !app_nil_r. auto.
Qed.
Definition triple_of (r : res (mtp * Z * bool)) : res (mtp * (Z * bool)) := '(x, z, b) <- r ;; Ok (x, (z, b)).
Lemma seen_more : forall tr log new, handed_lines c tr = log -> handed_lines c (tr ++ map (lev c) new) = log ++ new.
Proof. intros tr log new <-. rewrite handed_app, handed_lev. reflexivity. Qed.
Lemma iteration_m : forall sp x z, msim sp x (triple_of (Meddle.m_iteration hq x z)) (rtp_iteration lw N inner p z).
Proof.
  intros sp (t, log) z w tr t' log' a I U C HL E. cbn [fst snd] in *. unfold triple_of in E.
  destruct (Meddle.m_iteration hq (t, log) z) as [(((t0, log0), z0), r0)|] eqn:H; cbn [bind] in E; [|discriminate]. injection E as <- <- <-.
  unfold Meddle.m_iteration in H. cbn [fst] in H. unfold rtp_iteration. rewrite read_tp by exact I. destruct (tp_state t).
  - destruct (Meddle.m_findToken hq (t, log) z kKeyOrSectionStart None) as [((t1, log1), r)|] eqn:E1; cbn [bind] in H; [|discriminate].
    destruct (find_m sp (t, log) z _ _ w tr t1 log1 r I U C HL E1) as (new & L & C1 & K). cbn [fst snd] in *. unfold rbind at 1. rewrite K. clear K.
    assert (HL1 := seen_more tr log new HL).
    destruct (ft_success r).
    + rewrite read_tp by exact I. destruct (bget (tp_buf t1) (u8 (ft_consumed r - 1))) as [ch|] eqn:B; cbn [bind] in H; [|discriminate].
      erewrite then_val by reflexivity. destruct (ch =? kSectionStart).
      * destruct (berase (tp_sec t1)) as [s|] eqn:BE; cbn [bind] in H; [|discriminate]. injection H as <- <- <- <-. erewrite then_val by reflexivity. rewrite then_write by exact I.
        exists new. split; [exact L|]. split; [exact C1|reflexivity].
      * rewrite ?B in H. cbn [bind] in H. destruct (ch =? kKeyStart).
        -- injection H as <- <- <- <-. rewrite then_write by exact I. exists new. split; [exact L|]. split; [exact C1|reflexivity].
        -- destruct (Meddle.m_reportParseError hq (t1, log1)) as [[t2 log2]|] eqn:RE; cbn [bind] in H; [|discriminate]. injection H as <- <- <- <-.
           rewrite <- L in HL1. destruct (error_m sp (t1, log1) w _ t2 log2 tt I U C1 HL1) as (new2 & L2 & C2 & K2); [unfold unit_of; rewrite RE; reflexivity|].
           cbn [fst snd] in *. exists (new ++ new2). split; [rewrite L2, L, app_assoc; reflexivity|]. split; [exact C2|]. unfold rbind at 1. rewrite K2. rewrite map_app, app_assoc. reflexivity.
    + injection H as <- <- <- <-. exists new. split; [exact L|]. split; [exact C1|reflexivity].
  - destruct (Meddle.m_findToken hq (t, log) z kSectionStop (Some DSec)) as [((t1, log1), r)|] eqn:E1; cbn [bind] in H; [|discriminate]. injection H as <- <- <- <-.
    destruct (find_m sp (t, log) z _ _ w tr t1 log1 r I U C HL E1) as (new & L & C1 & K). cbn [fst snd] in *. unfold rbind at 1. rewrite K.
    exists new. split; [exact L|]. destruct (ft_success r).
    + split; [exact C1|]. rewrite bind_assoc, read_tp by exact I. rewrite then_write by exact I. reflexivity.
    + split; [exact C1|reflexivity].
  - destruct (Meddle.m_findToken hq (t, log) z kKeyOrValueStop (Some DKey)) as [((t1, log1), r)|] eqn:E1; cbn [bind] in H; [|discriminate].
    destruct (find_m sp (t, log) z _ _ w tr t1 log1 r I U C HL E1) as (new & L & C1 & K). cbn [fst snd] in *. unfold rbind at 1. rewrite K. clear K.
    assert (HL1 := seen_more tr log new HL).
    destruct (ft_success r).
    + rewrite bind_assoc, read_tp by exact I. destruct (ft_match r =? kKeyStop).
      * injection H as <- <- <- <-. rewrite then_write by exact I. exists new. split; [exact L|]. split; [exact C1|reflexivity].
      * destruct (ft_match r =? kValueStop).
        -- destruct (berase (tp_val t1)) as [v|] eqn:BV; cbn [bind] in H; [|discriminate].
           destruct (Meddle.m_tell hq (set_val t1 v, log1)) as [(t2, log2)|] eqn:MT; cbn [bind] in H; [|discriminate].
           destruct (berase (tp_key t2)) as [k|] eqn:BK; cbn [bind] in H; [|discriminate]. injection H as <- <- <- <-.
           rewrite bind_assoc. erewrite then_val by (first [exact BV|reflexivity]). rewrite bind_assoc, then_write by exact I. rewrite bind_assoc.
           rewrite <- L in HL1. destruct (report_m sp (set_val t1 v, log1) w _ t2 log2 tt I U C1 HL1) as (new2 & L2 & C2 & K2); [unfold unit_of; rewrite MT; reflexivity|].
           cbn [fst snd] in *. unfold rbind at 1. rewrite K2. rewrite bind_assoc, read_tp by exact I. rewrite bind_assoc. erewrite then_val by (first [exact BK|reflexivity]). rewrite then_write by exact I.
           exists (new ++ new2). split; [rewrite L2, L, app_assoc; reflexivity|]. split; [exact C2|]. rewrite map_app, app_assoc. reflexivity.
        -- injection H as <- <- <- <-. exists new. split; [exact L|]. split; [exact C1|reflexivity].
    + injection H as <- <- <- <-. exists new. split; [exact L|]. split; [exact C1|reflexivity].
  - destruct (Meddle.m_findToken hq (t, log) z kValueStop_str (Some DVal)) as [((t1, log1), r)|] eqn:E1; cbn [bind] in H; [|discriminate].
    destruct (find_m sp (t, log) z _ _ w tr t1 log1 r I U C HL E1) as (new & L & C1 & K). cbn [fst snd] in *. unfold rbind at 1. rewrite K. clear K.
    assert (HL1 := seen_more tr log new HL).
    destruct (ft_success r).
    + destruct (Meddle.m_tell hq (t1, log1)) as [(t2, log2)|] eqn:MT; cbn [bind] in H; [|discriminate].
      destruct (berase (tp_key t2)) as [k|] eqn:BK; cbn [bind] in H; [|discriminate]. destruct (berase (tp_val t2)) as [v|] eqn:BV; cbn [bind] in H; [|discriminate]. injection H as <- <- <- <-.
      rewrite <- L in HL1. destruct (report_m sp (t1, log1) w _ t2 log2 tt I U C1 HL1) as (new2 & L2 & C2 & K2); [unfold unit_of; rewrite MT; reflexivity|].
      cbn [fst snd] in *. rewrite bind_assoc. unfold rbind at 1. rewrite K2. rewrite bind_assoc, read_tp by exact I. rewrite bind_assoc. erewrite then_val by (first [exact BK|reflexivity]). rewrite bind_assoc. erewrite then_val by (first [exact BV|reflexivity]). rewrite then_write by exact I.
      exists (new ++ new2). split; [rewrite L2, L, app_assoc; reflexivity|]. split; [exact C2|]. rewrite map_app, app_assoc. reflexivity.
    + injection H as <- <- <- <-. exists new. split; [exact L|]. split; [exact C1|reflexivity].
  - injection H as <- <- <- <-. exists []. rewrite !app_nil_r. auto.
Qed.
Lemma process_m : forall sp fuel x z, msim sp x (Meddle.m_process hq fuel x z) (rtp_process lw N inner p fuel z).
Proof.
  intros sp fuel. induction fuel; intros (t, log) z w tr t' log' a I U C HL E; cbn [Meddle.m_process rtp_process fst snd] in *; rewrite read_tp by exact I.
  - destruct (z <? blen (tp_buf t)); [discriminate|]. injection E as <- <- <-. exists []. rewrite !app_nil_r. auto.
  - destruct (z <? blen (tp_buf t)).
    + destruct (Meddle.m_iteration hq (t, log) z) as [(((t1, log1), z1), r1)|] eqn:H; cbn [bind] in E; [|discriminate].
      destruct (iteration_m sp (t, log) z w tr t1 log1 (z1, r1) I U C HL) as (new & L & C1 & K); [unfold triple_of; rewrite H; reflexivity|]. cbn [fst snd] in *.
      unfold rbind at 1. rewrite K. cbn [fst snd]. destruct r1.
      * injection E as <- <- <-. exists new. auto.
      * assert (HL1 := seen_more tr log new HL). rewrite <- L in HL1.
        destruct (IHfuel (t1, log1) z1 w _ t' log' a I U C1 HL1 E) as (new2 & L2 & C2 & K2). cbn [fst snd] in *.
        exists (new ++ new2). split; [rewrite L2, L, app_assoc; reflexivity|]. split; [exact C2|]. rewrite K2, map_app, app_assoc. reflexivity.
    + injection E as <- <- <-. exists []. rewrite !app_nil_r. auto.
Qed.
Lemma addLoop_m : forall sp input fuel x i, msim sp x (unit_of (Meddle.m_addLoop hq fuel x input i)) (rtp_addLoop lw N inner p fuel input i).
Proof.
  intros sp input fuel. induction fuel; intros (t, log) i w tr t' log' a I U C HL E; cbn [Meddle.m_addLoop rtp_addLoop fst snd] in *.
  - destruct (i <? blen input); [discriminate|]. injection E as <- <- <-. exists []. rewrite !app_nil_r. auto.
  - destruct (i <? blen input).
    + rewrite read_tp by exact I. destruct (bfull (tp_buf t) || match tp_state t with ERROR => true | _ => false end).
      * apply (error_m sp (t, log) w tr t' log' a I U C HL E).
      * destruct (bsub1 input i) as [view|] eqn:B1; cbn [bind unit_of] in E; [|discriminate].
        destruct (bpush (tp_buf t) view) as [[b k]|] eqn:B2; cbn [bind] in E; [|discriminate].
        destruct (Meddle.m_process hq (Z.to_nat (blen b)) (set_buf t b, log) 0) as [((t1, log1), cb)|] eqn:H; cbn [bind] in E; [|discriminate].
        destruct (bpop_front (tp_buf t1) cb) as [b3|] eqn:B3; cbn [bind] in E; [|discriminate].
        erewrite then_val by (cbn [bind]; exact B2). cbn [fst snd]. rewrite then_write by exact I.
        destruct (process_m sp _ (set_buf t b, log) 0 w tr t1 log1 cb I U C HL H) as (new & L & C1 & K). cbn [fst snd] in *.
        unfold rbind at 1. unfold rtp_processBuffer. rewrite read_tp by exact I. cbn [set_buf tp_buf] in *. rewrite K. rewrite read_tp by exact I.
        erewrite then_val by (first [exact B3|reflexivity]). rewrite then_write by exact I.
        assert (HL1 := seen_more tr log new HL). rewrite <- L in HL1.
        destruct (IHfuel (set_buf t1 b3, log1) (u8 (i + k)) w _ t' log' a I U C1 HL1 E) as (new2 & L2 & C2 & K2). cbn [fst snd] in *.
        exists (new ++ new2). split; [rewrite L2, L, app_assoc; reflexivity|]. split; [exact C2|]. rewrite K2, map_app, app_assoc. reflexivity.
    + injection E as <- <- <-. exists []. rewrite !app_nil_r. auto.
Qed.
Lemma addText_m : forall sp x input, msim sp x (unit_of (Meddle.m_addText hq x input)) (rtp_addText lw N inner p input).
Proof.
  intros sp (t, log) input w tr t' log' a I U C HL E. unfold Meddle.m_addText in E. unfold rtp_addText. cbn [fst snd] in *. rewrite read_tp by exact I.
  destruct ((blen input >? kBufferLength) || match tp_state t with ERROR => true | _ => false end).
  - apply (error_m sp (t, log) w tr t' log' a I U C HL E).
  - apply (addLoop_m sp input _ (t, log) 0 w tr t' log' a I U C HL E).
Qed.

(** ** Data frames and a whole download *)
Lemma then_ask : forall A B (f : world -> res A) (k : A -> ract B) x s, f (r_w s) = Ok x -> (rbind (rask f) k) s = k x s.
Proof. intros A B f k x s E. unfold rbind, rask. rewrite E. reflexivity. Qed.
Lemma then_lib : forall A w sp tr (k : SP -> ract A), inside w p ->
  (y <~ rask (get_lib p) ~; k y) (mkR (with_parser w p (LibP sp)) tr) = k sp (mkR (with_parser w p (LibP sp)) tr).
Proof. intros A w sp tr k I. apply then_ask. cbn [r_w]. unfold get_lib, get_parser, at_, with_parser. cbn [w_parsers]. rewrite nth_upd_in by exact I. reflexivity. Qed.
Lemma put_then : forall A w sp sp' tr (k : ract A), inside w p ->
  (rlift (put_lib p sp') ~;; k) (mkR (with_parser w p (LibP sp)) tr) = k (mkR (with_parser w p (LibP sp')) tr).
Proof.
  intros A w sp sp' tr k I. unfold rbind, rlift, put_lib, put_parser, with_parser. cbn [r_w r_t w_parsers w_stations w_conss w_engines]. rewrite upd_twice, app_nil_r. reflexivity.
Qed.
Lemma put_state : forall w sp x tr, inside w p ->
  rput_state p x (mkR (with_parser w p (LibP sp)) tr) = (Ok tt, mkR (with_parser w p (LibP (mkSP x (sp_remaining sp) (sp_text sp) (sp_crc sp) (sp_cons sp)))) tr).
Proof.
  intros w sp x tr I. unfold rput_state. rewrite then_lib by exact I. unfold rlift, put_lib, put_parser, with_parser. cbn [r_w r_t w_parsers w_stations w_conss w_engines]. rewrite upd_twice, app_nil_r. reflexivity.
Qed.
Lemma quiet_end : forall e s, (forall c' s k v, e <> EvConsume c' s k v) -> ucall N inner e s = (Ok tt, mkR (r_w s) (r_t s ++ [e])).
Proof.
  intros e (w, tr) NE. unfold ucall, rbind, rlift, emit. cbn [r_w r_t]. unfold meddles. rewrite rev_app_distr. cbn [rev app].
  destruct e; try (destruct n; reflexivity). exfalso. eapply NE. reflexivity.
Qed.
Lemma user_complete : forall w tr, user_consumer w c -> rcons_complete N inner c (mkR w tr) = (Ok tt, mkR w (tr ++ [EvStreamComplete c])).
Proof.
  intros w tr U. unfold rcons_complete. rewrite (then_ask _ _ _ _ UserC) by (unfold get_cons, at_; cbn [r_w]; unfold user_consumer in U; rewrite U; reflexivity).
  rewrite quiet_end by discriminate. reflexivity.
Qed.
Lemma user_aborted : forall w tr, user_consumer w c -> rcons_aborted N inner c (mkR w tr) = (Ok tt, mkR w (tr ++ [EvStreamAborted c])).
Proof.
  intros w tr U. unfold rcons_aborted. rewrite (then_ask _ _ _ _ UserC) by (unfold get_cons, at_; cbn [r_w]; unfold user_consumer in U; rewrite U; reflexivity).
  rewrite quiet_end by discriminate. reflexivity.
Qed.
Lemma lev_consumed : forall l, map (lev c) (map as_buffers l) = consumed c l.
Proof. intros l. unfold consumed. rewrite map_map. apply map_ext. intros ((s & k) & v). reflexivity. Qed.

Variable f : conduct.
Hypothesis LV : leaves q f.
Lemma data_m : forall w rest crc got a log d tr, inside w p -> user_consumer w c -> fits a -> data_frame d -> handed_lines c tr = map as_buffers log ->
  let x' := madd f (Some c) (a, log) (content d) in let got' := got ++ content d in
  exists new, snd x' = log ++ new /\ fits (fst x') /\
  rlib_addMessage lw N inner p d (mkR (with_parser w p (LibP (body_sp rest crc got a (Some c) SS_DATA))) tr) =
  if u32 (rest - 8) =? 0 then (Ok tt, mkR (with_parser w p (LibP (body_sp 0 crc got' (fst x') (Some c) (if verdict got' crc then SS_DONE else SS_IDLE)))) ((tr ++ consumed c new) ++ [ending got' crc c]))
  else (Ok tt, mkR (with_parser w p (LibP (body_sp (u32 (rest - 8)) crc got' (fst x') (Some c) SS_DATA))) (tr ++ consumed c new)).
Proof.
  intros w rest crc got a log d tr I U F (P & D) HL x' got'.
  assert (AG : agrees hq f) by (apply leaves_agrees; exact LV).
  pose proof (m_addText_spec hq f (a, log) (Some c) _ _ AG F (holds_data _ P D)) as MA. fold x' in MA.
  destruct (addText_m (body_sp (u32 (rest - 8)) crc got' a (Some c) SS_DATA) (mparser (a, log) (Some c)) (mkBuf (dbytes d) CanDataMaxLength (dlc d)) w tr (parser (fst x') (Some c)) (map as_buffers (snd x')) tt I U eq_refl HL) as (new & L & C1 & K).
  { unfold unit_of. rewrite MA. reflexivity. }
  cbn [mparser fst snd] in L, K.
  assert (NW : exists new0, new = map as_buffers new0 /\ snd x' = log ++ new0).
  { destruct (madd_log f (Some c) (content d) (a, log)) as (new0 & E). fold x' in E. cbn [snd] in E. exists new0. split; [|exact E]. rewrite E, map_app in L. apply app_inv_head in L. symmetry. exact L. }
  destruct NW as (new0 & -> & N0). rewrite lev_consumed in K. exists new0. split; [exact N0|]. split; [apply (madd_fits hq); assumption|].
  unfold rlib_addMessage. rewrite then_lib by exact I. cbn [body_sp sp_state sp_remaining sp_crc sp_text sp_cons]. replace (negb (dlc d =? 8)) with false by (rewrite D; reflexivity).
  assert (X1 : (bs <- data_visited d ;; crc_feed (mkCrc (Def (crc_of 0xFFFF got)) (Def crc)) bs) = Ok (mkCrc (Def (crc_of 0xFFFF got')) (Def crc))).
  { rewrite (visited_data _ P D). cbn [bind]. rewrite crc_feed_eq. unfold got'. rewrite crc_of_app. reflexivity. }
  rewrite (then_val _ _ _ _ _ _ X1). rewrite put_then by exact I. replace (u32 (rest - dlc d)) with (u32 (rest - 8)) by (rewrite D; reflexivity).
  unfold rbind at 1.
  match goal with |- context [rtp_addText _ _ _ _ _ ?s] => replace s with (mkR (wt w p (body_sp (u32 (rest - 8)) crc got' a (Some c) SS_DATA) (parser a (Some c))) tr) by reflexivity end.
  rewrite K.
  change (wt w p (body_sp (u32 (rest - 8)) crc got' a (Some c) SS_DATA) (parser (fst x') (Some c))) with (with_parser w p (LibP (body_sp (u32 (rest - 8)) crc got' (fst x') (Some c) SS_DATA))).
  rewrite then_lib by exact I. cbn [body_sp sp_state sp_remaining sp_crc sp_text sp_cons].
  destruct (u32 (rest - 8) =? 0) eqn:Z0; [|reflexivity]. apply Z.eqb_eq in Z0. rewrite Z0. unfold ending, verdict.
  erewrite then_val by reflexivity. destruct (crc_of 65535 got' =? crc).
  - unfold rbind at 1. rewrite put_state by exact I. rewrite then_lib by exact I. cbn [sp_cons rwhen_some]. etransitivity; [apply user_complete; exact U|reflexivity].
  - unfold rbind at 1. rewrite put_state by exact I. rewrite then_lib by exact I. cbn [sp_cons rwhen_some]. etransitivity; [apply user_aborted; exact U|reflexivity].
Qed.

Lemma change_lib : forall w sp g tr, inside w p ->
  rlift (ask (get_lib p) (fun sp => put_lib p (g sp))) (mkR (with_parser w p (LibP sp)) tr) = (Ok tt, mkR (with_parser w p (LibP (g sp))) tr).
Proof.
  intros w sp g tr I. unfold rlift, ask. cbn [r_w]. unfold get_lib, get_parser, at_, with_parser. cbn [w_parsers]. rewrite nth_upd_in by exact I. cbn [bind].
  unfold put_lib, put_parser. cbn [r_t w_parsers w_stations w_conss w_engines]. rewrite upd_twice, app_nil_r. reflexivity.
Qed.
Lemma calls_cons : forall o l s, texec lw (meddles p c q) (S n) (calls_of (o :: l)) s = (rstep lw N inner o ~;; texec lw (meddles p c q) (S n) (calls_of l)) s.
Proof. reflexivity. Qed.
Lemma body_m : forall ds w crc got a log tr, inside w p -> user_consumer w c -> fits a -> Forall data_frame ds -> handed_lines c tr = map as_buffers log ->
  ds <> [] -> 8 * zlen ds < 4294967296 ->
  let x' := fold_left (madd f (Some c)) (map content ds) (a, log) in let got' := got ++ received ds in
  exists new, snd x' = log ++ new /\ fits (fst x') /\
  texec lw (meddles p c q) (S n) (calls_of (map (ParserAddMessage p) ds)) (mkR (with_parser w p (LibP (body_sp (8 * zlen ds) crc got a (Some c) SS_DATA))) tr) =
  (Ok tt, mkR (with_parser w p (LibP (body_sp 0 crc got' (fst x') (Some c) (if verdict got' crc then SS_DONE else SS_IDLE)))) (tr ++ consumed c new ++ [ending got' crc c])).
Proof.
  induction ds as [|d ds IH]; intros w crc got a log tr I U F D HL NE B x' got'; [contradiction|]. inversion D; subst.
  destruct (data_m w (8 * zlen (d :: ds)) crc got a log d tr I U F H1 HL) as (new & E & F1 & K).
  cbn [map]. rewrite calls_cons. unfold rbind at 1. cbn [rstep]. rewrite K. clear K.
  assert (ZL : zlen (d :: ds) = zlen ds + 1) by (unfold zlen; cbn [List.length]; lia). rewrite ZL in *.
  assert (Z0 : 0 <= zlen ds) by (unfold zlen; lia). replace (u32 (8 * (zlen ds + 1) - 8)) with (8 * zlen ds) by (unfold u32; rewrite Z.mod_small; lia).
  destruct ds as [|d2 ds].
  - replace (8 * zlen (@nil Data) =? 0) with true by reflexivity. cbn [map calls_of texec]. exists new. split; [exact E|]. split; [exact F1|].
    assert (G : got' = got ++ content d) by (unfold got', received; cbn [flat_map]; rewrite app_nil_r; reflexivity). rewrite G. unfold x'. cbn [map fold_left]. rewrite <- app_assoc. reflexivity.
  - assert (Z1 : 0 < zlen (d2 :: ds)) by (unfold zlen; cbn [List.length]; lia). replace (8 * zlen (d2 :: ds) =? 0) with false by (symmetry; apply Z.eqb_neq; lia).
    destruct (madd f (Some c) (a, log) (content d)) as (a1, log1) eqn:M. cbn [fst snd] in *.
    assert (HL1 : handed_lines c (tr ++ consumed c new) = map as_buffers log1). { rewrite E, map_app, <- lev_consumed. apply seen_more. exact HL. }
    destruct (IH w crc (got ++ content d) a1 log1 (tr ++ consumed c new) I U F1 H2 HL1 ltac:(discriminate) ltac:(lia)) as (new2 & E2 & F2 & K2).
    rewrite K2. exists (new ++ new2).
    assert (X : x' = fold_left (madd f (Some c)) (map content (d2 :: ds)) (a1, log1)) by (unfold x'; cbn [map fold_left]; rewrite M; reflexivity). rewrite X.
    split; [rewrite E2, E, app_assoc; reflexivity|]. split; [exact F2|].
    assert (G : got' = (got ++ content d) ++ received (d2 :: ds)) by (unfold got', received; cbn [flat_map]; rewrite !app_assoc; reflexivity). rewrite G.
    unfold consumed. rewrite map_app, !app_assoc. reflexivity.
Qed.
Lemma download_m : forall hd ds w crc sp a log tr, lib_at w p sp -> fits a -> sp_text sp = parser a (sp_cons sp) -> user_consumer w c ->
  header_for hd (8 * zlen ds) crc -> ds <> [] -> 8 * zlen ds < 4294967296 -> Forall data_frame ds -> handed_lines c tr = map as_buffers log ->
  let x' := fold_left (madd f (Some c)) (map content ds) (a, log) in
  exists new sp', snd x' = log ++ new /\ sp_text sp' = parser (fst x') (Some c) /\ sp_cons sp' = Some c /\ fits (fst x') /\
  texec lw (meddles p c q) (S n) (calls_of (download p c hd ds)) (mkR w tr) =
  (Ok tt, mkR (with_parser w p (LibP sp')) (tr ++ consumed c new ++ [ending (received ds) crc c])).
Proof.
  intros hd ds w crc sp a log tr L F T U H NE B D HL x'.
  assert (I : inside w p) by (unfold inside; apply nth_error_Some; unfold lib_at in L; rewrite L; discriminate).
  assert (W : w = with_parser w p (LibP sp)) by (symmetry; unfold with_parser; rewrite upd_same_id by exact L; destruct w; reflexivity).
  destruct (body_m ds w crc [] a log tr I U F D HL NE B) as (new & E & F1 & K). fold x' in E, F1, K. cbn [app] in K.
  eexists new, _. split; [exact E|]. split; [|split; [|split; [exact F1|]]]; cycle 2.
  - unfold download. rewrite W at 1. rewrite calls_cons. unfold rbind at 1. cbn [rstep step]. rewrite (change_lib w sp (fun sp => sp_setConsumer sp (Some c)) tr I).
    rewrite calls_cons. unfold rbind at 1. cbn [rstep step]. rewrite (change_lib w _ sp_startStream tr I).
    set (sp1 := sp_startStream (sp_setConsumer sp (Some c))).
    cbn [map]. rewrite calls_cons. unfold rbind at 1. cbn [rstep]. unfold rlib_addMessage at 1. rewrite then_lib by exact I.
    destruct (header_decodes _ _ _ H) as (HLN & HCR). destruct H as (_ & DH & _).
    cbn [sp1 sp_startStream sp_setConsumer sp_state sp_remaining sp_crc sp_text sp_cons].
    replace ((dlc hd =? 6) || (dlc hd =? 7)) with true by (symmetry; rewrite orb_true_iff, !Z.eqb_eq; exact DH).
    rewrite put_then by exact I. rewrite HLN, HCR.
    assert (Z1 : 0 < zlen ds) by (destruct ds; [contradiction|unfold zlen; cbn [List.length]; lia]). replace (8 * zlen ds >? 0) with true by lia.
    rewrite put_state by exact I. cbn [sp_remaining sp_crc sp_text sp_cons].
    match goal with |- texec _ _ _ _ (mkR (with_parser w p (LibP ?s)) _) = _ => replace s with (body_sp (8 * zlen ds) crc [] a (Some c) SS_DATA) end.
    + exact K.
    + unfold body_sp. rewrite T. reflexivity.
  - reflexivity.
  - reflexivity.
Qed.
End Sim.

(** ** Documents, and consumers that change nothing of importance *)
Lemma content_short : forall ds, Forall data_frame ds -> short (map content ds).
Proof.
  intros ds D. unfold short. apply Forall_forall. intros x X. apply in_map_iff in X. destruct X as (d & <- & I). unfold content, max_text, zlen.
  pose proof (firstn_le_length 8 (dbytes d)). lia.
Qed.
Lemma concat_content : forall ds, List.concat (map content ds) = received ds.
Proof. intros ds. unfold received. rewrite flat_map_concat_map. reflexivity. Qed.
Lemma read_document : forall q f c d ds, leaves q f -> doc_ok d -> carries ds d ->
  (values_fit f [] [] [] d -> snd (fold_left (madd f (Some c)) (map content ds) (astart, [])) = meddled f [] [] [] d) /\
  (a_at (fst (fold_left (madd f (Some c)) (map content ds) (astart, []))) <> Failed <-> values_fit f [] [] [] d).
Proof.
  intros q f c d ds L D (DF & gap & G & E).
  destruct (madds_feed f (Some c) (map content ds) (astart, []) (content_short ds DF) ltac:(discriminate)) as (M1 & M2). rewrite concat_content, E in M1, M2. rewrite mfeed_app in M1, M2.
  destruct (mfeed_doc (code_of q) f c d [] [] [] (leaves_agrees q f L) D ltac:(cbn; lia) ltac:(cbn; lia)) as [(X & s' & l' & Y)|(X & Y)]; fold astart in Y.
  - rewrite Y in M1, M2. rewrite mfeed_between in M1, M2 by (reflexivity || assumption). rewrite M1 by discriminate. split; [reflexivity|]. split; [auto|discriminate].
  - rewrite (mfeed_failed f (Some c) gap _ Y) in M2. specialize (M2 Y). split; [intros K; exfalso; exact (X K)|]. rewrite M2. split; [intros K; exfalso; apply K; reflexivity|intros K; exfalso; exact (X K)].
Qed.

Lemma stay_step : forall c a log z, SpecMeddle.mstep stay (Some c) (a, log) z = (fst (astep a z), log ++ snd (astep a z)).
Proof.
  intros c (at_, s, k, v) log z. unfold SpecMeddle.mstep, astep. cbn [a_at a_sec a_key a_val].
  destruct at_; repeat match goal with |- context [if ?b then _ else _] => destruct b eqn:? end; cbn [fst snd orb] in *; rewrite ?app_nil_r; try reflexivity; try discriminate;
    repeat match goal with H : (_ =? _) = true |- _ => apply Z.eqb_eq in H; subst end; try discriminate; try reflexivity.
Qed.
Lemma stay_feed : forall c s a log, fold_left (SpecMeddle.mstep stay (Some c)) s (a, log) = (fst (afeed a s), log ++ snd (afeed a s)).
Proof.
  intros c. induction s as [|z s IH]; intros a log; cbn [fold_left afeed]; [rewrite app_nil_r; reflexivity|]. rewrite stay_step, IH.
  destruct (astep a z) as (a1, e1). cbn [fst snd]. destruct (afeed a1 s) as (a2, e2). cbn [fst snd]. rewrite app_assoc. reflexivity.
Qed.
Lemma stay_add : forall c s a log, madd stay (Some c) (a, log) s = (fst (aadd a s), log ++ snd (aadd a s)).
Proof. intros c s a log. unfold madd, aadd. cbn [fst snd]. destruct (_ || _); [reflexivity|]. apply stay_feed. Qed.
Lemma stay_adds : forall c l a log, fold_left (madd stay (Some c)) l (a, log) = (fst (aadds a l), log ++ snd (aadds a l)).
Proof.
  intros c. induction l as [|z s IH]; intros a log; cbn [fold_left aadds]; [rewrite app_nil_r; reflexivity|]. rewrite stay_add, IH.
  destruct (aadd a z) as (a1, e1). cbn [fst snd]. destruct (aadds a1 s) as (a2, e2). cbn [fst snd]. rewrite app_assoc. reflexivity.
Qed.
Lemma adds_alike : forall f c l x y, harmless f -> alike x y -> alike (fold_left (madd f c) l x) (fold_left (madd stay c) l y).
Proof. intros f c. induction l as [|s l IH]; intros x y H A; cbn [fold_left]; [exact A|]. apply IH; [exact H|]. apply madd_alike; assumption. Qed.
Lemma harmless_lines : forall f c l a log, harmless f -> snd (fold_left (madd f (Some c)) l (a, log)) = log ++ snd (aadds a l).
Proof.
  intros f c l a log H. destruct (adds_alike f (Some c) l (a, log) (a, log) H) as (_ & E); [split; [left; reflexivity|reflexivity]|]. rewrite E, stay_adds. reflexivity.
Qed.

(** ** As stated *)
Lemma ending_is : forall got crc c, (checksum_is got crc -> ending got crc c = EvStreamComplete c) /\ (~ checksum_is got crc -> ending got crc c = EvStreamAborted c).
Proof.
  intros got crc c. unfold ending. split; intros V.
  - apply verdict_true in V. rewrite V. reflexivity.
  - destruct (verdict got crc) eqn:Q; [apply verdict_true in Q; contradiction|reflexivity].
Qed.
Lemma download_meddled : forall lw n p c q f hd ds w crc sp a log tr, leaves q f -> lib_at w p sp -> fits a -> sp_text sp = parser a (sp_cons sp) -> user_consumer w c ->
  header_for hd (8 * zlen ds) crc -> ds <> [] -> 8 * zlen ds < 2 ^ 32 -> Forall data_frame ds -> handed_lines c tr = map as_buffers log ->
  exists a' sp' new last, fold_left (madd f (Some c)) (map content ds) (a, log) = (a', log ++ new) /\
  texec lw (meddles p c q) (S n) (calls_of (download p c hd ds)) (mkR w tr) = (Ok tt, mkR (with_parser w p (LibP sp')) (tr ++ consumed c new ++ [last])) /\
  fits a' /\ sp_text sp' = parser a' (Some c) /\ sp_cons sp' = Some c /\
  (checksum_is (received ds) crc -> last = EvStreamComplete c) /\ (~ checksum_is (received ds) crc -> last = EvStreamAborted c).
Proof.
  intros lw n p c q f hd ds w crc sp a log tr LV L F T U H NE B D HL.
  destruct (download_m lw n p c q f LV hd ds w crc sp a log tr L F T U H NE B D HL) as (new & sp' & E & T' & C' & F' & R).
  destruct (fold_left (madd f (Some c)) (map content ds) (a, log)) as (a', log') eqn:M. cbn [fst snd] in *. subst log'.
  exists a', sp', new. eexists. split; [reflexivity|]. split; [exact R|]. split; [exact F'|]. split; [exact T'|]. split; [exact C'|]. apply ending_is.
Qed.
Lemma download_document : forall lw n p c q f hd ds d w sp tr, leaves q f -> lib_at w p sp -> sp_text sp = parser astart (sp_cons sp) -> user_consumer w c ->
  proper_stream hd ds -> carries ds d -> doc_ok d -> handed_lines c tr = [] ->
  exists sp' lines, texec lw (meddles p c q) (S n) (calls_of (download p c hd ds)) (mkR w tr) =
    (Ok tt, mkR (with_parser w p (LibP sp')) (tr ++ consumed c lines ++ [EvStreamComplete c])) /\
  (values_fit f [] [] [] d -> lines = meddled f [] [] [] d) /\ (tp_state (sp_text sp') <> ERROR <-> values_fit f [] [] [] d).
Proof.
  intros lw n p c q f hd ds d w sp tr LV L T U (crc & H & CK & NE & B & D) CA DO HL.
  destruct (download_meddled lw n p c q f hd ds w crc sp astart [] tr LV L start_fits T U H NE B D HL) as (a' & sp' & new & last & M & R & F' & T' & C' & V & _).
  rewrite (V CK) in R. destruct (read_document q f c d ds LV DO CA) as (Y1 & Y2). rewrite M in Y1, Y2. cbn [fst snd app] in Y1, Y2.
  exists sp', new. split; [exact R|]. split; [exact Y1|]. rewrite T'. cbn [parser tp_state]. rewrite <- Y2. destruct (a_at a'); cbn [pstate]; split; congruence.
Qed.
Lemma download_harmless : forall lw n p c q f hd ds w crc sp a log tr, leaves q f -> harmless f -> lib_at w p sp -> fits a -> sp_text sp = parser a (sp_cons sp) -> user_consumer w c ->
  header_for hd (8 * zlen ds) crc -> ds <> [] -> 8 * zlen ds < 2 ^ 32 -> Forall data_frame ds -> handed_lines c tr = map as_buffers log ->
  exists sp' w2 t2, texec lw (meddles p c q) (S n) (calls_of (download p c hd ds)) (mkR w tr) = (Ok tt, mkR (with_parser w p (LibP sp')) (tr ++ calls t2)) /\
    run lw (download p c hd ds) w = Ok (w2, t2).
Proof.
  intros lw n p c q f hd ds w crc sp a log tr LV HM L F T U H NE B D HL.
  destruct (download_m lw n p c q f LV hd ds w crc sp a log tr L F T U H NE B D HL) as (new & sp' & E & T' & C' & F' & R).
  rewrite harmless_lines in E by exact HM. apply app_inv_head in E.
  assert (N1 : 0 < zlen ds) by (destruct ds; [contradiction|unfold zlen; cbn [List.length]; lia]).
  destruct (download_user lw p c hd ds (zlen ds) crc w sp a L F T U H N1 B D eq_refl) as (sp2 & t2 & R2 & C2).
  exists sp'. eexists. exists t2. split; [|exact R2]. rewrite R, C2. unfold lines_of. rewrite E. reflexivity.
Qed.
