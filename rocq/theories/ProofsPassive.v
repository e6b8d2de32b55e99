(* ProofsPassive.v -- callbacks that do not call back, or only send: the re-entrant model reaches
   the same state as World.v, with the same trace up to the frames sent from the callbacks. *)
From Verif Require Import ZLib Reentry ProofsWorld ProofsReentry ProofsSafe.

Lemma seq_inv : forall a b w w' t, (World.seq a b) w = Ok (w', t) -> exists w1 t1 t2, a w = Ok (w1, t1) /\ b w1 = Ok (w', t2) /\ t = t1 ++ t2.
Proof.
  intros a b w w' t H. unfold World.seq in H. destruct (a w) as [[w1 t1]|u] eqn:E; [|discriminate]. cbn [bind] in H.
  destruct (b w1) as [[w2 t2]|u] eqn:E2; [|discriminate]. cbn [bind] in H. inversion H; subst. exists w1, t1, t2. auto.
Qed.
Lemma ask_inv : forall A (f : world -> res A) k w r, ask f k w = Ok r -> exists x, f w = Ok x /\ k x w = Ok r.
Proof. intros A f k w r H. unfold ask in H. destruct (f w) as [x|]; [|discriminate]. exists x. auto. Qed.
Lemma emit_ask : forall A e (f : world -> res A) k w w' t, (World.seq (emit e) (ask f k)) w = Ok (w', t) ->
  exists x t1, f w = Ok x /\ k x w = Ok (w', t1) /\ t = e :: t1.
Proof.
  intros A e f k w w' t H. apply seq_inv in H. destruct H as (w1 & t1 & t2 & E1 & E2 & ->). inversion E1; subst.
  unfold ask in E2. destruct (f w1) as [x|] eqn:F; [|discriminate]. exists x, t2. auto.
Qed.

(** ** The text parser *)
Section Lines.
Variable lw : Z.
Definition wt (w : world) (p : nat) (sp : SP) (t : TP) : world :=
  mkW (w_stations w) (upd p (LibP (mkSP (sp_state sp) (sp_remaining sp) t (sp_crc sp) (sp_cons sp))) (w_parsers w)) (w_conss w) (w_engines w).
Definition inside (w : world) (p : nat) : Prop := (p < List.length (w_parsers w))%nat.
Lemma nth_upd_in : forall A n (x : A) l, (n < List.length l)%nat -> nth_error (upd n x l) n = Some x.
Proof. induction n; intros x [|y l] H; cbn in *; try lia; [reflexivity|apply IHn; lia]. Qed.
Lemma upd_twice : forall A n (x y : A) l, upd n x (upd n y l) = upd n x l.
Proof. induction n; intros x y [|z l]; cbn; [reflexivity|reflexivity|reflexivity|rewrite IHn; reflexivity]. Qed.
Lemma wt_get : forall w p sp t, inside w p -> get_lib p (wt w p sp t) = Ok (mkSP (sp_state sp) (sp_remaining sp) t (sp_crc sp) (sp_cons sp)).
Proof. intros w p sp t H. unfold get_lib, get_parser, at_, wt. cbn [w_parsers]. rewrite nth_upd_in by exact H. reflexivity. Qed.

Lemma read_tp : forall A w p sp t tr (k : TP -> ract A), inside w p -> (x <~ rtp p ~; k x) (mkR (wt w p sp t) tr) = k t (mkR (wt w p sp t) tr).
Proof. intros A w p sp t tr k H. unfold rtp, rbind, rask, rret. cbn [r_w]. rewrite wt_get by exact H. reflexivity. Qed.
Lemma write_tp : forall w p sp t t' tr, inside w p -> rtp_put p t' (mkR (wt w p sp t) tr) = (Ok tt, mkR (wt w p sp t') tr).
Proof.
  intros w p sp t t' tr H. unfold rtp_put, rbind, rask, rlift, put_lib, put_parser. cbn [r_w r_t]. rewrite wt_get by exact H.
  cbn. rewrite app_nil_r. unfold wt. cbn. rewrite upd_twice. reflexivity.
Qed.
Lemma then_write : forall A w p sp t t' tr (k : ract A), inside w p -> (rtp_put p t' ~;; k) (mkR (wt w p sp t) tr) = k (mkR (wt w p sp t') tr).
Proof. intros A w p sp t t' tr k H. unfold rbind at 1. rewrite write_tp by exact H. reflexivity. Qed.
Lemma then_val : forall A B (r : res A) (k : A -> ract B) x s, r = Ok x -> (y <~ rval r ~; k y) s = k x s.
Proof. intros A B r k x s H. unfold rbind, rval, rask. rewrite H. reflexivity. Qed.
Lemma then_ret : forall A B (x : A) (k : A -> ract B) s, (y <~ rret x ~; k y) s = k x s.
Proof. reflexivity. Qed.
Lemma bind_assoc : forall A B C (a : ract A) (f : A -> ract B) (g : B -> ract C) s, rbind (rbind a f) g s = rbind a (fun x => rbind (f x) g) s.
Proof. intros. unfold rbind. destruct (a s) as [[x|u] s']; reflexivity. Qed.

(** library consumers do not look at the parsers *)
Lemma consume_other : forall c s k v w w' t p sp x, cons_consume lw c s k v w = Ok (w', t) ->
  cons_consume lw c s k v (wt w p sp x) = Ok (wt w' p sp x, t) /\ w_parsers w' = w_parsers w.
Proof.
  intros c s k v w w' t p sp x H. unfold cons_consume in *. destruct (emit_ask _ _ _ _ _ _ _ H) as (o & t1 & F & K & ->).
  assert (F' : get_cons c (wt w p sp x) = Ok o) by exact F.
  unfold World.seq at 1, emit at 1. cbn [bind]. unfold ask at 1. rewrite F'. cbn [bind].
  assert (Q : (match o with LocoC engine _ => loco_consume lw engine s k v
    | ListC complete infos num offset endcb => list_consume lw c complete infos num offset endcb s k v | UserC => skip end) (wt w p sp x)
    = Ok (wt w' p sp x, t1) /\ w_parsers w' = w_parsers w).
  { destruct o as [e cb|co i n off cb|].
    - unfold loco_consume, ask in *. destruct (mread e) as [[e'|]|]; cbn [bind] in *; [|inversion K; subst; auto|discriminate].
      unfold get_engine in *. cbn [wt w_engines] in *. destruct (at_ (w_engines w) e') as [l|]; cbn [bind] in *; [|discriminate].
      destruct (loco_line lw l s k v) as [l'|]; cbn [bind] in *; [|discriminate]. inversion K; subst. split; reflexivity.
    - unfold list_consume, ask, print, put_cons, World.seq, emit, skip in *. destruct (bstrncmp s kEngineNames) as [[|]|]; cbn [bind] in *; [| |discriminate].
      + destruct (findFirstFreeEntry i) as [j|]; [|inversion K; subst; auto]. destruct (c_str (mem v)) as [tx|]; cbn [bind] in *; [|discriminate].
        destruct (si_setName (nth j i si_reset) (mem v)) as [si|]; cbn [bind] in *; [|discriminate]. inversion K; subst. split; reflexivity.
      + destruct (bstrncmp s kSectionNumEngines) as [[|]|]; cbn [bind] in *; [| |discriminate].
        * destruct (bstrncmp k kGenericValue) as [[|]|]; cbn [bind] in *; [| |discriminate]; [|inversion K; subst; auto].
          destruct (basUint8 lw v) as [m|]; cbn [bind] in *; [|discriminate]. inversion K; subst. split; reflexivity.
        * destruct (c_str (mem s)) as [tx|]; cbn [bind] in *; [|discriminate]. inversion K; subst. split; reflexivity.
    - inversion K; subst. split; reflexivity. }
  destruct Q as [-> Q]. cbn [bind]. split; [reflexivity|exact Q].
Qed.

(** the calls made, on the world without the parser's own changes *)
Definition told (c : option nat) (l : list triple) : act := when_some c (fun c => cons_consume_all lw c l).
Lemma told_nil : forall c w, told c [] w = Ok (w, []). Proof. intros [c|] w; reflexivity. Qed.
Lemma told_app : forall c a b w w' t, told c (a ++ b) w = Ok (w', t) -> exists w1 t1 t2, told c a w = Ok (w1, t1) /\ told c b w1 = Ok (w', t2) /\ t = t1 ++ t2.
Proof.
  intros [c|] a b; [|intros w w' t H; inversion H; subst; exists w', [], []; auto]. cbn [told when_some].
  induction a as [|[[s k] v] a IH]; intros w w' t H; [exists w, [], t; auto|]. cbn [app cons_consume_all] in *.
  apply seq_inv in H. destruct H as (w1 & t1 & t2 & E1 & E2 & ->). destruct (IH _ _ _ E2) as (w2 & t3 & t4 & E3 & E4 & ->).
  exists w2, (t1 ++ t3), t4. unfold World.seq. rewrite E1. cbn [bind]. rewrite E3. cbn [bind]. rewrite app_assoc. auto.
Qed.

(** ** Member accesses of the stream parser *)
Lemma told_parsers : forall c l w w' t, told c l w = Ok (w', t) -> w_parsers w' = w_parsers w.
Proof.
  intros [c|] l; [|intros w w' t H; inversion H; reflexivity]. cbn [told when_some].
  induction l as [|[[s k] v] l IH]; intros w w' t H; [inversion H; reflexivity|]. cbn [cons_consume_all] in H.
  apply seq_inv in H. destruct H as (w1 & t1 & t2 & E1 & E2 & ->). destruct (consume_other _ _ _ _ _ _ _ 0%nat sp_new tp_new E1) as [_ L].
  rewrite (IH _ _ _ E2). exact L.
Qed.
Lemma get_lib_inside : forall p w sp, get_lib p w = Ok sp -> inside w p /\ nth_error (w_parsers w) p = Some (LibP sp).
Proof.
  intros p w sp H. unfold get_lib, get_parser, at_ in H. destruct (nth_error (w_parsers w) p) as [[x|b h]|] eqn:E; cbn in H; inversion H; subst.
  split; [|reflexivity]. apply nth_error_Some. rewrite E. discriminate.
Qed.
Lemma put_state : forall A w p (sp' : SP) x tr (k : ract A), inside w p ->
  (rput_state p x ~;; k) (mkR (mkW (w_stations w) (upd p (LibP sp') (w_parsers w)) (w_conss w) (w_engines w)) tr)
  = k (mkR (mkW (w_stations w) (upd p (LibP (mkSP x (sp_remaining sp') (sp_text sp') (sp_crc sp') (sp_cons sp'))) (w_parsers w)) (w_conss w) (w_engines w)) tr).
Proof.
  intros A w p sp' x tr k I. unfold rput_state, rbind, rask, rlift, put_lib, put_parser, get_lib, get_parser, at_. cbn [r_w r_t w_parsers w_stations w_conss w_engines].
  rewrite nth_upd_in by exact I. cbn. rewrite app_nil_r, upd_twice. reflexivity.
Qed.
Lemma get_put : forall A w p sp tr (k : SP -> ract A), inside w p ->
  (x <~ rask (get_lib p) ~; k x) (mkR (mkW (w_stations w) (upd p (LibP sp) (w_parsers w)) (w_conss w) (w_engines w)) tr)
  = k sp (mkR (mkW (w_stations w) (upd p (LibP sp) (w_parsers w)) (w_conss w) (w_engines w)) tr).
Proof.
  intros A w p sp tr k I. unfold rbind, rask, get_lib, get_parser, at_. cbn [r_w w_parsers]. rewrite nth_upd_in by exact I. reflexivity.
Qed.
Lemma put_then : forall A w p sp tr (k : ract A),
  (rlift (put_lib p sp) ~;; k) (mkR w tr) = k (mkR (mkW (w_stations w) (upd p (LibP sp) (w_parsers w)) (w_conss w) (w_engines w)) tr).
Proof. intros. unfold rbind, rlift, put_lib, put_parser. cbn [r_w r_t]. rewrite app_nil_r. reflexivity. Qed.
Lemma put_lib_seq' : forall p sp a w w' t, (World.seq (put_lib p sp) a) w = Ok (w', t) ->
  a (mkW (w_stations w) (upd p (LibP sp) (w_parsers w)) (w_conss w) (w_engines w)) = Ok (w', t).
Proof. intros p sp a w w' t H. apply seq_inv in H. destruct H as (w1 & t1 & t2 & E1 & E2 & ->). inversion E1; subst. exact E2. Qed.

Definition noval (r : res (TP * list triple)) : res (TP * list triple * unit) := '(t, e) <- r ;; Ok (t, e, tt).

(** ** Outcomes up to inserted events, in worlds satisfying Good *)
Section Outcome.
Variable Good : world -> Prop.
Variable ins : list event -> list event -> Prop.
Hypothesis ins_nil : ins [] [].
Hypothesis ins_app : forall a a' b b', ins a a' -> ins b b' -> ins (a ++ b) (a' ++ b').
Definition out {A} (r : res A * rst) (x : A) (w : world) (tr t : list event) : Prop :=
  Good w /\ exists t', ins t t' /\ r = (Ok x, mkR w (tr ++ t')).
Lemma out_bind : forall A B (a : ract A) (f : A -> ract B) s x y w1 w2 tr t1 t2,
  out (a s) x w1 tr t1 -> (forall tr1, Good w1 -> out (f x (mkR w1 tr1)) y w2 tr1 t2) -> out (rbind a f s) y w2 tr (t1 ++ t2).
Proof.
  intros A B a f s x y w1 w2 tr t1 t2 (G & t1' & I1 & E1) H. unfold out, rbind. rewrite E1. destruct (H (tr ++ t1') G) as (G2 & t2' & I2 & E2).
  split; [exact G2|]. exists (t1' ++ t2'). split; [apply ins_app; assumption|]. rewrite E2, app_assoc. reflexivity.
Qed.
Lemma out_bind_l : forall A B (a : ract A) (f : A -> ract B) s x y w1 w2 tr t1,
  out (a s) x w1 tr t1 -> (forall tr1, Good w1 -> out (f x (mkR w1 tr1)) y w2 tr1 []) -> out (rbind a f s) y w2 tr t1.
Proof. intros. rewrite <- (app_nil_r t1). eapply out_bind; eassumption. Qed.
Lemma out_bind_and : forall A B (a : ract A) (f : A -> ract B) s x y w1 w2 tr t2 (X : Prop),
  out (a s) x w1 tr [] -> (forall tr1, Good w1 -> out (f x (mkR w1 tr1)) y w2 tr1 t2 /\ X) -> out (rbind a f s) y w2 tr t2 /\ X.
Proof.
  intros A B a f s x y w1 w2 tr t2 X K H. split.
  - change t2 with ([] ++ t2). eapply out_bind; [exact K|]. intros tr1 G. apply H. exact G.
  - destruct K as [G _]. apply (H [] G).
Qed.
Lemma out_ret : forall A (x : A) w tr, Good w -> out (Ok x, mkR w tr) x w tr [].
Proof. intros A x w tr G. split; [exact G|]. exists []. split; [exact ins_nil|]. rewrite app_nil_r. reflexivity. Qed.

Section Text.
Variable react : list event -> code.
Variable inner : code -> ract unit.
Variable p : nat.
(** Good depends on a text parser only through its consumer *)
Hypothesis good_wt2 : forall w sp t t', tp_cons t' = tp_cons t -> Good (wt w p sp t) -> Good (wt w p sp t').
Hypothesis consume_out : forall w0 sp t0 c s k v w' t tr, inside w0 p -> tp_cons t0 = Some c -> Good (wt w0 p sp t0) -> cons_consume lw c s k v (wt w0 p sp t0) = Ok (w', t) ->
  out (rcons_consume lw react inner c s k v (mkR (wt w0 p sp t0) tr)) tt w' tr t.

(** heap action h simulates the pure result r of the text parser started in t *)
Definition hsim {R} (sp : SP) (t : TP) (r : res (TP * list triple * R)) (h : ract R) : Prop :=
  forall w tr t' evs x w' tr', inside w p -> Good (wt w p sp t) -> r = Ok (t', evs, x) -> told (tp_cons t) evs w = Ok (w', tr') ->
    out (h (mkR (wt w p sp t) tr)) x (wt w' p sp t') tr tr' /\ inside w' p.

Lemma report_sim : forall sp t, hsim sp t (Ok (t, tp_emit t, tt)) (rtp_report lw react inner p).
Proof.
  intros sp t w tr t' evs x w' tr' I GD E T. inversion E; subst. clear E. unfold rtp_report. rewrite read_tp by exact I. unfold tp_emit in T.
  destruct (tp_cons t') as [c|] eqn:TC; cbn [told when_some rwhen_some] in *; [|inversion T; subst; split; [apply out_ret; exact GD|exact I]].
  cbn [cons_consume_all] in T. apply seq_inv in T. destruct T as (w1 & t1 & t2 & E1 & E2 & ->). inversion E2; subst. rewrite app_nil_r.
  destruct (consume_other _ _ _ _ _ _ _ p sp t' E1) as [K L]. split; [apply consume_out; assumption|]. unfold inside. rewrite L. exact I.
Qed.
Lemma error_sim : forall sp t, hsim sp t (noval (tp_reportParseError t)) (rtp_reportParseError lw react inner p).
Proof.
  intros sp t w tr t' evs x w' tr' I GD E T. unfold noval, tp_reportParseError in E. unfold rtp_reportParseError. rewrite read_tp by exact I.
  destruct (bset (tp_sec (set_state t ERROR)) (lit "ERROR")) as [s|] eqn:E1; cbn [bind] in E; [|discriminate].
  destruct (bset (tp_key (set_state t ERROR)) (lit "ERROR")) as [k|] eqn:E2; cbn [bind] in E; [|discriminate].
  destruct (bset (tp_val (set_state t ERROR)) (lit "ERROR")) as [v|] eqn:E3; cbn [bind] in E; [|discriminate].
  inversion E; subst. erewrite then_val by reflexivity. rewrite then_write by exact I.
  refine (report_sim sp _ w tr _ _ _ _ _ I (good_wt2 w sp t (set_val (set_key (set_sec (set_state t ERROR) s) k) v) eq_refl GD) eq_refl T).
Qed.
Lemma find_sim : forall sp t o cs d, hsim sp t (tp_findToken t o cs d) (rtp_findToken lw react inner p o cs d).
Proof.
  intros sp t o cs d w tr t' evs x w' tr' I GD E T. unfold tp_findToken in E. unfold rtp_findToken. rewrite read_tp by exact I.
  destruct (bfind_chars (tp_buf t) cs o) as [found|] eqn:F; cbn [bind] in E; [|discriminate].
  destruct (if found =? npos then Ok (blen (tp_buf t), false, 0) else c <- bget (tp_buf t) found;; Ok (found, true, c)) as [[[consumed success] mch]|] eqn:G; cbn [bind] in E; [|discriminate].
  erewrite then_val by (cbn [bind]; exact G). destruct d as [d|].
  - destruct (bsub (tp_buf t) o consumed) as [partial|] eqn:B; cbn [bind] in E; [|discriminate].
    destruct (bpush (dest_get t d) partial) as [[b' pushed]|] eqn:P; cbn [bind] in E; [|discriminate].
    rewrite bind_assoc. erewrite then_val by (cbn [bind]; rewrite P; cbn [bind]; reflexivity). cbn [fst snd].
    rewrite bind_assoc. rewrite then_write by exact I. apply (good_wt2 _ _ _ (dest_set t d b')) in GD; [|destruct d; reflexivity]. destruct (pushed <? blen partial) eqn:Q.
    + destruct (tp_reportParseError (dest_set t d b')) as [[t1 e1]|] eqn:RE; cbn [bind] in E; [|discriminate]. inversion E; subst.
      assert (TC : tp_cons (dest_set t d b') = tp_cons t) by (destruct d; reflexivity). rewrite <- TC in T.
      destruct (error_sim sp (dest_set t d b') w tr t' evs tt w' tr' I GD) as [K L]; [unfold noval; rewrite RE; reflexivity|exact T|].
      split; [|exact L]. rewrite bind_assoc. eapply out_bind_l; [exact K|]. intros tr1 G1. apply out_ret. exact G1.
    + cbn [bind] in E. inversion E; subst. rewrite told_nil in T. inversion T; subst. split; [apply out_ret; exact GD|exact I].
  - cbn [bind] in E. inversion E; subst. rewrite told_nil in T. inversion T; subst. split; [apply out_ret; exact GD|exact I].
Qed.
Lemma iteration_sim : forall sp t c, hsim sp t ('(t, e, c, r) <- tp_iteration t c ;; Ok (t, e, (c, r))) (rtp_iteration lw react inner p c).
Proof.
  intros sp t c w tr t' evs x w' tr' I GD E T.
  destruct (tp_iteration t c) as [[[[t0 e0] c0] r0]|] eqn:H; cbn [bind] in E; [|discriminate]. inversion E; subst. clear E.
  unfold tp_iteration in H. unfold rtp_iteration. rewrite read_tp by exact I. destruct (tp_state t).
  - destruct (tp_findToken t c kKeyOrSectionStart None) as [[[t1 e1] r]|] eqn:E1; cbn [bind] in H; [|discriminate].
    assert (e1 = []).
    { unfold tp_findToken in E1. destruct (bfind_chars (tp_buf t) kKeyOrSectionStart c) as [f|]; cbn [bind] in E1; [|discriminate].
      destruct (if f =? npos then _ else _) as [[[? ?] ?]|]; cbn [bind] in E1; [|discriminate]. inversion E1; reflexivity. } subst e1.
    destruct (find_sim sp t c kKeyOrSectionStart None w tr t1 [] r w [] I GD E1 (told_nil _ _)) as [K L].
    pose proof (findToken_cons _ _ _ _ _ _ _ E1) as TC.
    eapply out_bind_and; [exact K|].
    intros tr1 G1. destruct (ft_success r).
    + rewrite read_tp by exact I. destruct (bget (tp_buf t1) (u8 (ft_consumed r - 1))) as [ch|] eqn:B; cbn [bind] in H; [|discriminate].
      erewrite then_val by reflexivity. destruct (ch =? kSectionStart).
      * destruct (berase (tp_sec t1)) as [s|] eqn:BE; cbn [bind] in H; [|discriminate]. inversion H; subst. erewrite then_val by reflexivity. rewrite then_write by exact I.
        rewrite told_nil in T. inversion T; subst. split; [apply out_ret; refine (good_wt2 _ _ _ _ _ G1); reflexivity|exact I].
      * rewrite ?B in H. cbn [bind] in H. destruct (ch =? kKeyStart).
        -- inversion H; subst. rewrite then_write by exact I. rewrite told_nil in T. inversion T; subst. split; [apply out_ret; refine (good_wt2 _ _ _ _ _ G1); reflexivity|exact I].
        -- destruct (tp_reportParseError t1) as [[t2 e2]|] eqn:RE; cbn [bind] in H; [|discriminate]. inversion H; subst. rewrite <- TC in T.
           destruct (error_sim sp t1 w tr1 t' evs tt w' tr' I G1) as [K2 L2]; [unfold noval; rewrite RE; reflexivity|exact T|].
           split; [|exact L2]. eapply out_bind_l; [exact K2|]. intros. apply out_ret. assumption.
    + inversion H; subst. rewrite told_nil in T. inversion T; subst. split; [apply out_ret; exact G1|exact I].
  - destruct (tp_findToken t c kSectionStop (Some DSec)) as [[[t1 e1] r]|] eqn:E1; cbn [bind] in H; [|discriminate]. inversion H; subst.
    destruct (find_sim sp t c kSectionStop (Some DSec) w tr t1 evs r w' tr' I GD E1 T) as [K L].
    split; [|exact L]. eapply out_bind_l; [exact K|]. intros tr1 G1. destruct (ft_success r).
    + rewrite bind_assoc. rewrite read_tp by exact L. rewrite then_write by exact L. apply out_ret. refine (good_wt2 _ _ _ _ _ G1); reflexivity.
    + apply out_ret. exact G1.
  - destruct (tp_findToken t c kKeyOrValueStop (Some DKey)) as [[[t1 e1] r]|] eqn:E1; cbn [bind] in H; [|discriminate].
    pose proof (findToken_cons _ _ _ _ _ _ _ E1) as TC.
    destruct (ft_success r) eqn:SU.
    + destruct (ft_match r =? kKeyStop) eqn:M1.
      * inversion H; subst. destruct (find_sim sp t c _ _ w tr t1 evs r w' tr' I GD E1 T) as [K L]. split; [|exact L].
        eapply out_bind_l; [exact K|]. intros tr1 G1. rewrite SU, bind_assoc.
        rewrite read_tp by exact L. rewrite M1. rewrite then_write by exact L. apply out_ret. refine (good_wt2 _ _ _ _ _ G1); reflexivity.
      * destruct (ft_match r =? kValueStop) eqn:M2.
        -- destruct (berase (tp_val t1)) as [v|] eqn:BV; cbn [bind] in H; [|discriminate].
           cbn [tp_key set_val] in H. destruct (berase (tp_key t1)) as [k|] eqn:BK; cbn [bind] in H; [|discriminate]. inversion H; subst. clear H.
           apply told_app in T. destruct T as (w1 & x1 & x2 & T1 & T2 & ->).
           destruct (find_sim sp t c _ _ w tr t1 e1 r w1 x1 I GD E1 T1) as [K L].
           assert (T3 : told (tp_cons (set_val t1 v)) (tp_emit (set_val t1 v)) w1 = Ok (w', x2)) by (cbn [set_val tp_cons]; rewrite TC; exact T2).
           assert (G0 : Good (wt w1 p sp t1)) by (destruct K as [G0 _]; exact G0).
           destruct (report_sim sp (set_val t1 v) w1 [] _ _ tt w' x2 L (good_wt2 w1 sp t1 (set_val t1 v) eq_refl G0) eq_refl T3) as [_ L2].
           split; [|exact L2]. eapply out_bind; [exact K|]. intros tr1 G1. rewrite SU, bind_assoc.
           rewrite read_tp by exact L. rewrite M1, M2. rewrite bind_assoc. erewrite then_val by exact BV. rewrite bind_assoc, then_write by exact L.
           destruct (report_sim sp (set_val t1 v) w1 tr1 _ _ tt w' x2 L (good_wt2 w1 sp t1 (set_val t1 v) eq_refl G0) eq_refl T3) as [K2 _].
           rewrite bind_assoc. eapply out_bind_l; [exact K2|]. intros tr2 G2. rewrite bind_assoc. rewrite read_tp by exact L2. rewrite bind_assoc.
           erewrite then_val by exact BK. rewrite then_write by exact L2. apply out_ret. refine (good_wt2 _ _ _ _ _ G2); reflexivity.
        -- inversion H; subst. destruct (find_sim sp t c _ _ w tr t' evs r w' tr' I GD E1 T) as [K L]. split; [|exact L].
           eapply out_bind_l; [exact K|]. intros tr1 G1. rewrite SU, bind_assoc.
           rewrite read_tp by exact L. rewrite M1, M2. apply out_ret. exact G1.
    + inversion H; subst. destruct (find_sim sp t c _ _ w tr t' evs r w' tr' I GD E1 T) as [K L]. split; [|exact L].
      eapply out_bind_l; [exact K|]. intros tr1 G1. rewrite SU. apply out_ret. exact G1.
  - destruct (tp_findToken t c kValueStop_str (Some DVal)) as [[[t1 e1] r]|] eqn:E1; cbn [bind] in H; [|discriminate].
    pose proof (findToken_cons _ _ _ _ _ _ _ E1) as TC.
    destruct (ft_success r) eqn:SU.
    + destruct (berase (tp_key t1)) as [k|] eqn:BK; cbn [bind] in H; [|discriminate]. destruct (berase (tp_val t1)) as [v|] eqn:BV; cbn [bind] in H; [|discriminate].
      inversion H; subst. clear H. apply told_app in T. destruct T as (w1 & x1 & x2 & T1 & T2 & ->).
      destruct (find_sim sp t c _ _ w tr t1 e1 r w1 x1 I GD E1 T1) as [K L]. rewrite <- TC in T2.
      assert (G0 : Good (wt w1 p sp t1)) by (destruct K as [G0 _]; exact G0).
      destruct (report_sim sp t1 w1 [] _ _ tt w' x2 L G0 eq_refl T2) as [_ L2].
      split; [|exact L2]. eapply out_bind; [exact K|]. intros tr1 G1. rewrite SU, bind_assoc.
      destruct (report_sim sp t1 w1 tr1 _ _ tt w' x2 L G1 eq_refl T2) as [K2 _].
      eapply out_bind_l; [exact K2|]. intros tr2 G2. rewrite bind_assoc. rewrite read_tp by exact L2. rewrite bind_assoc.
      erewrite then_val by exact BK. rewrite bind_assoc. erewrite then_val by exact BV. rewrite then_write by exact L2. apply out_ret. refine (good_wt2 _ _ _ _ _ G2); reflexivity.
    + inversion H; subst. destruct (find_sim sp t c _ _ w tr t' evs r w' tr' I GD E1 T) as [K L]. split; [|exact L].
      eapply out_bind_l; [exact K|]. intros tr1 G1. rewrite SU. apply out_ret. exact G1.
  - inversion H; subst. rewrite told_nil in T. inversion T; subst. split; [apply out_ret; exact GD|exact I].
Qed.
Lemma process_sim : forall sp fuel t c, hsim sp t (tp_process fuel t c) (rtp_process lw react inner p fuel c).
Proof.
  intros sp fuel. induction fuel; intros t c w tr t' evs x w' tr' I GD E T; cbn [tp_process rtp_process] in *; rewrite read_tp by exact I.
  - destruct (c <? blen (tp_buf t)); [discriminate|]. inversion E; subst. rewrite told_nil in T. inversion T; subst. split; [apply out_ret; exact GD|exact I].
  - destruct (c <? blen (tp_buf t)).
    + destruct (tp_iteration t c) as [[[[t1 e1] c1] r1]|] eqn:H; cbn [bind] in E; [|discriminate].
      pose proof (iteration_cons _ _ _ _ _ _ H) as TC. destruct r1.
      * inversion E; subst. destruct (iteration_sim sp t c w tr t' evs (x, true) w' tr' I GD) as [K L]; [rewrite H; reflexivity|exact T|].
        split; [|exact L]. eapply out_bind_l; [exact K|]. intros tr1 G1. apply out_ret. exact G1.
      * destruct (tp_process fuel t1 c1) as [[[t2 e2] c2]|] eqn:H2; cbn [bind] in E; [|discriminate]. inversion E; subst. clear E.
        apply told_app in T. destruct T as (w1 & x1 & x2 & T1 & T2 & ->).
        destruct (iteration_sim sp t c w tr t1 e1 (c1, false) w1 x1 I GD) as [K L]; [rewrite H; reflexivity|exact T1|]. rewrite <- TC in T2.
        assert (G0 : Good (wt w1 p sp t1)) by (destruct K as [G0 _]; exact G0).
        destruct (IHfuel t1 c1 w1 [] t' e2 x w' x2 L G0 H2 T2) as [_ L2].
        split; [|exact L2]. eapply out_bind; [exact K|]. intros tr1 G1. cbn [fst snd].
        destruct (IHfuel t1 c1 w1 tr1 t' e2 x w' x2 L G1 H2 T2) as [K2 _]. exact K2.
    + inversion E; subst. rewrite told_nil in T. inversion T; subst. split; [apply out_ret; exact GD|exact I].
Qed.
Lemma addLoop_sim : forall sp input fuel t i, hsim sp t (noval (tp_addLoop fuel t input i)) (rtp_addLoop lw react inner p fuel input i).
Proof.
  intros sp input fuel. induction fuel; intros t i w tr t' evs x w' tr' I GD E T; cbn [tp_addLoop rtp_addLoop] in *.
  - destruct (i <? blen input); [discriminate|]. inversion E; subst. rewrite told_nil in T. inversion T; subst. split; [apply out_ret; exact GD|exact I].
  - destruct (i <? blen input).
    + rewrite read_tp by exact I. destruct (bfull (tp_buf t) || match tp_state t with ERROR => true | _ => false end).
      * apply (error_sim sp t w tr t' evs x w' tr' I GD E T).
      * unfold noval in E. destruct (bsub1 input i) as [view|] eqn:B1; cbn [bind] in E; [|discriminate].
        destruct (bpush (tp_buf t) view) as [[b n]|] eqn:B2; cbn [bind] in E; [|discriminate].
        destruct (tp_processBuffer (set_buf t b)) as [[[t1 e1] cb]|] eqn:H; cbn [bind] in E; [|discriminate].
        destruct (bpop_front (tp_buf t1) cb) as [b3|] eqn:B3; cbn [bind] in E; [|discriminate].
        destruct (tp_addLoop fuel (set_buf t1 b3) input (u8 (i + n))) as [[t2 e2]|] eqn:H2; cbn [bind] in E; [|discriminate]. inversion E; subst. clear E.
        apply told_app in T. destruct T as (w1 & x1 & x2 & T1 & T2 & ->).
        erewrite then_val by (cbn [bind]; exact B2). cbn [fst snd]. rewrite then_write by exact I.
        unfold tp_processBuffer in H. pose proof (process_cons _ _ _ _ _ _ H) as TC.
        apply (good_wt2 _ _ _ (set_buf t b)) in GD; [|reflexivity].
        destruct (process_sim sp _ (set_buf t b) 0 w tr t1 e1 cb w1 x1 I GD H T1) as [K L].
        assert (G0 : Good (wt w1 p sp t1)) by (destruct K as [G0 _]; exact G0).
        assert (T3 : told (tp_cons (set_buf t1 b3)) e2 w1 = Ok (w', x2)) by (cbn [set_buf tp_cons]; rewrite TC; exact T2).
        assert (E3 : noval (tp_addLoop fuel (set_buf t1 b3) input (u8 (i + n))) = Ok (t', e2, tt)) by (rewrite H2; reflexivity).
        destruct (IHfuel (set_buf t1 b3) (u8 (i + n)) w1 [] t' e2 tt w' x2 L (good_wt2 w1 sp t1 (set_buf t1 b3) eq_refl G0) E3 T3) as [_ L2].
        split; [|exact L2]. eapply out_bind; [unfold rtp_processBuffer; rewrite read_tp by exact I; exact K|]. intros tr1 G1. rewrite read_tp by exact L.
        erewrite then_val by exact B3. rewrite then_write by exact L.
        destruct (IHfuel (set_buf t1 b3) (u8 (i + n)) w1 tr1 t' e2 tt w' x2 L (good_wt2 w1 sp t1 (set_buf t1 b3) eq_refl G0) E3 T3) as [K2 _]. exact K2.
    + inversion E; subst. rewrite told_nil in T. inversion T; subst. split; [apply out_ret; exact GD|exact I].
Qed.
Lemma addText_sim : forall sp t input, hsim sp t (noval (tp_addText t input)) (rtp_addText lw react inner p input).
Proof.
  intros sp t input w tr t' evs x w' tr' I GD E T. unfold tp_addText, rtp_addText in *. rewrite read_tp by exact I.
  destruct ((blen input >? kBufferLength) || match tp_state t with ERROR => true | _ => false end).
  - apply (error_sim sp t w tr t' evs x w' tr' I GD E T).
  - apply (addLoop_sim sp input _ t 0 w tr t' evs x w' tr' I GD E T).
Qed.
(** the text of one data frame, with the other members already updated *)
Lemma message_text : forall w sp d crc t1 evs w1 x1 tr, inside w p -> sp_state sp = SS_DATA ->
  tp_addText (sp_text sp) (mkBuf (dbytes d) CanDataMaxLength (dlc d)) = Ok (t1, evs) ->
  let spX := mkSP SS_DATA (u32 (sp_remaining sp - dlc d)) t1 crc (sp_cons sp) in
  let W := mkW (w_stations w) (upd p (LibP spX) (w_parsers w)) (w_conss w) (w_engines w) in
  Good (wt W p spX (sp_text sp)) -> told (tp_cons (sp_text sp)) evs W = Ok (w1, x1) ->
  out (rtp_addText lw react inner p (mkBuf (dbytes d) CanDataMaxLength (dlc d))
        (mkR (mkW (w_stations w) (upd p (LibP (mkSP SS_DATA (u32 (sp_remaining sp - dlc d)) (sp_text sp) crc (sp_cons sp))) (w_parsers w)) (w_conss w) (w_engines w)) tr))
      tt (mkW (w_stations w1) (upd p (LibP spX) (w_parsers w1)) (w_conss w1) (w_engines w1)) tr x1
  /\ inside w1 p /\ mkW (w_stations w1) (upd p (LibP spX) (w_parsers w1)) (w_conss w1) (w_engines w1) = w1.
Proof.
  intros w sp d crc t1 evs w1 x1 tr I ST T spX W GD E1.
  assert (IW : inside W p) by (unfold inside, W; cbn [w_parsers]; rewrite upd_len; exact I).
  assert (S0 : mkW (w_stations w) (upd p (LibP (mkSP SS_DATA (u32 (sp_remaining sp - dlc d)) (sp_text sp) crc (sp_cons sp))) (w_parsers w)) (w_conss w) (w_engines w)
    = wt W p spX (sp_text sp)) by (unfold wt, W, spX; cbn; rewrite upd_twice; reflexivity).
  rewrite S0.
  destruct (addText_sim spX (sp_text sp) (mkBuf (dbytes d) CanDataMaxLength (dlc d)) W tr t1 evs tt w1 x1 IW) as [K L];
    [exact GD|unfold noval; rewrite T; reflexivity|exact E1|].
  split; [exact K|]. split; [exact L|]. rewrite (told_parsers _ _ _ _ _ E1). unfold W. cbn [w_parsers]. rewrite upd_twice.
  change (upd p (LibP spX) (w_parsers w)) with (w_parsers W). rewrite <- (told_parsers _ _ _ _ _ E1). destruct w1; reflexivity.
Qed.
End Text.
End Outcome.
End Lines.

(** ** Callbacks that leave the library alone *)
Definition no_tx (e : event) : Prop := match e with EvTx _ _ => False | _ => True end.
Section Calm.
Variable lw : Z.
Variable react : list event -> code.
Variable inner : code -> ract unit.
Variable okst : Station -> Prop.
Hypothesis okst_cfg : forall st q, okst st -> okst (set_cfg st q).
(** the calls the user code is known to be calm about *)
Variable okev : event -> Prop.
Hypothesis okev_other : forall e, (match e with EvTx _ _ => False | _ => True end) -> okev e.
Variable N : nat.
Variable ins : list event -> list event -> Prop.
Hypothesis ins_refl : forall a, Forall no_tx a -> ins a a.
Hypothesis ins_app : forall a a' b b', ins a a' -> ins b b' -> ins (a ++ b) (a' ++ b').
Definition good (w : world) : Prop := List.length (w_stations w) = N /\ Forall okst (w_stations w).
Hypothesis calm : forall h e s, okev e -> good (r_w s) -> exists xs, inner (react (h ++ [e])) s = (Ok tt, mkR (r_w s) (r_t s ++ xs)) /\ ins [e] (e :: xs).

Notation out := (out good ins).
Definition br (w : world) (a : act) (b : ract unit) : Prop :=
  good w -> forall t w' t', a w = Ok (w', t') -> out (b (mkR w t)) tt w' t t'.
Definition st_same (a : act) : Prop := forall w w' t, a w = Ok (w', t) -> w_stations w' = w_stations w /\ Forall no_tx t.
Lemma good_same : forall w w', good w -> w_stations w' = w_stations w -> good w'.
Proof. intros w w' [G1 G2] E. split; rewrite E; assumption. Qed.

Lemma ss_skip : st_same skip. Proof. intros w w' t H. inversion H; subst; auto. Qed.
Lemma ss_emit : forall e, no_tx e -> st_same (emit e). Proof. intros e O w w' t H. inversion H; subst; auto. Qed.
Lemma ss_parser : forall p x, st_same (put_parser p x). Proof. intros p x w w' t H. inversion H; subst; auto. Qed.
Lemma ss_lib : forall p x, st_same (put_lib p x). Proof. intros p x w w' t H. inversion H; subst; auto. Qed.
Lemma ss_cons : forall p x, st_same (put_cons p x). Proof. intros p x w w' t H. inversion H; subst; auto. Qed.
Lemma ss_engine : forall p x, st_same (put_engine p x). Proof. intros p x w w' t H. inversion H; subst; auto. Qed.
Lemma ss_fail : forall u, st_same (fail u). Proof. intros u w w' t H. discriminate. Qed.
Lemma ss_seq : forall a b, st_same a -> st_same b -> st_same (World.seq a b).
Proof. intros a b H K w w' t E. apply seq_inv in E. destruct E as (w1 & t1 & t2 & E1 & E2 & ->). destruct (K _ _ _ E2) as [K1 K2]. destruct (H _ _ _ E1) as [H1 H2]. split; [congruence|apply Forall_app; auto]. Qed.
Lemma ss_ask : forall A (f : world -> res A) k, (forall x, st_same (k x)) -> st_same (ask f k).
Proof. intros A f k H w w' t E. apply ask_inv in E. destruct E as (x & _ & E). apply (H _ _ _ _ E). Qed.
Lemma ss_when : forall A (p : option A) k, (forall x, st_same (k x)) -> st_same (when_some p k).
Proof. intros A [x|] k H; [apply H|apply ss_skip]. Qed.
Ltac sstep := first [ apply ss_skip | apply ss_emit; exact Logic.I | apply ss_parser | apply ss_lib | apply ss_cons | apply ss_engine | apply ss_fail
  | apply ss_seq | apply ss_ask; intros | apply ss_when; intros
  | match goal with |- st_same (if ?b then _ else _) => destruct b | |- st_same (match ?x with _ => _ end) => destruct x end ].
Ltac ss := repeat sstep.
Lemma ss_print : forall b, st_same (print b). Proof. intros. unfold print. ss. Qed.
Lemma ss_puts : forall b, st_same (puts b). Proof. intros. unfold puts, print. ss. Qed.
Lemma ss_print_res : forall b, st_same (print_res b). Proof. intros. unfold print_res, print. ss. Qed.
Lemma ss_loco : forall e s k v, st_same (loco_consume lw e s k v). Proof. intros. unfold loco_consume. ss. Qed.
Lemma ss_list : forall c co i n off cb s k v, st_same (list_consume lw c co i n off cb s k v). Proof. intros. unfold list_consume, print. ss. Qed.

Lemma br_skip : forall w, br w skip (rret tt).
Proof. intros w G t w' t' H. inversion H; subst. apply out_ret; [apply ins_refl; auto|exact G]. Qed.
Lemma br_lift : forall a w, st_same a -> br w a (rlift a).
Proof.
  intros a w S G t w' t' H. unfold rlift. cbn [r_w r_t]. rewrite H. split; [eapply good_same; [exact G|eapply (proj1 (S _ _ _ H))]|].
  exists t'. split; [apply ins_refl; exact (proj2 (S _ _ _ H))|reflexivity].
Qed.
Lemma br_emit : forall e w, okev e -> br w (emit e) (ucall react inner e).
Proof.
  intros e w O G t w' t' H. inversion H; subst. unfold ucall, rbind, rlift, emit. cbn [r_w r_t].
  destruct (calm t e (mkR w' (t ++ [e])) O G) as (xs & E & X). rewrite E. split; [exact G|]. exists (e :: xs). split; [apply X|].
  cbn [r_w r_t]. rewrite <- app_assoc. reflexivity.
Qed.
Lemma br_seq : forall w a b ra rb, br w a ra -> (forall w1 t1, a w = Ok (w1, t1) -> br w1 b rb) -> br w (World.seq a b) (rbind ra (fun _ => rb)).
Proof.
  intros w a b ra rb H K G t w' t' E. apply seq_inv in E. destruct E as (w1 & t1 & t2 & E1 & E2 & ->).
  eapply out_bind; [exact ins_app|apply (H G _ _ _ E1)|]. intros tr1 G1. apply (K _ _ E1 G1 _ _ _ E2).
Qed.
Lemma br_ask : forall w A (f : world -> res A) k rk, (forall x, f w = Ok x -> br w (k x) (rk x)) -> br w (ask f k) (rbind (rask f) rk).
Proof.
  intros w A f k rk H G t w' t' E. apply ask_inv in E. destruct E as (x & F & E).
  unfold rbind, rask. cbn [r_w]. rewrite F. apply (H x F G). exact E.
Qed.
Lemma br_when : forall w A (p : option A) k rk, (forall x, p = Some x -> br w (k x) (rk x)) -> br w (when_some p k) (rwhen_some p rk).
Proof. intros w A [x|] k rk H; [apply H; reflexivity|apply br_skip]. Qed.
(** reading a value the plain model already holds *)
Lemma br_read : forall w A (f : world -> res A) x a rk, f w = Ok x -> br w a (rk x) -> br w a (rbind (rask f) rk).
Proof. intros w A f x a rk F H G t w' t' E. unfold rbind, rask. cbn [r_w]. rewrite F. apply H; assumption. Qed.
Lemma br_if : forall w (b : bool) a a' ra ra', (b = true -> br w a ra) -> (b = false -> br w a' ra') -> br w (if b then a else a') (if b then ra else ra').
Proof. intros w [|] a a' ra ra' H K; auto. Qed.
Ltac same := first [ apply ss_print | apply ss_puts | apply ss_print_res | apply ss_loco | apply ss_list | ss ].
Ltac bstep := first [ apply br_skip | apply br_lift; [solve [same]] | apply br_emit; [solve [apply okev_other; exact Logic.I]] | apply br_seq; [|intros] | apply br_ask; intros
  | apply br_when; intros | apply br_if; intros ].
Ltac bs := repeat bstep.
Lemma br_emit_ask : forall A e (f : world -> res A) k rk w,
  (forall x, f w = Ok x -> br w (World.seq (emit e) (k x)) (rk x)) -> br w (World.seq (emit e) (ask f k)) (rbind (rask f) rk).
Proof.
  intros A e f k rk w H G t w' t' E. destruct (emit_ask _ _ _ _ _ _ _ E) as (x & t1 & F & K & ->).
  unfold rbind, rask. cbn [r_w]. rewrite F. apply (H x F G). unfold World.seq, emit. cbn [bind]. rewrite K. reflexivity.
Qed.
Lemma br_emit_skip : forall e w, okev e -> br w (World.seq (emit e) skip) (ucall react inner e).
Proof. intros e w O G t w' t' E. inversion E; subst. apply br_emit; [exact O|exact G|reflexivity]. Qed.
Lemma br_consume : forall w c s k v, br w (cons_consume lw c s k v) (rcons_consume lw react inner c s k v).
Proof. intros. apply br_emit_ask. intros [e cb|co i n off cb|] F; [bs|bs|apply br_emit_skip; apply okev_other; exact Logic.I]. Qed.
Lemma br_complete : forall w c, br w (cons_complete c) (rcons_complete react inner c).
Proof. intros. apply br_emit_ask. intros [e cb|co i n off cb|] F; [|bs|apply br_emit_skip; apply okev_other; exact Logic.I]. bs. Qed.
Lemma br_aborted : forall w c, br w (cons_aborted c) (rcons_aborted react inner c).
Proof. intros. apply br_emit_ask. intros [e cb|co i n off cb|] F; [bs|bs|apply br_emit_skip; apply okev_other; exact Logic.I]. Qed.

(** ** The stream parser *)
Lemma br_reset : forall w p, br w (lib_reset p) (rlib_reset react inner p).
Proof.
  intros. unfold lib_reset, rlib_reset. apply br_ask; intros sp _. apply br_seq; [|intros; bs].
  apply br_if; intros; [|apply br_skip]. apply br_when; intros. apply br_aborted.
Qed.
Lemma br_message : forall w p d, br w (lib_addMessage lw p d) (rlib_addMessage lw react inner p d).
Proof.
  intros w p d. unfold lib_addMessage, rlib_addMessage. apply br_ask. intros sp G. destruct (get_lib_inside _ _ _ G) as [I _].
  destruct (sp_state sp) eqn:ST.
  - apply br_lift. apply ss_print.
  - apply br_if; intros B.
    + cbv zeta. cbn [sp_remaining sp_text sp_crc sp_cons]. intros GD tr w' t' E. rewrite put_then. destruct (header_length d >? 0).
      * inversion E; subst. pose proof (put_state unit w p (mkSP SS_FIRST (header_length d) (sp_text sp) (crc_loadReference (sp_crc sp) (header_crc d)) (sp_cons sp)) SS_DATA tr (rret tt) I) as Q.
        unfold rbind at 1 in Q. cbn [sp_remaining sp_text sp_crc sp_cons] in Q.
        match type of Q with (match ?x with _ => _ end) = _ => destruct x as [[[]|u] s'] eqn:X end; [|discriminate]. unfold rret in Q. inversion Q; subst.
        apply out_ret; [apply ins_refl; auto|]. eapply good_same; [exact GD|reflexivity].
      * apply put_lib_seq' in E. rewrite (put_state unit w p) by exact I. cbn [sp_remaining sp_text sp_crc sp_cons]. rewrite get_put by exact I. cbn [sp_cons].
        refine (br_when _ _ _ _ _ _ _ tr w' t' E); [intros; apply br_complete|]. eapply good_same; [exact GD|reflexivity].
    + apply br_if; intros; (apply br_seq; [apply br_lift; apply ss_print|intros; apply br_reset]).
  - apply br_if; intros B; [apply br_seq; [apply br_lift; apply ss_print|intros; apply br_reset]|].
    intros GD tr w' t' E. apply ask_inv in E. destruct E as (crc & C & E). apply ask_inv in E. destruct E as ([t1 evs] & T & E). cbn [fst snd] in E.
    apply put_lib_seq' in E. apply seq_inv in E. destruct E as (w1 & x1 & x2 & E1 & E2 & ->).
    erewrite then_val by exact C. rewrite put_then.
    destruct (message_text lw good ins (ins_refl [] (Forall_nil _)) ins_app react inner p (fun w sp t t' _ G => good_same _ (wt w p sp t') G eq_refl)
      (fun w sp t0 c s k v w' t tr _ _ G => br_consume (wt w p sp t0) c s k v G tr w' t) w sp d crc t1 evs w1 x1 tr I ST T (good_same _ _ GD eq_refl) E1) as (K & L & S2).
    set (spX := mkSP SS_DATA (u32 (sp_remaining sp - dlc d)) t1 crc (sp_cons sp)) in *.
    eapply out_bind; [exact ins_app|exact K|]. intros tr1 G1. rewrite get_put by exact L. unfold spX at 1. cbn [sp_remaining].
    destruct (u32 (sp_remaining sp - dlc d) =? 0) eqn:Z0.
    + apply ask_inv in E2. destruct E2 as (valid & V & E2). cbn [sp_crc spX]. erewrite then_val by exact V. destruct valid.
      * apply put_lib_seq' in E2. rewrite (put_state unit w1 p) by exact L. unfold spX at 1 2 3 4. cbn [sp_remaining sp_text sp_crc sp_cons]. rewrite get_put by exact L. cbn [sp_cons].
        refine (br_when _ _ _ _ _ _ _ tr1 w' x2 E2); [intros; apply br_complete|]. eapply good_same; [exact G1|reflexivity].
      * apply put_lib_seq' in E2. rewrite (put_state unit w1 p) by exact L. unfold spX at 1 2 3 4. cbn [sp_remaining sp_text sp_crc sp_cons]. rewrite get_put by exact L. cbn [sp_cons].
        refine (br_when _ _ _ _ _ _ _ tr1 w' x2 E2); [intros; apply br_aborted|]. eapply good_same; [exact G1|reflexivity].
    + inversion E2; subst. rewrite S2 in *. apply out_ret; [apply ins_refl; auto|exact G1].
  - apply br_lift. apply ss_print.
Qed.
Lemma br_cfg : forall w p c, br w (cfg_call lw p c) (rcfg_call lw react inner p c).
Proof.
  intros. apply br_emit_ask. intros [sp|beh h] F.
  - apply br_seq; [bs|]. intros w1 t1 E. inversion E; subst. destruct c; [bs|apply br_message|apply br_reset].
  - intros G t w' t' E. apply seq_inv in E. destruct E as (w1 & t1 & t2 & E1 & E2 & ->). inversion E1; subst. inversion E2; subst.
    change ([EvCfg p c] ++ []) with ([] ++ [EvCfg p c]). eapply out_bind; [exact ins_app|apply br_lift; [apply ss_parser|exact G|reflexivity]|].
    intros tr1 G1. apply br_emit; [apply okev_other; exact Logic.I|exact G1|reflexivity].
Qed.

(** ** The station *)
Lemma get_put_station : forall s st x w, get_station s w = Ok st ->
  get_station s (mkW (upd s x (w_stations w)) (w_parsers w) (w_conss w) (w_engines w)) = Ok x.
Proof.
  intros s st x w H. unfold get_station, at_ in *. cbn [w_stations]. destruct (nth_error (w_stations w) s) eqn:E; [|discriminate].
  rewrite nth_upd_in; [reflexivity|]. apply nth_error_Some. rewrite E. discriminate.
Qed.
Lemma br_put_station : forall w s x, okst x -> br w (put_station s x) (rlift (put_station s x)).
Proof.
  intros w s x O [G1 G2] t w' t' H. inversion H; subst. unfold rlift, put_station. cbn [r_w r_t]. split.
  - split; cbn [w_stations]; [rewrite upd_len; exact G1|apply upd_forall; assumption].
  - exists []. split; [apply ins_refl; auto|reflexivity].
Qed.
Lemma good_station : forall w s st, good w -> get_station s w = Ok st -> okst st.
Proof. intros w s st [_ G] H. unfold get_station, at_ in H. destruct (nth_error (w_stations w) s) eqn:E; inversion H; subst. exact (nth_forall _ _ _ _ _ G E). Qed.
Lemma br_set_cfg : forall w s st q, get_station s w = Ok st -> br w (put_station s (set_cfg st q)) (rlift (put_station s (set_cfg st q))).
Proof. intros w s st q H G. apply br_put_station; [|exact G]. apply okst_cfg. apply (good_station w s); assumption. Qed.
Lemma br_tx : forall w s st f, get_station s w = Ok st -> (okst st -> forall tx, okev (EvTx tx f)) -> br w (tx_send (st_cbs st) f) (rtx_send react inner s f).
Proof. intros w s st f G O GD. revert GD. change (br w (tx_send (st_cbs st) f) (rtx_send react inner s f)). unfold tx_send, rtx_send. intros GD. revert GD. eapply br_read; [exact G|]. apply br_ask; intros tx _. intros GD. apply br_emit; [|exact GD]. apply O. exact (good_station _ _ _ GD G). Qed.
Lemma tx_same : forall c f w w' t, tx_send c f w = Ok (w', t) -> w' = w.
Proof. intros c f w w' t H. unfold tx_send, ask in H. destruct (deref (cb_tx c)); [|discriminate]. inversion H; reflexivity. Qed.
Lemma br_finish : forall w s, br w (st_finish lw s) (rst_finish lw react inner s).
Proof. intros. unfold st_finish, rst_finish. apply br_ask; intros. apply br_when; intros. apply br_seq; [apply br_cfg|]. intros. apply br_ask; intros. apply br_set_cfg. assumption. Qed.
Lemma br_own : forall w s cmd d, (forall st tx, okst st -> okev (EvTx tx (st_frame st cmd d))) -> br w (ask (get_station s) (fun st => tx_send (st_cbs st) (st_frame st cmd d))) (rst_sendOwn react inner s cmd d).
Proof. intros. unfold rst_sendOwn. apply br_ask. intros st G. apply br_tx; [exact G|auto]. Qed.
Lemma br_packet : forall w s f, (forall st tx, okst st -> okev (EvTx tx (mkFrame (id_setHash (fid f) (st_hash st)) (fdata f)))) -> br w (st_sendPacket s f) (rst_sendPacket react inner s f).
Proof. intros. unfold st_sendPacket, rst_sendPacket. apply br_ask. intros st G. apply br_tx; [exact G|auto]. Qed.
Lemma br_functions : forall w s st u n i, (forall st i tx, okst st -> okev (EvTx tx (st_frame st kLocoFunction (dset (setLocid (set_dlc data0 5) u) 4 i)))) -> get_station s w = Ok st -> br w (send_functions st u i n) (rsend_functions react inner s st u i n).
Proof.
  intros w s st u n. induction n; intros i O G; cbn [send_functions rsend_functions]; [apply br_skip|].
  apply br_seq; [apply br_tx; [exact G|intros; apply O; assumption]|]. intros w1 t1 E. apply tx_same in E. subst. apply IHn; assumption.
Qed.
(** starting a stream leaves the stations alone *)
Lemma start_stations : forall q w w' t, when_some q (fun p => cfg_call lw p CStart) w = Ok (w', t) -> w_stations w' = w_stations w.
Proof.
  intros [p|] w w' t H; [|inversion H; reflexivity]. cbn [when_some] in H. unfold cfg_call in H. destruct (emit_ask _ _ _ _ _ _ _ H) as (o & t1 & _ & K & _).
  destruct o; inversion K; reflexivity.
Qed.
Lemma same_station : forall s w w' st, get_station s w = Ok st -> w_stations w' = w_stations w -> get_station s w' = Ok st.
Proof. intros s w w' st H E. unfold get_station. rewrite E. exact H. Qed.
Lemma br_accessory : forall w s d r, br w (st_handleAccessoryPacket s d r) (rst_handleAccessoryPacket react inner s d r).
Proof.
  intros w s d r GD t w' t' E. apply ask_inv in E. destruct E as (st & G & E). apply seq_inv in E. destruct E as (w1 & t1 & t2 & E1 & E2 & ->). inversion E1; subst.
  unfold rst_handleAccessoryPacket. eapply out_bind; [exact ins_app|apply br_lift; [apply ss_print|exact GD|exact E1]|]. intros tr1 G1.
  unfold rbind at 1, rask. cbn [r_w]. rewrite G. refine (br_when _ _ _ _ _ _ G1 tr1 w' t2 E2). intros. apply br_emit. apply okev_other. exact Logic.I.
Qed.
Lemma br_config : forall w s d, br w (st_handleConfigDataStream lw s d) (rst_handleConfigDataStream lw react inner s d).
Proof. intros. unfold st_handleConfigDataStream, rst_handleConfigDataStream. apply br_ask; intros. apply br_ask; intros. destruct x0; [apply br_cfg|bs]. Qed.
Lemma br_list : forall w s off q, (forall st tx d, okst st -> okev (EvTx tx (st_frame st kRequestConfigData d))) -> br w (st_requestEngineList lw s off q) (rst_requestEngineList lw react inner s off q).
Proof.
  intros w s off q O. unfold st_requestEngineList, rst_requestEngineList. apply br_seq; [apply br_finish|]. intros w1 t1 _. apply br_ask. intros st G.
  apply br_seq; [apply br_set_cfg; exact G|]. intros w2 t2 E. inversion E; subst. pose proof (get_put_station s st (set_cfg st q) w1 G) as G2.
  apply br_ask. intros b1 _. destruct (snprintf9 (list_request_text off)) as [b2 n]. apply br_if; intros; [|apply br_skip].
  apply br_seq; [apply br_when; intros; apply br_cfg|]. intros w3 t3 E3. apply start_stations in E3. pose proof (same_station _ _ _ _ G2 E3) as G3.
  apply br_seq; [apply (br_tx _ s (set_cfg st q)); [exact G3|intros GX tx; apply (O (set_cfg st q)); exact GX]|]. intros w4 t4 E4. apply tx_same in E4. subst. apply (br_tx _ s (set_cfg st q)); [exact G3|intros GX tx; apply (O (set_cfg st q)); exact GX].
Qed.
Lemma br_engine : forall w s e q, (forall st tx d, okst st -> okev (EvTx tx (st_frame st kRequestConfigData d))) -> br w (st_requestEngine lw s e q) (rst_requestEngine lw react inner s e q).
Proof.
  intros w s e q O. unfold st_requestEngine, rst_requestEngine. apply br_ask; intros si SI. apply br_if; intros; [apply br_skip|].
  apply br_ask; intros st0 _. apply br_ask; intros busy _. destruct busy; [apply br_skip|].
  apply br_seq; [apply br_finish|]. intros w1 t1 _. apply br_ask. intros st G.
  apply br_seq; [apply br_set_cfg; exact G|]. intros w2 t2 E. inversion E; subst. pose proof (get_put_station s st (set_cfg st q) w1 G) as G2.
  apply br_seq; [apply br_when; intros; apply br_cfg|]. intros w3 t3 E3. apply start_stations in E3. pose proof (same_station _ _ _ _ G2 E3) as G3.
  eapply br_read; [exact G3|]. apply br_ask; intros b1 _.
  apply br_seq; [apply (br_tx _ s (set_cfg st q)); [exact G3|intros GX tx; apply (O (set_cfg st q)); exact GX]|]. intros w4 t4 E4. apply tx_same in E4. subst.
  apply br_ask; intros si2 S2. apply br_ask; intros len _. apply br_ask; intros b2 _.
  apply br_seq; [apply (br_tx _ s (set_cfg st q)); [exact G3|intros GX tx; apply (O (set_cfg st q)); exact GX]|]. intros w5 t5 E5. apply tx_same in E5. subst.
  eapply br_read; [exact S2|]. apply br_ask; intros b3 _. apply (br_tx _ s (set_cfg st q)); [exact G3|intros GX tx; apply (O (set_cfg st q)); exact GX].
Qed.
Lemma ss_step : forall o, match o with OnStation _ _ => False | ParserAddMessage _ _ | ParserReset _ => False | _ => True end -> st_same (step lw o).
Proof. intros o H. destruct o; cbn [step]; try contradiction; unfold print_res, print; ss. Qed.
(** the frames an operation may transmit for a station *)
Definition own_packet (st : Station) (f : CanFrame) : CanFrame := mkFrame (id_setHash (fid f) (st_hash st)) (fdata f).
Definition may_send (st : Station) (o : op) (f : CanFrame) : Prop :=
  match o with
  | OnStation _ x =>
      match x with
      | SendAccessoryPacket a p d pw => f = st_frame st kAccessorySwitch (accessory_data a p d pw)
      | RequestEngine _ _ | RequestEngineList _ _ => exists d, f = st_frame st kRequestConfigData d
      | RequestEngineDirection u => f = st_frame st kLocoDirection (setLocid (set_dlc data0 4) u)
      | RequestEngineVelocity u => f = st_frame st kLocoSpeed (setLocid (set_dlc data0 4) u)
      | RequestEngineFunction u n => f = st_frame st kLocoFunction (dset (setLocid (set_dlc data0 5) u) 4 n)
      | RequestEngineAllFunctions u => exists i, f = st_frame st kLocoFunction (dset (setLocid (set_dlc data0 5) u) 4 i)
      | SendEngineDirection u d => f = own_packet st (fr_LocoDirection false u d)
      | SendEngineVelocity u v => f = own_packet st (fr_LocoSpeed false u v)
      | SendEngineFunction u n v => f = own_packet st (fr_LocoFunction false u n v)
      | SendEmergencyStop u => f = st_frame st kSystemCommand (sys_setLocid (sys_setSubcommand (sys_initData data0) kSubcommandLocoEmergencyStop) u)
      | SendSystemStop => f = st_frame st kSystemCommand (dset (set_dlc data0 5) 4 kSubcommandSystemStop)
      | SendSystemGo => f = st_frame st kSystemCommand (dset (set_dlc data0 5) 4 kSubcommandSystemGo)
      | SendPacket g => f = own_packet st g
      | _ => False
      end
  | _ => False
  end.
Definition begins_ok (o : op) : Prop :=
  match o with
  | OnStation _ (Begin u cb) => okst (mkStation (computeSenderHash u) cb) /\ forall st, okst st -> okst (mkStation (st_hash st) cb)
  | _ => True
  end.
Definition sends_ok (o : op) : Prop := forall st tx f, okst st -> may_send st o f -> okev (EvTx tx f).
Lemma br_step : forall w o, begins_ok o -> sends_ok o -> br w (step lw o) (rstep lw react inner o).
Proof.
  intros w o OB OS. unfold sends_ok in OS. destruct o; cbn [rstep]; try (apply br_lift; apply ss_step; exact Logic.I); [|apply br_message|apply br_reset].
  cbn [step]. destruct o; cbn [st_step rst_step]; try (apply br_own; intros; eapply OS; [eassumption|cbn [may_send]; reflexivity]);
    try apply br_finish; try (apply br_packet; intros; eapply OS; [eassumption|cbn [may_send]; reflexivity]); try apply br_skip.
  - destruct OB as [OB1 OB2]. unfold st_begin, rst_begin. apply br_seq; [apply br_finish|intros]. apply br_ask; intros st G GD. revert GD.
    intros GD. pose proof (good_station _ _ _ GD G) as GS. revert GD. change (br w1 (World.seq (put_station s (mkStation (st_hash st) callbacks)) (put_station s (mkStation (computeSenderHash uuid) callbacks)))
      (rlift (put_station s (mkStation (st_hash st) callbacks)) ~;; rlift (put_station s (mkStation (computeSenderHash uuid) callbacks)))).
    apply br_seq; [|intros]; apply br_put_station; [apply OB2; exact GS|exact OB1].
  - unfold st_handlePacket, rst_handlePacket. repeat (apply br_if; intros); try apply br_skip.
    + unfold st_handleSystemCommand, rst_handleSystemCommand. bs.
    + apply br_seq; [bs|intros]. apply br_seq; [apply br_accessory|intros; bs].
    + unfold st_handleLocoDirection, rst_handleLocoDirection. bs.
    + unfold st_handleLocoSpeed, rst_handleLocoSpeed. bs.
    + unfold st_handleLocoFunction, rst_handleLocoFunction. bs.
    + apply br_config.
    + bs.
    + bs.
  - apply br_accessory.
  - apply br_config.
  - unfold st_handleSystemCommand, rst_handleSystemCommand. bs.
  - unfold st_handleLocoDirection, rst_handleLocoDirection. bs.
  - unfold st_handleLocoSpeed, rst_handleLocoSpeed. bs.
  - unfold st_handleLocoFunction, rst_handleLocoFunction. bs.
  - apply br_engine. intros. eapply OS; [eassumption|cbn [may_send]; eauto].
  - apply br_list. intros. eapply OS; [eassumption|cbn [may_send]; eauto].
  - unfold st_sendEngineDirection. apply br_if; intros; [apply br_packet|apply br_skip]. intros. eapply OS; [eassumption|cbn [may_send]; reflexivity].
  - unfold st_requestEngineAllFunctions. apply br_ask; intros. apply br_functions; [|assumption]. intros. eapply OS; [eassumption|cbn [may_send]; eauto].
Qed.
End Calm.

Section CalmRun.
Variable lw : Z.
Variable react : list event -> code.
Variable n : nat.
Variable okst : Station -> Prop.
Hypothesis okst_cfg : forall st q, okst st -> okst (set_cfg st q).
Variable okev : event -> Prop.
Hypothesis okev_other : forall e, (match e with EvTx _ _ => False | _ => True end) -> okev e.
Variable N : nat.
Variable ins : list event -> list event -> Prop.
Hypothesis ins_refl : forall a, Forall no_tx a -> ins a a.
Hypothesis ins_app : forall a a' b b', ins a a' -> ins b b' -> ins (a ++ b) (a' ++ b').
Hypothesis calm : forall h e s, okev e -> good okst N (r_w s) -> exists xs, rexec lw react n (react (h ++ [e])) s = (Ok tt, mkR (r_w s) (r_t s ++ xs)) /\ ins [e] (e :: xs).
Lemma calm_run : forall ops w t w' t', good okst N w ->
  Forall (begins_ok okst) ops -> Forall (sends_ok okst okev) ops -> run lw ops w = Ok (w', t') ->
  out (good okst N) ins (rexec lw react (S n) (ops_code ops) (mkR w t)) tt w' t t'.
Proof.
  intros ops. induction ops as [|o ops IH]; intros w t w' t' G F F2 E.
  - inversion E; subst. apply out_ret; [apply ins_refl; auto|exact G].
  - inversion F; inversion F2; subst. cbn [run] in E. apply seq_inv in E. destruct E as (w1 & t1 & t2 & E1 & E2 & ->).
    change (rexec lw react (S n) (ops_code (o :: ops)) (mkR w t)) with ((rstep lw react (rexec lw react n) o ~;; rexec lw react (S n) (ops_code ops)) (mkR w t)).
    eapply out_bind; [exact ins_app| |].
    + apply (br_step lw react (rexec lw react n) okst okst_cfg okev okev_other N ins ins_refl ins_app calm w o H1 H5 G t w1 t1 E1).
    + intros tr1 G1. apply IH; assumption.
Qed.
End CalmRun.

Lemma passive_run : forall lw react n ops w t w' t', (forall h, react h = Ret) -> run lw ops w = Ok (w', t') ->
  rexec lw react (S n) (ops_code ops) (mkR w t) = (Ok tt, mkR w' (t ++ t')).
Proof.
  intros lw react n ops w t w' t' P E.
  destruct (calm_run lw react n (fun _ => True) (fun _ _ _ => Logic.I) (fun _ => True) (fun _ _ => Logic.I) (List.length (w_stations w)) eq) with (ops := ops) (w := w) (t := t) (w' := w') (t' := t') as (_ & x & <- & R).
  - reflexivity.
  - intros; subst; reflexivity.
  - intros h e s _ _. exists []. rewrite P, app_nil_r. split; [destruct n; destruct s; reflexivity|reflexivity].
  - split; [reflexivity|]. apply Forall_forall. auto.
  - apply Forall_forall. intros o _. destruct o; try exact Logic.I. destruct o; cbn; auto.
  - apply Forall_forall. intros o _ st tx f _ _. exact Logic.I.
  - exact E.
  - exact R.
Qed.
