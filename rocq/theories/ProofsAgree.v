(* ProofsAgree.v -- callbacks that do not call back: the re-entrant model and World.v have the same
   outcomes, undefined behaviour included. *)
From Verif Require Import ZLib Reentry ProofsWorld ProofsReentry ProofsSafe ProofsPassive.

Definition bad {A} (x : res A * rst) : Prop := exists u s, x = (UB u, s).
Lemma bad_bind : forall A B (a : ract A) (f : A -> ract B) s, bad (a s) -> bad (rbind a f s).
Proof. intros A B a f s (u & s' & E). unfold rbind. rewrite E. exists u, s'. reflexivity. Qed.

Lemma bind_ok : forall A B (a : ract A) (f : A -> ract B) s x s1, a s = (Ok x, s1) -> rbind a f s = f x s1.
Proof. intros A B a f s x s1 E. unfold rbind. rewrite E. reflexivity. Qed.

Section Exact.
Variable lw : Z.
Variable react : list event -> code.
Variable inner : code -> ract unit.
Hypothesis calm : forall h s, inner (react h) s = (Ok tt, s).

(** ** Actions *)
Definition sim (w : world) (a : act) (r : ract unit) : Prop := forall t,
  match a w with Ok (w', t') => r (mkR w t) = (Ok tt, mkR w' (t ++ t')) | UB _ => bad (r (mkR w t)) end.
Lemma sim_skip : forall w, sim w skip (rret tt).
Proof. intros w t. unfold skip, rret. rewrite app_nil_r. reflexivity. Qed.
Lemma sim_lift : forall w a, sim w a (rlift a).
Proof. intros w a t. unfold rlift. cbn [r_w r_t]. destruct (a w) as [[w' t']|u]; [reflexivity|]. exists u, (mkR w t). reflexivity. Qed.
Lemma sim_emit : forall w e, sim w (emit e) (ucall react inner e).
Proof. intros w e t. unfold emit, ucall, rbind, rlift. cbn [r_w r_t]. apply calm. Qed.
Lemma sim_seq : forall w a b ra rb, sim w a ra -> (forall w1 t1, a w = Ok (w1, t1) -> sim w1 b rb) -> sim w (World.seq a b) (rbind ra (fun _ => rb)).
Proof.
  intros w a b ra rb H K t. specialize (H t). unfold World.seq. destruct (a w) as [[w1 t1]|u] eqn:E; cbn [bind]; [|apply bad_bind; exact H].
  specialize (K _ _ eq_refl (t ++ t1)). unfold rbind. rewrite H. destruct (b w1) as [[w2 t2]|u]; cbn [bind]; [rewrite app_assoc; exact K|exact K].
Qed.
Lemma sim_ask : forall w A (f : world -> res A) k rk, (forall x, f w = Ok x -> sim w (k x) (rk x)) -> sim w (ask f k) (rbind (rask f) rk).
Proof.
  intros w A f k rk H t. unfold ask, rbind, rask. cbn [r_w]. destruct (f w) as [x|u] eqn:F; cbn [bind]; [apply H; reflexivity|]. exists u, (mkR w t). reflexivity.
Qed.
Lemma sim_when : forall w A (p : option A) k rk, (forall x, p = Some x -> sim w (k x) (rk x)) -> sim w (when_some p k) (rwhen_some p rk).
Proof. intros w A [x|] k rk H; [apply H; reflexivity|apply sim_skip]. Qed.
Lemma sim_read : forall w A (f : world -> res A) x a rk, f w = Ok x -> sim w a (rk x) -> sim w a (rbind (rask f) rk).
Proof. intros w A f x a rk F H t. unfold rbind, rask. cbn [r_w]. rewrite F. apply H. Qed.
Lemma sim_if : forall w (b : bool) a a' ra ra', (b = true -> sim w a ra) -> (b = false -> sim w a' ra') -> sim w (if b then a else a') (if b then ra else ra').
Proof. intros w [|] a a' ra ra' H K; auto. Qed.
Lemma sim_ext : forall w a b r, (forall w, a w = b w) -> sim w a r -> sim w b r.
Proof. intros w a b r E H t. rewrite <- E. apply H. Qed.
Lemma emit_late : forall A e (f : world -> res A) k w, (World.seq (emit e) (ask f k)) w = match f w with Ok x => (World.seq (emit e) (k x)) w | UB u => UB u end.
Proof. intros. unfold World.seq, emit, ask. cbn [bind]. destruct (f w); reflexivity. Qed.
Lemma sim_emit_ask : forall A e (f : world -> res A) k rk w,
  (forall x, f w = Ok x -> sim w (World.seq (emit e) (k x)) (rk x)) -> sim w (World.seq (emit e) (ask f k)) (rbind (rask f) rk).
Proof.
  intros A e f k rk w H t. rewrite emit_late. unfold rbind, rask. cbn [r_w]. destruct (f w) as [x|u] eqn:F; [apply H; reflexivity|]. exists u, (mkR w t). reflexivity.
Qed.
Lemma sim_emit_skip : forall w e, sim w (World.seq (emit e) skip) (ucall react inner e).
Proof. intros w e t. exact (sim_emit w e t). Qed.
Ltac bstep := first [ apply sim_skip | apply sim_lift | apply sim_emit | apply sim_seq; [|intros] | apply sim_ask; intros | apply sim_when; intros | apply sim_if; intros ].
Ltac bs := repeat bstep.

Lemma sim_consume : forall w c s k v, sim w (cons_consume lw c s k v) (rcons_consume lw react inner c s k v).
Proof. intros. apply sim_emit_ask. intros [e cb|co i n off cb|] F; [bs|bs|apply sim_emit_skip]. Qed.
Lemma sim_complete : forall w c, sim w (cons_complete c) (rcons_complete react inner c).
Proof. intros. apply sim_emit_ask. intros [e cb|co i n off cb|] F; [|bs|apply sim_emit_skip]. bs. Qed.
Lemma sim_aborted : forall w c, sim w (cons_aborted c) (rcons_aborted react inner c).
Proof. intros. apply sim_emit_ask. intros [e cb|co i n off cb|] F; [bs|bs|apply sim_emit_skip]. Qed.

(** ** The text parser *)
Lemma consume_wt : forall c s k v w p sp x, cons_consume lw c s k v (wt w p sp x)
  = match cons_consume lw c s k v w with Ok (w', t) => Ok (wt w' p sp x, t) | UB u => UB u end.
Proof.
  intros c s k v w p sp x. destruct (cons_consume lw c s k v w) as [[w' t]|u] eqn:H; [apply (consume_other lw); (first [exact H|discriminate H])|].
  unfold cons_consume in *. rewrite emit_late in *. unfold get_cons in *. cbn [wt w_conss]. destruct (at_ (w_conss w) c) as [o|]; [|(first [exact H|discriminate H])].
  unfold World.seq, emit in *. cbn [bind] in *. destruct o as [e cb|co i n off cb|]; [| |(first [exact H|discriminate H])].
  - unfold loco_consume, ask in *. destruct (mread e) as [[e'|]|]; cbn [bind] in *; [|(first [exact H|discriminate H])|(first [exact H|discriminate H])].
    unfold get_engine in *. cbn [wt w_engines] in *. destruct (at_ (w_engines w) e') as [l|]; cbn [bind] in *; [|(first [exact H|discriminate H])].
    destruct (loco_line lw l s k v) as [l'|]; cbn [bind] in *; [(first [exact H|discriminate H])|(first [exact H|discriminate H])].
  - unfold list_consume, ask, print, put_cons, World.seq, emit, skip in *. destruct (bstrncmp s kEngineNames) as [[|]|]; cbn [bind] in *; [| |(first [exact H|discriminate H])].
    + destruct (findFirstFreeEntry i) as [j|]; [|(first [exact H|discriminate H])]. destruct (c_str (mem v)) as [tx|]; cbn [bind] in *; [|(first [exact H|discriminate H])].
      destruct (si_setName (nth j i si_reset) (mem v)) as [si|]; cbn [bind] in *; [(first [exact H|discriminate H])|(first [exact H|discriminate H])].
    + destruct (bstrncmp s kSectionNumEngines) as [[|]|]; cbn [bind] in *; [| |(first [exact H|discriminate H])].
      * destruct (bstrncmp k kGenericValue) as [[|]|]; cbn [bind] in *; [|(first [exact H|discriminate H])|(first [exact H|discriminate H])].
        destruct (basUint8 lw v) as [m|]; cbn [bind] in *; [(first [exact H|discriminate H])|(first [exact H|discriminate H])].
      * destruct (c_str (mem s)) as [tx|]; cbn [bind] in *; [(first [exact H|discriminate H])|(first [exact H|discriminate H])].
Qed.

Section Text.
Variable p : nat.
Variable sp : SP.
Notation told := (told lw).
(** heap action h has the outcomes of the pure result r of the text parser started in t *)
Definition esim {R} (t : TP) (r : res (TP * list triple * R)) (h : ract R) : Prop :=
  forall w tr, inside w p ->
    match r with
    | UB _ => bad (h (mkR (wt w p sp t) tr))
    | Ok (t', evs, x) =>
        tp_cons t' = tp_cons t /\
        match told (tp_cons t) evs w with
        | Ok (w', tr') => h (mkR (wt w p sp t) tr) = (Ok x, mkR (wt w' p sp t') (tr ++ tr')) /\ inside w' p
        | UB _ => bad (h (mkR (wt w p sp t) tr))
        end
    end.
Definition req {R} (a b : res R) : Prop := match a, b with Ok x, Ok y => x = y | UB _, UB _ => True | _, _ => False end.
Lemma esim_req : forall R t (r r' : res (TP * list triple * R)) h, req r r' -> esim t r h -> esim t r' h.
Proof. intros R t r r' h Q H w tr I. specialize (H w tr I). destruct r as [x|u], r' as [y|u']; cbn [req] in Q; try contradiction; [subst; exact H|exact H]. Qed.
Lemma esim_ret : forall R t (x : R), esim t (Ok (t, [], x)) (rret x).
Proof. intros R t x w tr I. split; [reflexivity|]. rewrite told_nil. split; [rewrite app_nil_r; reflexivity|exact I]. Qed.
Lemma esim_read : forall R t (r : res (TP * list triple * R)) k, esim t r (k t) -> esim t r (x <~ rtp p ~; k x).
Proof. intros R t r k H w tr I. rewrite read_tp by exact I. apply H. exact I. Qed.
Lemma esim_put : forall R t t' (r : res (TP * list triple * R)) k, tp_cons t' = tp_cons t -> esim t' r k -> esim t r (rtp_put p t' ~;; k).
Proof. intros R t t' r k C H w tr I. rewrite then_write by exact I. specialize (H w tr I). rewrite C in H. exact H. Qed.
Lemma esim_val : forall A R t (v : res A) (f : A -> res (TP * list triple * R)) k, (forall x, v = Ok x -> esim t (f x) (k x)) -> esim t (bind v f) (x <~ rval v ~; k x).
Proof.
  intros A R t v f k H w tr I. destruct v as [x|u]; cbn [bind]; [rewrite then_val with (x := x) by reflexivity; apply H; auto|].
  exists u, (mkR (wt w p sp t) tr). reflexivity.
Qed.
Lemma esim_ub : forall R t u, esim (R := R) t (UB u) (rval (UB u)).
Proof. intros R t u w tr I. exists u, (mkR (wt w p sp t) tr). reflexivity. Qed.
Lemma told_join : forall c a b w, told c (a ++ b) w = World.seq (told c a) (told c b) w.
Proof.
  intros [c|] a b; [|reflexivity]. cbn [ProofsPassive.told when_some].
  induction a as [|[[s k] v] a IH]; intros w.
  - cbn [app cons_consume_all]. unfold World.seq, skip. cbn [bind]. destruct (cons_consume_all lw c b w) as [[w1 t1]|]; reflexivity.
  - cbn [app cons_consume_all]. unfold World.seq. destruct (cons_consume lw c s k v w) as [[w1 t1]|]; cbn [bind]; [|reflexivity].
    rewrite IH. unfold World.seq. destruct (cons_consume_all lw c a w1) as [[w2 t2]|]; cbn [bind]; [|reflexivity].
    destruct (cons_consume_all lw c b w2) as [[w3 t3]|]; cbn [bind]; [rewrite app_assoc; reflexivity|reflexivity].
Qed.
Definition andthen {A B} (r : res (TP * list triple * A)) (f : TP -> A -> res (TP * list triple * B)) : res (TP * list triple * B) :=
  '(t, e, x) <- r ;; '(t2, e2, y) <- f t x ;; Ok (t2, e ++ e2, y).
Lemma esim_bind : forall A B t (r : res (TP * list triple * A)) (f : TP -> A -> res (TP * list triple * B)) h k,
  esim t r h -> (forall t' e x, r = Ok (t', e, x) -> esim t' (f t' x) (k x)) -> esim t (andthen r f) (rbind h k).
Proof.
  intros A B t r f h k H K w tr I. specialize (H w tr I). unfold andthen. destruct r as [[[t1 e1] x]|u]; cbn [bind]; [|apply bad_bind; exact H].
  destruct H as [C H]. pose proof (K t1 e1 x eq_refl) as K1. destruct (told (tp_cons t) e1 w) as [[w1 x1]|u1] eqn:T1.
  - destruct H as [H I1]. specialize (K1 w1 (tr ++ x1) I1). destruct (f t1 x) as [[[t2 e2] y]|u2]; cbn [bind].
    + destruct K1 as [C2 K1]. split; [congruence|]. rewrite told_join. unfold World.seq. rewrite T1. cbn [bind]. rewrite C in K1. unfold rbind. rewrite H.
      destruct (told (tp_cons t) e2 w1) as [[w2 x2]|u2]; cbn [bind]; [rewrite app_assoc; exact K1|exact K1].
    + unfold rbind. rewrite H. exact K1.
  - assert (Q : bad (rbind h k (mkR (wt w p sp t) tr))) by (apply bad_bind; exact H).
    destruct (f t1 x) as [[[t2 e2] y]|u2] eqn:F; cbn [bind]; [|exact Q]. split; [|rewrite told_join; unfold World.seq; rewrite T1; exact Q].
    destruct (K1 w [] I) as [C2 _]. congruence.
Qed.
Lemma esim_assoc : forall A B C t (r : res (TP * list triple * C)) (a : ract A) (f : A -> ract B) (g : B -> ract C),
  esim t r (rbind a (fun x => rbind (f x) g)) -> esim t r (rbind (rbind a f) g).
Proof. intros A B C t r a f g H w tr I. rewrite bind_assoc. apply H. exact I. Qed.

Lemma esim_report : forall t, esim t (Ok (t, tp_emit t, tt)) (rtp_report lw react inner p).
Proof.
  intros t w tr I. split; [reflexivity|]. unfold rtp_report. rewrite read_tp by exact I. unfold tp_emit.
  destruct (tp_cons t) as [c|]; cbn [ProofsPassive.told when_some rwhen_some cons_consume_all]; [|split; [unfold rret; rewrite app_nil_r; reflexivity|exact I]].
  pose proof (sim_consume (wt w p sp t) c (tp_sec t) (tp_key t) (tp_val t) tr) as S. rewrite consume_wt in S.
  unfold World.seq, skip. destruct (cons_consume lw c (tp_sec t) (tp_key t) (tp_val t) w) as [[w1 t1]|u] eqn:E; cbn [bind]; [|exact S].
  rewrite app_nil_r. split; [exact S|]. destruct (consume_other lw _ _ _ _ _ _ _ p sp t E) as [_ L]. unfold inside. rewrite L. exact I.
Qed.
Lemma esim_error : forall t, esim t (noval (tp_reportParseError t)) (rtp_reportParseError lw react inner p).
Proof.
  intros t. unfold rtp_reportParseError. apply esim_read. cbv zeta.
  eapply esim_req; [|apply esim_val with (f := fun t' => Ok (t', tp_emit t', tt))].
  - unfold noval, tp_reportParseError. cbv zeta. destruct (bset (tp_sec (set_state t ERROR)) (lit "ERROR")); cbn [bind req]; [|exact Logic.I].
    destruct (bset (tp_key (set_state t ERROR)) (lit "ERROR")); cbn [bind req]; [|exact Logic.I].
    destruct (bset (tp_val (set_state t ERROR)) (lit "ERROR")); cbn [bind req]; [reflexivity|exact Logic.I].
  - intros t' E. apply esim_put; [|apply esim_report].
    destruct (bset (tp_sec (set_state t ERROR)) (lit "ERROR")); cbn [bind] in E; [|discriminate].
    destruct (bset (tp_key (set_state t ERROR)) (lit "ERROR")); cbn [bind] in E; [|discriminate].
    destruct (bset (tp_val (set_state t ERROR)) (lit "ERROR")); cbn [bind] in E; [|discriminate]. inversion E; reflexivity.
Qed.
Lemma esim_error_then : forall R t (x : R), esim t ('(t', e) <- tp_reportParseError t ;; Ok (t', e, x)) (rtp_reportParseError lw react inner p ~;; rret x).
Proof.
  intros R t x. eapply esim_req; [|apply esim_bind with (f := fun t' _ => Ok (t', [], x)); [apply esim_error|intros; apply esim_ret]].
  unfold andthen, noval. destruct (tp_reportParseError t) as [[t' e]|]; cbn [bind req]; [rewrite app_nil_r; reflexivity|exact Logic.I].
Qed.
Lemma esim_find : forall t o cs d, esim t (tp_findToken t o cs d) (rtp_findToken lw react inner p o cs d).
Proof.
  intros t o cs d. unfold tp_findToken, rtp_findToken. apply esim_read.
  eapply esim_req; [|apply esim_val with (f := fun r : Z * bool * Z => let '(consumed, success, mch) := r in
    andthen (match d with
      | None => Ok (t, [], success)
      | Some d => bind (partial <- bsub (tp_buf t) o consumed ;; '(b', pushed) <- bpush (dest_get t d) partial ;; Ok (dest_set t d b', pushed <? blen partial))
          (fun r => if snd r : bool then '(t', e) <- tp_reportParseError (fst r) ;; Ok (t', e, false) else Ok (fst r, [], success))
      end) (fun t success => Ok (t, [], mkFT (if success : bool then u8 (consumed + 1) else consumed) success mch)))].
  - destruct (bfind_chars (tp_buf t) cs o) as [found|]; cbn [bind req]; [|exact Logic.I].
    destruct (if found =? npos then Ok (blen (tp_buf t), false, 0) else c <- bget (tp_buf t) found;; Ok (found, true, c)) as [[[consumed success] mch]|]; cbn [bind req]; [|exact Logic.I].
    unfold andthen. destruct d as [d|]; [|reflexivity].
    destruct (bsub (tp_buf t) o consumed) as [partial|]; cbn [bind req]; [|exact Logic.I].
    destruct (bpush (dest_get t d) partial) as [[b' pushed]|]; cbn [bind req fst snd]; [|exact Logic.I].
    destruct (pushed <? blen partial); [|reflexivity].
    destruct (tp_reportParseError (dest_set t d b')) as [[t1 e1]|]; cbn [bind req]; [rewrite app_nil_r; reflexivity|exact Logic.I].
  - intros [[consumed success] mch] _. apply esim_bind; [|intros; apply esim_ret]. destruct d as [d|]; [|apply esim_ret].
    apply esim_val. intros [t' b] E. cbn [fst snd].
    apply esim_put; [|destruct b; [apply esim_error_then|apply esim_ret]].
    destruct (bsub (tp_buf t) o consumed) as [partial|]; cbn [bind] in E; [|discriminate].
    destruct (bpush (dest_get t d) partial) as [[b' pushed]|]; cbn [bind] in E; [|discriminate]. inversion E; destruct d; reflexivity.
Qed.
Definition eiter (t : TP) (c : Z) : res (TP * list triple * (Z * bool)) := '(t, e, c, r) <- tp_iteration t c ;; Ok (t, e, (c, r)).
(** one more write and the result *)
Lemma esim_put_ret : forall R t t' (x : R), tp_cons t' = tp_cons t -> esim t (Ok (t', [], x)) (rtp_put p t' ~;; rret x).
Proof. intros. apply esim_put; [assumption|apply esim_ret]. Qed.
Lemma esim_iteration : forall t c, esim t (eiter t c) (rtp_iteration lw react inner p c).
Proof.
  intros t c. unfold eiter, tp_iteration, rtp_iteration. apply esim_read. destruct (tp_state t).
  - eapply esim_req; [|apply esim_bind with (r := tp_findToken t c kKeyOrSectionStart None) (f := fun t r =>
      if ft_success r then bind (bget (tp_buf t) (u8 (ft_consumed r - 1))) (fun ch => if ch =? kSectionStart then bind (berase (tp_sec t)) (fun s => Ok (set_state (set_sec t s) PARSING_SECTION, [], (ft_consumed r, false)))
        else if ch =? kKeyStart then Ok (set_state t PARSING_KEY, [], (ft_consumed r, false)) else '(t', e) <- tp_reportParseError t ;; Ok (t', e, (c, true)))
      else Ok (t, [], (ft_consumed r, false))); [apply esim_find|]].
    + unfold andthen. destruct (tp_findToken t c kKeyOrSectionStart None) as [[[t1 e1] r]|]; cbn [bind req]; [|exact Logic.I].
      destruct (ft_success r); [|cbn [bind req]; rewrite app_nil_r; reflexivity].
      destruct (bget (tp_buf t1) (u8 (ft_consumed r - 1))) as [ch|]; cbn [bind req]; [|exact Logic.I]. destruct (ch =? kSectionStart).
      * destruct (berase (tp_sec t1)); cbn [bind req]; [rewrite app_nil_r; reflexivity|exact Logic.I].
      * destruct (ch =? kKeyStart); [cbn [bind req]; rewrite app_nil_r; reflexivity|].
        destruct (tp_reportParseError t1) as [[t2 e2]|]; cbn [bind req]; [reflexivity|exact Logic.I].
    + intros t1 e1 r _. destruct (ft_success r); [|apply esim_ret]. apply esim_read. apply esim_val. intros ch _. destruct (ch =? kSectionStart).
      * apply esim_val. intros s _. apply esim_put_ret. reflexivity.
      * destruct (ch =? kKeyStart); [apply esim_put_ret; reflexivity|apply esim_error_then].
  - eapply esim_req; [|apply esim_bind with (r := tp_findToken t c kSectionStop (Some DSec)) (f := fun t r =>
      Ok (if ft_success r then set_state t LOOKING else t, [], (ft_consumed r, false))); [apply esim_find|]].
    + unfold andthen. destruct (tp_findToken t c kSectionStop (Some DSec)) as [[[t1 e1] r]|]; cbn [bind req]; [|exact Logic.I]. rewrite app_nil_r. reflexivity.
    + intros t1 e1 r _. destruct (ft_success r); [|apply esim_ret]. apply esim_assoc. apply esim_read. apply esim_put_ret. reflexivity.
  - eapply esim_req; [|apply esim_bind with (r := tp_findToken t c kKeyOrValueStop (Some DKey)) (f := fun t r =>
      if ft_success r then
        if ft_match r =? kKeyStop then Ok (set_state t PARSING_VALUE, [], (ft_consumed r, false))
        else if ft_match r =? kValueStop then
          bind (berase (tp_val t)) (fun v => andthen (Ok (set_val t v, tp_emit (set_val t v), tt)) (fun t _ => bind (berase (tp_key t)) (fun k => Ok (set_state (set_key t k) LOOKING, [], (ft_consumed r, false)))))
        else Ok (t, [], (ft_consumed r, false))
      else Ok (t, [], (ft_consumed r, false))); [apply esim_find|]].
    + unfold andthen. destruct (tp_findToken t c kKeyOrValueStop (Some DKey)) as [[[t1 e1] r]|]; cbn [bind req]; [|exact Logic.I].
      destruct (ft_success r); [|cbn [bind req]; rewrite app_nil_r; reflexivity].
      destruct (ft_match r =? kKeyStop); [cbn [bind req]; rewrite app_nil_r; reflexivity|].
      destruct (ft_match r =? kValueStop); [|cbn [bind req]; rewrite app_nil_r; reflexivity].
      destruct (berase (tp_val t1)) as [v|]; cbn [bind req]; [|exact Logic.I].
      destruct (berase (tp_key (set_val t1 v))) as [k|]; cbn [bind req]; [rewrite app_nil_r; reflexivity|exact Logic.I].
    + intros t1 e1 r _. destruct (ft_success r); [|apply esim_ret]. apply esim_assoc. apply esim_read.
      destruct (ft_match r =? kKeyStop); [apply esim_put_ret; reflexivity|].
      destruct (ft_match r =? kValueStop); [|apply esim_ret].
      apply esim_assoc. apply esim_val. intros v _. apply esim_assoc. apply esim_put; [reflexivity|]. apply esim_assoc.
      apply esim_bind; [apply esim_report|]. intros t2 e2 x _. apply esim_assoc. apply esim_read. apply esim_assoc. apply esim_val. intros k _. apply esim_put_ret. reflexivity.
  - eapply esim_req; [|apply esim_bind with (r := tp_findToken t c kValueStop_str (Some DVal)) (f := fun t r =>
      if ft_success r then andthen (Ok (t, tp_emit t, tt)) (fun t _ => bind (berase (tp_key t)) (fun k => bind (berase (tp_val t)) (fun v => Ok (set_state (set_val (set_key t k) v) LOOKING, [], (ft_consumed r, false)))))
      else Ok (t, [], (ft_consumed r, false))); [apply esim_find|]].
    + unfold andthen. destruct (tp_findToken t c kValueStop_str (Some DVal)) as [[[t1 e1] r]|]; cbn [bind req]; [|exact Logic.I].
      destruct (ft_success r); [|cbn [bind req]; rewrite app_nil_r; reflexivity]. cbn [bind].
      destruct (berase (tp_key t1)) as [k|]; cbn [bind req]; [|exact Logic.I]. destruct (berase (tp_val t1)) as [v|]; cbn [bind req]; [rewrite app_nil_r; reflexivity|exact Logic.I].
    + intros t1 e1 r _. destruct (ft_success r); [|apply esim_ret]. apply esim_assoc.
      apply esim_bind; [apply esim_report|]. intros t2 e2 x _. apply esim_assoc. apply esim_read. apply esim_assoc. apply esim_val. intros k _.
      apply esim_assoc. apply esim_val. intros v _. apply esim_put_ret. reflexivity.
  - apply esim_ret.
Qed.
Lemma esim_process : forall fuel t c, esim t (tp_process fuel t c) (rtp_process lw react inner p fuel c).
Proof.
  induction fuel; intros t c; cbn [tp_process rtp_process]; apply esim_read; (destruct (c <? blen (tp_buf t)); [|apply esim_ret]); [apply esim_ub|].
  eapply esim_req; [|apply esim_bind with (r := eiter t c) (f := fun t x => if snd x : bool then Ok (t, [], fst x) else tp_process fuel t (fst x)); [apply esim_iteration|]].
  - unfold andthen, eiter. destruct (tp_iteration t c) as [[[[t1 e1] c1] [|]]|]; cbn [bind req fst snd]; [rewrite app_nil_r; reflexivity| |exact Logic.I].
    destruct (tp_process fuel t1 c1) as [[[t2 e2] c2]|]; cbn [bind req]; [reflexivity|exact Logic.I].
  - intros t1 e1 [c1 b] _. cbn [fst snd]. destruct b; [apply esim_ret|apply IHfuel].
Qed.
Lemma esim_addLoop : forall input fuel t i, esim t (noval (tp_addLoop fuel t input i)) (rtp_addLoop lw react inner p fuel input i).
Proof.
  intros input. induction fuel; intros t i; cbn [tp_addLoop rtp_addLoop]; (destruct (i <? blen input); [|apply esim_ret]); [apply esim_ub|].
  apply esim_read. destruct (bfull (tp_buf t) || match tp_state t with ERROR => true | _ => false end); [apply esim_error|].
  eapply esim_req; [|apply esim_val with (f := fun r => andthen (tp_processBuffer (set_buf t (fst r))) (fun t cb => bind (bpop_front (tp_buf t) cb) (fun b => noval (tp_addLoop fuel (set_buf t b) input (u8 (i + snd r))))))].
  - unfold andthen, noval. destruct (bsub1 input i) as [view|]; cbn [bind req]; [|exact Logic.I].
    destruct (bpush (tp_buf t) view) as [[b n]|]; cbn [bind req fst snd]; [|exact Logic.I].
    destruct (tp_processBuffer (set_buf t b)) as [[[t1 e1] cb]|]; cbn [bind req]; [|exact Logic.I].
    destruct (bpop_front (tp_buf t1) cb) as [b3|]; cbn [bind req]; [|exact Logic.I].
    destruct (tp_addLoop fuel (set_buf t1 b3) input (u8 (i + n))) as [[t2 e2]|]; cbn [bind req]; [reflexivity|exact Logic.I].
  - intros r _. apply esim_put; [reflexivity|]. apply esim_bind.
    + unfold rtp_processBuffer, tp_processBuffer. apply esim_read. apply esim_process.
    + intros t1 e1 cb _. apply esim_read. apply esim_val. intros b _. apply esim_put; [reflexivity|apply IHfuel].
Qed.
Lemma esim_addText : forall t input, esim t (noval (tp_addText t input)) (rtp_addText lw react inner p input).
Proof.
  intros t input. unfold tp_addText, rtp_addText. apply esim_read.
  destruct ((blen input >? kBufferLength) || match tp_state t with ERROR => true | _ => false end); [apply esim_error|apply esim_addLoop].
Qed.
End Text.

(** ** The stream parser *)
Lemma sim_reset : forall w p, sim w (lib_reset p) (rlib_reset react inner p).
Proof.
  intros. unfold lib_reset, rlib_reset. apply sim_ask; intros sp _. apply sim_seq; [|intros; bs].
  apply sim_if; intros; [|apply sim_skip]. apply sim_when; intros. apply sim_aborted.
Qed.
(** replacing a parser object *)
Definition pw (w : world) (p : nat) (sp : SP) : world := mkW (w_stations w) (upd p (LibP sp) (w_parsers w)) (w_conss w) (w_engines w).
Lemma sim_put_lib : forall w p sp a r, (forall t, match a (pw w p sp) with Ok (w', t') => r (mkR w t) = (Ok tt, mkR w' (t ++ t')) | UB _ => bad (r (mkR w t)) end) ->
  sim w (World.seq (put_lib p sp) a) r.
Proof.
  intros w p sp a r H t. specialize (H t). unfold World.seq, put_lib, put_parser. cbn [bind]. unfold pw in H.
  destruct (a (mkW (w_stations w) (upd p (LibP sp) (w_parsers w)) (w_conss w) (w_engines w))) as [[w' t']|u]; exact H.
Qed.
Lemma sim_message : forall w p d, sim w (lib_addMessage lw p d) (rlib_addMessage lw react inner p d).
Proof.
  intros w p d. unfold lib_addMessage, rlib_addMessage. apply sim_ask. intros sp G. destruct (get_lib_inside _ _ _ G) as [I _].
  destruct (sp_state sp) eqn:ST.
  - apply sim_lift.
  - apply sim_if; intros B.
    + cbv zeta. cbn [sp_remaining sp_text sp_crc sp_cons]. destruct (header_length d >? 0).
      * intros t. rewrite put_then.
        pose proof (put_state unit w p (mkSP SS_FIRST (header_length d) (sp_text sp) (crc_loadReference (sp_crc sp) (header_crc d)) (sp_cons sp)) SS_DATA t (rret tt) I) as Q.
        unfold rbind at 1 in Q. cbn [sp_remaining sp_text sp_crc sp_cons] in Q.
        match type of Q with (match ?x with _ => _ end) = _ => destruct x as [[[]|u] s'] eqn:X end; [|discriminate]. unfold rret in Q. inversion Q; subst.
        unfold put_lib, put_parser. rewrite app_nil_r. reflexivity.
      * apply sim_put_lib. intros t. rewrite put_then, (put_state unit w p) by exact I. cbn [sp_remaining sp_text sp_crc sp_cons]. rewrite get_put by exact I. cbn [sp_cons].
        refine (sim_when _ _ _ _ _ _ t). intros; apply sim_complete.
    + apply sim_if; intros; (apply sim_seq; [apply sim_lift|intros; apply sim_reset]).
  - apply sim_if; intros B; [apply sim_seq; [apply sim_lift|intros; apply sim_reset]|]. cbv zeta.
    apply sim_ask. intros crc _.
    set (rem := u32 (sp_remaining sp - dlc d)). set (sp0 := mkSP SS_DATA rem (sp_text sp) crc (sp_cons sp)).
    intros tr. rewrite put_then. fold sp0. fold (pw w p sp0).
    assert (W0 : forall t0, pw w p sp0 = wt (pw w p t0) p sp0 (sp_text sp)) by (intros t0; unfold pw, wt, sp0; cbn; rewrite upd_twice; reflexivity).
    assert (IW : forall t0, inside (pw w p t0) p) by (intros t0; unfold inside, pw; cbn [w_parsers]; rewrite upd_len; exact I).
    unfold ask at 1. destruct (tp_addText (sp_text sp) (mkBuf (dbytes d) CanDataMaxLength (dlc d))) as [[t1 evs]|u] eqn:T; cbn [bind].
    2:{ apply bad_bind. pose proof (esim_addText p sp0 (sp_text sp) (mkBuf (dbytes d) CanDataMaxLength (dlc d)) (pw w p sp0) tr (IW _)) as S.
        rewrite T in S. cbn [noval bind] in S. rewrite <- W0 in S. exact S. }
    cbn [fst snd]. set (spX := mkSP SS_DATA rem t1 crc (sp_cons sp)).
    pose proof (esim_addText p sp0 (sp_text sp) (mkBuf (dbytes d) CanDataMaxLength (dlc d)) (pw w p spX) tr (IW _)) as S.
    rewrite T in S. unfold noval in S. cbn [bind] in S. rewrite <- W0 in S. destruct S as [_ S].
    change (when_some (tp_cons (sp_text sp)) (fun c => cons_consume_all lw c evs)) with (told lw (tp_cons (sp_text sp)) evs).
    revert tr S. match goal with |- forall tr, _ -> match (World.seq _ ?b) w with _ => _ end => set (rest := b) end. intros tr S.
    replace (World.seq (put_lib p spX) rest w) with (rest (pw w p spX)) by (unfold World.seq, put_lib, put_parser, pw; cbn [bind]; destruct (rest _) as [[? ?]|]; reflexivity).
    unfold rest. unfold World.seq at 1. destruct (told lw (tp_cons (sp_text sp)) evs (pw w p spX)) as [[w1 x1]|u1] eqn:E1; cbn [bind].
    2:{ apply bad_bind. exact S. }
    destruct S as [S L]. rewrite (bind_ok _ _ _ _ _ _ _ S).
    assert (S2 : wt w1 p sp0 t1 = w1).
    { unfold wt, sp0. cbn [sp_state sp_remaining sp_crc sp_cons]. fold spX. rewrite (told_parsers _ _ _ _ _ _ E1). unfold pw. cbn [w_parsers]. rewrite upd_twice.
      change (upd p (LibP spX) (w_parsers w)) with (w_parsers (pw w p spX)). rewrite <- (told_parsers _ _ _ _ _ _ E1). destruct w1; reflexivity. }
    assert (S3 : w1 = pw w1 p spX) by (rewrite <- S2 at 1; reflexivity).
    rewrite S2. revert S3 L. clear - calm. intros S3 L.
    assert (F : sim w1 (if rem =? 0 then ask (fun _ => crc_isValid crc) (fun valid => if valid : bool then World.seq (put_lib p (mkSP SS_DONE rem t1 crc (sp_cons sp))) (when_some (sp_cons sp) cons_complete)
        else World.seq (put_lib p (mkSP SS_IDLE rem t1 crc (sp_cons sp))) (when_some (sp_cons sp) cons_aborted)) else skip)
      (sp <~ rask (get_lib p) ~; if sp_remaining sp =? 0 then valid <~ rval (crc_isValid (sp_crc sp)) ~;
          if valid : bool then rput_state p SS_DONE ~;; sp <~ rask (get_lib p) ~; rwhen_some (sp_cons sp) (rcons_complete react inner)
          else rput_state p SS_IDLE ~;; sp <~ rask (get_lib p) ~; rwhen_some (sp_cons sp) (rcons_aborted react inner) else rret tt)).
    { eapply sim_read.
      - rewrite S3. unfold get_lib, get_parser, at_, pw. cbn [w_parsers]. rewrite nth_upd_in by exact L. reflexivity.
      - cbn [sp_remaining sp_crc spX]. apply sim_if; intros; [|apply sim_skip]. apply sim_ask. intros [|] _; apply sim_put_lib; intros t; replace (mkR w1 t) with (mkR (pw w1 p spX) t) by (rewrite <- S3; reflexivity); unfold pw at 2 3.
        + rewrite (put_state unit w1 p) by exact L. unfold spX. cbn [sp_remaining sp_text sp_crc sp_cons]. rewrite get_put by exact L. cbn [sp_cons].
          refine (sim_when _ _ _ _ _ _ t). intros; apply sim_complete.
        + rewrite (put_state unit w1 p) by exact L. unfold spX. cbn [sp_remaining sp_text sp_crc sp_cons]. rewrite get_put by exact L. cbn [sp_cons].
          refine (sim_when _ _ _ _ _ _ t). intros; apply sim_aborted. }
    specialize (F (tr ++ x1)). match type of F with match ?x with _ => _ end => destruct x as [[w' x2]|u2] end; cbn [bind]; [rewrite app_assoc; exact F|exact F].
  - apply sim_lift.
Qed.
Lemma sim_cfg : forall w p c, sim w (cfg_call lw p c) (rcfg_call lw react inner p c).
Proof.
  intros. apply sim_emit_ask. intros [sp|beh h] F.
  - apply sim_seq; [bs|]. intros w1 t1 E. inversion E; subst. destruct c; [bs|apply sim_message|apply sim_reset].
  - intros t. unfold World.seq, emit, put_parser, rbind at 1, rlift. cbn [bind r_w r_t app]. rewrite app_nil_r. apply sim_emit.
Qed.

(** ** The station *)
Lemma sim_tx : forall w s st f, get_station s w = Ok st -> sim w (tx_send (st_cbs st) f) (rtx_send react inner s f).
Proof. intros w s st f G. unfold tx_send, rtx_send. eapply sim_read; [exact G|]. apply sim_ask; intros tx _. apply sim_emit. Qed.
Lemma sim_finish : forall w s, sim w (st_finish lw s) (rst_finish lw react inner s).
Proof. intros. unfold st_finish, rst_finish. apply sim_ask; intros. apply sim_when; intros. apply sim_seq; [apply sim_cfg|]. intros. bs. Qed.
Lemma sim_own : forall w s cmd d, sim w (ask (get_station s) (fun st => tx_send (st_cbs st) (st_frame st cmd d))) (rst_sendOwn react inner s cmd d).
Proof. intros. unfold rst_sendOwn. apply sim_ask. intros st G. apply sim_tx. exact G. Qed.
Lemma sim_packet : forall w s f, sim w (st_sendPacket s f) (rst_sendPacket react inner s f).
Proof. intros. unfold st_sendPacket, rst_sendPacket. apply sim_ask. intros st G. apply sim_tx. exact G. Qed.
Lemma sim_functions : forall w s st u n i, get_station s w = Ok st -> sim w (send_functions st u i n) (rsend_functions react inner s st u i n).
Proof.
  intros w s st u n. induction n; intros i G; cbn [send_functions rsend_functions]; [apply sim_skip|].
  apply sim_seq; [apply sim_tx; exact G|]. intros w1 t1 E. apply tx_same in E. subst. apply IHn; assumption.
Qed.
Lemma sim_accessory : forall w s d r, sim w (st_handleAccessoryPacket s d r) (rst_handleAccessoryPacket react inner s d r).
Proof.
  intros w s d r t. unfold st_handleAccessoryPacket, rst_handleAccessoryPacket. unfold ask.
  assert (Q : forall st, get_station s w = Ok st -> sim w (World.seq (print (to_printAll d)) (when_some (cb_acc (st_cbs st)) (fun o => emit (EvAccessory o d r))))
    (rlift (print (to_printAll d)) ~;; st <~ rask (get_station s) ~; rwhen_some (cb_acc (st_cbs st)) (fun o => ucall react inner (EvAccessory o d r)))).
  { intros st G. apply sim_seq; [apply sim_lift|]. intros w1 t1 E. inversion E; subst. eapply sim_read; [exact G|]. bs. }
  destruct (get_station s w) as [st|u] eqn:G; cbn [bind]; [apply Q; reflexivity|].
  unfold rbind at 1, rlift, print, emit. cbn [r_w r_t]. apply bad_bind. unfold rask. cbn [r_w]. rewrite G. eexists _, _. reflexivity.
Qed.
Lemma sim_config : forall w s d, sim w (st_handleConfigDataStream lw s d) (rst_handleConfigDataStream lw react inner s d).
Proof. intros. unfold st_handleConfigDataStream, rst_handleConfigDataStream. apply sim_ask; intros. apply sim_ask; intros. destruct x0; [apply sim_cfg|bs]. Qed.
Lemma sim_list : forall w s off q, sim w (st_requestEngineList lw s off q) (rst_requestEngineList lw react inner s off q).
Proof.
  intros w s off q. unfold st_requestEngineList, rst_requestEngineList. apply sim_seq; [apply sim_finish|]. intros w1 t1 _. apply sim_ask. intros st G.
  apply sim_seq; [apply sim_lift|]. intros w2 t2 E. inversion E; subst. pose proof (get_put_station s st (set_cfg st q) w1 G) as G2.
  apply sim_ask. intros b1 _. destruct (snprintf9 (list_request_text off)) as [b2 n]. apply sim_if; intros; [|apply sim_skip].
  apply sim_seq; [apply sim_when; intros; apply sim_cfg|]. intros w3 t3 E3. apply start_stations in E3. pose proof (same_station _ _ _ _ G2 E3) as G3.
  apply sim_seq; [apply (sim_tx _ s (set_cfg st q)); exact G3|]. intros w4 t4 E4. apply tx_same in E4. subst. apply (sim_tx _ s (set_cfg st q)); exact G3.
Qed.
Lemma sim_engine : forall w s e q, sim w (st_requestEngine lw s e q) (rst_requestEngine lw react inner s e q).
Proof.
  intros w s e q. unfold st_requestEngine, rst_requestEngine. apply sim_ask; intros si SI. apply sim_if; intros; [apply sim_skip|].
  apply sim_ask; intros st0 _. apply sim_ask; intros busy _. destruct busy; [apply sim_skip|].
  apply sim_seq; [apply sim_finish|]. intros w1 t1 _. apply sim_ask. intros st G.
  apply sim_seq; [apply sim_lift|]. intros w2 t2 E. inversion E; subst. pose proof (get_put_station s st (set_cfg st q) w1 G) as G2.
  apply sim_seq; [apply sim_when; intros; apply sim_cfg|]. intros w3 t3 E3. apply start_stations in E3. pose proof (same_station _ _ _ _ G2 E3) as G3.
  eapply sim_read; [exact G3|]. apply sim_ask; intros b1 _.
  apply sim_seq; [apply (sim_tx _ s (set_cfg st q)); exact G3|]. intros w4 t4 E4. apply tx_same in E4. subst.
  apply sim_ask; intros si2 S2. apply sim_ask; intros len _. apply sim_ask; intros b2 _.
  apply sim_seq; [apply (sim_tx _ s (set_cfg st q)); exact G3|]. intros w5 t5 E5. apply tx_same in E5. subst.
  eapply sim_read; [exact S2|]. apply sim_ask; intros b3 _. apply (sim_tx _ s (set_cfg st q)); exact G3.
Qed.
Lemma sim_step : forall w o, sim w (step lw o) (rstep lw react inner o).
Proof.
  intros w o. destruct o; cbn [rstep]; try apply sim_lift; [|apply sim_message|apply sim_reset].
  cbn [step]. destruct o; cbn [st_step rst_step]; try apply sim_own; try apply sim_finish; try apply sim_packet; try apply sim_skip.
  - unfold st_begin, rst_begin. apply sim_seq; [apply sim_finish|intros]. bs.
  - unfold st_handlePacket, rst_handlePacket. repeat (apply sim_if; intros); try apply sim_skip.
    + unfold st_handleSystemCommand, rst_handleSystemCommand. bs.
    + apply sim_seq; [bs|intros]. apply sim_seq; [apply sim_accessory|intros; bs].
    + unfold st_handleLocoDirection, rst_handleLocoDirection. bs.
    + unfold st_handleLocoSpeed, rst_handleLocoSpeed. bs.
    + unfold st_handleLocoFunction, rst_handleLocoFunction. bs.
    + apply sim_config.
    + bs.
    + bs.
  - apply sim_accessory.
  - apply sim_config.
  - unfold st_handleSystemCommand, rst_handleSystemCommand. bs.
  - unfold st_handleLocoDirection, rst_handleLocoDirection. bs.
  - unfold st_handleLocoSpeed, rst_handleLocoSpeed. bs.
  - unfold st_handleLocoFunction, rst_handleLocoFunction. bs.
  - apply sim_engine.
  - apply sim_list.
  - unfold st_sendEngineDirection. apply sim_if; intros; [apply sim_packet|apply sim_skip].
  - unfold st_requestEngineAllFunctions. apply sim_ask; intros. apply sim_functions. assumption.
Qed.
End Exact.

Lemma passive_sim : forall lw react n ops w, (forall h, react h = Ret) -> sim w (run lw ops) (rexec lw react (S n) (ops_code ops)).
Proof.
  intros lw react n ops w P. revert w. induction ops as [|o ops IH]; intros w; [apply sim_skip|].
  change (rexec lw react (S n) (ops_code (o :: ops))) with (rstep lw react (rexec lw react n) o ~;; rexec lw react (S n) (ops_code ops)).
  cbn [run]. apply sim_seq; [|intros; apply IH]. apply sim_step. intros h s. rewrite P. destruct n; reflexivity.
Qed.
Lemma passive_exact : forall lw react n ops w t w' t', (forall h, react h = Ret) ->
  (run lw ops w = Ok (w', t') <-> rexec lw react (S n) (ops_code ops) (mkR w t) = (Ok tt, mkR w' (t ++ t'))).
Proof.
  intros lw react n ops w t w' t' P. pose proof (passive_sim lw react n ops w P t) as S. destruct (run lw ops w) as [[w1 t1]|u].
  - rewrite S. split; intros E; [inversion E; reflexivity|]. inversion E as [[E1 E2]]. apply app_inv_head in E2. subst. reflexivity.
  - split; [discriminate|]. intros E. rewrite E in S. destruct S as (u' & s' & S). discriminate.
Qed.
Lemma passive_undefined : forall lw react n ops w t, (forall h, react h = Ret) ->
  ((exists u, run lw ops w = UB u) <-> exists u s, rexec lw react (S n) (ops_code ops) (mkR w t) = (UB u, s)).
Proof.
  intros lw react n ops w t P. pose proof (passive_sim lw react n ops w P t) as S. destruct (run lw ops w) as [[w1 t1]|u].
  - rewrite S. split; [intros [u E]; discriminate|intros (u & s & E); discriminate].
  - split; [intros _; exact S|intros _; exists u; reflexivity].
Qed.
