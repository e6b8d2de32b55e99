(* ProofsTalkSafe.v -- proofs for C127: the triples of ProofsFatal.v for the logging builds. *)
From Verif Require Import ZLib SpecTalk ProofsBuffer ProofsLoco ProofsText ProofsStation ProofsRequest ProofsStream ProofsConsumer ProofsSafe ProofsPassive ProofsRsafe ProofsExact ProofsLogged.

Section Hoare.
Variable lw : Z.
Variable lg : logcfg.
Variable react : list event -> code.
Variable inner : code -> ract unit.
Variable w0 : world.

(** ** The invariant: parser p may be in the middle of text Y p; where X p holds, its checksum is set *)
Definition checked (st : SState) (c : Crc) : Prop :=
  match st with
  | SS_FIRST => initialised (crc_acc c)
  | SS_DATA => initialised (crc_acc c) /\ initialised (crc_ref c)
  | _ => True
  end.
Definition pinv (x : bool) (y : list Z) (sp : SP) : Prop :=
  (exists a text, fits a /\ (List.length text <= 31)%nat /\ sp_text sp = loaded a (sp_cons sp) text /\ (text = [] \/ text = y)) /\
  points (w_conss w0) (sp_cons sp) /\ checked (sp_state sp) (sp_crc sp) /\
  (x = true -> initialised (crc_acc (sp_crc sp)) /\ initialised (crc_ref (sp_crc sp))).
Definition Inv (X : nat -> bool) (Y : nat -> list Z) (w : world) : Prop :=
  same_objects w0 w /\ Forall (fun st => sound_cbs w0 (st_cbs st)) (w_stations w) /\
  (forall p sp, lib_at w p sp -> pinv (X p) (Y p) sp) /\
  Forall (sound_consumer w0) (w_conss w) /\ Forall decent_engine (w_engines w).

(** ** Triples *)
Definition killed (s : rst) : Prop := same_objects w0 (r_w s) /\ (by_a_line_logged (r_w s) (r_t s) \/ by_an_engine (r_w s) (r_t s) \/ (prints_lines lg /\ by_printing (r_w s) (r_t s))).
Definition hoare {A} (P : world -> Prop) (x : ract A) (Q : A -> world -> Prop) : Prop :=
  forall s, P (r_w s) -> match fst (x s) with Ok a => Q a (r_w (snd (x s))) | UB u => u = TooDeep \/ (u = OutOfBounds /\ killed (snd (x s))) end.
Definition post {A} (Q : A -> world -> Prop) (p : res A * rst) : Prop :=
  match fst p with Ok a => Q a (r_w (snd p)) | UB u => u = TooDeep \/ (u = OutOfBounds /\ killed (snd p)) end.
Lemma h_ret : forall A (P : world -> Prop) (a : A) (Q : A -> world -> Prop), (forall w, P w -> Q a w) -> hoare P (rret a) Q.
Proof. intros A P a Q H s p. apply H. exact p. Qed.
Lemma h_pre : forall A (P P' : world -> Prop) (x : ract A) Q, (forall w, P w -> P' w) -> hoare P' x Q -> hoare P x Q.
Proof. intros A P P' x Q H X s p. apply X. apply H. exact p. Qed.
Lemma h_post : forall A (P : world -> Prop) (x : ract A) (Q Q' : A -> world -> Prop), (forall a w, Q' a w -> Q a w) -> hoare P x Q' -> hoare P x Q.
Proof. intros A P x Q Q' H X s p. specialize (X s p). destruct (fst (x s)); [apply H; exact X|exact X]. Qed.
Lemma h_ex : forall A Z (P : world -> Prop) (P' : Z -> world -> Prop) (x : ract A) Q, (forall w, P w -> exists z, P' z w) -> (forall z, hoare (P' z) x Q) -> hoare P x Q.
Proof. intros A Z P P' x Q H X s p. destruct (H _ p) as (z & E). exact (X z s E). Qed.
Lemma h_bind : forall A B (P : world -> Prop) (x : ract A) (f : A -> ract B) Q R, hoare P x Q -> (forall a, hoare (Q a) (f a) R) -> hoare P (rbind x f) R.
Proof.
  intros A B P x f Q R X F s p. unfold rbind. specialize (X s p). destruct (x s) as [[a|b] s1]; cbn [snd fst] in *; [|exact X]. exact (F a s1 X).
Qed.
Lemma h_ask : forall A B (P : world -> Prop) (f : world -> res A) (k : A -> ract B) (Q : A -> world -> Prop) R, (forall w, P w -> exists x, f w = Ok x /\ Q x w) -> (forall x, hoare (Q x) (k x) R) -> hoare P (rbind (rask f) k) R.
Proof. intros A B P f k Q R F K s p. unfold rbind, rask. destruct (F _ p) as (x & E & q). rewrite E. exact (K x s q). Qed.
Lemma h_val : forall A B (P : world -> Prop) (r : res A) (k : A -> ract B) x R, r = Ok x -> hoare P (k x) R -> hoare P (rbind (rval r) k) R.
Proof. intros A B P r k x R E K s p. rewrite (then_val _ _ _ _ _ _ E). exact (K s p). Qed.
Lemma h_lift : forall (P : world -> Prop) a (Q : world -> Prop), (forall w, P w -> exists w' t, a w = Ok (w', t) /\ Q w') -> hoare P (rlift a) (fun _ => Q).
Proof. intros P a Q H s p. unfold rlift. destruct (H _ p) as (w' & t & -> & q). exact q. Qed.
Lemma h_lift_then : forall A (P : world -> Prop) a (Q : world -> Prop) (k : ract A) R, (forall w, P w -> exists w' t, a w = Ok (w', t) /\ Q w') -> hoare Q k R -> hoare P (rlift a ~;; k) R.
Proof. intros A P a Q k R H K s p. unfold rbind, rlift. destruct (H _ p) as (w' & t & -> & q). exact (K (mkR w' (r_t s ++ t)) q). Qed.
Lemma h_fact : forall A (P : world -> Prop) (F : Prop) (x : ract A) Q, (forall w, P w -> F) -> (F -> hoare P x Q) -> hoare P x Q.
Proof. intros A P F x Q H K s p. exact (K (H _ p) s p). Qed.
Lemma h_assoc : forall A B C (P : world -> Prop) (a : ract A) (f : A -> ract B) (g : B -> ract C) R, hoare P (rbind a (fun x => rbind (f x) g)) R -> hoare P (rbind (rbind a f) g) R.
Proof. intros A B C P a f g R H s p. rewrite bind_assoc. exact (H s p). Qed.
Lemma h_unit : forall (P : world -> Prop) (x : ract unit) (Q : world -> Prop) A (k : ract A) R, hoare P x (fun _ => Q) -> hoare Q k R -> hoare P (x ~;; k) R.
Proof. intros P x Q A k R X K. apply (h_bind _ _ _ _ _ (fun _ => Q)); auto. Qed.
Hypothesis snd0 : decent w0.
Hypothesis ih : forall X Y c, only_calls (legal_op w0) c -> hoare (Inv X Y) (inner c) (fun _ => Inv X Y).
Hypothesis rh : forall h, only_calls (legal_op w0) (react h).

(** ** Reading and writing objects other than parsers *)
Lemma inv_G : forall X Y w, Inv X Y w -> GD w0 (wp (w_parsers w0) w).
Proof.
  intros X Y w ((L1 & L2 & L3 & L4) & S & _ & C & E). destruct snd0 as (_ & P & _).
  split; [unfold same_objects; cbn [wp w_stations w_parsers w_conss w_engines]; auto|]. cbn [wp w_stations w_parsers w_conss w_engines]. auto.
Qed.
Lemma i_safe : forall X Y a, dsafe w0 a -> indep a -> forall w, Inv X Y w -> exists w' t, a w = Ok (w', t) /\ Inv X Y w'.
Proof.
  intros X Y a S D w H. destruct (S _ (inv_G X Y w H)) as (w1 & t & E & g). rewrite D in E. destruct (a w) as [[w' t']|] eqn:EA; [|discriminate].
  inversion E; subst. exists w', t. split; [reflexivity|]. pose proof (i_keeps _ _ _ _ D EA) as K.
  destruct H as ((_ & L2 & _) & _ & P & _). destruct g as ((L1 & _ & L3 & L4) & S' & _ & C & EN). cbn [wp w_stations w_parsers w_conss w_engines] in *.
  split; [unfold same_objects; rewrite K; auto|]. split; [exact S'|]. split; [unfold lib_at; rewrite K; exact P|]. auto.
Qed.
Lemma inv_back : forall X Y w w', Inv X Y w -> GD w0 (wp (w_parsers w0) w') -> w_parsers w' = w_parsers w -> Inv X Y w'.
Proof.
  intros X Y w w' H g K. destruct H as ((_ & L2 & _) & _ & P & _). destruct g as ((L1 & _ & L3 & L4) & S' & _ & C & EN). cbn [wp w_stations w_parsers w_conss w_engines] in *.
  split; [unfold same_objects; rewrite K; auto|]. split; [exact S'|]. split; [unfold lib_at; rewrite K; exact P|]. auto.
Qed.
Lemma h_safe : forall X Y a, dsafe w0 a -> indep a -> hoare (Inv X Y) (rlift a) (fun _ => Inv X Y).
Proof. intros. apply h_lift. apply i_safe; assumption. Qed.
Lemma h_then : forall A X Y a (k : ract A) R, dsafe w0 a -> indep a -> hoare (Inv X Y) k R -> hoare (Inv X Y) (rlift a ~;; k) R.
Proof. intros. eapply h_lift_then; [apply i_safe; assumption|assumption]. Qed.
Lemma h_quiet : forall A (P : world -> Prop) e (k : ract A) R, hoare P k R -> hoare P (rlift (emit e) ~;; k) R.
Proof. intros A P e k R K. eapply h_lift_then; [|exact K]. intros w p. exists w, [e]. auto. Qed.
Lemma i_emit : forall e, indep (emit e). Proof. intros e w P. reflexivity. Qed.
Lemma i_print : forall b, indep (print b). Proof. intros e w P. reflexivity. Qed.
Lemma i_puts : forall b, indep (puts b). Proof. intros e w P. reflexivity. Qed.
Lemma i_print_res : forall b, indep (print_res b). Proof. intros [b|] w P; reflexivity. Qed.
Lemma i_put_station : forall s x, indep (put_station s x). Proof. intros s x w P. reflexivity. Qed.
Lemma i_put_cons : forall s x, indep (put_cons s x). Proof. intros s x w P. reflexivity. Qed.
Lemma i_put_engine : forall s x, indep (put_engine s x). Proof. intros s x w P. reflexivity. Qed.
Lemma h_ucall : forall X Y e, hoare (Inv X Y) (ucall react inner e) (fun _ => Inv X Y).
Proof. intros X Y e. apply h_quiet. intros s p. exact (ih X Y _ (rh _) s p). Qed.
Lemma h_when : forall A (P : world -> Prop) (o : option A) k (Q : world -> Prop), (forall w, P w -> Q w) -> (forall x, o = Some x -> hoare P (k x) (fun _ => Q)) -> hoare P (rwhen_some o k) (fun _ => Q).
Proof. intros A P [x|] k Q W H; [apply H; reflexivity|apply h_ret; exact W]. Qed.
Lemma h_station : forall A X Y s (k : Station -> ract A) R, (s < List.length (w_stations w0))%nat ->
  (forall st, sound_cbs w0 (st_cbs st) -> hoare (Inv X Y) (k st) R) -> hoare (Inv X Y) (rbind (rask (get_station s)) k) R.
Proof.
  intros A X Y s k R H K. eapply h_ask with (Q := fun st w => sound_cbs w0 (st_cbs st) /\ Inv X Y w).
  - intros w p. pose proof p as ((L & _) & S & _). destruct (len_nth _ (w_stations w) s ltac:(lia)) as (st & E). exists st. unfold get_station, at_. rewrite E.
    split; [reflexivity|]. split; [exact (nth_forall _ _ _ _ _ S E)|exact p].
  - intros st s' (B & p). exact (K st B s' p).
Qed.
Lemma h_cons : forall A X Y c x (k : CObj -> ract A) R, nth_error (w_conss w0) c = Some x ->
  (forall o, kind o = kind x -> sound_consumer w0 o -> hoare (Inv X Y) (k o) R) -> hoare (Inv X Y) (rbind (rask (get_cons c)) k) R.
Proof.
  intros A X Y c x k R H K. eapply h_ask with (Q := fun o w => (kind o = kind x /\ sound_consumer w0 o) /\ Inv X Y w).
  - intros w p. destruct (cons_there_d w0 _ c x (inv_G X Y w p) H) as (o & E & B & C). exists o. unfold get_cons, at_. cbn [wp w_conss] in E. rewrite E. auto.
  - intros o s' ((B & C) & p). exact (K o B C s' p).
Qed.
Lemma h_engine : forall A X Y e (k : Loco -> ract A) R, (e < List.length (w_engines w0))%nat ->
  (forall l, decent_engine l -> hoare (Inv X Y) (k l) R) -> hoare (Inv X Y) (rbind (rask (get_engine e)) k) R.
Proof.
  intros A X Y e k R H K. eapply h_ask with (Q := fun l w => decent_engine l /\ Inv X Y w).
  - intros w p. pose proof p as ((_ & _ & _ & L) & _ & _ & _ & E). destruct (len_nth _ (w_engines w) e ltac:(lia)) as (l & N). exists l. unfold get_engine, at_. rewrite N.
    split; [reflexivity|]. split; [exact (nth_forall _ _ _ _ _ E N)|exact p].
  - intros st s' (B & p). exact (K st B s' p).
Qed.

(** ** Consumers *)
Lemma then_ask : forall A B (f : world -> res A) (k : A -> ract B) x s, f (r_w s) = Ok x -> (rbind (rask f) k) s = k x s.
Proof. intros A B f k x s E. unfold rbind, rask. rewrite E. reflexivity. Qed.
Lemma h_vlog : forall A (P : world -> Prop) b a (k : ract A) R, (forall w, P w -> exists t, a w = Ok (w, t)) -> hoare P k R -> hoare P (vlog b a ~;; k) R.
Proof. intros A P b a k R H K. eapply h_lift_then; [|exact K]. intros w p. destruct b; [|exists w, []; auto]. destruct (H w p) as (t & E). exists w, t. auto. Qed.
Lemma h_vlog_end : forall (P : world -> Prop) b a (Q : world -> Prop), (forall w, P w -> exists t, a w = Ok (w, t)) -> (forall w, P w -> Q w) -> hoare P (vlog b a) (fun _ => Q).
Proof. intros P b a Q H K. apply h_lift. intros w p. destruct b; [|exists w, []; auto]. destruct (H w p) as (t & E). exists w, t. auto. Qed.
Lemma pr_ok : forall r w, (exists bs, r = Ok bs) -> exists t, print_res r w = Ok (w, t).
Proof. intros r w (bs & ->). eexists. reflexivity. Qed.
Lemma seq_ok : forall a c (w : world), (exists t, a w = Ok (w, t)) -> (exists t, c w = Ok (w, t)) -> exists t, (a ;;; c) w = Ok (w, t).
Proof. intros a c w (t & E) (t' & E'). exists (t ++ t'). eapply seq_mk; eassumption. Qed.
Lemma str_ub : forall l u, c_str l = UB u -> u = OutOfBounds.
Proof. induction l as [|c l IH]; intros u H; cbn [c_str] in H; [injection H; auto|]. destruct (c =? 0); [discriminate|]. destruct (c_str l) as [x|u']; [discriminate|]. injection H as <-. apply IH. reflexivity. Qed.
Lemma line_logged : forall who s k v w, ok_report (s, k, v) -> (events lg = true /\ overfull (s, k, v) /\ log_if (events lg) (log_line who (zb max_section s) (zb max_key k) (zb max_value v)) w = UB OutOfBounds) \/
  exists t, log_if (events lg) (log_line who (zb max_section s) (zb max_key k) (zb max_value v)) w = Ok (w, t) /\ Forall (fun e => is_print e = true) t.
Proof.
  intros who s k v w OR. destruct (events lg); [|right; exists []; split; [reflexivity|constructor]]. cbn [log_if]. destruct (overfull_dec (s, k, v)) as [O|O].
  - left. split; [reflexivity|]. split; [exact O|]. destruct (log_line_bad who s k v w OR O) as (u & E). rewrite E. f_equal. unfold log_line, ask in E.
    destruct (c_str (mem (zb max_section s))) eqn:E1; [|cbn [bind] in E; injection E as <-; exact (str_ub _ _ E1)]. cbn [bind] in E.
    destruct (c_str (mem (zb max_key k))) eqn:E2; [|cbn [bind] in E; injection E as <-; exact (str_ub _ _ E2)]. cbn [bind] in E.
    destruct (c_str (mem (zb max_value v))) eqn:E3; [discriminate|]. cbn [bind] in E; injection E as <-; exact (str_ub _ _ E3).
  - right. destruct (log_line_ok who s k v w OR O) as (t & E). exists t. split; [exact E|]. assert (Q : quiet (log_line who (zb max_section s) (zb max_key k) (zb max_value v))) by (unfold log_line; quiet_tac). exact (proj2 (Q _ _ _ E)).
Qed.
Lemma bind_ret_unit : forall (x : ract unit) s, (x ~;; rret tt) s = x s.
Proof. intros x s. unfold rbind. destruct (x s) as [[[]|u] z]; reflexivity. Qed.
Lemma h_consume : forall X Y c s k v, a_consumer w0 c -> ok_report (s, k, v) ->
  hoare (Inv X Y) (vcons_consume lw lg react inner c (zb max_section s) (zb max_key k) (zb max_value v)) (fun _ => Inv X Y).
Proof.
  intros X Y c s k v HC OR st p. destruct (len_nth _ _ _ HC) as (x0 & NX). destruct (cons_there_d w0 _ c x0 (inv_G X Y _ p) NX) as (x & E & _ & SX). cbn [wp w_conss] in E.
  unfold vcons_consume. rewrite (then_ask _ _ _ _ x) by (unfold get_cons, at_; rewrite E; reflexivity).
  pose proof (line_exact lw w0 (wp (w_parsers w0) (r_w st)) c x s k v (inv_G X Y _ p) E OR) as LE. cbv zeta in LE.
  rewrite (i_consume lw c _ _ _ (r_w st) (w_parsers w0)) in LE.
  assert (D : (fatal x (s, k, v) /\ cons_consume lw c (zb max_section s) (zb max_key k) (zb max_value v) (r_w st) = UB OutOfBounds) \/
    exists w' t, cons_consume lw c (zb max_section s) (zb max_key k) (zb max_value v) (r_w st) = Ok (w', t) /\ Inv X Y w').
  { destruct (cons_consume lw c (zb max_section s) (zb max_key k) (zb max_value v) (r_w st)) as [[w' t]|u] eqn:EC.
    - right. exists w', t. split; [reflexivity|]. destruct LE as [(_ & F)|(_ & w1 & t1 & F & gd & _)]; [discriminate|]. injection F as <- <-. eapply inv_back; [exact p|exact gd|].
      eapply i_keeps; [apply i_consume|exact EC].
    - left. destruct LE as [(B & F)|(_ & w1 & t1 & F & _)]; [|discriminate]. injection F as ->. auto. }
  unfold cons_consume in D. rewrite emit_seq, (ask_ok _ _ _ _ _ (get_cons_ok _ _ _ E)) in D. cbn beta iota in D.
  set (ev := EvConsume c (zb max_section s) (zb max_key k) (zb max_value v)) in *.
  (* the line is printed, or cannot be *)
  assert (PRE : forall who (kk : ract unit), x <> UserC ->
    (forall t, Forall (fun e => is_print e = true) t -> post (fun _ => Inv X Y) (kk (mkR (r_w st) (r_t st ++ ev :: t)))) ->
    post (fun _ => Inv X Y) ((rlift (emit ev) ~;; vlog (events lg) (log_line who (zb max_section s) (zb max_key k) (zb max_value v)) ~;; kk) st)).
  { intros who kk NU H. unfold rbind at 1. unfold rlift at 1. unfold emit at 1. unfold rbind at 1. unfold vlog at 1. unfold rlift at 1. cbn [r_w r_t].
    destruct (line_logged who s k v (r_w st) OR) as [(EV & O & ->)|(t & -> & P)].
    - right. split; [reflexivity|]. split; [apply p|]. right. right. split; [unfold events, LEVEL_EVENTS in EV; unfold prints_lines; lia|].
      exists (r_t st), c, s, k, v, x. cbn [snd r_w r_t]. auto.
    - rewrite <- app_assoc. apply H. exact P. }
  (* what the consumer does with it *)
  assert (Z : forall a t (kk : ract unit), (fatal x (s, k, v) /\ match a (r_w st) with Ok (w', t) => Ok (w', ev :: t) | UB u => UB u end = UB OutOfBounds) \/
     (exists w' t, match a (r_w st) with Ok (w', t) => Ok (w', ev :: t) | UB u => UB u end = Ok (w', t) /\ Inv X Y w') ->
     Forall (fun e => is_print e = true) t -> (forall w' t', a (r_w st) = Ok (w', t') -> Inv X Y w' -> post (fun _ => Inv X Y) (kk (mkR w' ((r_t st ++ ev :: t) ++ t')))) ->
     post (fun _ => Inv X Y) ((rlift a ~;; kk) (mkR (r_w st) (r_t st ++ ev :: t)))).
  { intros a t kk H P KK. unfold rbind at 1. unfold rlift at 1. cbn [r_w r_t]. destruct (a (r_w st)) as [[w' t']|u].
    - destruct H as [(_ & H)|(w2 & t2 & H & q)]; [discriminate|]. injection H as <- <-. apply KK; [reflexivity|exact q].
    - destruct H as [(B & H)|(w2 & t2 & H & _)]; [|discriminate]. injection H as ->. right. split; [reflexivity|]. split; [apply p|]. left. cbn [snd r_w r_t].
      exists (r_t st), c, s, k, v, x, t. repeat (split; [first [reflexivity|exact P|exact E|exact B]|]). exact OR. }
  match goal with |- match fst ?z with _ => _ end => change (post (fun _ => Inv X Y) z) end.
  destruct x as [e cb|co i n off cb|].
  - apply PRE; [discriminate|]. intros t P. destruct SX as ((e' & -> & _) & _). rewrite (then_val _ _ _ _ e' _ eq_refl).
    destruct e' as [e'|]; [|exact p]. cbn [rwhen_some]. apply Z; [|exact P|].
    + destruct (loco_consume lw (Def (Some e')) (zb max_section s) (zb max_key k) (zb max_value v) (r_w st)) as [[w' t']|]; exact D.
    + intros w' t' EL q. assert (LS : exists l', exists t2, log_setting (zb max_section s) (zb max_key k) w' = Ok (w', t2) /\ l' = 0).
      { unfold loco_consume in EL. apply ask_inv in EL. destruct EL as (y & EY & EL). cbn [mread] in EY. injection EY as <-. apply ask_inv in EL. destruct EL as (l & _ & EL). apply ask_inv in EL. destruct EL as (l' & EL & _).
        destruct (setting_ok lw l _ _ _ l' w' EL) as (t2 & E2). exists 0, t2. auto. }
      destruct LS as (_ & t2 & E2 & _). unfold vlog, rlift. cbn [r_w r_t]. destruct (events lg); cbn [log_if]; [rewrite E2|]; exact q.
  - apply PRE; [discriminate|]. intros t P.
    change (post (fun _ => Inv X Y) (rlift (list_consume lw c co i n off cb (zb max_section s) (zb max_key k) (zb max_value v)) (mkR (r_w st) (r_t st ++ ev :: t)))).
    rewrite <- (bind_ret_unit (rlift (list_consume lw c co i n off cb (zb max_section s) (zb max_key k) (zb max_value v)))). apply Z; [|exact P|].
    + destruct (list_consume lw c co i n off cb (zb max_section s) (zb max_key k) (zb max_value v) (r_w st)) as [[w' t']|]; exact D.
    + intros w' t' _ q. exact q.
  - apply h_ucall. exact p.
Qed.
Lemma h_callback : forall X Y cb (f : nat -> event), initialised cb ->
  hoare (Inv X Y) (o <~ rval (mread cb) ~; rwhen_some o (fun x => ucall react inner (f x))) (fun _ => Inv X Y).
Proof. intros X Y cb f (o & ->). apply h_val with (x := o); [reflexivity|]. apply h_when; [auto|]. intros. apply h_ucall. Qed.
Lemma h_complete : forall X Y c, a_consumer w0 c -> hoare (Inv X Y) (rcons_complete react inner c) (fun _ => Inv X Y).
Proof.
  intros X Y c HC. destruct (len_nth _ _ _ HC) as (x & NX). unfold rcons_complete. 
  eapply h_ask with (Q := fun o w => (kind o = kind x /\ sound_consumer w0 o) /\ Inv X Y w /\ consumer_at w c o).
  { intros w p. destruct (cons_there_d w0 _ c x (inv_G X Y w p) NX) as (o & E & B & C). exists o. unfold get_cons, at_. cbn [wp w_conss] in E. rewrite E. auto. }
  intros y. eapply h_fact; [intros w (q & _); exact q|]. intros (KY & SY). 
  destruct y as [e cb|co i n off cb|]; [| |eapply h_pre; [intros w (_ & q & _); exact q|apply h_ucall]].
  - destruct SY as ((e' & -> & PE) & ICB). intros s (_ & p & C).
    match goal with |- match fst ?x with _ => _ end => change (post (fun _ => Inv X Y) x) end. unfold rbind at 1. unfold rlift at 1. unfold emit at 1. cbn [r_w r_t].
    rewrite (then_val _ _ _ _ e' _ eq_refl). destruct e' as [e'|]; [|exact p].
    cbn [points] in PE. pose proof p as ((_ & _ & _ & LE) & _ & _ & _ & EN). destruct (len_nth _ (w_engines (r_w s)) e' ltac:(lia)) as (l & NL).
    rewrite (then_ask _ _ _ _ l) by (unfold get_engine, at_; cbn [r_w]; rewrite NL; reflexivity). pose proof (nth_forall _ _ _ _ _ EN NL) as ((nm & SN) & P8).
    unfold rbind at 1. unfold rlift at 1. unfold put_engine at 1. cbn [r_w r_t]. unfold rbind at 1. unfold rlift at 1. unfold puts at 1, print at 1, emit at 1. cbn [r_w r_t].
    rewrite app_nil_r. set (w1 := mkW _ _ _ _). set (l1 := lo_setAvailability l FULL_DETAILS) in *.
    assert (I1 : Inv X Y w1).
    { destruct (i_safe X Y (put_engine e' l1) (d_put_engine w0 e' l1 (conj (ex_intro _ nm SN) P8)) (i_put_engine e' l1) (r_w s) p) as (w' & t & EW & q). unfold put_engine in EW. injection EW as <- <-. exact q. }
    destruct (nul_or_not (lo_proto l)) as [N|N].
    + assert (UE : lo_print l1 = UB OutOfBounds). { rewrite (lo_print_full _ nm) by (try reflexivity; exact SN). change (lo_proto l1) with (lo_proto l). rewrite (str_end _ N). reflexivity. }
      rewrite UE. unfold post, rbind, rlift, print_res, ask. cbn [bind fst snd r_w r_t]. right. split; [reflexivity|]. split; [apply I1|]. right. left. exists (r_t s), c, e', cb, l1. split; [cbn [r_t]; rewrite <- app_assoc; reflexivity|].
      cbn [r_w]. split; [exact C|]. split; [|exact N]. unfold engine_at, w1. cbn [w_engines]. apply nth_upd_in. apply nth_error_Some. congruence.
    + destruct (str_in _ N) as (t & EP). assert (UE : exists txt, lo_print l1 = Ok txt).
      { rewrite (lo_print_full _ nm) by (try reflexivity; exact SN). change (lo_proto l1) with (lo_proto l). rewrite EP. cbn [bind]. eauto. }
      match goal with |- post _ (?k ?st) => enough (HH : hoare (Inv X Y) k (fun _ => Inv X Y)) by exact (HH st I1) end. apply h_then; [apply d_print_res; exact UE|apply i_print_res|].
      apply h_then; [apply d_print|apply i_print|]. apply h_callback. exact ICB.
  - eapply h_pre; [intros w (_ & q & _); exact q|]. destruct SY as (ICO & INUM & IOFF & ICB & FI). apply h_quiet. apply h_then; [|apply i_put_cons|apply h_callback; exact ICB].
    apply (d_put_cons w0 c x); [exact NX|exact KY|]. split; [eexists; reflexivity|]. auto.
Qed.
Lemma h_aborted : forall X Y c, a_consumer w0 c -> hoare (Inv X Y) (rcons_aborted react inner c) (fun _ => Inv X Y).
Proof.
  intros X Y c HC. destruct (len_nth _ _ _ HC) as (x & NX). unfold rcons_aborted. apply (h_cons _ _ _ c x); [exact NX|]. intros y KY SY.
  destruct y as [e cb|co i n off cb|]; [| |apply h_ucall].
  - destruct SY as (_ & ICB). apply h_quiet. apply h_callback. exact ICB.
  - destruct SY as (ICO & INUM & IOFF & ICB & FI). apply h_quiet. apply h_then; [|apply i_put_cons|apply h_callback; exact ICB].
    apply (d_put_cons w0 c x); [exact NX|rewrite <- KY; cbn; unfold list_cleared; rewrite map_length; reflexivity|].
    repeat (split; [eexists; reflexivity|]). split; [exact ICB|apply cleared_sound].
Qed.

(** ** Reading and writing parsers *)
Definition K X Y p sp (w : world) : Prop := Inv X Y w /\ lib_at w p sp.
Definition J X Y p t (w : world) : Prop := Inv X Y w /\ exists sp, lib_at w p sp /\ sp_text sp = t.
Lemma lib_in : forall X Y p w, lib0 w0 p -> Inv X Y w -> exists sp, lib_at w p sp.
Proof.
  intros X Y p w (sp0 & H) ((_ & L & _) & _). destruct (map_nth _ _ _ _ _ _ _ L H) as ([sp|] & E & Q); [|discriminate]. exists sp. exact E.
Qed.
Lemma lib_at_get : forall w p sp, lib_at w p sp -> get_lib p w = Ok sp.
Proof. intros w p sp H. unfold get_lib, get_parser, at_. unfold lib_at in H. rewrite H. reflexivity. Qed.
Lemma h_lib : forall A X Y p (k : SP -> ract A) R, lib0 w0 p -> (forall sp, pinv (X p) (Y p) sp -> hoare (K X Y p sp) (k sp) R) -> hoare (Inv X Y) (rbind (rask (get_lib p)) k) R.
Proof.
  intros A X Y p k R L H. eapply h_ask with (Q := fun sp w => pinv (X p) (Y p) sp /\ K X Y p sp w).
  - intros w q. destruct (lib_in X Y p w L q) as (sp & E). exists sp. split; [apply lib_at_get; exact E|]. pose proof q as (_ & _ & P & _). split; [apply P; exact E|]. split; assumption.
  - intros sp s (PI & q). exact (H sp PI s q).
Qed.
Lemma h_lib_again : forall A X Y p sp (k : SP -> ract A) R, hoare (K X Y p sp) (k sp) R -> hoare (K X Y p sp) (rbind (rask (get_lib p)) k) R.
Proof.
  intros A X Y p sp k R H. eapply h_ask with (Q := fun x w => x = sp /\ K X Y p sp w).
  - intros w q. exists sp. split; [apply lib_at_get; apply q|]. auto.
  - intros x s (-> & q). exact (H s q).
Qed.
Lemma nth_upd_out : forall A n m (x : A) l, n <> m -> nth_error (upd n x l) m = nth_error l m.
Proof. induction n; intros [|m] x [|y l] H; cbn; try reflexivity; try lia. apply IHn. lia. Qed.
Lemma put_K : forall X Y X' Y' p sp sp' w, K X Y p sp w -> (forall q, q <> p -> X' q = X q /\ Y' q = Y q) -> pinv (X' p) (Y' p) sp' ->
  exists w' t, put_lib p sp' w = Ok (w', t) /\ K X' Y' p sp' w'.
Proof.
  intros X Y X' Y' p sp sp' w (((L1 & L2 & L3 & L4) & S & P & C & E) & LA) O PI. eexists. exists []. split; [reflexivity|].
  assert (IN : (p < List.length (w_parsers w))%nat) by (apply nth_error_Some; unfold lib_at in LA; congruence).
  split; [|unfold lib_at; cbn [w_parsers]; apply nth_upd_in; exact IN]. unfold Inv, same_objects. cbn [w_stations w_parsers w_conss w_engines].
  rewrite (upd_map _ _ pkind p (LibP sp') (LibP sp)) by (try reflexivity; exact LA). split; [auto|]. split; [exact S|]. split; [|auto].
  intros q x LQ. unfold lib_at in LQ. cbn [w_parsers] in LQ. destruct (Nat.eq_dec q p) as [->|N].
  - rewrite nth_upd_in in LQ by exact IN. inversion LQ; subst. exact PI.
  - rewrite nth_upd_out in LQ by congruence. destruct (O q N) as (-> & ->). apply P. exact LQ.
Qed.
Lemma h_put_lib : forall A X Y X' Y' p sp sp' (k : ract A) R, (forall q, q <> p -> X' q = X q /\ Y' q = Y q) -> pinv (X' p) (Y' p) sp' ->
  hoare (K X' Y' p sp') k R -> hoare (K X Y p sp) (rlift (put_lib p sp') ~;; k) R.
Proof. intros. eapply h_lift_then; [|eassumption]. intros w q. eapply put_K; eassumption. Qed.
Lemma h_put_lib_end : forall X Y p sp sp', pinv (X p) (Y p) sp' -> hoare (K X Y p sp) (rlift (put_lib p sp')) (fun _ => Inv X Y).
Proof. intros. apply h_lift. intros w q. destruct (put_K X Y X Y p sp sp' w q) as (w' & t & E & q'); [auto|assumption|]. exists w', t. split; [exact E|apply q']. Qed.
Lemma K_Inv : forall X Y p sp w, K X Y p sp w -> Inv X Y w. Proof. intros X Y p sp w H. apply H. Qed.
Lemma J_Inv : forall X Y p t w, J X Y p t w -> Inv X Y w. Proof. intros X Y p t w H. apply H. Qed.

Section Text.
Variable p : nat.
Hypothesis lp : lib0 w0 p.
Definition okt (y : list Z) (a : auto) (text : list Z) : Prop := fits a /\ (List.length text <= 31)%nat /\ (text = [] \/ text = y).
Lemma h_tp : forall A X Y (k : TP -> ract A) R, (forall a c text, okt (Y p) a text -> points (w_conss w0) c -> hoare (J X Y p (loaded a c text)) (k (loaded a c text)) R) ->
  hoare (Inv X Y) (rbind (rtp p) k) R.
Proof.
  intros A X Y k R H. unfold rtp. apply h_assoc. apply h_lib; [exact lp|]. intros sp ((a & text & F & L & T & D) & PC & _). intros s q. rewrite T.
  refine (H a (sp_cons sp) text _ PC s _); [split; [exact F|split; assumption]|]. split; [apply q|]. exists sp. split; [apply q|exact T].
Qed.
Lemma h_tp_again : forall A X Y t (k : TP -> ract A) R, hoare (J X Y p t) (k t) R -> hoare (J X Y p t) (rbind (rtp p) k) R.
Proof.
  intros A X Y t k R H. unfold rtp. apply h_assoc. intros s (q & sp & L & T). rewrite (then_ask _ _ _ _ sp) by (apply lib_at_get; exact L). rewrite then_ret, T.
  apply H. split; [exact q|]. exists sp. auto.
Qed.
Lemma put_J : forall X Y Y' a c text a' text', okt (Y' p) a' text' -> (forall q, q <> p -> Y' q = Y q) ->
  hoare (J X Y p (loaded a c text)) (rtp_put p (loaded a' c text')) (fun _ => J X Y' p (loaded a' c text')).
Proof.
  intros X Y Y' a c text a' text' (F & L & D) O s (q & sp & LA & T). unfold rtp_put. rewrite (then_ask _ _ _ _ sp) by (apply lib_at_get; exact LA).
  pose proof q as (_ & _ & P & _). destruct (P p sp LA) as ((a0 & text0 & _ & _ & T0 & _) & PC & CK & CX). assert (EC : c = sp_cons sp) by (rewrite T in T0; apply (f_equal tp_cons) in T0; exact T0).
  unfold rlift. destruct (put_K X Y X Y' p sp (mkSP (sp_state sp) (sp_remaining sp) (loaded a' c text') (sp_crc sp) (sp_cons sp)) (r_w s)) as (w' & t & E & q').
  - split; assumption.
  - auto.
  - split; [exists a', text'; cbn [sp_text sp_cons]; rewrite EC; auto|]. split; [exact PC|]. split; [exact CK|exact CX].
  - rewrite E. cbn [fst snd r_w]. split; [apply q'|]. eexists. split; [apply q'|reflexivity].
Qed.
Lemma h_put : forall A X Y Y' a c text a' text' (k : ract A) R, okt (Y' p) a' text' -> (forall q, q <> p -> Y' q = Y q) -> hoare (J X Y' p (loaded a' c text')) k R ->
  hoare (J X Y p (loaded a c text)) (rtp_put p (loaded a' c text') ~;; k) R.
Proof. intros. eapply h_unit; [apply put_J; eassumption|assumption]. Qed.

Lemma h_report : forall X Y, hoare (Inv X Y) (vtp_report lw lg react inner p) (fun _ => Inv X Y).
Proof.
  intros X Y. unfold vtp_report. apply h_tp. intros a c text (F & L & D) PC. eapply h_pre; [apply J_Inv|]. apply h_when; [auto|]. intros x E.
  cbn [loaded tp_cons] in E. subst c. apply h_consume; [exact PC|]. exact F.
Qed.
Lemma h_error : forall X Y, hoare (Inv X Y) (vtp_reportParseError lw lg react inner p) (fun _ => Inv X Y).
Proof.
  intros X Y. unfold vtp_reportParseError. apply h_tp. intros a c text (F & L & D) PC. apply h_val with (x := loaded failed c text).
  - destruct F as (F1 & F2 & F3). cbn [loaded set_state tp_sec tp_key tp_val]. unfold max_section, max_key, max_value in *. rewrite !zb_set_err by lia. reflexivity.
  - apply h_put with (Y' := Y); [split; [apply failed_fits|auto]|auto|]. eapply h_pre; [apply J_Inv|]. apply h_report.
Qed.

Definition progress_ (pre rest : list Z) (n : Z) : Prop := exists m rest', rest = m ++ rest' /\ m <> [] /\ n = zlen (pre ++ m).
Lemma h_find : forall X Y a c pre rest D ds e, okt (Y p) a (pre ++ rest) -> rest <> [] -> nulfree ds -> zlen ds <= 255 ->
  hoare (J X Y p (loaded a c (pre ++ rest))) (vtp_findToken lw lg react inner p (zlen pre) (ds ++ 0 :: e) (Some D))
    (fun r w => progress_ pre rest (ft_consumed r) /\
      if ft_success r then In (ft_match r) ds /\ exists a', fits a' /\ J X Y p (loaded a' c (pre ++ rest)) w else Inv X Y w).
Proof.
  intros X Y a c pre rest D ds e (F & L & YP) NE NF ZL. unfold vtp_findToken. apply h_tp_again. set (text := pre ++ rest) in *.
  assert (HB : holds (zb 31 text) text) by (apply zb_holds; lia).
  pose proof (zlen_nonneg _ pre).
  assert (Q : exists (t r : list Z) (d : Z) (b : bool), rest = t ++ r /\ (if b then exists r', r = d :: r' /\ In d ds else r = [] /\ t <> []) /\
    (found <- bfind_chars (tp_buf (loaded a c text)) (ds ++ 0 :: e) (zlen pre) ;;
       if found =? npos then Ok (blen (tp_buf (loaded a c text)), false, 0) else c <- bget (tp_buf (loaded a c text)) found ;; Ok (found, true, c)) = Ok (zlen pre + zlen t, b, d)).
  { cbn [loaded tp_buf]. destruct (tok_split ds rest) as [(_ & Ft)|(d & r & E & I)].
    - exists rest, [], 0, false. split; [rewrite app_nil_r; reflexivity|]. split; [auto|]. rewrite (find_none ds e pre rest) by assumption. cbn [bind].
      rewrite Z.eqb_refl, zb_blen. unfold text. rewrite zlen_app. reflexivity.
    - remember (tok ds rest) as t eqn:Et. assert (Ft : free_of ds t) by (rewrite Et; apply tok_free).
      exists t, (d :: r), d, true. split; [exact E|]. split; [exists r; auto|]. pose proof (zlen_nonneg _ t). pose proof (zlen_nonneg _ r).
      assert (ET : text = pre ++ t ++ d :: r) by (unfold text; rewrite E at 1; reflexivity).
      assert (LE : zlen text = zlen pre + zlen t + 1 + zlen r) by (rewrite ET, !zlen_app; unfold zlen; cbn [List.length]; lia).
      assert (L31 : zlen text <= 31) by (unfold zlen; lia).
      rewrite (find_hit ds e pre t d r) by (assumption || (rewrite <- ET; assumption)). cbn [bind].
      replace (zlen pre + zlen t =? npos) with false by (unfold npos; lia).
      rewrite (bget_spec _ text) by (assumption || lia || (intros X0; rewrite X0 in LE; cbn in LE; lia)).
      rewrite Z.min_l by lia.
      assert (D0 : nth (Z.to_nat (zlen pre + zlen t)) text 0 = d).
      { replace (Z.to_nat (zlen pre + zlen t)) with (List.length (pre ++ t)) by (rewrite app_length; unfold zlen; lia).
        rewrite ET, app_assoc. apply nth_mid. }
      rewrite D0. reflexivity. }
  destruct Q as (t & r & d & b & ER & HR & EF). eapply h_val; [exact EF|]. cbv iota beta.
  assert (ET : text = pre ++ t ++ r) by (unfold text; rewrite ER; reflexivity).
  assert (L31 : zlen text <= 31) by (unfold zlen; lia). assert (LE : zlen text = zlen pre + zlen t + zlen r) by (rewrite ET, !zlen_app; lia).
  pose proof (zlen_nonneg _ t). pose proof (zlen_nonneg _ r).
  apply h_assoc. destruct (sub_window text pre t r ET ltac:(lia)) as (v & Ev & Hv). destruct (push_dest a c text D v t F Hv) as (b' & Eb & Es).
  set (a' := aput a D (aget a D ++ firstn (dcap D - List.length (aget a D)) t)) in *.
  assert (FA : fits a') by (apply aput_fits; [assumption|]; pose proof (aget_fits a D F); rewrite app_length, min_len; lia).
  remember (Z.min (Z.of_nat (dcap D) - zlen (aget a D)) (zlen t) <? zlen t) as ov eqn:OV.
  apply h_val with (x := (loaded a' c text, ov)).
  { cbn [loaded tp_buf]. rewrite Ev. cbn [bind]. change (dest_get (mkTP _ _ _ _ _ _)) with (dest_get (loaded a c text)).
    rewrite Eb. cbn [bind]. f_equal. f_equal; [exact Es|]. rewrite (holds_blen _ _ Hv), OV. reflexivity. }
  cbn [fst snd]. apply h_assoc.
  apply h_put with (Y' := Y); [split; [exact FA|split; assumption]|auto|].
  destruct ov.
  - apply h_assoc. eapply h_unit; [eapply h_pre; [apply J_Inv|apply h_error]|].
    intros s q. cbn [rbind rret fst snd r_w ft_consumed ft_success]. split; [|exact q].
    exists t, r. split; [exact ER|]. split; [|rewrite zlen_app; reflexivity]. intros ->. pose proof (aget_fits a D F). unfold zlen in OV. cbn [List.length] in OV. lia.
  - intros s q. cbn [rbind rret fst snd r_w ft_consumed ft_success ft_match]. destruct b.
    + destruct HR as (r' & -> & IN). split; [|split; [exact IN|exists a'; split; [exact FA|exact q]]].
      exists (t ++ [d]), r'. split; [rewrite ER, <- app_assoc; reflexivity|]. split; [intros X0; apply app_eq_nil in X0; destruct X0; discriminate|].
      rewrite !zlen_app. change (zlen [d]) with 1. unfold u8. rewrite Z.mod_small; [lia|]. unfold zlen in LE at 4. cbn [List.length] in LE. lia.
    + destruct HR as (-> & TN). split; [|eapply J_Inv; exact q]. exists t, []. split; [exact ER|]. split; [exact TN|]. rewrite zlen_app. reflexivity.
Qed.

Lemma h_start : forall X Y a c pre rest ds e, okt (Y p) a (pre ++ rest) -> rest <> [] -> nulfree ds -> zlen ds <= 255 ->
  hoare (J X Y p (loaded a c (pre ++ rest))) (vtp_findToken lw lg react inner p (zlen pre) (ds ++ 0 :: e) None)
    (fun r w => progress_ pre rest (ft_consumed r) /\ J X Y p (loaded a c (pre ++ rest)) w /\
      (ft_success r = true -> exists d, In d ds /\ bget (zb 31 (pre ++ rest)) (u8 (ft_consumed r - 1)) = Ok d)).
Proof.
  intros X Y a c pre rest ds e (F & L & YP) NE NF ZL. unfold vtp_findToken. apply h_tp_again. set (text := pre ++ rest) in *.
  assert (HB : holds (zb 31 text) text) by (apply zb_holds; lia). pose proof (zlen_nonneg _ pre).
  change (tp_buf (loaded a c text)) with (zb 31 text).
  destruct (tok_split ds rest) as [(_ & Ft)|(d & r & E & I)].
  - apply h_val with (x := (zlen text, false, 0)).
    { rewrite (find_none ds e pre rest) by assumption. cbn [bind]. rewrite Z.eqb_refl, zb_blen. reflexivity. }
    intros s q. cbn [rbind rret fst snd r_w ft_consumed ft_success]. split; [|split; [exact q|discriminate]]. exists rest, []. rewrite app_nil_r. auto.
  - remember (tok ds rest) as t eqn:Et. assert (Ft : free_of ds t) by (rewrite Et; apply tok_free). pose proof (zlen_nonneg _ t). pose proof (zlen_nonneg _ r).
    assert (ET : text = pre ++ t ++ d :: r) by (unfold text; rewrite E at 1; reflexivity).
    assert (LE : zlen text = zlen pre + zlen t + 1 + zlen r) by (rewrite ET, !zlen_app; unfold zlen; cbn [List.length]; lia).
    assert (L31 : zlen text <= 31) by (unfold zlen; lia).
    assert (BG : bget (zb 31 text) (zlen pre + zlen t) = Ok d).
    { rewrite (bget_spec _ text) by (assumption || lia || (intros X0; rewrite X0 in LE; cbn in LE; lia)). rewrite Z.min_l by lia. f_equal.
      replace (Z.to_nat (zlen pre + zlen t)) with (List.length (pre ++ t)) by (rewrite app_length; unfold zlen; lia). rewrite ET, app_assoc. apply nth_mid. }
    apply h_val with (x := (zlen pre + zlen t, true, d)).
    { rewrite (find_hit ds e pre t d r) by (assumption || (rewrite <- ET; assumption)). cbn [bind]. replace (zlen pre + zlen t =? npos) with false by (unfold npos; lia). rewrite BG. reflexivity. }
    assert (U : u8 (zlen pre + zlen t + 1) = zlen pre + zlen t + 1) by (unfold u8; apply Z.mod_small; lia).
    assert (U' : u8 (zlen pre + zlen t + 1 - 1) = zlen pre + zlen t) by (unfold u8; rewrite Z.mod_small by lia; lia).
    intros s q. cbn [rbind rret fst snd r_w ft_consumed ft_success]. rewrite U. split; [|split; [exact q|intros _; exists d; split; [exact I|]; rewrite U'; exact BG]].
    exists (t ++ [d]), r. split; [rewrite E at 1; rewrite <- app_assoc; reflexivity|]. split; [intros X0; apply app_eq_nil in X0; destruct X0; discriminate|].
    rewrite !zlen_app. change (zlen [d]) with 1. lia.
Qed.
Lemma set_loaded : forall a c text st, exists wh, pstate wh = st -> set_state (loaded a c text) st = loaded (mkA wh (a_sec a) (a_key a) (a_val a)) c text.
Proof. intros. exists (match st with LOOKING => Between | PARSING_SECTION => InSection | PARSING_KEY => InKey | PARSING_VALUE => InValue | ERROR => Failed end). intros. destruct st; reflexivity. Qed.
Definition moved (X : nat -> bool) (Y : nat -> list Z) pre rest (r : Z * bool) (w : world) : Prop := progress_ pre rest (fst r) /\ snd r = false /\ Inv X Y w.
Lemma h_last : forall X Y pre rest n (P : world -> Prop), (forall w, P w -> Inv X Y w) -> progress_ pre rest n -> hoare P (rret (n, false)) (moved X Y pre rest).
Proof. intros X Y pre rest n P H M. apply h_ret. intros w q. split; [exact M|]. split; [reflexivity|]. apply H. exact q. Qed.
Lemma h_iteration : forall X Y a c pre rest, okt (Y p) a (pre ++ rest) -> rest <> [] ->
  hoare (J X Y p (loaded a c (pre ++ rest))) (vtp_iteration lw lg react inner p (zlen pre)) (moved X Y pre rest).
Proof.
  intros X Y a c pre rest OK NE. destruct nf1 as (N1 & N2 & N3 & N4 & N5). pose proof OK as (F & L & YP). destruct a as [wh s k v].
  unfold vtp_iteration. apply h_tp_again. change (tp_state (loaded (mkA wh s k v) c (pre ++ rest))) with (pstate wh).
  assert (YE : Y p = pre ++ rest). { destruct YP as [E|E]; [apply app_eq_nil in E; destruct E; congruence|congruence]. }
  assert (OKT : forall a', fits a' -> okt (Y p) a' (pre ++ rest)) by (intros a' F'; split; [exact F'|split; [exact L|right; congruence]]).
  set (text := pre ++ rest) in *. destruct wh; cbn [pstate].
  - change kKeyOrSectionStart with ([DOT; SQ_OPEN] ++ 0 :: []). eapply h_bind; [apply h_start; try assumption; discriminate|].
    intros r. cbv beta. destruct r as [n su mch]. cbn [ft_consumed ft_success]. eapply h_fact with (F := progress_ pre rest n); [intros w (M & _); exact M|]. intros M.
    destruct su; [|apply h_last; [intros w (_ & q & _); eapply J_Inv; exact q|exact M]].
    eapply h_fact with (F := exists d, In d [DOT; SQ_OPEN] /\ bget (zb 31 text) (u8 (n - 1)) = Ok d); [intros w (_ & _ & H); apply H; reflexivity|]. intros (d & ID & BG).
    eapply h_pre with (P' := J X Y p (loaded (mkA Between s k v) c text)); [intros w (_ & q & _); exact q|]. apply h_tp_again.
    apply h_val with (x := d); [exact BG|]. destruct (in_two _ _ _ ID) as [-> | ->].
    + change (DOT =? kSectionStart) with false. change (DOT =? kKeyStart) with true. cbv iota.
      change (set_state (loaded (mkA Between s k v) c text) PARSING_KEY) with (loaded (mkA InKey s k v) c text).
      apply h_put with (Y' := Y); [apply OKT; exact F|auto|]. apply h_last; [intros w q; eapply J_Inv; exact q|exact M].
    + change (SQ_OPEN =? kSectionStart) with true. cbv iota. change (tp_sec (loaded (mkA Between s k v) c text)) with (zb max_section s).
      apply h_val with (x := zb max_section []); [apply zb_erase; apply F|].
      change (set_state (set_sec (loaded (mkA Between s k v) c text) (zb max_section [])) PARSING_SECTION) with (loaded (mkA InSection [] k v) c text).
      apply h_put with (Y' := Y); [apply OKT; split; [cbn; lia|apply F]|auto|]. apply h_last; [intros w q; eapply J_Inv; exact q|exact M].
  - change kSectionStop with ([SQ_CLOSE] ++ 0 :: []). eapply h_bind; [apply h_find; try assumption; discriminate|].
    intros r. cbv beta. destruct r as [n su mch]. cbn [ft_consumed ft_success ft_match]. eapply h_fact with (F := progress_ pre rest n); [intros w (M & _); exact M|]. intros M.
    destruct su; [|eapply h_pre with (P' := Inv X Y); [intros w (_ & q); exact q|]; apply h_last; [auto|exact M]].
    eapply h_ex with (P' := fun a' w => fits a' /\ J X Y p (loaded a' c text) w); [intros w (_ & _ & q); exact q|]. intros a'.
    eapply h_fact with (F := fits a'); [intros w (q & _); exact q|]. intros FA. eapply h_pre; [intros w (_ & q); exact q|].
    apply h_assoc. apply h_tp_again. change (set_state (loaded a' c text) LOOKING) with (loaded (mkA Between (a_sec a') (a_key a') (a_val a')) c text).
    apply h_put with (Y' := Y); [apply OKT; exact FA|auto|]. apply h_last; [intros w q; eapply J_Inv; exact q|exact M].
  - change kKeyOrValueStop with ([EQUALS; NEWLINE] ++ 0 :: []). eapply h_bind; [apply h_find; try assumption; discriminate|].
    intros r. cbv beta. destruct r as [n su mch]. cbn [ft_consumed ft_success ft_match]. eapply h_fact with (F := progress_ pre rest n); [intros w (M & _); exact M|]. intros M.
    destruct su; [|eapply h_pre with (P' := Inv X Y); [intros w (_ & q); exact q|]; apply h_last; [auto|exact M]].
    eapply h_ex with (P' := fun a' w => fits a' /\ J X Y p (loaded a' c text) w); [intros w (_ & _ & q); exact q|]. intros a'.
    eapply h_fact with (F := fits a'); [intros w (q & _); exact q|]. intros FA. eapply h_pre; [intros w (_ & q); exact q|].
    apply h_assoc. apply h_tp_again. destruct (mch =? kKeyStop).
    + change (set_state (loaded a' c text) PARSING_VALUE) with (loaded (mkA InValue (a_sec a') (a_key a') (a_val a')) c text).
      apply h_put with (Y' := Y); [apply OKT; exact FA|auto|]. apply h_last; [intros w q; eapply J_Inv; exact q|exact M].
    + destruct (mch =? kValueStop); [|apply h_last; [intros w q; eapply J_Inv; exact q|exact M]].
      apply h_assoc. change (tp_val (loaded a' c text)) with (zb max_value (a_val a')). apply h_val with (x := zb max_value []); [apply zb_erase; apply FA|].
      change (set_val (loaded a' c text) (zb max_value [])) with (loaded (mkA (a_at a') (a_sec a') (a_key a') []) c text).
      apply h_assoc. apply h_put with (Y' := Y); [apply OKT; split; [apply FA|split; [apply FA|cbn; lia]]|auto|].
      apply h_assoc. eapply h_unit with (Q := Inv X Y); [eapply h_pre; [apply J_Inv|apply h_report]|].
      apply h_assoc. apply h_tp. intros a2 c2 t2 (F2 & L2 & D2) _. apply h_assoc. change (tp_key (loaded a2 c2 t2)) with (zb max_key (a_key a2)).
      apply h_val with (x := zb max_key []); [apply zb_erase; apply F2|].
      change (set_state (set_key (loaded a2 c2 t2) (zb max_key [])) LOOKING) with (loaded (mkA Between (a_sec a2) [] (a_val a2)) c2 t2).
      apply h_put with (Y' := Y); [split; [split; [apply F2|split; [cbn; lia|apply F2]]|split; assumption]|auto|]. apply h_last; [intros w q; eapply J_Inv; exact q|exact M].
  - change kValueStop_str with ([NEWLINE] ++ 0 :: []). eapply h_bind; [apply h_find; try assumption; discriminate|].
    intros r. cbv beta. destruct r as [n su mch]. cbn [ft_consumed ft_success ft_match]. eapply h_fact with (F := progress_ pre rest n); [intros w (M & _); exact M|]. intros M.
    destruct su; [|eapply h_pre with (P' := Inv X Y); [intros w (_ & q); exact q|]; apply h_last; [auto|exact M]].
    eapply h_pre with (P' := Inv X Y); [intros w (_ & _ & a' & _ & q); eapply J_Inv; exact q|].
    apply h_assoc. eapply h_unit with (Q := Inv X Y); [apply h_report|].
    apply h_assoc. apply h_tp. intros a2 c2 t2 (F2 & L2 & D2) _. apply h_assoc. change (tp_key (loaded a2 c2 t2)) with (zb max_key (a_key a2)).
    apply h_val with (x := zb max_key []); [apply zb_erase; apply F2|]. apply h_assoc. change (tp_val (loaded a2 c2 t2)) with (zb max_value (a_val a2)).
    apply h_val with (x := zb max_value []); [apply zb_erase; apply F2|].
    change (set_state (set_val (set_key (loaded a2 c2 t2) (zb max_key [])) (zb max_value [])) LOOKING) with (loaded (mkA Between (a_sec a2) [] []) c2 t2).
    apply h_put with (Y' := Y); [split; [split; [apply F2|split; cbn; lia]|split; assumption]|auto|]. apply h_last; [intros w q; eapply J_Inv; exact q|exact M].
  - apply h_last; [intros w q; eapply J_Inv; exact q|]. exists rest, []. rewrite app_nil_r. auto.
Qed.
Definition finished (X : nat -> bool) (Y : nat -> list Z) (n : Z) (w : world) : Prop :=
  exists a c text, okt (Y p) a text /\ zlen text <= n /\ J X Y p (loaded a c text) w.
Lemma h_process : forall X Y fuel pre rest, Y p = pre ++ rest -> (List.length rest <= fuel)%nat ->
  hoare (Inv X Y) (vtp_process lw lg react inner p fuel (zlen pre)) (finished X Y).
Proof.
  intros X Y fuel. induction fuel; intros pre rest E L; cbn [vtp_process]; apply h_tp; intros a c text OK PC;
    change (blen (tp_buf (loaded a c text))) with (zlen text); (destruct (zlen pre <? zlen text) eqn:Q; [|apply h_ret; intros w q; exists a, c, text; split; [exact OK|split; [lia|exact q]]]).
  - destruct rest; [|cbn in L; lia]. rewrite app_nil_r in E. pose proof (zlen_nonneg _ pre). destruct OK as (_ & _ & [->| ->]); [cbn in Q; lia|]. rewrite E in Q. lia.
  - assert (ET : text = pre ++ rest). { destruct OK as (_ & _ & [->| ->]); [pose proof (zlen_nonneg _ pre); cbn in Q; lia|exact E]. } subst text.
    assert (NE : rest <> []) by (intros ->; rewrite app_nil_r in Q; lia).
    eapply h_bind; [apply h_iteration; assumption|]. intros [n b]. cbn [fst snd]. eapply h_fact with (F := progress_ pre rest n /\ b = false); [intros w (M & B & _); auto|].
    intros ((m & rest' & ER & NM & ->) & ->). eapply h_pre with (P' := Inv X Y); [intros w (_ & _ & q); exact q|].
    apply (IHfuel (pre ++ m) rest'); [rewrite E, ER, app_assoc; reflexivity|]. rewrite ER, app_length in L. destruct m; [congruence|]. cbn [List.length] in L. lia.
Qed.
Definition over (Y : nat -> list Z) (y : list Z) (q : nat) : list Z := if Nat.eqb q p then y else Y q.
Lemma h_addLoop : forall X Y input s, holds input s -> (List.length s <= 30)%nat -> forall fuel done, 0 <= done <= zlen s -> zlen s - done <= Z.of_nat fuel ->
  hoare (Inv X Y) (vtp_addLoop lw lg react inner p fuel input done) (fun _ => Inv X Y).
Proof.
  intros X Y input s H LS fuel. induction fuel; intros done D L; cbn [vtp_addLoop]; rewrite (holds_blen _ _ H).
  - replace (done <? zlen s) with false by lia. apply h_ret. auto.
  - destruct (done <? zlen s) eqn:Q; [|apply h_ret; auto]. apply h_tp. intros a c text (F & LT & YT) PC.
    destruct (_ || _) eqn:BAD; [eapply h_pre; [apply J_Inv|apply h_error]|]. apply orb_false_elim in BAD. destruct BAD as (FU & _).
    change (tp_buf (loaded a c text)) with (zb 31 text) in *. unfold bfull, bcap_rem, zb in FU. cbn [bcap blen] in FU.
    assert (L31 : (List.length text < 31)%nat) by (destruct (Nat.eq_dec (List.length text) 31) as [E31|]; [unfold zlen in FU; rewrite E31 in FU; discriminate|lia]). unfold bsub1. rewrite (holds_blen _ _ H).
    destruct (bsub_window input s done (zlen s) H) as (v & Ev & Hv & _); [lia|rewrite (holds_blen _ _ H); lia|].
    set (x := firstn (Z.to_nat (zlen s - done)) (skipn (Z.to_nat done) s)) in *.
    assert (LX : zlen x = zlen s - done) by (unfold x, zlen in *; rewrite firstn_length, skipn_length; lia).
    set (y := text ++ firstn (31 - List.length text) x).
    assert (LY : (List.length y <= 31)%nat) by (unfold y; rewrite app_length, firstn_length; lia).
    apply h_val with (x := (zb 31 y, Z.min (31 - zlen text) (zlen x))).
    { rewrite Ev. cbn [bind]. rewrite (zb_push 31 text v x) by (assumption || lia). reflexivity. }
    cbn [fst snd]. change (set_buf (loaded a c text) (zb 31 y)) with (loaded a c y).
    assert (OV : forall q, q <> p -> over Y y q = Y q) by (intros q N; unfold over; rewrite (proj2 (Nat.eqb_neq q p)) by exact N; reflexivity).
    assert (OP : over Y y p = y) by (unfold over; rewrite Nat.eqb_refl; reflexivity).
    apply h_put with (Y' := over Y y); [split; [exact F|split; [exact LY|right; congruence]]|exact OV|].
    eapply h_bind; [unfold vtp_processBuffer; apply h_tp_again; change (blen (tp_buf (loaded a c y))) with (zlen y); eapply h_pre; [apply J_Inv|]; apply (h_process X (over Y y) _ [] y); [exact OP|unfold zlen; lia]|].
    intros n. eapply h_ex with (P' := fun z w => let '(a2, c2, t2) := z in (okt (over Y y p) a2 t2 /\ zlen t2 <= n) /\ J X (over Y y) p (loaded a2 c2 t2) w).
    { intros w (a2 & c2 & t2 & O2 & Z2 & q). exists (a2, c2, t2). auto. }
    intros ((a2 & c2) & t2). eapply h_fact with (F := okt (over Y y p) a2 t2 /\ zlen t2 <= n); [intros w (q & _); exact q|]. intros ((F2 & L2 & _) & Z2).
    eapply h_pre; [intros w (_ & q); exact q|]. apply h_tp_again. change (tp_buf (loaded a2 c2 t2)) with (zb 31 t2).
    apply h_val with (x := zb 31 []). { unfold bpop_front. rewrite zb_blen. replace (n >=? zlen t2) with true by lia. apply zb_erase. exact L2. }
    change (set_buf (loaded a2 c2 t2) (zb 31 [])) with (loaded a2 c2 []). apply h_put with (Y' := Y); [split; [exact F2|split; [cbn; lia|auto]]|intros q N; symmetry; apply OV; exact N|].
    eapply h_pre; [apply J_Inv|]. unfold zlen in LS, LX, D, L, Q |- *. unfold u8. rewrite Z.mod_small by lia. apply IHfuel; unfold zlen; lia.
Qed.
Lemma h_addText : forall X Y input s, holds input s -> hoare (Inv X Y) (vtp_addText lw lg react inner p input) (fun _ => Inv X Y).
Proof.
  intros X Y input s H. unfold vtp_addText. apply h_tp. intros a c text OK PC. eapply h_pre; [apply J_Inv|]. rewrite (holds_blen _ _ H).
  destruct (_ || _) eqn:BAD; [apply h_error|]. apply orb_false_elim in BAD. destruct BAD as (FU & _). unfold kBufferLength in FU.
  pose proof (zlen_nonneg _ s). apply (h_addLoop X Y input s H); unfold zlen in *; lia.
Qed.
End Text.

(** ** ConfigDataStreamParser *)
Lemma reset_loaded : forall a c text, fits a -> (List.length text <= 31)%nat -> tp_reset (loaded a c text) = Ok tp_new.
Proof.
  intros a c text (H1 & H2 & H3) L. unfold tp_reset, loaded. cbn [tp_buf tp_sec tp_key tp_val]. rewrite !zb_erase by (assumption || lia). reflexivity.
Qed.
Lemma new_pinv : forall x y, pinv x y (mkSP SS_IDLE 0 tp_new crc_reset None).
Proof.
  intros x y. split; [exists astart, []; split; [apply start_fits|]; split; [cbn; lia|]; split; [reflexivity|auto]|]. split; [exact Logic.I|]. split; [exact Logic.I|].
  intros _. split; eexists; reflexivity.
Qed.
Lemma h_reset : forall X Y p, lib0 w0 p -> hoare (Inv X Y) (rlib_reset react inner p) (fun _ => Inv X Y).
Proof.
  intros X Y p L. unfold rlib_reset. apply h_lib; [exact L|]. intros sp (_ & PC & _). eapply h_pre; [apply K_Inv|].
  eapply h_unit with (Q := Inv X Y); [ |].
  - destruct (ss_processing (sp_state sp)); [|apply h_ret; auto]. apply h_when; [auto|]. intros c E. rewrite E in PC. apply h_aborted. exact PC.
  - apply h_lib; [exact L|]. intros sp' ((a & text & F & LT & T & _) & _). rewrite T. apply h_val with (x := tp_new); [apply reset_loaded; assumption|].
    apply h_put_lib_end. apply new_pinv.
Qed.
Lemma h_state : forall A X Y p sp x (k : ract A) R, pinv (X p) (Y p) (mkSP x (sp_remaining sp) (sp_text sp) (sp_crc sp) (sp_cons sp)) ->
  hoare (K X Y p (mkSP x (sp_remaining sp) (sp_text sp) (sp_crc sp) (sp_cons sp))) k R -> hoare (K X Y p sp) (rput_state p x ~;; k) R.
Proof. intros A X Y p sp x k R PI H. unfold rput_state. apply h_assoc. apply h_lib_again. eapply h_put_lib; [auto|exact PI|exact H]. Qed.
Lemma h_state_end : forall X Y p sp x, pinv (X p) (Y p) (mkSP x (sp_remaining sp) (sp_text sp) (sp_crc sp) (sp_cons sp)) ->
  hoare (K X Y p sp) (rput_state p x) (fun _ => Inv X Y).
Proof. intros X Y p sp x PI. unfold rput_state. apply h_lib_again. apply h_put_lib_end. exact PI. Qed.
Lemma h_weaken : forall A P (x : ract A) X X' Y, (forall q, X q = true -> X' q = true) -> hoare P x (fun _ => Inv X' Y) -> hoare P x (fun _ => Inv X Y).
Proof.
  intros A P x X X' Y H. apply h_post. intros _ w (O & S & PI & C & E). split; [exact O|]. split; [exact S|]. split; [|auto].
  intros q sp L. destruct (PI q sp L) as (B1 & B2 & B3 & B4). split; [exact B1|]. split; [exact B2|]. split; [exact B3|]. intros XQ. apply B4. apply H. exact XQ.
Qed.
Lemma h_message : forall X Y p d, lib0 w0 p -> valid_frame d -> hoare (Inv X Y) (vlib_addMessage lw lg react inner p d) (fun _ => Inv X Y).
Proof.
  intros X Y p d L (PD & D8). unfold vlib_addMessage. apply h_lib; [exact L|]. intros sp (TX & PC & CK & CX).
  assert (PR : forall b, hoare (K X Y p sp) (rlift (print b)) (fun _ => Inv X Y)) by (intros b; eapply h_pre; [apply K_Inv|]; apply h_safe; [apply d_print|apply i_print]).
  assert (RE : forall b, hoare (K X Y p sp) (rlift (print b) ~;; rlib_reset react inner p) (fun _ => Inv X Y)) by (intros b; apply h_quiet; eapply h_pre; [apply K_Inv|]; apply h_reset; exact L).
  destruct (sp_state sp) eqn:ST; [apply PR| |  |apply PR].
  - destruct ((dlc d =? 6) || (dlc d =? 7)).
    + eapply h_put_lib with (X' := X) (Y' := Y); [auto| |].
      { split; [exact TX|]. split; [exact PC|]. split; [exact CK|]. intros XP. split; [apply CX; exact XP|eexists; reflexivity]. }
      apply h_vlog. { intros w _. destruct CK as (va & VA). unfold log_header, ask. cbn [crc_loadReference crc_ref crc_acc]. rewrite VA. cbn [mread bind]. apply seq_ok; [eexists; reflexivity|]. destruct (dlc d =? 7); eexists; reflexivity. }
      destruct (header_length d >? 0).
      * apply h_state_end. split; [exact TX|]. split; [exact PC|]. split; [|intros XP; split; [apply CX; exact XP|eexists; reflexivity]]. split; [exact CK|eexists; reflexivity].
      * apply h_state; [split; [exact TX|]; split; [exact PC|]; split; [exact Logic.I|intros XP; split; [apply CX; exact XP|eexists; reflexivity]]|].
        apply h_lib_again. eapply h_pre; [apply K_Inv|]. apply h_when; [auto|]. cbn [sp_cons]. intros c E. rewrite E in PC. apply h_complete. exact PC.
    + destruct (dlc d >=? 8); apply RE.
  - destruct (negb (dlc d =? 8)) eqn:E8; [apply RE|]. assert (D : dlc d = 8) by lia. destruct CK as (CA & CF).
    apply h_vlog. { intros w _. apply pr_ok. apply text_ok. split; assumption. }
    destruct (feed_ok (content d) _ CA) as (crc & FE & CA' & CF'). rewrite <- CF' in CF.
    apply h_val with (x := crc); [rewrite (visited_data _ PD D); exact FE|].
    set (X' := fun q => Nat.eqb q p || X q). assert (XX : forall q, X q = true -> X' q = true) by (intros q H; unfold X'; rewrite H; apply orb_true_r).
    assert (XP : X' p = true) by (unfold X'; rewrite Nat.eqb_refl; reflexivity).
    apply (h_weaken _ _ _ X X' Y XX). eapply h_put_lib with (X' := X') (Y' := Y).
    { intros q N. unfold X'. rewrite (proj2 (Nat.eqb_neq q p)) by exact N. auto. }
    { split; [exact TX|]. split; [exact PC|]. split; [split; assumption|auto]. }
    eapply h_unit with (Q := Inv X' Y); [eapply h_pre; [apply K_Inv|]; eapply h_addText; [exact L|apply (holds_data _ PD D)]|].
    apply h_lib; [exact L|]. intros sp2 (TX2 & PC2 & CK2 & CX2). destruct (CX2 XP) as ((va & VA) & (vr & VR)).
    destruct (sp_remaining sp2 =? 0); [|apply h_vlog_end; [intros w _; unfold log_continues, ask; rewrite VA; eexists; reflexivity|intros w q; eapply K_Inv; exact q]]. apply h_val with (x := (va =? vr)); [unfold crc_isValid; rewrite VA, VR; reflexivity|].
    destruct (va =? vr); (apply h_state; [split; [exact TX2|]; split; [exact PC2|]; split; [exact Logic.I|exact CX2]|]); (apply h_vlog; [intros w _; unfold log_crc_error, ask; rewrite ?VA, ?VR; eexists; reflexivity|]); apply h_lib_again; (eapply h_pre; [apply K_Inv|]); (apply h_when; [auto|]); cbn [sp_cons];
      intros c E; rewrite E in PC2; [apply h_complete|apply h_aborted]; exact PC2.
Qed.
Lemma h_cfg : forall X Y p c, (p < List.length (w_parsers w0))%nat -> (forall d, c <> CAdd d) -> hoare (Inv X Y) (rcfg_call lw react inner p c) (fun _ => Inv X Y).
Proof.
  intros X Y p c HP V. destruct (len_nth _ _ _ HP) as (o0 & N0). unfold rcfg_call.
  eapply h_ask with (Q := fun o w => pkind o = pkind o0 /\ nth_error (w_parsers w) p = Some o /\ Inv X Y w).
  { intros w q. pose proof q as ((_ & M & _) & _). destruct (map_nth _ _ _ _ _ _ _ M N0) as (o & E & KO). exists o. unfold get_parser, at_. rewrite E. auto. }
  intros [sp|beh h].
  - eapply h_fact with (F := lib0 w0 p /\ pinv (X p) (Y p) sp). { intros w (KO & E & q). split; [destruct o0; [eexists; exact N0|discriminate]|]. destruct q as (_ & _ & P & _). apply P. exact E. }
    intros (L & TX & PC & CK & CX). eapply h_pre with (P' := K X Y p sp); [intros w (_ & E & q); split; assumption|]. apply h_quiet. destruct c.
    + apply h_put_lib_end. split; [exact TX|]. split; [exact PC|]. split; [eexists; reflexivity|]. intros _. split; eexists; reflexivity.
    + destruct (V d eq_refl).
    + eapply h_pre; [apply K_Inv|]. apply h_reset. exact L.
  - eapply h_lift_then with (Q := Inv X Y); [|apply h_ucall]. intros w (KO & E & ((L1 & L2 & L3 & L4) & S & P & C & EN)). eexists. exists []. split; [reflexivity|].
    unfold Inv, same_objects. cbn [w_stations w_parsers w_conss w_engines]. rewrite (upd_map _ _ pkind p _ (UserP beh h)) by (try reflexivity; exact E).
    split; [auto|]. split; [exact S|]. split; [|auto]. intros q x LQ. unfold lib_at in LQ. cbn [w_parsers] in LQ. destruct (Nat.eq_dec q p) as [->|N].
    + rewrite nth_upd_in in LQ by (apply nth_error_Some; congruence). discriminate.
    + rewrite nth_upd_out in LQ by congruence. apply P. exact LQ.
Qed.
Lemma h_cfg_add : forall X Y p d, (p < List.length (w_parsers w0))%nat -> valid_frame d -> hoare (Inv X Y) (vcfg_add lw lg react inner p d) (fun _ => Inv X Y).
Proof.
  intros X Y p d HP V. destruct (len_nth _ _ _ HP) as (o0 & N0). unfold vcfg_add.
  eapply h_ask with (Q := fun o w => pkind o = pkind o0 /\ nth_error (w_parsers w) p = Some o /\ Inv X Y w).
  { intros w q. pose proof q as ((_ & M & _) & _). destruct (map_nth _ _ _ _ _ _ _ M N0) as (o & E & KO). exists o. unfold get_parser, at_. rewrite E. auto. }
  intros [sp|beh h].
  - eapply h_fact with (F := lib0 w0 p /\ pinv (X p) (Y p) sp). { intros w (KO & E & q). split; [destruct o0; [eexists; exact N0|discriminate]|]. destruct q as (_ & _ & P & _). apply P. exact E. }
    intros (L & TX & PC & CK & CX). eapply h_pre with (P' := K X Y p sp); [intros w (_ & E & q); split; assumption|]. apply h_quiet. eapply h_pre; [apply K_Inv|]. apply h_message; [exact L|exact V].
  - eapply h_lift_then with (Q := Inv X Y); [|apply h_ucall]. intros w (KO & E & ((L1 & L2 & L3 & L4) & S & P & C & EN)). eexists. exists []. split; [reflexivity|].
    unfold Inv, same_objects. cbn [w_stations w_parsers w_conss w_engines]. rewrite (upd_map _ _ pkind p _ (UserP beh h)) by (try reflexivity; exact E).
    split; [auto|]. split; [exact S|]. split; [|auto]. intros q x LQ. unfold lib_at in LQ. cbn [w_parsers] in LQ. destruct (Nat.eq_dec q p) as [->|N].
    + rewrite nth_upd_in in LQ by (apply nth_error_Some; congruence). discriminate.
    + rewrite nth_upd_out in LQ by congruence. apply P. exact LQ.
Qed.

(** ** Stations *)
Definition hs (x : ract unit) : Prop := forall X Y, hoare (Inv X Y) x (fun _ => Inv X Y).
Lemma hs_bind : forall x k, hs x -> hs k -> hs (x ~;; k).
Proof. intros x k A B X Y. eapply h_unit; [apply A|apply B]. Qed.
Lemma hs_ret : hs (rret tt). Proof. intros X Y. apply h_ret. auto. Qed.
Lemma hs_station : forall s k, station0 w0 s -> (forall st, sound_cbs w0 (st_cbs st) -> hs (k st)) -> hs (rbind (rask (get_station s)) k).
Proof. intros s k H K0 X Y. apply h_station; [exact H|]. intros st SC. apply K0. exact SC. Qed.
Lemma hs_then : forall a k, dsafe w0 a -> indep a -> hs k -> hs (rlift a ~;; k). Proof. intros a k S D K0 X Y. apply h_then; [assumption|assumption|apply K0]. Qed.
Lemma hs_lift : forall a, dsafe w0 a -> indep a -> hs (rlift a). Proof. intros a S D X Y. apply h_safe; assumption. Qed.
Lemma hs_when : forall A (o : option A) k, (forall x, o = Some x -> hs (k x)) -> hs (rwhen_some o k).
Proof. intros A o k H X Y. apply h_when; [auto|]. intros x E. apply H. exact E. Qed.
Lemma hs_val : forall A (r : res A) k x, r = Ok x -> hs (k x) -> hs (rbind (rval r) k).
Proof. intros A r k x E H X Y. eapply h_val; [exact E|apply H]. Qed.
Lemma hs_ucall : forall e, hs (ucall react inner e). Proof. intros e X Y. apply h_ucall. Qed.
Lemma hs_cfg : forall p c, points (w_parsers w0) (Some p) -> (forall d, c <> CAdd d) -> hs (rcfg_call lw react inner p c).
Proof. intros p c P V X Y. apply h_cfg; assumption. Qed.
Lemma hs_tx : forall s f, station0 w0 s -> hs (rtx_send react inner s f).
Proof. intros s f H. unfold rtx_send. apply hs_station; [exact H|]. intros st (T & _). destruct (cb_tx (st_cbs st)) as [x|]; [|congruence]. apply hs_val with (x := x); [reflexivity|apply hs_ucall]. Qed.
Lemma hs_finish : forall s, station0 w0 s -> hs (rst_finish lw react inner s).
Proof.
  intros s H. unfold rst_finish. apply hs_station; [exact H|]. intros st (_ & _ & P). apply hs_when. intros p E. rewrite E in P.
  apply hs_bind; [apply hs_cfg; [exact P|discriminate]|]. apply hs_station; [exact H|]. intros st' (T' & E' & _).
  apply hs_lift; [apply d_put_station; split; [exact T'|split; [exact E'|exact Logic.I]]|apply i_put_station].
Qed.
Lemma hs_begin : forall s u c, station0 w0 s -> sound_cbs w0 c -> hs (rst_begin lw react inner s u c).
Proof.
  intros s u c H C. unfold rst_begin. apply hs_bind; [apply hs_finish; exact H|]. apply hs_station; [exact H|]. intros st _.
  apply hs_then; [apply d_put_station; exact C|apply i_put_station|]. apply hs_lift; [apply d_put_station; exact C|apply i_put_station].
Qed.
Lemma processing_there : forall X Y w st, Inv X Y w -> sound_cbs w0 (st_cbs st) -> forall p, cb_cfg (st_cbs st) = Some p -> exists b, cfg_isProcessing p w = Ok b.
Proof.
  intros X Y w st q (_ & _ & P) p E. rewrite E in P. destruct (len_nth _ _ _ P) as (o & N). destruct q as ((_ & M & _) & _). destruct (map_nth _ _ _ _ _ _ _ M N) as (o' & E' & _).
  eexists. unfold cfg_isProcessing, get_parser, at_. rewrite E'. reflexivity.
Qed.
Lemma hs_stream : forall s d, station0 w0 s -> valid_frame d -> hs (vst_handleConfigDataStream lw lg react inner s d).
Proof.
  intros s d H V. unfold vst_handleConfigDataStream. apply hs_station; [exact H|]. intros st SC X Y.
  eapply h_ask with (Q := fun t w => (forall p, t = Some p -> points (w_parsers w0) (Some p)) /\ Inv X Y w).
  { intros w q. pose proof SC as (_ & _ & P). destruct (cb_cfg (st_cbs st)) as [p|] eqn:E; [|exists None; split; [reflexivity|]; split; [discriminate|exact q]].
    destruct (processing_there X Y w st q SC p E) as (b & ->). cbn [bind]. exists (if b then Some p else None). split; [reflexivity|]. split; [|exact q].
    intros p' EP. destruct b; [injection EP as <-; exact P|discriminate]. }
  intros [p|]; (eapply h_fact; [intros w (q & _); exact q|]; intros PP; eapply h_pre; [intros w (_ & q); exact q|]).
  - apply h_vlog. { intros w _. repeat (apply seq_ok; [first [apply pr_ok; apply hex_ok; exact V|apply pr_ok; apply text_ok; exact V|eexists; reflexivity]|]). eexists. reflexivity. }
    apply h_cfg_add; [exact (PP p eq_refl)|exact V].
  - apply hs_then; [apply d_puts|apply i_puts|]. apply hs_lift; [apply d_print_res; apply text_ok; exact V|apply i_print_res].
Qed.
Ltac hss := repeat lazymatch goal with
  | |- hs (rlift (print _) ~;; _) => apply hs_then; [apply d_print|apply i_print|]
  | |- hs (rlift (puts _) ~;; _) => apply hs_then; [apply d_puts|apply i_puts|]
  | |- hs (rlift (print _)) => apply hs_lift; [apply d_print|apply i_print]
  | |- hs (rlift (puts _)) => apply hs_lift; [apply d_puts|apply i_puts]
  | |- hs (rret tt) => apply hs_ret
  | |- hs (ucall _ _ _) => apply hs_ucall
  | |- hs (rwhen_some _ _) => apply hs_when; intros
  | |- hs (rbind (rask (get_station _)) _) => apply hs_station; [assumption|intros]
  | |- hs (rtx_send _ _ _ _) => apply hs_tx; assumption
  | |- hs (if ?b then _ else _) => destruct b
  end.
Lemma hs_system : forall s i d, station0 w0 s -> hs (rst_handleSystemCommand react inner s i d).
Proof. intros s i d H. unfold rst_handleSystemCommand. apply hs_station; [exact H|]. intros st _. cbv zeta. hss. Qed.
Lemma hs_acc : forall s d r, station0 w0 s -> hs (rst_handleAccessoryPacket react inner s d r).
Proof. intros s d r H. unfold rst_handleAccessoryPacket. hss. Qed.
Lemma hs_eng : forall st k, sound_cbs w0 (st_cbs st) -> (forall o, hs (k o)) -> hs (rbind (rval (deref (cb_eng (st_cbs st)))) k).
Proof. intros st k (_ & E & _) K0. destruct (cb_eng (st_cbs st)) as [x|]; [|congruence]. apply hs_val with (x := x); [reflexivity|apply K0]. Qed.
Lemma hs_dir : forall s d, station0 w0 s -> hs (rst_handleLocoDirection react inner s d).
Proof. intros s d H. unfold rst_handleLocoDirection. cbv zeta. hss; (apply hs_eng; [assumption|intros; apply hs_ucall]). Qed.
Lemma hs_speed : forall s d, station0 w0 s -> hs (rst_handleLocoSpeed react inner s d).
Proof. intros s d H. unfold rst_handleLocoSpeed. hss. Qed.
Lemma hs_fun : forall s d, station0 w0 s -> hs (rst_handleLocoFunction react inner s d).
Proof. intros s d H. unfold rst_handleLocoFunction. hss. apply hs_eng; [assumption|intros; apply hs_ucall]. Qed.
Lemma hs_send : forall s f, station0 w0 s -> hs (rst_sendPacket react inner s f).
Proof. intros s f H. unfold rst_sendPacket. hss. Qed.
Lemma hs_own : forall s c d, station0 w0 s -> hs (rst_sendOwn react inner s c d).
Proof. intros s c d H. unfold rst_sendOwn. hss. Qed.
Lemma hs_functions : forall s st u n i, station0 w0 s -> hs (rsend_functions react inner s st u i n).
Proof. intros s st u n. induction n; intros i H; [apply hs_ret|]. cbn [rsend_functions]. apply hs_bind; [apply hs_tx; exact H|apply IHn; exact H]. Qed.
Lemma hs_start : forall p, points (w_parsers w0) p -> hs (rwhen_some p (fun p => rcfg_call lw react inner p CStart)).
Proof. intros p P. apply hs_when. intros q ->. apply hs_cfg; [exact P|discriminate]. Qed.
Lemma hs_request_list : forall s off p, station0 w0 s -> points (w_parsers w0) p -> hs (rst_requestEngineList lw react inner s off p).
Proof.
  intros s off p H P. unfold rst_requestEngineList. apply hs_bind; [apply hs_finish; exact H|]. apply hs_station; [exact H|]. intros st SC.
  apply hs_then; [apply d_put_station; apply set_cfg_sound; assumption|apply i_put_station|]. apply hs_val with (x := zs "loknamen" ++ [0]); [reflexivity|]. cbv zeta.
  destruct (snprintf9 _) as (b2 & n). destruct (u8 n <=? CanDataMaxLength); [|apply hs_ret].
  apply hs_bind; [apply hs_start; exact P|]. apply hs_bind; [apply hs_tx; exact H|apply hs_tx; exact H].
Qed.
Lemma hs_short : forall r k, valid_ref w0 r -> (forall si, sound_short si -> hs (k si)) -> hs (rbind (rask (get_short r)) k).
Proof.
  intros r k V K0 X Y. eapply h_ask with (Q := fun si w => sound_short si /\ Inv X Y w).
  - intros w q. destruct (short_there_d w0 _ r (inv_G X Y w q) V) as (si & E & S). exists si. split; [|auto]. destruct r; exact E.
  - intros si st (S & q). exact (K0 si S X Y st q).
Qed.
Lemma hs_request : forall s r p, station0 w0 s -> valid_ref w0 r -> points (w_parsers w0) p -> hs (vst_requestEngine lw lg react inner s r p).
Proof.
  intros s r p H V P. unfold vst_requestEngine. intros X0 Y0. apply h_vlog.
  { intros w q. destruct (short_there_d w0 _ r (inv_G X0 Y0 w q) V) as (si & E & _). assert (E' : get_short r w = Ok si) by (destruct r; exact E). unfold log_dropped, ask. rewrite E'. cbn [bind].
    destruct (negb (si_isNameKnown si)); [eexists; reflexivity|]. pose proof q as ((L & _) & S & _). destruct (len_nth _ (w_stations w) s ltac:(unfold station0 in H; lia)) as (st & N). unfold get_station, at_. rewrite N. cbn [bind].
    destruct (cb_cfg (st_cbs st)) as [p'|] eqn:EC; [|eexists; reflexivity]. destruct (processing_there X0 Y0 w st q (nth_forall _ _ _ _ _ S N) p' EC) as (b & ->). cbn [bind]. destruct b; eexists; reflexivity. }
  revert X0 Y0. change (hs (rst_requestEngine lw react inner s r p)). unfold rst_requestEngine. apply hs_short; [exact V|]. intros si _. destruct (negb (si_isNameKnown si)); [apply hs_ret|].
  apply hs_station; [exact H|]. intros st SC X Y.
  eapply h_ask with (Q := fun _ => Inv X Y).
  { intros w q. destruct (cb_cfg (st_cbs st)) as [p'|] eqn:E; [|exists false; auto]. destruct (processing_there X Y w st q SC p' E) as (b & ->). exists b. auto. }
  intros busy. destruct busy; [apply hs_ret|]. apply hs_bind; [apply hs_finish; exact H|]. apply hs_station; [exact H|]. intros st1 SC1.
  apply hs_then; [apply d_put_station; apply set_cfg_sound; assumption|apply i_put_station|]. apply hs_bind; [apply hs_start; exact P|].
  apply hs_station; [exact H|]. intros st2 SC2. apply hs_val with (x := zs "lokinfo" ++ [0; 0]); [reflexivity|]. apply hs_bind; [apply hs_tx; exact H|].
  apply hs_short; [exact V|]. intros si' (t & N). destruct (str_of _ _ N) as (_ & (n & LN) & L33). apply hs_val with (x := n); [exact LN|].
  destruct (strncpy_ok (dbytes data0) (si_name si') CanDataMaxLength) as (b2 & E2); [vm_compute; discriminate|vm_compute; discriminate|unfold zlen, CanDataMaxLength; lia|].
  apply hs_val with (x := b2); [exact E2|]. apply hs_bind; [apply hs_tx; exact H|]. apply hs_short; [exact V|]. intros si2 (t2 & N2). destruct (str_of _ _ N2) as (_ & _ & L33').
  destruct (strncpy_ok (dbytes data0) (skipn (Z.to_nat CanDataMaxLength) (si_name si2)) CanDataMaxLength) as (b3 & E3); [vm_compute; discriminate|vm_compute; discriminate| |].
  { unfold zlen. rewrite skipn_length, L33'. vm_compute. discriminate. }
  destruct (n >? CanDataMaxLength); [apply hs_val with (x := b3); [exact E3|]|apply hs_val with (x := dbytes data0); [reflexivity|]]; apply hs_tx; exact H.
Qed.
Lemma hs_vlog : forall b a k, (forall w, exists t, a w = Ok (w, t)) -> hs k -> hs (vlog b a ~;; k). Proof. intros b a k H K0 X Y. apply h_vlog; [auto|apply K0]. Qed.
Lemma hs_packet : forall s f, station0 w0 s -> valid_frame (fdata f) -> hs (vst_handlePacket lw lg react inner s f).
Proof.
  intros s f H V. unfold vst_handlePacket. cbv zeta. apply hs_vlog; [intros w; eexists; reflexivity|].
  destruct (id_getCommand (fid f) =? kRequestConfigData) eqn:R.
  { intros X Y. apply h_vlog_end; [|auto]. intros w _. apply seq_ok; [eexists; reflexivity|]. apply seq_ok; [apply pr_ok; apply text_ok; exact V|eexists; reflexivity]. }
  destruct (id_getCommand (fid f) =? kConfigDataStream) eqn:C; [apply hs_vlog; [intros w; eexists; reflexivity|apply hs_stream; assumption]|].
  unfold rst_handlePacket. cbv zeta. rewrite R, C.
  destruct (id_getCommand (fid f) =? kSystemCommand); [apply hs_system; assumption|].
  destruct (id_getCommand (fid f) =? kPing); [apply hs_ret|].
  destruct (id_getCommand (fid f) =? kAccessorySwitch); [apply hs_then; [apply d_puts|apply i_puts|]; apply hs_bind; [apply hs_acc; exact H|]; hss|].
  destruct (id_getCommand (fid f) =? kLocoDirection); [apply hs_dir; assumption|].
  destruct (id_getCommand (fid f) =? kLocoSpeed); [apply hs_speed; assumption|].
  destruct (id_getCommand (fid f) =? kLocoFunction); [apply hs_fun; assumption|].
  destruct (id_getCommand (fid f) =? kDebugText).
  - hss. apply hs_then; [apply d_print_res; apply text_ok; exact V|apply i_print_res|]. hss.
  - hss. apply hs_then; [apply d_print_res; apply hex_ok; exact V|apply i_print_res|]. hss.
Qed.
Lemma hs_accessory : forall s a p d pw, station0 w0 s -> hs (vst_sendAccessoryPacket lg react inner s a p d pw).
Proof. intros s a p d pw H. unfold vst_sendAccessoryPacket. apply hs_station; [exact H|]. intros st _. cbv zeta. apply hs_vlog; [intros w; eexists; reflexivity|]. apply hs_tx. exact H. Qed.
Lemma hs_step : forall o, legal_op w0 o -> hs (vstep lw lg react inner o).
Proof.
  intros o V. assert (OTHER : forall o, match o with OnStation _ _ | ParserStartStream _ | ParserSetConsumer _ _ | ParserAddMessage _ _ | ParserReset _ => False | _ => True end ->
    legal_op w0 o -> hs (rlift (step lw o))).
  { intros x N VX. pose proof (i_step lw x) as D. apply hs_lift.
    - intros w g. destruct (step_exact lw w0 w x g VX) as [((p & d & HO & _) & _)|(_ & H)]; [|exact H].
      destruct HO as [->|(s & st & _ & _ & [->|(f & -> & _)])]; destruct N.
    - destruct x; try contradiction; exact D. }
  destruct V as [V|(e & s & -> & H & C)]; [|apply OTHER; [exact Logic.I|right; eauto]].
  destruct o as [s o|p|p c|p d|p|c cb|c e|c off|c|c|c|e o]; unfold vstep, rstep; try (apply OTHER; [exact Logic.I|left; exact V]); cbn [valid_op] in V.
  - destruct V as (H & V). destruct o; cbn [rst_step valid_sop] in *; lazymatch goal with
    | |- hs (rret _) => apply hs_ret
    | |- hs (rst_sendOwn _ _ _ _ _) => apply hs_own; exact H
    | |- hs (rst_sendPacket _ _ _ _) => apply hs_send; exact H
    | |- hs (rst_finish _ _ _ _) => apply hs_finish; exact H
    | |- hs (vst_sendAccessoryPacket _ _ _ _ _ _ _ _) => apply hs_accessory; exact H
    | |- hs (rst_begin _ _ _ _ _ _) => apply hs_begin; assumption
    | |- hs (vst_handlePacket _ _ _ _ _ _) => apply hs_packet; assumption
    | |- hs (rst_handleAccessoryPacket _ _ _ _ _) => apply hs_acc; assumption
    | |- hs (vst_handleConfigDataStream _ _ _ _ _ _) => apply hs_stream; assumption
    | |- hs (rst_handleSystemCommand _ _ _ _ _) => apply hs_system; assumption
    | |- hs (rst_handleLocoDirection _ _ _ _) => apply hs_dir; assumption
    | |- hs (rst_handleLocoSpeed _ _ _ _) => apply hs_speed; assumption
    | |- hs (rst_handleLocoFunction _ _ _ _) => apply hs_fun; assumption
    | |- hs (vst_requestEngine _ _ _ _ _ _ _) => apply hs_request; [exact H|apply V|apply V]
    | |- hs (rst_requestEngineList _ _ _ _ _ _) => apply hs_request_list; assumption
    | |- hs (if _ then _ else _) => destruct (_ || _); [apply hs_send; exact H|apply hs_ret]
    | |- hs (rbind _ _) => apply hs_station; [exact H|]; intros st _; apply hs_functions; exact H
    end.
  - intros X Y s q. unfold rlift, step. destruct (lib_in X Y p _ V q) as (sp & L). unfold ask. rewrite (lib_at_get _ _ _ L). cbn [bind].
    pose proof q as (_ & _ & P & _). destruct (P p sp L) as (TX & PC & CK & CX).
    destruct (put_K X Y X Y p sp (sp_startStream sp) (r_w s)) as (w' & t & E & q'); [split; assumption|auto| |rewrite E; apply q'].
    split; [exact TX|]. split; [exact PC|]. split; [eexists; reflexivity|]. intros _. split; eexists; reflexivity.
  - destruct V as (V & VC). intros X Y s q. unfold rlift, step. destruct (lib_in X Y p _ V q) as (sp & L). unfold ask. rewrite (lib_at_get _ _ _ L). cbn [bind].
    pose proof q as (_ & _ & P & _). destruct (P p sp L) as ((a & text & F & LT & T & D) & PC & CK & CX).
    destruct (put_K X Y X Y p sp (sp_setConsumer sp c) (r_w s)) as (w' & t & E & q'); [split; assumption|auto| |rewrite E; apply q'].
    split; [exists a, text; unfold sp_setConsumer; cbn [sp_text sp_cons]; rewrite T; auto|]. split; [exact VC|]. split; [exact CK|exact CX].
  - destruct V as (V & VF). intros X Y. apply h_message; assumption.
  - intros X Y. apply h_reset. exact V.
Qed.
End Hoare.

(** ** User code *)
Lemma h_exec : forall lw lg react w0, decent w0 -> (forall h, only_calls (legal_op w0) (react h)) ->
  forall n X Y c, only_calls (legal_op w0) c -> hoare lg w0 (Inv w0 X Y) (vexec lw lg react n c) (fun _ => Inv w0 X Y).
Proof.
  intros lw lg react w0 SD RH n. induction n; intros X Y c OC.
  - destruct OC; [apply h_ret; auto|]. intros s q. left. reflexivity.
  - induction OC as [|o k VO _ IH]; [apply h_ret; auto|].
    change (hoare lg w0 (Inv w0 X Y) (vstep lw lg react (vexec lw lg react n) o ~;; (fun s => vexec lw lg react (S n) (k (r_w s) (r_t s)) s)) (fun _ => Inv w0 X Y)).
    eapply h_unit with (Q := Inv w0 X Y); [|intros s q; exact (IH _ _ s q)].
    apply hs_step; try assumption.
Qed.
Lemma start_inv : forall w, decent w -> Inv w (fun _ => false) (fun _ => []) w.
Proof.
  intros w (S & P & C & E). split; [apply same_refl|]. split; [exact S|]. split; [|auto]. intros p sp L. destruct (nth_forall _ _ _ _ _ P L) as ((a & F & T) & PC & CK).
  split; [exists a, []; split; [exact F|]; split; [cbn; lia|]; split; [exact T|auto]|]. split; [exact PC|]. split; [exact CK|discriminate].
Qed.
Lemma end_inv : forall w0 w, Inv w0 (fun _ => false) (fun _ => []) w -> GD w0 w.
Proof.
  intros w0 w (O & S & P & C & E). split; [exact O|]. split; [exact S|]. split; [|auto]. apply Forall_forall. intros [sp|beh h] IN; [|exact Logic.I].
  apply In_nth_error in IN. destruct IN as (p & N). destruct (P p sp N) as ((a & text & F & _ & T & D) & PC & CK & _). assert (text = []) by tauto. subst text.
  split; [exists a; split; [exact F|exact T]|]. split; [exact PC|exact CK].
Qed.
Lemma last_things_logged : forall lw lg react n w c t r s, decent w -> only_calls (legal_op w) c -> (forall h, only_calls (legal_op w) (react h)) ->
  vexec lw lg react n c (mkR w t) = (r, s) ->
  (r = Ok tt /\ decent (r_w s) /\ same_objects w (r_w s)) \/ r = UB TooDeep \/ (r = UB OutOfBounds /\ same_objects w (r_w s) /\ (by_a_line_logged (r_w s) (r_t s) \/ by_an_engine (r_w s) (r_t s) \/ (prints_lines lg /\ by_printing (r_w s) (r_t s)))).
Proof.
  intros lw lg react n w c t r s D OC RH E. assert (H := h_exec lw lg react w D RH n _ _ c OC (mkR w t) (start_inv w D)). rewrite E in H. cbn [fst snd] in H.
  destruct r as [[]|u].
  - left. apply end_inv in H. split; [reflexivity|]. split; [exact (GD_decent w _ H)|exact (proj1 H)].
  - destruct H as [->|(-> & H)]; auto.
Qed.
Lemma own_consumers_logged : forall lw lg react n w c t r s, decent w -> only_calls (legal_op w) c -> (forall h, only_calls (legal_op w) (react h)) ->
  Forall (fun x => x = UserC) (w_conss w) -> vexec lw lg react n c (mkR w t) = (r, s) -> (r = Ok tt /\ decent (r_w s)) \/ r = UB TooDeep.
Proof.
  intros lw lg react n w c t r s D OC RH F E. destruct (last_things_logged lw lg react n w c t r s D OC RH E) as [(A & B & _)|[H|(_ & (_ & _ & SC & _) & H)]]; [auto|auto|exfalso].
  assert (U : forall i x, consumer_at (r_w s) i x -> x = UserC).
  { intros i x N. pose proof (map_nth_error kind _ _ N) as M. rewrite SC in M. apply nth_error_In, in_map_iff in M. destruct M as (y & K & IN).
    rewrite Forall_forall in F. rewrite (F y IN) in K. destruct x; try discriminate. reflexivity. }
  destruct H as [(b & i & sx & k & v & x & out & _ & _ & N & X)|[(b & i & e & cb & l & _ & N & _)|(_ & b & i & sx & k & v & x & _ & N & X & _)]]; apply U in N; [subst x; destruct X as ([] & _)|discriminate|contradiction].
Qed.
