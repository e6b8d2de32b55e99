(* ProofsLate.v -- proofs for C128: what a callback that is called last does could as well be done
   after the call has returned. *)
From Verif Require Import ZLib SpecLate ProofsSafe ProofsRsafe ProofsPassive.

Definition early (e : event) : Prop := comes_last e = false.
(** ** Actions of the library that call no user object *)
Definition ee (a : act) : Prop := forall w w' t, a w = Ok (w', t) -> Forall early t.
Lemma ee_skip : ee skip. Proof. intros w w' t H. inversion H; subst. constructor. Qed.
Lemma ee_emit : forall e, early e -> ee (emit e). Proof. intros e X w w' t H. inversion H; subst. repeat constructor. exact X. Qed.
Lemma ee_fail : forall u, ee (fail u). Proof. intros u w w' t H. discriminate. Qed.
Lemma ee_parser : forall p x, ee (put_parser p x). Proof. intros p x w w' t H. inversion H; subst. constructor. Qed.
Lemma ee_lib : forall p x, ee (put_lib p x). Proof. intros p x w w' t H. inversion H; subst. constructor. Qed.
Lemma ee_cons : forall p x, ee (put_cons p x). Proof. intros p x w w' t H. inversion H; subst. constructor. Qed.
Lemma ee_engine : forall p x, ee (put_engine p x). Proof. intros p x w w' t H. inversion H; subst. constructor. Qed.
Lemma ee_station : forall p x, ee (put_station p x). Proof. intros p x w w' t H. inversion H; subst. constructor. Qed.
Lemma ee_seq : forall a b, ee a -> ee b -> ee (World.seq a b).
Proof. intros a b H K w w' t E. apply seq_inv in E. destruct E as (w1 & t1 & t2 & E1 & E2 & ->). apply Forall_app. split; [exact (H _ _ _ E1)|exact (K _ _ _ E2)]. Qed.
Lemma ee_ask : forall A (f : world -> res A) k, (forall x, ee (k x)) -> ee (ask f k).
Proof. intros A f k H w w' t E. apply ask_inv in E. destruct E as (x & _ & E). exact (H _ _ _ _ E). Qed.
Lemma ee_when : forall A (p : option A) k, (forall x, ee (k x)) -> ee (when_some p k).
Proof. intros A [x|] k H; [apply H|apply ee_skip]. Qed.
Ltac estep := first [ apply ee_skip | apply ee_emit; reflexivity | apply ee_parser | apply ee_lib | apply ee_cons | apply ee_engine | apply ee_station | apply ee_fail
  | apply ee_seq | apply ee_ask; intros | apply ee_when; intros
  | match goal with |- ee (if ?b then _ else _) => destruct b | |- ee (match ?x with _ => _ end) => destruct x end ].
Ltac es := repeat estep.
Lemma ee_print : forall b, ee (print b). Proof. intros. unfold print. es. Qed.
Lemma ee_puts : forall b, ee (puts b). Proof. intros. unfold puts, print. es. Qed.
Lemma ee_print_res : forall b, ee (print_res b). Proof. intros. unfold print_res, print. es. Qed.
Lemma ee_loco : forall lw e s k v, ee (loco_consume lw e s k v). Proof. intros. unfold loco_consume. es. Qed.
Lemma ee_list : forall lw c co i n off cb s k v, ee (list_consume lw c co i n off cb s k v). Proof. intros. unfold list_consume, print. es. Qed.
Ltac eall := first [ apply ee_print | apply ee_puts | apply ee_print_res | apply ee_loco | apply ee_list | solve [es] ].

(** ** Parts of a call before the last: the same whatever the user objects do *)
Definition like {A} (x x' : ract A) : Prop :=
  forall s, x s = x' s /\ exists t, r_t (snd (x' s)) = r_t s ++ t /\ Forall early t.
Lemma k_ret : forall A (a : A), like (rret a) (rret a).
Proof. intros A a s. split; [reflexivity|]. exists []. rewrite app_nil_r. auto. Qed.
Lemma k_ask : forall A (f : world -> res A), like (rask f) (rask f).
Proof. intros A f s. split; [reflexivity|]. exists []. rewrite app_nil_r. auto. Qed.
Lemma k_val : forall A (r : res A), like (rval r) (rval r). Proof. intros. apply k_ask. Qed.
Lemma k_lift : forall a, ee a -> like (rlift a) (rlift a).
Proof.
  intros a E s. split; [reflexivity|]. unfold rlift. destruct (a (r_w s)) as [[w t]|u] eqn:EA; cbn [snd r_t]; [exists t; split; [reflexivity|exact (E _ _ _ EA)]|].
  exists []. rewrite app_nil_r. auto.
Qed.
Lemma k_bind : forall A B (x x' : ract A) (f f' : A -> ract B), like x x' -> (forall a, like (f a) (f' a)) -> like (rbind x f) (rbind x' f').
Proof.
  intros A B x x' f f' X F s. destruct (X s) as (E & t & T & O). unfold rbind. rewrite E. destruct (x' s) as ([a|u] & z); cbn [snd] in *; [|eauto].
  destruct (F a z) as (E2 & t2 & T2 & O2). split; [exact E2|]. exists (t ++ t2). split; [rewrite T2, T, app_assoc; reflexivity|]. apply Forall_app. auto.
Qed.
Lemma k_when : forall A (p : option A) k k', (forall x, like (k x) (k' x)) -> like (rwhen_some p k) (rwhen_some p k').
Proof. intros A [x|] k k' H; [apply H|apply k_ret]. Qed.

Section Like.
Variable lw : Z.
Variables react : list event -> code.
Variables inner inner' : code -> ract unit.
Hypothesis lt : late react.
Hypothesis inner_ret : forall s, inner Ret s = (Ok tt, s).
Hypothesis inner'_ret : forall s, inner' Ret s = (Ok tt, s).
Lemma k_ucall : forall e, early e -> like (ucall react inner e) (ucall passive inner' e).
Proof.
  intros e E s. unfold ucall, rbind, rlift, emit. cbn [r_w r_t]. rewrite (lt _ _ E). unfold passive. rewrite inner_ret, inner'_ret.
  split; [reflexivity|]. exists [e]. auto.
Qed.
Ltac k1 := lazymatch goal with
  | |- like (rbind _ _) (rbind _ _) => apply k_bind; [|intros]
  | |- like (rret _) (rret _) => apply k_ret
  | |- like (rask _) _ => apply k_ask
  | |- like (rval _) _ => apply k_val
  | |- like (rlift _) _ => apply k_lift; eall
  | |- like (ucall _ _ _) _ => apply k_ucall; reflexivity
  | |- like (rwhen_some _ _) (rwhen_some _ _) => apply k_when; intros
  | |- like (if ?b then _ else _) _ => destruct b
  | |- like (match ?x with _ => _ end) _ => destruct x
  end.
Ltac ks := repeat k1.
Lemma k_tp : forall p, like (rtp p) (rtp p). Proof. intros. unfold rtp. ks. Qed.
Lemma k_put : forall p t, like (rtp_put p t) (rtp_put p t). Proof. intros. unfold rtp_put. ks. Qed.
Lemma k_state : forall p t, like (rput_state p t) (rput_state p t). Proof. intros. unfold rput_state. ks. Qed.
Ltac k2 := repeat first [k1|lazymatch goal with
  | |- like (rtp _) _ => apply k_tp
  | |- like (rtp_put _ _) _ => apply k_put
  | |- like (rput_state _ _) _ => apply k_state end].
Notation P := passive.
Lemma k_consume : forall c s k v, like (rcons_consume lw react inner c s k v) (rcons_consume lw P inner' c s k v).
Proof. intros. unfold rcons_consume. k2. Qed.
Lemma k_aborted : forall c, like (rcons_aborted react inner c) (rcons_aborted P inner' c). Proof. intros. unfold rcons_aborted. k2. Qed.
Lemma k_report : forall p, like (rtp_report lw react inner p) (rtp_report lw P inner' p). Proof. intros. unfold rtp_report. k2. apply k_consume. Qed.
Lemma k_error : forall p, like (rtp_reportParseError lw react inner p) (rtp_reportParseError lw P inner' p).
Proof. intros. unfold rtp_reportParseError. k2. apply k_report. Qed.
Lemma k_find : forall p o c d, like (rtp_findToken lw react inner p o c d) (rtp_findToken lw P inner' p o c d).
Proof. intros. unfold rtp_findToken. repeat first [k2|progress cbv beta zeta]. all: try apply k_error. Qed.
Lemma k_iteration : forall p n, like (rtp_iteration lw react inner p n) (rtp_iteration lw P inner' p n).
Proof. intros. unfold rtp_iteration. k2; try apply k_find; try apply k_error; try apply k_report. Qed.
Lemma k_process : forall p f n, like (rtp_process lw react inner p f n) (rtp_process lw P inner' p f n).
Proof. intros p f. induction f; intros; cbn [rtp_process]; k2; try apply k_iteration; apply IHf. Qed.
Lemma k_addLoop : forall p b f n, like (rtp_addLoop lw react inner p f b n) (rtp_addLoop lw P inner' p f b n).
Proof. intros p b f. induction f; intros; cbn [rtp_addLoop]; unfold rtp_processBuffer; k2; try apply k_error; try apply k_process; apply IHf. Qed.
Lemma k_addText : forall p b, like (rtp_addText lw react inner p b) (rtp_addText lw P inner' p b).
Proof. intros. unfold rtp_addText. k2; [apply k_error|apply k_addLoop]. Qed.
Lemma k_reset : forall p, like (rlib_reset react inner p) (rlib_reset P inner' p). Proof. intros. unfold rlib_reset. k2. apply k_aborted. Qed.
Lemma k_cfg : forall p c, (forall d, c <> CAdd d) -> like (rcfg_call lw react inner p c) (rcfg_call lw P inner' p c).
Proof. intros p c N. unfold rcfg_call. destruct c as [|d|]; [| |]; [k2|destruct (N d eq_refl)|k2; apply k_reset]. Qed.
Lemma k_tx : forall s f, like (rtx_send react inner s f) (rtx_send P inner' s f). Proof. intros. unfold rtx_send. k2. Qed.
Lemma k_finish : forall s, like (rst_finish lw react inner s) (rst_finish lw P inner' s). Proof. intros. unfold rst_finish. k2; apply k_cfg; discriminate. Qed.
Lemma k_functions : forall s st u n k, like (rsend_functions react inner s st u k n) (rsend_functions P inner' s st u k n).
Proof. intros s st u n. induction n; intros; cbn [rsend_functions]; k2; [apply k_tx|apply IHn]. Qed.
Lemma k_acc : forall s d r, like (rst_handleAccessoryPacket react inner s d r) (rst_handleAccessoryPacket P inner' s d r). Proof. intros. unfold rst_handleAccessoryPacket. k2. Qed.
Ltac k3 := repeat first [k1|lazymatch goal with
  | |- like (rcfg_call _ _ _ _ _) _ => apply k_cfg; discriminate
  | |- like (rtx_send _ _ _ _) _ => apply k_tx
  | |- like (rst_finish _ _ _ _) _ => apply k_finish
  | |- like (rst_handleAccessoryPacket _ _ _ _ _) _ => apply k_acc
  | |- like (rsend_functions _ _ _ _ _ _ _) _ => apply k_functions
  end].

(** ** The last part of a call *)
Definition settled (s : rst) (p : res unit * rst) : res unit * rst :=
  match p with
  | (Ok tt, s1) => inner (to_do react (r_w s1) (r_t s) (added (r_t s) (r_t s1))) s1
  | q => q
  end.
Definition ends_at (x x' : ract unit) (s : rst) : Prop := x s = settled s (x' s) /\ exists t, r_t (snd (x' s)) = r_t s ++ t.
Definition ends (x x' : ract unit) : Prop := forall s, ends_at x x' s.
Lemma added_app : forall a b, added a (a ++ b) = b.
Proof. intros. unfold added. rewrite skipn_app, skipn_all, Nat.sub_diag. reflexivity. Qed.
Lemma to_do_early : forall w a t, Forall early t -> to_do react w a t = Ret.
Proof.
  intros w a t F. unfold to_do. destruct (rev t) as [|e r] eqn:R; [reflexivity|]. assert (IN : In e t) by (apply in_rev; rewrite R; left; reflexivity).
  rewrite Forall_forall in F. unfold told_user. rewrite (F e IN). reflexivity.
Qed.
Lemma to_do_app : forall w a t1 t2, Forall early t1 -> to_do react w a (t1 ++ t2) = to_do react w (a ++ t1) t2.
Proof.
  intros w a t1 t2 F. destruct (rev t2) as [|e r] eqn:R.
  - assert (t2 = []) as -> by (rewrite <- (rev_involutive t2), R; reflexivity). rewrite app_nil_r, (to_do_early w a t1 F). reflexivity.
  - unfold to_do. rewrite rev_app_distr, R. cbn [app]. rewrite app_assoc. reflexivity.
Qed.
Lemma e_like : forall x x', like x x' -> ends x x'.
Proof.
  intros x x' H s. destruct (H s) as (E & t & T & F). split; [|eauto]. rewrite E. unfold settled. destruct (x' s) as ([[]|u] & z); [|reflexivity].
  cbn [snd] in T. rewrite T, added_app, to_do_early by exact F. rewrite inner_ret. reflexivity.
Qed.
Lemma e_bind_at : forall A (x x' : ract A) f f' s, like x x' -> (forall a z, x' s = (Ok a, z) -> ends_at (f a) (f' a) z) -> ends_at (rbind x f) (rbind x' f') s.
Proof.
  intros A x x' f f' s H F. destruct (H s) as (E & t & T & FE). unfold ends_at, rbind. rewrite E. destruct (x' s) as ([a|u] & z); cbn [snd] in *.
  - destruct (F a z eq_refl) as (E2 & t2 & T2). split.
    + rewrite E2. unfold settled. destruct (f' a z) as ([[]|u] & y); [|reflexivity]. cbn [snd] in T2. rewrite T2, T, added_app, <- app_assoc, added_app, to_do_app by exact FE. reflexivity.
    + exists (t ++ t2). rewrite T2, T, app_assoc. reflexivity.
  - split; [reflexivity|eauto].
Qed.
Lemma e_bind : forall A (x x' : ract A) f f', like x x' -> (forall a, ends (f a) (f' a)) -> ends (rbind x f) (rbind x' f').
Proof. intros A x x' f f' H F s. apply e_bind_at; [exact H|]. intros a z _. apply F. Qed.
Lemma e_when : forall A (p : option A) k k', (forall x, ends (k x) (k' x)) -> ends (rwhen_some p k) (rwhen_some p k').
Proof. intros A [x|] k k' H; [apply H|apply e_like, k_ret]. Qed.
Lemma e_ucall_at : forall e s, told_user (r_w s) e = true -> ends_at (ucall react inner e) (ucall passive inner' e) s.
Proof.
  intros e s TU. unfold ends_at, ucall, rbind, rlift, emit. cbn [r_w r_t]. unfold passive at 1. rewrite inner'_ret. cbn [snd settled r_t r_w]. split; [|unfold passive; rewrite inner'_ret; eexists; reflexivity].
  rewrite added_app. unfold to_do. cbn [rev app]. rewrite TU. reflexivity.
Qed.
Lemma e_ucall : forall e, comes_last e = true -> (forall c, e <> EvStreamComplete c) -> ends (ucall react inner e) (ucall passive inner' e).
Proof. intros e C N s. apply e_ucall_at. unfold told_user. rewrite C. destruct e; try reflexivity. destruct (N c eq_refl). Qed.
Ltac e1 := lazymatch goal with
  | |- ends (rbind _ _) (rbind _ _) => apply e_bind; [k3|intros]
  | |- ends (ucall _ _ _) _ => first [apply e_ucall; [reflexivity|discriminate]|apply e_like; k3]
  | |- ends (rwhen_some _ _) (rwhen_some _ _) => apply e_when; intros
  | |- ends (if ?b then _ else _) _ => destruct b
  | |- ends (match ?x with _ => _ end) _ => destruct x
  | |- ends (rret _) _ => apply e_like, k_ret
  | |- ends (rlift _) _ => apply e_like; k3
  end.
Ltac es3 := repeat e1.
(** the library's own consumers note the end of the stream before they tell anybody *)
Lemma e_note_at : forall c (x x' : ract unit) s, let s1 := mkR (r_w s) (r_t s ++ [EvStreamComplete c]) in ends_at x x' s1 ->
  (forall z, x' s1 = (Ok tt, z) -> nth_error (w_conss (r_w z)) c <> Some UserC) ->
  ends_at (rlift (emit (EvStreamComplete c)) ~;; x) (rlift (emit (EvStreamComplete c)) ~;; x') s.
Proof.
  intros c x x' s s1 (E & t & T) N. unfold ends_at, rbind, rlift, emit. fold s1. split.
  - rewrite E. unfold settled. destruct (x' s1) as ([[]|u] & z); [|reflexivity]. cbn [snd] in T. rewrite T, added_app. unfold s1. cbn [r_t]. rewrite <- app_assoc, added_app.
    f_equal. unfold to_do. cbn [app rev]. destruct (rev t) as [|e r] eqn:R.
    + cbn [app]. unfold told_user. cbn [comes_last andb]. specialize (N z eq_refl). destruct (nth_error (w_conss (r_w z)) c) as [[]|]; try reflexivity. congruence.
    + cbn [app]. rewrite <- app_assoc. reflexivity.
  - exists (EvStreamComplete c :: t). rewrite T. unfold s1. cbn [r_t]. rewrite <- app_assoc. reflexivity.
Qed.
(** passive callbacks leave the consumers alone *)
Definition keeps (c : nat) (x : ract unit) : Prop := forall s z, nth_error (w_conss (r_w s)) c <> Some UserC -> x s = (Ok tt, z) -> nth_error (w_conss (r_w z)) c <> Some UserC.
Lemma p_bind : forall c A (x : ract A) f, (forall s, r_w (snd (x s)) = r_w s) -> (forall a, keeps c (f a)) -> keeps c (rbind x f).
Proof. intros c A x f X F s z N E. unfold rbind in E. specialize (X s). destruct (x s) as ([a|u] & y); [|discriminate]. cbn [snd] in X. apply (F a y z); [rewrite X; exact N|exact E]. Qed.
Lemma p_seq : forall c (x : ract unit) f, keeps c x -> (forall a, keeps c (f a)) -> keeps c (rbind x f).
Proof. intros c x f X F s z N E. unfold rbind in E. destruct (x s) as ([[]|u] & y) eqn:EX; [|discriminate]. apply (F tt y z); [exact (X s y N EX)|exact E]. Qed.
Lemma p_when : forall c A (p : option A) k, (forall x, keeps c (k x)) -> keeps c (rwhen_some p k).
Proof. intros c A [x|] k H; [apply H|]. intros s z N E. injection E as <-. exact N. Qed.
Lemma p_lift : forall c a, (forall w w' t, a w = Ok (w', t) -> w_conss w' = w_conss w) -> keeps c (rlift a).
Proof. intros c a H s z N E. unfold rlift in E. destruct (a (r_w s)) as [[w t]|] eqn:EA; [|discriminate]. injection E as <-. cbn [r_w]. rewrite (H _ _ _ EA). exact N. Qed.
Lemma p_ucall : forall c e, keeps c (ucall passive inner' e).
Proof. intros c e s z N E. unfold ucall, rbind, rlift, emit, passive in E. rewrite inner'_ret in E. injection E as <-. exact N. Qed.
Lemma p_put : forall c o, o <> UserC -> keeps c (rlift (put_cons c o)).
Proof.
  intros c o O s z N E. unfold rlift, put_cons in E. injection E as <-. cbn [r_w w_conss].
  destruct (lt_dec c (List.length (w_conss (r_w s)))) as [L|L]; [rewrite nth_upd_in by exact L; congruence|].
  assert (X : nth_error (upd c o (w_conss (r_w s))) c = None) by (apply nth_error_None; rewrite upd_len; lia). rewrite X. discriminate.
Qed.
Lemma print_conss : forall b w w' t, print b w = Ok (w', t) -> w_conss w' = w_conss w. Proof. intros b w w' t E. unfold print, emit, skip in E. destruct b; injection E as <-; reflexivity. Qed.
Lemma print_res_conss : forall b w w' t, print_res b w = Ok (w', t) -> w_conss w' = w_conss w. Proof. intros b w w' t E. unfold print_res, ask in E. destruct b; [apply (print_conss _ _ _ _ E)|discriminate]. Qed.
Lemma e_complete : forall c, ends (rcons_complete react inner c) (rcons_complete passive inner' c).
Proof.
  intros c s. unfold rcons_complete. apply e_bind_at; [k3|]. intros o z EZ. unfold rask, get_cons, at_ in EZ. destruct (nth_error (w_conss (r_w s)) c) as [o'|] eqn:NE; [|discriminate]. injection EZ as -> <-.
  destruct o as [engine cb|complete infos num offset cb|].
  - apply e_note_at; [apply e_bind; [k3|]; intros [e|]; es3|]. intros z Ez.
    refine ((_ : keeps c _) (mkR (r_w s) (r_t s ++ [EvStreamComplete c])) z _ Ez); [|cbn [r_w]; rewrite NE; discriminate].
    change (keeps c (cur <~ rval (mread engine) ~; match cur with None => rret tt | Some e => l <~ rask (get_engine e) ~; rlift (put_engine e (lo_setAvailability l FULL_DETAILS)) ~;;
          rlift (puts "Downloaded Engine: ") ~;; rlift (print_res (lo_print (lo_setAvailability l FULL_DETAILS))) ~;; rlift (print nl) ~;; cb <~ rval (mread cb) ~; rwhen_some cb (fun cb => ucall passive inner' (EvEndComplete cb c)) end)).
    apply p_bind; [reflexivity|]. intros [e|]; [|apply (p_when c unit None (fun _ => rret tt)); intros; intros y z' N E; injection E as <-; exact N].
    apply p_bind; [reflexivity|]. intros l. apply p_seq; [apply p_lift; intros w w' t E; injection E as <-; reflexivity|]. intros _.
    apply p_seq; [apply p_lift; apply print_conss|]. intros _. apply p_seq; [apply p_lift; apply print_res_conss|]. intros _. apply p_seq; [apply p_lift; apply print_conss|]. intros _.
    apply p_bind; [reflexivity|]. intros x. apply p_when. intros y. apply p_ucall.
  - apply e_note_at; [apply e_bind; [k3|]; intros; es3|]. intros z Ez.
    refine ((_ : keeps c _) (mkR (r_w s) (r_t s ++ [EvStreamComplete c])) z _ Ez); [|cbn [r_w]; rewrite NE; discriminate].
    change (keeps c (rlift (put_cons c (ListC (Def true) infos num offset cb)) ~;; cb <~ rval (mread cb) ~; rwhen_some cb (fun cb => ucall passive inner' (EvEndComplete cb c)))).
    apply p_seq; [apply p_put; discriminate|]. intros _. apply p_bind; [reflexivity|]. intros x. apply p_when. intros y. apply p_ucall.
  - apply e_ucall_at. unfold told_user. cbn [comes_last andb]. rewrite NE. reflexivity.
Qed.
Lemma e_message : forall p d, ends (rlib_addMessage lw react inner p d) (rlib_addMessage lw passive inner' p d).
Proof.
  intros. unfold rlib_addMessage. apply e_bind; [k3|]. intros sp. destruct (sp_state sp); [apply e_like; k3| | |apply e_like; k3].
  - destruct (_ || _); [|destruct (_ >=? _); apply e_like; k3; apply k_reset].
    apply e_bind; [k3|]. intros _. destruct (_ >? _); [apply e_like; apply k_state|]. apply e_bind; [apply k_state|]. intros _. apply e_bind; [k3|]. intros sp'. apply e_when. intros. apply e_complete.
  - destruct (negb _); [apply e_like; k3; apply k_reset|]. apply e_bind; [k3|]. intros crc. apply e_bind; [k3|]. intros _. apply e_bind; [apply k_addText|]. intros _. apply e_bind; [k3|]. intros sp'.
    destruct (_ =? _); [|apply e_like; k3]. apply e_bind; [k3|]. intros [|].
    + apply e_bind; [apply k_state|]. intros _. apply e_bind; [k3|]. intros. apply e_when. intros. apply e_complete.
    + apply e_like. k2. apply k_aborted.
Qed.
Lemma e_cfg : forall p d, ends (rcfg_call lw react inner p (CAdd d)) (rcfg_call lw passive inner' p (CAdd d)).
Proof. intros. unfold rcfg_call. apply e_bind; [k3|]. intros [sp|beh h]; [apply e_bind; [k3|]; intros; apply e_message|]. apply e_like. k3. Qed.
Lemma e_stream : forall s d, ends (rst_handleConfigDataStream lw react inner s d) (rst_handleConfigDataStream lw passive inner' s d).
Proof. intros. unfold rst_handleConfigDataStream. apply e_bind; [k3|]. intros. apply e_bind; [k3|]. intros [p|]; [apply e_cfg|apply e_like; k3]. Qed.
Lemma e_system : forall s i d, ends (rst_handleSystemCommand react inner s i d) (rst_handleSystemCommand passive inner' s i d).
Proof. intros. unfold rst_handleSystemCommand. cbv zeta. es3. Qed.
Lemma e_dir : forall s d, ends (rst_handleLocoDirection react inner s d) (rst_handleLocoDirection passive inner' s d).
Proof. intros. unfold rst_handleLocoDirection. cbv zeta. es3. Qed.
Lemma e_speed : forall s d, ends (rst_handleLocoSpeed react inner s d) (rst_handleLocoSpeed passive inner' s d).
Proof. intros. unfold rst_handleLocoSpeed. es3. Qed.
Lemma e_fun : forall s d, ends (rst_handleLocoFunction react inner s d) (rst_handleLocoFunction passive inner' s d).
Proof. intros. unfold rst_handleLocoFunction. es3. Qed.
Lemma e_packet : forall s f, ends (rst_handlePacket lw react inner s f) (rst_handlePacket lw passive inner' s f).
Proof.
  intros. unfold rst_handlePacket. cbv zeta.
  repeat match goal with |- ends (if ?b then _ else _) _ => destruct b end; try apply e_system; try apply e_dir; try apply e_speed; try apply e_fun; try apply e_stream; apply e_like; k3.
Qed.
Lemma e_step : forall o, ends (rstep lw react inner o) (rstep lw passive inner' o).
Proof.
  intros o. destruct o as [s o|p|p c|p d|p|c cb|c e|c off|c|c|c|e o]; [| | |apply e_message|apply e_like, k_reset| | | | | | |];
    [|apply e_like; apply k_lift; cbn [step]; unfold print_res, print; es ..].
  destruct o; cbn [rstep rst_step]; unfold rst_begin, rst_sendOwn, rst_sendPacket, rst_requestEngine, rst_requestEngineList; lazymatch goal with
    | |- ends (rst_handlePacket _ _ _ _ _) _ => apply e_packet
    | |- ends (rst_handleConfigDataStream _ _ _ _ _) _ => apply e_stream
    | |- ends (rst_handleSystemCommand _ _ _ _ _) _ => apply e_system
    | |- ends (rst_handleLocoDirection _ _ _ _) _ => apply e_dir
    | |- ends (rst_handleLocoSpeed _ _ _ _) _ => apply e_speed
    | |- ends (rst_handleLocoFunction _ _ _ _) _ => apply e_fun
    | |- _ => apply e_like; k3
    end.
Qed.
End Like.

Lemma ret_exec : forall lw react n s, rexec lw react n Ret s = (Ok tt, s). Proof. intros lw react [|n] s; reflexivity. Qed.
Lemma same_afterwards : forall lw react, late react -> forall n c s, rexec lw react n c s = afterwards lw react n c s.
Proof.
  intros lw react LT n. induction n as [|n IHn]; [intros [|o k] s; reflexivity|]. induction c as [|o k IH]; [reflexivity|]. intros s.
  change (rexec lw react (S n) (Call o k) s) with ((rstep lw react (rexec lw react n) o ~;; (fun s => rexec lw react (S n) (k (r_w s) (r_t s)) s)) s).
  change (afterwards lw react (S n) (Call o k) s) with ((rexec lw passive 1 (Call o done) ~;; (fun s1 => afterwards lw react n (to_do react (r_w s1) (r_t s) (added (r_t s) (r_t s1))) s1) ~;;
    (fun s2 => afterwards lw react (S n) (k (r_w s2) (r_t s2)) s2)) s).
  change (rexec lw passive 1 (Call o done)) with (rstep lw passive (rexec lw passive 0) o ~;; rexec lw passive 1 Ret).
  destruct (e_step lw react (rexec lw react n) (rexec lw passive 0) LT (ret_exec lw react n) (ret_exec lw passive 0) o s) as (E & _).
  unfold rbind. rewrite E. unfold settled. destruct (rstep lw passive (rexec lw passive 0) o s) as ([[]|u] & s1); [|reflexivity].
  rewrite ret_exec. rewrite IHn. destruct (afterwards lw react n _ s1) as ([[]|u] & s2); [|reflexivity]. apply IH.
Qed.
Lemma late_call : forall lw react n o k w w1 t t1, late react -> step lw o w = Ok (w1, t1) ->
  rexec lw react (S n) (Call o k) (mkR w t) =
  (rexec lw react n (to_do react w1 t t1) ~;; (fun s => rexec lw react (S n) (k (r_w s) (r_t s)) s)) (mkR w1 (t ++ t1)).
Proof.
  intros lw react n o k w w1 t t1 LT E.
  assert (P : run lw [o] w = Ok (w1, t1)) by (cbn [run]; unfold World.seq; rewrite E; cbn; rewrite app_nil_r; reflexivity).
  apply (passive_run lw passive 0 [o] w t w1 t1 (fun _ => eq_refl)) in P.
  change (rexec lw passive 1 (ops_code [o])) with (rstep lw passive (rexec lw passive 0) o ~;; rexec lw passive 1 Ret) in P.
  change (rexec lw react (S n) (Call o k) (mkR w t)) with ((rstep lw react (rexec lw react n) o ~;; (fun s => rexec lw react (S n) (k (r_w s) (r_t s)) s)) (mkR w t)).
  destruct (e_step lw react (rexec lw react n) (rexec lw passive 0) LT (ret_exec lw react n) (ret_exec lw passive 0) o (mkR w t)) as (Q & _).
  unfold rbind in *. rewrite Q. unfold settled. destruct (rstep lw passive (rexec lw passive 0) o (mkR w t)) as ([[]|u] & s1); [|discriminate P].
  rewrite ret_exec in P. injection P as ->. cbn [r_w r_t]. rewrite added_app. reflexivity.
Qed.
