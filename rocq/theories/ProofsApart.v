(* ProofsApart.v -- proofs for C123. *)
From Verif Require Import ZLib SpecApart SpecRsafe ProofsWorld ProofsStation ProofsLife.

Section Apart.
Variable lw : Z.
Variable X : thing -> Prop.
Notation rel := (rel X).
Notation indep := (indep X).
Notation untouched := (untouched X).

(** strict: the two executions are the same, and user code may look at anything *)
Variable strict : bool.
Definition twins (w v : world) : Prop := strict = true -> w = v.
Definition near (s r : rst) : Prop := rel (r_w s) (r_w r) /\ r_t s = r_t r /\ twins (r_w s) (r_w r).
Definition moved (s s' : rst) : Prop := same_inside X (r_w s) (r_w s') /\ exists t, r_t s' = r_t s ++ t /\ untouched t.
Definition RI {A} (P : A -> Prop) (a b : ract A) : Prop := forall s r, near s r ->
  near (snd (a s)) (snd (b r)) /\ moved s (snd (a s)) /\ moved r (snd (b r)) /\
  match fst (a s), fst (b r) with Ok x, Ok y => x = y /\ P x | UB u, UB v => u = v | _, _ => False end.
Definition ok {A} (x : A) : Prop := True.

Lemma moved_refl : forall s, moved s s.
Proof. intros s. split; [apply inside_refl|]. exists []. split; [symmetry; apply app_nil_r|constructor]. Qed.
Lemma moved_trans : forall a b c, moved a b -> moved b c -> moved a c.
Proof.
  intros a b c (I1 & t1 & E1 & U1) (I2 & t2 & E2 & U2). split; [eapply inside_trans; eassumption|]. exists (t1 ++ t2). split; [rewrite E2, E1, app_assoc; reflexivity|].
  apply Forall_app. split; assumption.
Qed.
Lemma q_ret : forall A (P : A -> Prop) x, P x -> RI P (rret x) (rret x).
Proof. intros A P x H s r N. repeat (split; [first [exact N|apply moved_refl]|]). split; [reflexivity|exact H]. Qed.
Lemma q_bind : forall A B (P : A -> Prop) (Q : B -> Prop) a b f g, RI P a b -> (forall x, P x -> RI Q (f x) (g x)) -> RI Q (rbind a f) (rbind b g).
Proof.
  intros A B P Q a b f g H K s r N. unfold rbind. specialize (H s r N). destruct (a s) as [[x|u] s1], (b r) as [[y|v] r1]; cbn [fst snd] in *;
    destruct H as (N1 & M1 & M2 & E); try contradiction.
  - destruct E as (<- & E). destruct (K x E s1 r1 N1) as (N2 & M3 & M4 & F). split; [exact N2|]. split; [eapply moved_trans; eassumption|]. split; [eapply moved_trans; eassumption|]. exact F.
  - auto.
Qed.
Lemma q_ask : forall A (P : A -> Prop) (f : world -> res A), (forall w1 w2, rel w1 w2 -> f w1 = f w2) -> (forall w x, unreferenced w X -> f w = Ok x -> P x) -> RI P (rask f) (rask f).
Proof.
  intros A P f F K s r N. split; [exact N|]. split; [apply moved_refl|]. split; [apply moved_refl|]. unfold rask. cbn [fst]. rewrite <- (F _ _ (proj1 N)).
  destruct (f (r_w s)) as [x|u] eqn:E; [|reflexivity]. split; [reflexivity|]. eapply K; [|exact E]. apply N.
Qed.
Lemma q_val : forall A (P : A -> Prop) (x : res A), (forall y, x = Ok y -> P y) -> RI P (rval x) (rval x).
Proof. intros A P x H. apply q_ask; [reflexivity|]. intros w y _ E. apply H. exact E. Qed.
Lemma q_lift : forall a, indep a -> RI ok (rlift a) (rlift a).
Proof.
  intros a H s r (R & T & W). unfold rlift. specialize (H _ _ R). unfold alike in H.
  assert (D : strict = true -> a (r_w s) = a (r_w r)) by (intros E; rewrite (W E); reflexivity).
  destruct (a (r_w s)) as [[w1 t1]|u1], (a (r_w r)) as [[w2 t2]|u2]; try contradiction; cbn [fst snd].
  - destruct H as (-> & R1 & I1 & I2 & U). split; [split; [exact R1|split; [cbn [r_t]; rewrite T; reflexivity|intros E; specialize (D E); injection D as D; exact D]]|]. split; [split; [exact I1|exists t1; auto]|]. split; [split; [exact I2|exists t1; auto]|]. split; [reflexivity|exact Logic.I].
  - split; [split; [exact R|split; [exact T|exact W]]|]. split; [apply moved_refl|]. split; [apply moved_refl|exact H].
Qed.
Lemma q_when : forall A (p : option A) k l, (forall x, p = Some x -> RI ok (k x) (l x)) -> RI ok (rwhen_some p k) (rwhen_some p l).
Proof. intros A [x|] k l K; [apply K; reflexivity|apply q_ret; exact Logic.I]. Qed.
Lemma q_weak : forall A (P Q : A -> Prop) a b, RI P a b -> (forall x, P x -> Q x) -> RI Q a b.
Proof.
  intros A P Q a b H W s r N. destruct (H s r N) as (A1 & A2 & A3 & A4). split; [exact A1|]. split; [exact A2|]. split; [exact A3|].
  destruct (fst (a s)), (fst (b r)); auto. destruct A4; auto.
Qed.
(** reading members *)
Lemma q_station : forall s, ~ X (OStation s) -> RI (fun st => cbs_out X (st_cbs st)) (rask (get_station s)) (rask (get_station s)).
Proof.
  intros s N. apply q_ask; [intros w1 w2 ((S & _) & _); unfold get_station; apply at_eq, S, N|]. intros w st U E. eapply cbs_of; [exact U|exact N|apply at_ok; exact E].
Qed.
Lemma q_lib : forall p, ~ X (OParser p) -> RI (sp_out X) (rask (get_lib p)) (rask (get_lib p)).
Proof.
  intros p N. apply q_ask; [intros w1 w2 ((_ & S & _) & _); unfold get_lib, get_parser; rewrite (at_eq _ _ _ _ (S p N)); reflexivity|].
  intros w sp U E. unfold get_lib, get_parser in E. destruct (at_ (w_parsers w) p) as [[sp'|]|] eqn:F; cbn [bind] in E; try discriminate. injection E as <-. eapply sp_of; [exact U|exact N|apply at_ok; exact F].
Qed.
Lemma q_parser : forall p, ~ X (OParser p) -> RI (fun o => forall sp, o = LibP sp -> sp_out X sp) (rask (get_parser p)) (rask (get_parser p)).
Proof.
  intros p N. apply q_ask; [intros w1 w2 ((_ & S & _) & _); unfold get_parser; apply at_eq, S, N|]. intros w o U E sp ->. eapply sp_of; [exact U|exact N|apply at_ok; exact E].
Qed.
Lemma q_cons : forall c, ~ X (OConsumer c) -> RI (co_out X) (rask (get_cons c)) (rask (get_cons c)).
Proof.
  intros c N. apply q_ask; [intros w1 w2 ((_ & _ & S & _) & _); unfold get_cons; apply at_eq, S, N|]. intros w o U E. eapply co_of; [exact U|exact N|apply at_ok; exact E].
Qed.
Lemma q_engine : forall e, ~ X (OEngine e) -> RI ok (rask (get_engine e)) (rask (get_engine e)).
Proof. intros e N. apply q_ask; [intros w1 w2 ((_ & _ & _ & S) & _); unfold get_engine; apply at_eq, S, N|]. intros. exact Logic.I. Qed.
Lemma q_short : forall f, (forall x, names_ref f x -> ~ X x) -> RI ok (rask (get_short f)) (rask (get_short f)).
Proof. intros f N. apply q_ask; [intros w1 w2 W; eapply short_eq; eassumption|]. intros. exact Logic.I. Qed.

(** ** Consumers *)
Lemma i_loco : forall e cb s k v, co_out X (LocoC e cb) -> indep (loco_consume lw e s k v).
Proof.
  intros e cb s k v O. unfold loco_consume. apply i_pure. intros cur C. destruct cur as [x|]; [|apply i_skip].
  assert (Nx : ~ X (OEngine x)) by (apply O; destruct e; cbn in C; congruence).
  apply i_get_engine; [exact Nx|]. intros l. apply i_pure. intros l' _. apply i_put_engine. exact Nx.
Qed.
Lemma i_listc : forall c co i n off cb s k v, ~ X (OConsumer c) -> co_out X (ListC co i n off cb) -> indep (list_consume lw c co i n off cb s k v).
Proof.
  intros c co i n off cb s k v N O. unfold list_consume. apply i_pure. intros [] _.
  + destruct (findFirstFreeEntry i); [|apply i_print]. apply i_pure. intros text _. apply i_seq; [apply i_print|]. apply i_pure. intros si _. apply i_put_cons; [exact N|exact O].
  + apply i_pure. intros [] _.
    * apply i_pure. intros [] _; [|apply i_skip]. apply i_pure. intros m _. apply i_put_cons; [exact N|exact O].
    * apply i_pure. intros text _. apply i_print.
Qed.

Section Inside.
Variables react react' : list event -> code.
Variables inner inner' : code -> ract unit.
Variable Rc : code -> code -> Prop.
Hypothesis reacts : forall t, Rc (react t) (react' t).
Hypothesis inners : forall c d, Rc c d -> RI ok (inner c) (inner' d).

Lemma q_ucall : forall e, Forall (fun x => ~ X x) (callee e) -> RI ok (ucall react inner e) (ucall react' inner' e).
Proof.
  intros e E. unfold ucall. eapply q_bind; [apply q_lift, i_emit, E|]. intros [] _ s r N. apply inners; [|exact N]. rewrite (proj1 (proj2 N)). apply reacts.
Qed.
Lemma one : forall x, ~ X x -> Forall (fun y => ~ X y) [x].
Proof. intros x N. constructor; [exact N|constructor]. Qed.
Ltac emits := apply q_lift, i_emit, one; assumption.
Lemma q_end : forall (cb : mu (option nat)) (e : nat -> event), (forall x, cb = Def (Some x) -> ~ X (OEndCb x)) -> (forall x, callee (e x) = [OEndCb x]) ->
  RI ok (cb <~ rval (mread cb) ~; rwhen_some cb (fun cb => ucall react inner (e cb))) (cb <~ rval (mread cb) ~; rwhen_some cb (fun cb => ucall react' inner' (e cb))).
Proof.
  intros cb e H E. eapply q_bind; [apply (q_val _ (fun y => cb = Def y)); intros y Y; destruct cb; cbn in Y; congruence|]. intros y Y. apply q_when. intros x ->. apply q_ucall. rewrite E. apply one, H, Y.
Qed.
Lemma q_consume : forall c s k v, ~ X (OConsumer c) -> RI ok (rcons_consume lw react inner c s k v) (rcons_consume lw react' inner' c s k v).
Proof.
  intros c s k v N. unfold rcons_consume. eapply q_bind; [apply q_cons; exact N|]. intros [e cb|co i n off cb|] O.
  - eapply q_bind; [emits|]. intros _ _. apply q_lift. eapply i_loco. exact O.
  - eapply q_bind; [emits|]. intros _ _. apply q_lift, i_listc; [exact N|exact O].
  - apply q_ucall, one, N.
Qed.
Lemma q_complete : forall c, ~ X (OConsumer c) -> RI ok (rcons_complete react inner c) (rcons_complete react' inner' c).
Proof.
  intros c N. unfold rcons_complete. eapply q_bind; [apply q_cons; exact N|]. intros [e cb|co i n off cb|] O.
  - eapply q_bind; [emits|]. intros _ _. eapply q_bind; [apply (q_val _ (fun y => e = Def y)); intros y Y; destruct e; cbn in Y; congruence|]. intros [x|] C; [|apply q_ret; exact Logic.I].
    assert (Nx : ~ X (OEngine x)) by (apply O; exact C).
    eapply q_bind; [apply q_engine; exact Nx|]. intros l _. eapply q_bind; [apply q_lift, i_put_engine, Nx|]. intros _ _. eapply q_bind; [apply q_lift, i_puts|]. intros _ _.
    eapply q_bind; [apply q_lift, i_print_res|]. intros _ _. eapply q_bind; [apply q_lift, i_print|]. intros _ _. apply q_end; [apply O|reflexivity].
  - eapply q_bind; [emits|]. intros _ _. eapply q_bind; [apply q_lift, i_put_cons; [exact N|exact O]|]. intros _ _. apply q_end; [exact O|reflexivity].
  - apply q_ucall, one, N.
Qed.
Lemma q_aborted : forall c, ~ X (OConsumer c) -> RI ok (rcons_aborted react inner c) (rcons_aborted react' inner' c).
Proof.
  intros c N. unfold rcons_aborted. eapply q_bind; [apply q_cons; exact N|]. intros [e cb|co i n off cb|] O.
  - eapply q_bind; [emits|]. intros _ _. apply q_end; [apply O|reflexivity].
  - eapply q_bind; [emits|]. intros _ _. eapply q_bind; [apply q_lift, i_put_cons; [exact N|exact O]|]. intros _ _. apply q_end; [exact O|reflexivity].
  - apply q_ucall, one, N.
Qed.
(** ** The text parser *)
Definition tp_out (t : TP) : Prop := forall c, tp_cons t = Some c -> ~ X (OConsumer c).
Lemma q_tp : forall p, ~ X (OParser p) -> RI tp_out (rtp p) (rtp p).
Proof. intros p N. unfold rtp. eapply q_bind; [apply q_lib; exact N|]. intros sp O. apply q_ret. intros c C. apply O. right. exact C. Qed.
Lemma q_put : forall p t, ~ X (OParser p) -> tp_out t -> RI ok (rtp_put p t) (rtp_put p t).
Proof. intros p t N T. unfold rtp_put. eapply q_bind; [apply q_lib; exact N|]. intros sp O. apply q_lift, i_put_lib; [exact N|]. intros c [C|C]; [apply O; left; exact C|apply T; exact C]. Qed.
Lemma q_report : forall p, ~ X (OParser p) -> RI ok (rtp_report lw react inner p) (rtp_report lw react' inner' p).
Proof. intros p N. unfold rtp_report. eapply q_bind; [apply q_tp; exact N|]. intros t T. apply q_when. intros c C. apply q_consume, T, C. Qed.
Lemma bind_ok : forall A B (x : res A) (f : A -> res B) y, bind x f = Ok y -> exists a, x = Ok a /\ f a = Ok y.
Proof. intros A B [a|u] f y H; cbn in H; [eauto|discriminate]. Qed.
Ltac unbind H := repeat (apply bind_ok in H; destruct H as (? & _ & H)).
Lemma q_error : forall p, ~ X (OParser p) -> RI ok (rtp_reportParseError lw react inner p) (rtp_reportParseError lw react' inner' p).
Proof.
  intros p N. unfold rtp_reportParseError. eapply q_bind; [apply q_tp; exact N|]. intros t T. eapply q_bind; [apply (q_val _ tp_out)|].
  - intros y H. cbv zeta in H. unbind H. injection H as <-. exact T.
  - intros t' T'. eapply q_bind; [apply q_put; assumption|]. intros _ _. apply q_report. exact N.
Qed.
Lemma q_find : forall p o c d, ~ X (OParser p) -> RI ok (rtp_findToken lw react inner p o c d) (rtp_findToken lw react' inner' p o c d).
Proof.
  intros p o c d N. unfold rtp_findToken. eapply q_bind; [apply q_tp; exact N|]. intros t T. eapply q_bind; [apply (q_val _ ok); intros; exact Logic.I|]. intros [[consumed success] mch] _.
  eapply (q_bind _ _ ok); [|intros b0 _; apply q_ret; exact Logic.I]. destruct d as [d|]; [|apply q_ret; exact Logic.I].
  eapply q_bind; [apply (q_val _ (fun r => tp_out (fst r)))|].
  - intros y H. apply bind_ok in H. destruct H as (z & _ & H). apply bind_ok in H. destruct H as ([b' pushed] & _ & H). injection H as <-. cbn [fst]. destruct d; exact T.
  - intros r T'. eapply q_bind; [apply q_put; assumption|]. intros _ _. destruct (snd r); [|apply q_ret; exact Logic.I]. eapply q_bind; [apply q_error; exact N|]. intros _ _. apply q_ret. exact Logic.I.
Qed.
Lemma q_iteration : forall p c, ~ X (OParser p) -> RI ok (rtp_iteration lw react inner p c) (rtp_iteration lw react' inner' p c).
Proof.
  intros p c N. unfold rtp_iteration.
  assert (QR : forall A (x : A), RI ok (rret x) (rret x)) by (intros; apply q_ret; exact Logic.I).
  assert (QV : forall A (x : res A), RI ok (rval x) (rval x)) by (intros; apply q_val; intros; exact Logic.I).
  eapply q_bind; [apply q_tp; exact N|]. intros t _. destruct (tp_state t).
  - eapply q_bind; [apply q_find; exact N|]. intros f _. destruct (ft_success f); [|apply QR]. eapply q_bind; [apply q_tp; exact N|]. intros t' T'. eapply q_bind; [apply QV|]. intros ch _.
    destruct (ch =? kSectionStart).
    + eapply q_bind; [apply QV|]. intros s _. eapply q_bind; [apply q_put; [exact N|exact T']|]. intros _ _. apply QR.
    + destruct (ch =? kKeyStart).
      * eapply q_bind; [apply q_put; [exact N|exact T']|]. intros _ _. apply QR.
      * eapply q_bind; [apply q_error; exact N|]. intros _ _. apply QR.
  - eapply q_bind; [apply q_find; exact N|]. intros f _. eapply (q_bind _ _ ok); [|intros _ _; apply QR]. destruct (ft_success f); [|apply QR].
    eapply q_bind; [apply q_tp; exact N|]. intros t' T'. apply q_put; [exact N|exact T'].
  - eapply q_bind; [apply q_find; exact N|]. intros f _. eapply (q_bind _ _ ok); [|intros _ _; apply QR]. destruct (ft_success f); [|apply QR].
    eapply q_bind; [apply q_tp; exact N|]. intros t' T'. destruct (ft_match f =? kKeyStop); [apply q_put; [exact N|exact T']|]. destruct (ft_match f =? kValueStop); [|apply QR].
    eapply q_bind; [apply QV|]. intros v _. eapply q_bind; [apply q_put; [exact N|exact T']|]. intros _ _. eapply q_bind; [apply q_report; exact N|]. intros _ _.
    eapply q_bind; [apply q_tp; exact N|]. intros t2 T2. eapply q_bind; [apply QV|]. intros k _. apply q_put; [exact N|exact T2].
  - eapply q_bind; [apply q_find; exact N|]. intros f _. eapply (q_bind _ _ ok); [|intros _ _; apply QR]. destruct (ft_success f); [|apply QR].
    eapply q_bind; [apply q_report; exact N|]. intros _ _. eapply q_bind; [apply q_tp; exact N|]. intros t2 T2. eapply q_bind; [apply QV|]. intros k _. eapply q_bind; [apply QV|]. intros v _.
    apply q_put; [exact N|exact T2].
  - apply QR.
Qed.
Lemma q_process : forall p n c, ~ X (OParser p) -> RI ok (rtp_process lw react inner p n c) (rtp_process lw react' inner' p n c).
Proof.
  intros p n. induction n as [|n IH]; intros c N; cbn [rtp_process]; (eapply q_bind; [apply q_tp; exact N|]); intros t _; destruct (c <? blen (tp_buf t)); try (apply q_ret; exact Logic.I).
  - apply q_val. discriminate.
  - eapply q_bind; [apply q_iteration; exact N|]. intros [c' []] _; [apply q_ret; exact Logic.I|apply IH; exact N].
Qed.
Lemma q_processBuffer : forall p, ~ X (OParser p) -> RI ok (rtp_processBuffer lw react inner p) (rtp_processBuffer lw react' inner' p).
Proof. intros p N. unfold rtp_processBuffer. eapply q_bind; [apply q_tp; exact N|]. intros t _. apply q_process. exact N. Qed.
Lemma q_addLoop : forall p n i c, ~ X (OParser p) -> RI ok (rtp_addLoop lw react inner p n i c) (rtp_addLoop lw react' inner' p n i c).
Proof.
  intros p n i. induction n as [|n IH]; intros c N; cbn [rtp_addLoop]; destruct (c <? blen i); try (apply q_ret; exact Logic.I).
  - apply q_val. discriminate.
  - eapply q_bind; [apply q_tp; exact N|]. intros t T. destruct (_ || _); [apply q_error; exact N|]. eapply q_bind; [apply (q_val _ ok); intros; exact Logic.I|]. intros x _.
    eapply q_bind; [apply q_put; [exact N|exact T]|]. intros _ _. eapply q_bind; [apply q_processBuffer; exact N|]. intros m _. eapply q_bind; [apply q_tp; exact N|]. intros t' T'.
    eapply q_bind; [apply (q_val _ ok); intros; exact Logic.I|]. intros b' _. eapply q_bind; [apply q_put; [exact N|exact T']|]. intros _ _. apply IH. exact N.
Qed.
Lemma q_addText : forall p i, ~ X (OParser p) -> RI ok (rtp_addText lw react inner p i) (rtp_addText lw react' inner' p i).
Proof. intros p i N. unfold rtp_addText. eapply q_bind; [apply q_tp; exact N|]. intros t _. destruct (_ || _); [apply q_error; exact N|apply q_addLoop; exact N]. Qed.
(** ** The stream parser *)
Lemma q_reset : forall p, ~ X (OParser p) -> RI ok (rlib_reset react inner p) (rlib_reset react' inner' p).
Proof.
  intros p N. unfold rlib_reset. eapply q_bind; [apply q_lib; exact N|]. intros sp O. eapply (q_bind _ _ ok).
  - destruct (ss_processing (sp_state sp)); [|apply q_ret; exact Logic.I]. apply q_when. intros c C. apply q_aborted, O. left. exact C.
  - intros _ _. eapply q_bind; [apply q_lib; exact N|]. intros sp' _. eapply q_bind; [apply (q_val _ (fun t => tp_cons t = None))|].
    + intros t T. unfold tp_reset in T. unbind T. injection T as <-. reflexivity.
    + intros t T. apply q_lift, i_put_lib; [exact N|]. intros c [C|C]; cbn in C; congruence.
Qed.
Lemma q_state : forall p x, ~ X (OParser p) -> RI ok (rput_state p x) (rput_state p x).
Proof. intros p x N. unfold rput_state. eapply q_bind; [apply q_lib; exact N|]. intros sp O. apply q_lift, i_put_lib; [exact N|exact O]. Qed.
Lemma q_add : forall p d, ~ X (OParser p) -> RI ok (rlib_addMessage lw react inner p d) (rlib_addMessage lw react' inner' p d).
Proof.
  intros p d N. unfold rlib_addMessage. eapply q_bind; [apply q_lib; exact N|]. intros sp O.
  assert (QC : RI ok (sp <~ rask (get_lib p) ~; rwhen_some (sp_cons sp) (rcons_complete react inner)) (sp <~ rask (get_lib p) ~; rwhen_some (sp_cons sp) (rcons_complete react' inner'))).
  { eapply q_bind; [apply q_lib; exact N|]. intros sp' O'. apply q_when. intros c C. apply q_complete, O'. left. exact C. }
  assert (QA : RI ok (sp <~ rask (get_lib p) ~; rwhen_some (sp_cons sp) (rcons_aborted react inner)) (sp <~ rask (get_lib p) ~; rwhen_some (sp_cons sp) (rcons_aborted react' inner'))).
  { eapply q_bind; [apply q_lib; exact N|]. intros sp' O'. apply q_when. intros c C. apply q_aborted, O'. left. exact C. }
  destruct (sp_state sp); try apply q_lift, i_print.
  - destruct ((dlc d =? 6) || (dlc d =? 7)).
    + eapply q_bind; [apply q_lift, i_put_lib; [exact N|exact O]|]. intros _ _. destruct (header_length d >? 0); [apply q_state; exact N|]. eapply q_bind; [apply q_state; exact N|]. intros _ _. exact QC.
    + destruct (dlc d >=? 8); (eapply q_bind; [apply q_lift, i_print|intros _ _; apply q_reset; exact N]).
  - destruct (negb (dlc d =? 8)); [eapply q_bind; [apply q_lift, i_print|intros _ _; apply q_reset; exact N]|].
    eapply q_bind; [apply (q_val _ ok); intros; exact Logic.I|]. intros crc _. eapply q_bind; [apply q_lift, i_put_lib; [exact N|exact O]|]. intros _ _.
    eapply q_bind; [apply q_addText; exact N|]. intros _ _. eapply q_bind; [apply q_lib; exact N|]. intros sp' O'. destruct (sp_remaining sp' =? 0); [|apply q_ret; exact Logic.I].
    eapply q_bind; [apply (q_val _ ok); intros; exact Logic.I|]. intros [] _; (eapply q_bind; [apply q_state; exact N|]; intros _ _); [exact QC|exact QA].
Qed.
Lemma q_cfg : forall p c, ~ X (OParser p) -> RI ok (rcfg_call lw react inner p c) (rcfg_call lw react' inner' p c).
Proof.
  intros p c N. unfold rcfg_call. eapply q_bind; [apply q_parser; exact N|]. intros [sp|beh h] O.
  - eapply q_bind; [emits|]. intros _ _. destruct c as [|d|]; [apply q_lift, i_put_lib; [exact N|exact (O sp eq_refl)]|apply q_add; exact N|apply q_reset; exact N].
  - eapply q_bind; [apply q_lift, i_put_parser; [exact N|discriminate]|]. intros _ _. apply q_ucall, one, N.
Qed.
(** ** Stations *)
Lemma deref_ok : forall (p : option nat) x, deref p = Ok x -> p = Some x.
Proof. intros [y|] x H; cbn in H; congruence. Qed.
Lemma q_tx : forall s f, ~ X (OStation s) -> RI ok (rtx_send react inner s f) (rtx_send react' inner' s f).
Proof.
  intros s f N. unfold rtx_send. eapply q_bind; [apply q_station; exact N|]. intros st O. eapply q_bind; [apply (q_val _ (fun x => cb_tx (st_cbs st) = Some x)); intros y; apply deref_ok|].
  intros x E. apply q_ucall, one, O. exact E.
Qed.
Lemma q_finish : forall s, ~ X (OStation s) -> RI ok (rst_finish lw react inner s) (rst_finish lw react' inner' s).
Proof.
  intros s N. unfold rst_finish. eapply q_bind; [apply q_station; exact N|]. intros st O. apply q_when. intros p P. eapply q_bind; [apply q_cfg, O; exact P|]. intros _ _.
  eapply q_bind; [apply q_station; exact N|]. intros st' O'. apply q_lift, i_put_station; [exact N|]. apply set_cfg_out; [exact O'|discriminate].
Qed.
Lemma q_begin : forall s u k, ~ X (OStation s) -> cbs_out X k -> RI ok (rst_begin lw react inner s u k) (rst_begin lw react' inner' s u k).
Proof.
  intros s u k N K. unfold rst_begin. eapply q_bind; [apply q_finish; exact N|]. intros _ _. eapply q_bind; [apply q_station; exact N|]. intros st _.
  eapply q_bind; [apply q_lift, i_put_station; [exact N|exact K]|]. intros _ _. apply q_lift, i_put_station; [exact N|exact K].
Qed.
Lemma q_stream : forall s d, ~ X (OStation s) -> RI ok (rst_handleConfigDataStream lw react inner s d) (rst_handleConfigDataStream lw react' inner' s d).
Proof.
  intros s d N. unfold rst_handleConfigDataStream. eapply q_bind; [apply q_station; exact N|]. intros st O.
  eapply q_bind; [apply (q_ask _ (fun o => forall p, o = Some p -> ~ X (OParser p)))|].
  - intros w1 w2 W. destruct (cb_cfg (st_cbs st)) as [q|] eqn:Q; [|reflexivity]. rewrite (processing_eq X q w1 w2 W); [reflexivity|]. apply (O (OParser q)). exact Q.
  - intros w x _ E p ->. apply (O (OParser p)). cbn. destruct (cb_cfg (st_cbs st)) as [q|]; [|discriminate]. destruct (cfg_isProcessing q w) as [[]|]; cbn in E; congruence.
  - intros [p|] P; [apply q_cfg, P; reflexivity|]. eapply q_bind; [apply q_lift, i_puts|]. intros _ _. apply q_lift, i_print_res.
Qed.
Lemma q_system : forall s i d, ~ X (OStation s) -> RI ok (rst_handleSystemCommand react inner s i d) (rst_handleSystemCommand react' inner' s i d).
Proof.
  intros s i d N. unfold rst_handleSystemCommand. eapply q_bind; [apply q_station; exact N|]. intros st O. cbv zeta. eapply q_bind; [apply q_lift, i_puts|]. intros _ _.
  destruct (dlc d >=? 5); [|apply q_lift, i_print]. eapply q_bind; [apply q_lift, i_puts|]. intros _ _.
  repeat match goal with |- RI _ (if ?b then _ else _) _ => destruct b end; try apply q_lift, i_print;
    try (eapply q_bind; [apply q_lift, i_print|intros _ _]); apply q_when; intros x E; apply q_ucall, one, O; exact E.
Qed.
Lemma q_list : forall s off p, ~ X (OStation s) -> (forall q, p = Some q -> ~ X (OParser q)) -> RI ok (rst_requestEngineList lw react inner s off p) (rst_requestEngineList lw react' inner' s off p).
Proof.
  intros s off p N P. unfold rst_requestEngineList. eapply q_bind; [apply q_finish; exact N|]. intros _ _. eapply q_bind; [apply q_station; exact N|]. intros st O.
  eapply q_bind; [apply q_lift, i_put_station; [exact N|apply set_cfg_out; assumption]|]. intros _ _. eapply q_bind; [apply (q_val _ ok); intros; exact Logic.I|]. intros b1 _. cbv zeta.
  destruct (snprintf9 (list_request_text off)) as [b2 n]. destruct (u8 n <=? CanDataMaxLength); [|apply q_ret; exact Logic.I].
  eapply q_bind; [apply q_when; intros q Q; apply q_cfg, P, Q|]. intros _ _. eapply q_bind; [apply q_tx; exact N|]. intros _ _. apply q_tx; exact N.
Qed.
Lemma q_request : forall s f p, ~ X (OStation s) -> (forall x, names_ref f x -> ~ X x) -> (forall q, p = Some q -> ~ X (OParser q)) ->
  RI ok (rst_requestEngine lw react inner s f p) (rst_requestEngine lw react' inner' s f p).
Proof.
  intros s f p N F P. unfold rst_requestEngine. eapply q_bind; [apply q_short; exact F|]. intros si _. destruct (negb (si_isNameKnown si)); [apply q_ret; exact Logic.I|].
  eapply q_bind; [apply q_station; exact N|]. intros st O. eapply q_bind; [apply (q_ask _ ok)|].
  { intros w1 w2 W. destruct (cb_cfg (st_cbs st)) as [q|] eqn:Q; [|reflexivity]. apply (processing_eq X q w1 w2 W). apply (O (OParser q)). exact Q. }
  { intros. exact Logic.I. }
  assert (QV : forall A (x : res A), RI ok (rval x) (rval x)) by (intros; apply q_val; intros; exact Logic.I).
  intros [] _; [apply q_ret; exact Logic.I|]. eapply q_bind; [apply q_finish; exact N|]. intros _ _. eapply q_bind; [apply q_station; exact N|]. intros st' O'.
  eapply q_bind; [apply q_lift, i_put_station; [exact N|apply set_cfg_out; assumption]|]. intros _ _. eapply q_bind; [apply q_when; intros q Q; apply q_cfg, P, Q|]. intros _ _.
  eapply q_bind; [apply q_station; exact N|]. intros st2 _. eapply q_bind; [apply QV|]. intros b1 _. eapply q_bind; [apply q_tx; exact N|]. intros _ _. eapply q_bind; [apply q_short; exact F|]. intros si2 _.
  eapply q_bind; [apply QV|]. intros len _. eapply q_bind; [apply QV|]. intros b2 _. eapply q_bind; [apply q_tx; exact N|]. intros _ _. eapply q_bind; [apply q_short; exact F|]. intros si3 _.
  eapply q_bind; [apply QV|]. intros b3 _. apply q_tx; exact N.
Qed.
Lemma q_send : forall s f, ~ X (OStation s) -> RI ok (rst_sendPacket react inner s f) (rst_sendPacket react' inner' s f).
Proof. intros s f N. unfold rst_sendPacket. eapply q_bind; [apply q_station; exact N|]. intros st _. apply q_tx; exact N. Qed.
Lemma q_own : forall s c d, ~ X (OStation s) -> RI ok (rst_sendOwn react inner s c d) (rst_sendOwn react' inner' s c d).
Proof. intros s c d N. unfold rst_sendOwn. eapply q_bind; [apply q_station; exact N|]. intros st _. apply q_tx; exact N. Qed.
Lemma q_functions : forall n s st u i, ~ X (OStation s) -> RI ok (rsend_functions react inner s st u i n) (rsend_functions react' inner' s st u i n).
Proof. induction n as [|n IH]; intros s st u i N; cbn [rsend_functions]; [apply q_ret; exact Logic.I|]. eapply q_bind; [apply q_tx; exact N|]. intros _ _. apply IH; exact N. Qed.
Lemma q_accessory : forall s d f, ~ X (OStation s) -> RI ok (rst_handleAccessoryPacket react inner s d f) (rst_handleAccessoryPacket react' inner' s d f).
Proof.
  intros s d f N. unfold rst_handleAccessoryPacket. eapply q_bind; [apply q_lift, i_print|]. intros _ _. eapply q_bind; [apply q_station; exact N|]. intros st O.
  apply q_when. intros x E. apply q_ucall, one, O. exact E.
Qed.
Lemma q_direction : forall s d, ~ X (OStation s) -> RI ok (rst_handleLocoDirection react inner s d) (rst_handleLocoDirection react' inner' s d).
Proof.
  intros s d N. unfold rst_handleLocoDirection. cbv zeta. eapply q_bind; [apply q_station; exact N|]. intros st O.
  repeat match goal with |- RI _ (if ?b then _ else _) _ => destruct b end; try (apply q_ret; exact Logic.I);
    (eapply q_bind; [apply (q_val _ (fun x => cb_eng (st_cbs st) = Some x)); intros y; apply deref_ok|]); intros x E; apply q_ucall, one, O; exact E.
Qed.
Lemma q_speed : forall s d, ~ X (OStation s) -> RI ok (rst_handleLocoSpeed react inner s d) (rst_handleLocoSpeed react' inner' s d).
Proof.
  intros s d N. unfold rst_handleLocoSpeed. eapply q_bind; [apply q_station; exact N|]. intros st O. destruct (dlc d =? 6); [|apply q_ret; exact Logic.I].
  apply q_when. intros x E. apply q_ucall, one, O. exact E.
Qed.
Lemma q_function : forall s d, ~ X (OStation s) -> RI ok (rst_handleLocoFunction react inner s d) (rst_handleLocoFunction react' inner' s d).
Proof.
  intros s d N. unfold rst_handleLocoFunction. eapply q_bind; [apply q_station; exact N|]. intros st O. destruct (dlc d =? 6); [|apply q_ret; exact Logic.I].
  eapply q_bind; [apply (q_val _ (fun x => cb_eng (st_cbs st) = Some x)); intros y; apply deref_ok|]. intros x E. apply q_ucall, one, O. exact E.
Qed.
Lemma q_packet : forall s f, ~ X (OStation s) -> RI ok (rst_handlePacket lw react inner s f) (rst_handlePacket lw react' inner' s f).
Proof.
  intros s f N. unfold rst_handlePacket. cbv zeta.
  repeat match goal with |- RI _ (if ?b then _ else _) _ => destruct b end;
  match goal with
  | |- RI _ (rret _) _ => apply q_ret; exact Logic.I
  | |- RI _ (rst_handleSystemCommand _ _ _ _ _) _ => apply q_system; exact N
  | |- RI _ (rst_handleLocoDirection _ _ _ _) _ => apply q_direction; exact N
  | |- RI _ (rst_handleLocoSpeed _ _ _ _) _ => apply q_speed; exact N
  | |- RI _ (rst_handleLocoFunction _ _ _ _) _ => apply q_function; exact N
  | |- RI _ (rst_handleConfigDataStream _ _ _ _ _) _ => apply q_stream; exact N
  | |- RI _ (rbind (rlift (puts "Accessory Switch. Details: ")) _) _ =>
      eapply q_bind; [apply q_lift, i_puts|]; intros _ _; eapply q_bind; [apply q_accessory; exact N|]; intros _ _; apply q_lift, i_print
  | |- RI _ (rbind _ _) _ => eapply q_bind; [apply q_lift, i_print|]; intros _ _; eapply q_bind; [apply q_lift, i_print_res|]; intros _ _; apply q_lift, i_print
  end.
Qed.
Lemma q_sop : forall s o, ~ X (OStation s) -> (forall x, names_sop o x -> ~ X x) -> RI ok (rst_step lw react inner s o) (rst_step lw react' inner' s o).
Proof.
  intros s o N M. destruct o; cbn [rst_step];
  match goal with
  | |- RI _ (rret _) _ => apply q_ret; exact Logic.I
  | |- RI _ (rst_finish _ _ _ _) _ => apply q_finish; exact N
  | |- RI _ (rst_begin _ _ _ _ _ _) _ => apply q_begin; [exact N|intros y A; apply M; exact A]
  | |- RI _ (rst_handlePacket _ _ _ _ _) _ => apply q_packet; exact N
  | |- RI _ (rst_handleAccessoryPacket _ _ _ _ _) _ => apply q_accessory; exact N
  | |- RI _ (rst_handleConfigDataStream _ _ _ _ _) _ => apply q_stream; exact N
  | |- RI _ (rst_handleSystemCommand _ _ _ _ _) _ => apply q_system; exact N
  | |- RI _ (rst_handleLocoDirection _ _ _ _) _ => apply q_direction; exact N
  | |- RI _ (rst_handleLocoSpeed _ _ _ _) _ => apply q_speed; exact N
  | |- RI _ (rst_handleLocoFunction _ _ _ _) _ => apply q_function; exact N
  | |- RI _ (rst_requestEngineList _ _ _ _ _ _) _ => apply q_list; [exact N|intros q Q; apply M; cbn; eauto]
  | |- RI _ (rst_requestEngine _ _ _ _ _ _) _ => apply q_request; [exact N|intros x H; apply M; left; exact H|intros q Q; apply M; right; eauto]
  | |- RI _ (rst_sendPacket _ _ _ _) _ => apply q_send; exact N
  | |- RI _ (rst_sendOwn _ _ _ _ _) _ => apply q_own; exact N
  | |- RI _ (if ?b then _ else _) _ => destruct b; [apply q_send; exact N|apply q_ret; exact Logic.I]
  | |- RI _ (rbind _ _) _ => eapply q_bind; [apply q_station; exact N|]; intros st _; apply q_functions; exact N
  end.
Qed.
Lemma q_step : forall o, (forall x, names o x -> ~ X x) -> RI ok (rstep lw react inner o) (rstep lw react' inner' o).
Proof.
  intros o N. destruct o; cbn [rstep];
  match goal with
  | |- RI _ (rst_step _ _ _ _ _) _ => apply q_sop; [apply N; left; reflexivity|intros x H; apply N; right; exact H]
  | |- RI _ (rlib_addMessage _ _ _ _ _) _ => apply q_add, N; reflexivity
  | |- RI _ (rlib_reset _ _ _) _ => apply q_reset, N; reflexivity
  | |- RI _ (rlift _) _ => apply q_lift, i_step, N
  end.
Qed.
End Inside.

Lemma exec_call : forall react n o k, rexec lw react (Datatypes.S n) (Call o k) =
  (rstep lw react (rexec lw react n) o ~;; (fun s => rexec lw react (Datatypes.S n) (k (r_w s) (r_t s)) s)).
Proof. reflexivity. Qed.
Lemma q_exec : forall react react', (forall t, blind X (react t) (react' t)) -> forall n c d, blind X c d -> RI ok (rexec lw react n c) (rexec lw react' n d).
Proof.
  intros react react' R n. induction n as [|n IH]; intros c d H.
  - destruct H; cbn [rexec]; [apply q_ret; exact Logic.I|apply q_val; discriminate].
  - induction H as [|o k l OP K IHK]; [apply q_ret; exact Logic.I|]. rewrite !exec_call.
    eapply q_bind; [eapply q_step; [exact R|exact IH|exact OP]|]. intros [] _ s r S. rewrite <- (proj1 (proj2 S)). apply IHK; [exact (proj1 (proj1 S))|exact S].
Qed.
Definition same_calls (c d : code) : Prop := c = d /\ only_calls (fun o => forall x, names o x -> ~ X x) c.
Lemma q_exec_same : strict = true -> forall react, (forall t, only_calls (fun o => forall x, names o x -> ~ X x) (react t)) ->
  forall n c d, same_calls c d -> RI ok (rexec lw react n c) (rexec lw react n d).
Proof.
  intros ST react R n. induction n as [|n IH]; intros c d (<- & H).
  - destruct H; cbn [rexec]; [apply q_ret; exact Logic.I|apply q_val; discriminate].
  - induction H as [|o k OP K IHK]; [apply q_ret; exact Logic.I|]. rewrite !exec_call.
    eapply q_bind; [apply (q_step react react _ _ same_calls); [intros t; split; [reflexivity|apply R]|exact IH|exact OP]|].
    intros [] _ s r S. assert (E : s = r) by (destruct S as (_ & T & W); destruct s, r; cbn in *; rewrite T, (W ST); reflexivity). subst r. apply IHK. exact S.
Qed.
End Apart.
Lemma apart : forall lw (X : thing -> Prop) react n c w1 w2,
  unreferenced w1 X -> (forall t, unaware X (react t)) -> unaware X c -> same_outside X w1 w2 ->
  let '(e1, s1) := rexec lw react n c (mkR w1 []) in
  let '(e2, s2) := rexec lw react n c (mkR w2 []) in
  e1 = e2 /\ r_t s1 = r_t s2 /\ same_outside X (r_w s1) (r_w s2) /\ same_inside X w1 (r_w s1) /\ same_inside X w2 (r_w s2) /\ unreferenced (r_w s1) X /\
  (forall e x, In e (r_t s1) -> In x (callee e) -> ~ X x).
Proof.
  intros lw X react n c w1 w2 U R C S. assert (NR : near X false (mkR w1 []) (mkR w2 [])) by (split; [split; assumption|split; [reflexivity|discriminate]]).
  assert (H := q_exec lw X false react react R n c c C _ _ NR).
  destruct (rexec lw react n c (mkR w1 [])) as [e1 s1], (rexec lw react n c (mkR w2 [])) as [e2 s2]. cbn [fst snd] in H.
  destruct H as (((S1 & U1) & T & _) & (I1 & t1 & E1 & UT) & (I2 & _) & E). split.
  { destruct e1 as [[]|], e2 as [[]|]; try contradiction; congruence. }
  split; [exact T|]. split; [exact S1|]. split; [exact I1|]. split; [exact I2|]. split; [exact U1|].
  intros e x I J. cbn [r_t app] in E1. rewrite E1 in I. unfold untouched in UT. rewrite Forall_forall in UT. specialize (UT e I). rewrite Forall_forall in UT. exact (UT x J).
Qed.
Lemma list_unaware : forall (X : thing -> Prop) l, unaware X (ops_code l) <-> (forall o x, In o l -> names o x -> ~ X x).
Proof.
  intros X l. unfold unaware. split.
  - intros H. assert (G : forall c d, blind X c d -> forall l, c = ops_code l -> forall o x, In o l -> names o x -> ~ X x).
    { intros c d K. induction K as [|o k m N K IH]; intros l' E o' x I M.
      - destruct l'; [destruct I|discriminate].
      - destruct l' as [|o1 l']; [discriminate|]. injection E as -> ->. destruct I as [<-|I]; [exact (N x M)|].
        assert (W : same_outside X (mkW [] [] [] []) (mkW [] [] [] [])) by (repeat split; reflexivity). exact (IH _ _ [] W l' eq_refl o' x I M). }
    intros o x. exact (G _ _ H l eq_refl o x).
  - induction l as [|o l IH]; intros N; cbn [ops_code]; [constructor|]. constructor; [intros x; apply N; left; reflexivity|].
    intros _ _ _ _. apply IH. intros o' x I. apply N. right. exact I.
Qed.
Lemma two_installations : forall lw (side : thing -> bool) b react n c w v,
  separate side w -> (forall t, unaware (fun x => side x = negb b) (react t)) -> unaware (fun x => side x = negb b) c -> same_side side b w v ->
  let '(e1, s1) := rexec lw react n c (mkR w []) in
  let '(e2, s2) := rexec lw react n c (mkR v []) in
  e1 = e2 /\ r_t s1 = r_t s2 /\ same_side side b (r_w s1) (r_w s2) /\ same_side side (negb b) w (r_w s1) /\
  (forall e x, In e (r_t s1) -> In x (callee e) -> side x = b).
Proof.
  intros lw side b react n c w v S R C W. assert (U : unreferenced w (fun x => side x = negb b)) by (intros x y F Y; rewrite (S x y F); exact Y).
  assert (H := apart lw _ react n c w v U R C W). destruct (rexec lw react n c (mkR w [])) as [e1 s1], (rexec lw react n c (mkR v [])) as [e2 s2].
  destruct H as (A1 & A2 & A3 & A4 & _ & _ & A7). split; [exact A1|]. split; [exact A2|]. split; [exact A3|]. split.
  - unfold same_side. unfold same_inside in A4. rewrite Bool.negb_involutive. 
    assert (D : forall x, side x <> b -> ~ side x <> negb b) by (intros x; destruct (side x), b; cbn; congruence).
    destruct A4 as (B1 & B2 & B3 & B4). repeat split; intros i N; [apply B1|apply B2|apply B3|apply B4]; apply D; exact N.
  - intros e x I J. assert (K := A7 e x I J). destruct (side x), b; cbn in K; congruence.
Qed.
Lemma only_given : forall lw (Y : thing -> bool) react n c w r s,
  (forall x y, refers w x y -> Y x = true -> Y y = true) ->
  only_calls (fun o => forall x, names o x -> Y x = true) c -> (forall t, only_calls (fun o => forall x, names o x -> Y x = true) (react t)) ->
  rexec lw react n c (mkR w []) = (r, s) ->
  (forall x y, refers (r_w s) x y -> Y x = true -> Y y = true) /\
  (forall e x, In e (r_t s) -> In x (callee e) -> Y x = true) /\ same_inside (fun x => Y x = false) w (r_w s).
Proof.
  intros lw Y react n c w r s U C R E. set (X := fun x => Y x = false).
  assert (L : forall d, only_calls (fun o => forall x, names o x -> Y x = true) d -> only_calls (fun o => forall x, names o x -> ~ X x) d).
  { intros d D. induction D as [|o k N K IH]; constructor; [|exact IH]. intros x M F. unfold X in F. rewrite (N x M) in F. discriminate. }
  assert (UX : unreferenced w X). { intros x y F Q. unfold X in *. destruct (Y x) eqn:EX; [rewrite (U x y F EX) in Q; discriminate|reflexivity]. }
  assert (NR : near X true (mkR w []) (mkR w [])) by (split; [split; [repeat split; reflexivity|exact UX]|split; [reflexivity|intros _; reflexivity]]).
  assert (H := q_exec_same lw X true eq_refl react (fun t => L _ (R t)) n c c (conj eq_refl (L c C)) _ _ NR). rewrite E in H. cbn [fst snd] in H.
  destruct H as (((S1 & U1) & _) & (I1 & t1 & E1 & UT) & _). split; [|split; [|exact I1]].
  - intros x y F EX. destruct (Y y) eqn:EY; [reflexivity|]. specialize (U1 x y F EY). unfold X in U1. congruence.
  - intros e x I J. cbn [r_t app] in E1. rewrite E1 in I. unfold untouched in UT. rewrite Forall_forall in UT. specialize (UT e I). rewrite Forall_forall in UT. specialize (UT x J).
    unfold X in UT. destruct (Y x); [reflexivity|destruct UT; reflexivity].
Qed.
Lemma pointers_from_calls : forall lw (N : thing -> bool) react n c w r s,
  only_calls (fun o => forall x, names o x -> N x = true) c -> (forall t, only_calls (fun o => forall x, names o x -> N x = true) (react t)) ->
  rexec lw react n c (mkR w []) = (r, s) ->
  forall Y, (forall x y, refers w x y -> Y y = true) -> (forall x, N x = true -> Y x = true) -> forall x y, refers (r_w s) x y -> Y y = true.
Proof.
  intros lw N react n c w r s C R E Y P Q x y F.
  assert (L : forall d, only_calls (fun o => forall x, names o x -> N x = true) d -> only_calls (fun o => forall x, names o x -> Y x = true) d).
  { intros d D. induction D as [|o k M K IH]; constructor; [|exact IH]. intros z Z. apply Q, M, Z. }
  destruct (only_given lw Y react n c w r s (fun a b A _ => P a b A) (L c C) (fun t => L _ (R t)) E) as (K & _ & I).
  destruct (Y x) eqn:EX; [exact (K x y F EX)|]. apply (P x y). assert (G : ~ ~ Y x = false) by (intros G; exact (G EX)).
  destruct I as (I1 & I2 & I3 & I4). destruct x; cbn [refers] in F |- *; try contradiction.
  - rewrite (I1 s0 G). exact F.
  - rewrite (I2 p G). exact F.
  - rewrite (I3 c0 G). exact F.
Qed.
