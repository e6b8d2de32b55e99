(* ProofsLife.v -- proofs for C87-C90. *)
From Verif Require Import ZLib SpecLife ProofsWorld ProofsStation.

Section Indep.
Variable lw : Z.
Variable X : thing -> Prop.

Definition untouched (t : list event) : Prop := Forall (fun e => Forall (fun x => ~ X x) (callee e)) t.
Definition rel (w1 w2 : world) : Prop := same_outside X w1 w2 /\ unreferenced w1 X.
(** equal outcomes from worlds that differ in X only *)
Definition alike (w1 w2 : world) (r1 r2 : res (world * list event)) : Prop :=
  match r1, r2 with
  | Ok (v1, t1), Ok (v2, t2) => t2 = t1 /\ rel v1 v2 /\ same_inside X w1 v1 /\ same_inside X w2 v2 /\ untouched t1
  | UB u1, UB u2 => u1 = u2
  | _, _ => False
  end.
Definition indep (a : act) : Prop := forall w1 w2, rel w1 w2 -> alike w1 w2 (a w1) (a w2).

Lemma inside_refl : forall w, same_inside X w w.
Proof. intros w. repeat split; reflexivity. Qed.
Lemma inside_trans : forall a b c, same_inside X a b -> same_inside X b c -> same_inside X a c.
Proof.
  intros a b c (A1 & A2 & A3 & A4) (B1 & B2 & B3 & B4).
  split; [|split; [|split]]; intros i H; [rewrite A1 by exact H|rewrite A2 by exact H|rewrite A3 by exact H|rewrite A4 by exact H]; auto.
Qed.
Lemma i_skip : indep skip.
Proof. intros w1 w2 R. cbn. split; [reflexivity|]. split; [exact R|]. split; [apply inside_refl|]. split; [apply inside_refl|constructor]. Qed.
Lemma i_emit : forall e, Forall (fun x => ~ X x) (callee e) -> indep (emit e).
Proof. intros e H w1 w2 R. cbn. split; [reflexivity|]. split; [exact R|]. split; [apply inside_refl|]. split; [apply inside_refl|constructor; [exact H|constructor]]. Qed.
Lemma i_print : forall b, indep (print b).
Proof. intros b. apply i_emit. constructor. Qed.
Lemma i_puts : forall b, indep (puts b).
Proof. intros b. apply i_print. Qed.
Lemma i_fail : forall u, indep (fail u).
Proof. intros u w1 w2 R. reflexivity. Qed.
Lemma i_seq : forall a b, indep a -> indep b -> indep (a ;;; b)%type.
Proof.
  intros a b A B w1 w2 R. unfold World.seq. specialize (A w1 w2 R). destruct (a w1) as [[v1 t1]|u1], (a w2) as [[v2 t2]|u2]; cbn in *; try contradiction; [|exact A].
  destruct A as (-> & R1 & I1 & I2 & U). specialize (B v1 v2 R1). destruct (b v1) as [[x1 s1]|u1], (b v2) as [[x2 s2]|u2]; cbn in *; try contradiction; [|exact B].
  destruct B as (-> & R2 & I3 & I4 & U2). split; [reflexivity|]. split; [exact R2|]. split; [eapply inside_trans; eassumption|]. split; [eapply inside_trans; eassumption|].
  apply Forall_app. split; assumption.
Qed.
(** an expression that depends on nothing in X *)
Lemma i_ask : forall A (f : world -> res A) k,
  (forall w1 w2, rel w1 w2 -> f w1 = f w2) -> (forall w x, unreferenced w X -> f w = Ok x -> indep (k x)) -> indep (ask f k).
Proof.
  intros A f k F K w1 w2 R. unfold ask. rewrite <- (F w1 w2 R). destruct (f w1) as [x|u] eqn:E; cbn; [|reflexivity].
  apply (K w1 x); [apply R|exact E|exact R].
Qed.
Lemma i_pure : forall A (r : res A) k, (forall x, r = Ok x -> indep (k x)) -> indep (ask (fun _ => r) k).
Proof. intros A r k K. apply i_ask; [reflexivity|]. intros w x _ E. apply K. exact E. Qed.
Lemma i_print_res : forall r, indep (print_res r).
Proof. intros r. apply i_pure. intros x _. apply i_print. Qed.
Lemma i_when : forall A (p : option A) k, (forall x, p = Some x -> indep (k x)) -> indep (when_some p k).
Proof. intros A [x|] k K; cbn; [apply K; reflexivity|apply i_skip]. Qed.
Lemma i_if : forall (b : bool) x y, indep x -> indep y -> indep (if b then x else y).
Proof. intros [] x y A B; assumption. Qed.

Lemma at_eq : forall A (l m : list A) i, nth_error l i = nth_error m i -> at_ l i = at_ m i.
Proof. intros A l m i H. unfold at_. rewrite H. reflexivity. Qed.
Lemma at_ok : forall A (l : list A) i x, at_ l i = Ok x -> nth_error l i = Some x.
Proof. intros A l i x H. unfold at_ in H. destruct (nth_error l i); [congruence|discriminate]. Qed.

Definition cbs_out (k : Cbs) : Prop := forall y, among k y -> ~ X y.
Lemma cbs_of : forall w s st, unreferenced w X -> ~ X (OStation s) -> nth_error (w_stations w) s = Some st -> cbs_out (st_cbs st).
Proof. intros w s st U N H y A B. apply N, (U _ y); [|exact B]. cbn. exists st. split; assumption. Qed.
Definition sp_out (sp : SP) : Prop := forall c, sp_cons sp = Some c \/ tp_cons (sp_text sp) = Some c -> ~ X (OConsumer c).
Lemma sp_of : forall w p sp, unreferenced w X -> ~ X (OParser p) -> nth_error (w_parsers w) p = Some (LibP sp) -> sp_out sp.
Proof. intros w p sp U N H c A B. apply N, (U _ (OConsumer c)); [|exact B]. cbn. exists sp, c. auto. Qed.
Definition co_out (o : CObj) : Prop :=
  match o with
  | LocoC e cb => (forall x, e = Def (Some x) -> ~ X (OEngine x)) /\ (forall x, cb = Def (Some x) -> ~ X (OEndCb x))
  | ListC _ _ _ _ cb => forall x, cb = Def (Some x) -> ~ X (OEndCb x)
  | UserC => True
  end.
Lemma co_of : forall w c o, unreferenced w X -> ~ X (OConsumer c) -> nth_error (w_conss w) c = Some o -> co_out o.
Proof.
  intros w c o U N H. assert (K : forall y, refers w (OConsumer c) y -> ~ X y) by (intros y A B; exact (N (U _ _ A B))).
  destruct o as [e cb|co i n off cb|]; cbn; [split|..|exact Logic.I]; intros x ->; apply K; eexists; (split; [exact H|]).
  - left. eauto.
  - right. left. eauto.
  - right. right. eauto 10.
Qed.

Lemma i_get_station : forall s k, ~ X (OStation s) -> (forall st, cbs_out (st_cbs st) -> indep (k st)) -> indep (ask (get_station s) k).
Proof.
  intros s k N K. apply i_ask.
  - intros w1 w2 ((S & _) & _). apply at_eq, S, N.
  - intros w st U H. apply K. eapply cbs_of; [exact U|exact N|apply at_ok, H].
Qed.
Lemma i_get_parser : forall p k, ~ X (OParser p) -> (forall o, (forall sp, o = LibP sp -> sp_out sp) -> indep (k o)) -> indep (ask (get_parser p) k).
Proof.
  intros p k N K. apply i_ask.
  - intros w1 w2 ((_ & S & _) & _). apply at_eq, S, N.
  - intros w o U H. apply K. intros sp ->. eapply sp_of; [exact U|exact N|apply at_ok, H].
Qed.
Lemma i_get_lib : forall p k, ~ X (OParser p) -> (forall sp, sp_out sp -> indep (k sp)) -> indep (ask (get_lib p) k).
Proof.
  intros p k N K. apply i_ask.
  - intros w1 w2 ((_ & S & _) & _). unfold get_lib, get_parser. rewrite (at_eq _ _ _ _ (S p N)). reflexivity.
  - intros w sp U H. apply K. unfold get_lib, get_parser in H. destruct (at_ (w_parsers w) p) as [[x|]|] eqn:E; try discriminate. cbn in H. injection H as ->.
    eapply sp_of; [exact U|exact N|apply at_ok, E].
Qed.
Lemma i_get_cons : forall c k, ~ X (OConsumer c) -> (forall o, co_out o -> indep (k o)) -> indep (ask (get_cons c) k).
Proof.
  intros c k N K. apply i_ask.
  - intros w1 w2 ((_ & _ & S & _) & _). apply at_eq, S, N.
  - intros w o U H. apply K. eapply co_of; [exact U|exact N|apply at_ok, H].
Qed.
Lemma i_get_engine : forall e k, ~ X (OEngine e) -> (forall l, indep (k l)) -> indep (ask (get_engine e) k).
Proof.
  intros e k N K. apply i_ask; [|intros w l _ _; apply K].
  intros w1 w2 ((_ & _ & _ & S) & _). apply at_eq, S, N.
Qed.

Lemma nth_upd_cases : forall A n (x : A) l i, nth_error (upd n x l) i = (if Nat.eqb i n then match nth_error l n with Some _ => Some x | None => None end else nth_error l i).
Proof.
  intros A n x l. revert n. induction l as [|y l IH]; intros [|n] [|i]; cbn; try reflexivity.
  - destruct (Nat.eqb i n); reflexivity.
  - apply IH.
Qed.
Lemma upd_same : forall A (l m : list A) n x (P : nat -> Prop), (forall i, P i -> nth_error l i = nth_error m i) -> P n ->
  forall i, P i -> nth_error (upd n x l) i = nth_error (upd n x m) i.
Proof. intros A l m n x P H N i Q. rewrite !nth_upd_cases. rewrite (H n N), (H i Q). reflexivity. Qed.
Lemma upd_away : forall A (l : list A) n x (P : nat -> Prop), ~ P n -> forall i, ~ ~ P i -> nth_error l i = nth_error (upd n x l) i.
Proof.
  intros A l n x P N i Q. rewrite nth_upd_cases. destruct (Nat.eqb i n) eqn:E; [|reflexivity]. apply Nat.eqb_eq in E. subst i. contradiction.
Qed.

Lemma i_put_station : forall s st, ~ X (OStation s) -> cbs_out (st_cbs st) -> indep (put_station s st).
Proof.
  intros s st N K w1 w2 ((S1 & S2 & S3 & S4) & U). cbn. split; [reflexivity|]. split; [split|].
  - split; [|split; [|split]]; cbn; try assumption. apply (upd_same _ _ _ s st (fun i => ~ X (OStation i)) S1 N).
  - intros x y R Y. destruct x; cbn in R; try contradiction.
    + destruct R as (st' & E & A). rewrite nth_upd_cases in E. destruct (Nat.eqb s0 s) eqn:Q.
      * destruct (nth_error (w_stations w1) s); [|discriminate]. injection E as <-. destruct (K _ A Y).
      * apply (U _ y); [|exact Y]. cbn. eauto.
    + apply (U _ y); [|exact Y]. exact R.
    + apply (U _ y); [|exact Y]. exact R.
  - split; [|split; [|constructor]]; (split; [|split; [|split]]; cbn; try reflexivity; apply (upd_away _ _ s st (fun i => X (OStation i)) N)).
Qed.
Lemma i_put_parser : forall p o, ~ X (OParser p) -> (forall sp, o = LibP sp -> sp_out sp) -> indep (put_parser p o).
Proof.
  intros p o N K w1 w2 ((S1 & S2 & S3 & S4) & U). cbn. split; [reflexivity|]. split; [split|].
  - split; [|split; [|split]]; cbn; try assumption. apply (upd_same _ _ _ p o (fun i => ~ X (OParser i)) S2 N).
  - intros x y R Y. destruct x; cbn in R; try contradiction.
    + apply (U _ y); [|exact Y]. exact R.
    + destruct R as (sp & c & E & -> & A). rewrite nth_upd_cases in E. destruct (Nat.eqb p0 p) eqn:Q.
      * destruct (nth_error (w_parsers w1) p); [|discriminate]. injection E as ->. destruct (K _ eq_refl _ A Y).
      * apply (U _ (OConsumer c)); [|exact Y]. cbn. eauto.
    + apply (U _ y); [|exact Y]. exact R.
  - split; [|split; [|constructor]]; (split; [|split; [|split]]; cbn; try reflexivity; apply (upd_away _ _ p o (fun i => X (OParser i)) N)).
Qed.
Lemma i_put_lib : forall p sp, ~ X (OParser p) -> sp_out sp -> indep (put_lib p sp).
Proof. intros p sp N K. apply i_put_parser; [exact N|]. intros sp' E. injection E as <-. exact K. Qed.
Lemma i_put_cons : forall c o, ~ X (OConsumer c) -> co_out o -> indep (put_cons c o).
Proof.
  intros c o N K w1 w2 ((S1 & S2 & S3 & S4) & U). cbn. split; [reflexivity|]. split; [split|].
  - split; [|split; [|split]]; cbn; try assumption. apply (upd_same _ _ _ c o (fun i => ~ X (OConsumer i)) S3 N).
  - intros x y R Y. destruct x; cbn in R; try contradiction.
    + apply (U _ y); [|exact Y]. exact R.
    + apply (U _ y); [|exact Y]. exact R.
    + destruct R as (o' & E & A). rewrite nth_upd_cases in E. destruct (Nat.eqb c0 c) eqn:Q.
      * destruct (nth_error (w_conss w1) c); [|discriminate]. injection E as <-. exfalso.
        destruct A as [(e & cb & -> & ->)|[(e & cb & -> & ->)|(co & i & n & off & cb & -> & ->)]]; cbn in K.
        -- exact (proj1 K e eq_refl Y).
        -- exact (proj2 K cb eq_refl Y).
        -- exact (K cb eq_refl Y).
      * apply (U _ y); [|exact Y]. cbn. eauto.
  - split; [|split; [|constructor]]; (split; [|split; [|split]]; cbn; try reflexivity; apply (upd_away _ _ c o (fun i => X (OConsumer i)) N)).
Qed.
Lemma i_put_engine : forall e l, ~ X (OEngine e) -> indep (put_engine e l).
Proof.
  intros e l N w1 w2 ((S1 & S2 & S3 & S4) & U). cbn. split; [reflexivity|]. split; [split|].
  - split; [|split; [|split]]; cbn; try assumption. apply (upd_same _ _ _ e l (fun i => ~ X (OEngine i)) S4 N).
  - intros x y R Y. apply (U _ y); [|exact Y]. destruct x; exact R.
  - split; [|split; [|constructor]]; (split; [|split; [|split]]; cbn; try reflexivity; apply (upd_away _ _ e l (fun i => X (OEngine i)) N)).
Qed.

(** ** Consumers *)
Lemma i_end : forall (cb : mu (option nat)) (e : nat -> event), (forall x, cb = Def (Some x) -> ~ X (OEndCb x)) -> (forall x, callee (e x) = [OEndCb x]) ->
  indep (ask (fun _ => mread cb) (fun cb => when_some cb (fun cb => emit (e cb)))).
Proof.
  intros cb e H E. apply i_pure. intros y Y. apply i_when. intros x ->. apply i_emit. rewrite E. constructor; [|constructor]. apply H. destruct cb; cbn in Y; congruence.
Qed.
Lemma i_consume : forall c s k v, ~ X (OConsumer c) -> indep (cons_consume lw c s k v).
Proof.
  intros c s k v N. unfold cons_consume. apply i_seq; [apply i_emit; constructor; [exact N|constructor]|]. apply i_get_cons; [exact N|]. intros [e cb|co i n off cb|] O.
  - unfold loco_consume. apply i_pure. intros cur C. destruct cur as [x|]; [|apply i_skip].
    assert (Nx : ~ X (OEngine x)) by (apply O; destruct e; cbn in C; congruence).
    apply i_get_engine; [exact Nx|]. intros l. apply i_pure. intros l' _. apply i_put_engine. exact Nx.
  - unfold list_consume. apply i_pure. intros [] _.
    + destruct (findFirstFreeEntry i); [|apply i_print]. apply i_pure. intros text _. apply i_seq; [apply i_print|]. apply i_pure. intros si _. apply i_put_cons; [exact N|exact O].
    + apply i_pure. intros [] _.
      * apply i_pure. intros [] _; [|apply i_skip]. apply i_pure. intros m _. apply i_put_cons; [exact N|exact O].
      * apply i_pure. intros text _. apply i_print.
  - apply i_skip.
Qed.
Lemma i_consume_all : forall c l, ~ X (OConsumer c) -> indep (cons_consume_all lw c l).
Proof. intros c l N. induction l as [|[[s k] v] l IH]; cbn [cons_consume_all]; [apply i_skip|]. apply i_seq; [apply i_consume; exact N|exact IH]. Qed.
Lemma i_complete : forall c, ~ X (OConsumer c) -> indep (cons_complete c).
Proof.
  intros c N. unfold cons_complete. apply i_seq; [apply i_emit; constructor; [exact N|constructor]|]. apply i_get_cons; [exact N|]. intros [e cb|co i n off cb|] O.
  - apply i_pure. intros cur C. destruct cur as [x|]; [|apply i_skip].
    assert (Nx : ~ X (OEngine x)) by (apply O; destruct e; cbn in C; congruence).
    apply i_get_engine; [exact Nx|]. intros l. apply i_seq; [apply i_put_engine; exact Nx|]. apply i_seq; [apply i_puts|]. apply i_seq; [apply i_print_res|]. apply i_seq; [apply i_print|].
    apply i_end; [apply O|reflexivity].
  - apply i_seq; [apply i_put_cons; [exact N|exact O]|]. apply i_end; [exact O|reflexivity].
  - apply i_skip.
Qed.
Lemma i_aborted : forall c, ~ X (OConsumer c) -> indep (cons_aborted c).
Proof.
  intros c N. unfold cons_aborted. apply i_seq; [apply i_emit; constructor; [exact N|constructor]|]. apply i_get_cons; [exact N|]. intros [e cb|co i n off cb|] O.
  - apply i_end; [apply O|reflexivity].
  - apply i_seq; [apply i_put_cons; [exact N|exact O]|]. apply i_end; [exact O|reflexivity].
  - apply i_skip.
Qed.

(** ** Parsers *)
Lemma i_lib_reset : forall p, ~ X (OParser p) -> indep (lib_reset p).
Proof.
  intros p N. unfold lib_reset. apply i_get_lib; [exact N|]. intros sp O. apply i_seq.
  - apply i_if; [|apply i_skip]. apply i_when. intros c C. apply i_aborted, O. left. exact C.
  - apply i_get_lib; [exact N|]. intros sp' _. apply i_pure. intros t T. apply i_put_lib; [exact N|]. intros c [C|C]; cbn in C; [discriminate|].
    exfalso. unfold tp_reset in T. repeat (match type of T with context [berase ?b] => destruct (berase b); cbn [bind] in T; [|discriminate] end). injection T as <-. discriminate.
Qed.
Lemma i_addMessage : forall p d, ~ X (OParser p) -> indep (lib_addMessage lw p d).
Proof.
  intros p d N. unfold lib_addMessage. apply i_get_lib; [exact N|]. intros sp O. destruct (sp_state sp); try apply i_print.
  - apply i_if.
    + cbv zeta. cbn [sp_remaining sp_text sp_crc sp_cons]. apply i_if; [apply i_put_lib; [exact N|exact O]|].
      apply i_seq; [apply i_put_lib; [exact N|exact O]|]. apply i_when. intros c C. apply i_complete, O. left. exact C.
    + apply i_if; (apply i_seq; [apply i_print|apply i_lib_reset; exact N]).
  - apply i_if; [apply i_seq; [apply i_print|apply i_lib_reset; exact N]|].
    cbv zeta. apply i_pure. intros crc _. apply i_pure. intros [t' e] T. cbn [fst snd].
    assert (K : forall st r x, sp_out (mkSP st r t' x (sp_cons sp))) by (intros st r x c C; apply O; cbn in C; rewrite (addText_cons _ _ _ _ T) in C; exact C).
    apply i_seq; [apply i_put_lib; [exact N|apply K]|].
    apply i_seq; [apply i_when; intros c C; apply i_consume_all, O; right; exact C|].
    apply i_if; [|apply i_skip]. apply i_pure. intros [] _; (apply i_seq; [apply i_put_lib; [exact N|apply K]|]); apply i_when; intros c C;
      [apply i_complete|apply i_aborted]; apply O; left; exact C.
Qed.
Lemma i_cfg_call : forall p c, ~ X (OParser p) -> indep (cfg_call lw p c).
Proof.
  intros p c N. unfold cfg_call. apply i_seq; [apply i_emit; constructor; [exact N|constructor]|]. apply i_get_parser; [exact N|]. intros [sp|beh h] O.
  - specialize (O sp eq_refl). destruct c as [|d|].
    + apply i_put_lib; [exact N|exact O].
    + apply i_addMessage; exact N.
    + apply i_lib_reset; exact N.
  - apply i_put_parser; [exact N|]. discriminate.
Qed.
Lemma processing_eq : forall p w1 w2, rel w1 w2 -> ~ X (OParser p) -> cfg_isProcessing p w1 = cfg_isProcessing p w2.
Proof. intros p w1 w2 ((_ & S & _) & _) N. unfold cfg_isProcessing, get_parser. rewrite (at_eq _ _ _ _ (S p N)). reflexivity. Qed.

(** ** Stations *)
Lemma i_tx : forall k f, cbs_out k -> indep (tx_send k f).
Proof.
  intros k f O. unfold tx_send. apply i_pure. intros x E. apply i_emit. constructor; [|constructor]. apply O. cbn. destruct (cb_tx k); cbn in E; congruence.
Qed.
Lemma set_cfg_out : forall st p, cbs_out (st_cbs st) -> (forall q, p = Some q -> ~ X (OParser q)) -> cbs_out (st_cbs (set_cfg st p)).
Proof. intros st p O P y A. destruct y; cbn in A; try contradiction; try (apply O; exact A). apply P. exact A. Qed.
Lemma i_finish : forall s, ~ X (OStation s) -> indep (st_finish lw s).
Proof.
  intros s N. unfold st_finish. apply i_get_station; [exact N|]. intros st O. apply i_when. intros p P. apply i_seq; [apply i_cfg_call, (O (OParser p)); exact P|].
  apply i_get_station; [exact N|]. intros st' O'. apply i_put_station; [exact N|]. apply set_cfg_out; [exact O'|discriminate].
Qed.
Lemma i_functions : forall st u n i, cbs_out (st_cbs st) -> indep (send_functions st u i n).
Proof. intros st u n. induction n; intros i O; cbn [send_functions]; [apply i_skip|]. apply i_seq; [apply i_tx; exact O|apply IHn; exact O]. Qed.
Lemma i_sendPacket : forall s f, ~ X (OStation s) -> indep (st_sendPacket s f).
Proof. intros s f N. unfold st_sendPacket. apply i_get_station; [exact N|]. intros st O. apply i_tx. exact O. Qed.
Lemma i_callback : forall (k : option nat) (e : nat -> event) y, (forall x, k = Some x -> ~ X (y x)) -> (forall x, callee (e x) = [y x]) -> indep (when_some k (fun o => emit (e o))).
Proof. intros k e y H E. apply i_when. intros x ->. apply i_emit. rewrite E. constructor; [apply H; reflexivity|constructor]. Qed.
Lemma i_must : forall (k : option nat) (e : nat -> event) y, (forall x, k = Some x -> ~ X (y x)) -> (forall x, callee (e x) = [y x]) -> indep (ask (fun _ => deref k) (fun o => emit (e o))).
Proof. intros k e y H E. apply i_pure. intros x D. apply i_emit. rewrite E. constructor; [|constructor]. apply H. destruct k; cbn in D; congruence. Qed.
Ltac told K T := first [apply i_callback with (y := T)|apply i_must with (y := T)]; [intros x Hx; apply (K (T x)); exact Hx|reflexivity].
Lemma i_stream : forall s d, ~ X (OStation s) -> indep (st_handleConfigDataStream lw s d).
Proof.
  intros s d N. unfold st_handleConfigDataStream. apply i_get_station; [exact N|]. intros st O. apply i_ask.
  - intros w1 w2 R. destruct (cb_cfg (st_cbs st)) as [p|] eqn:P; [|reflexivity]. rewrite (processing_eq p w1 w2 R); [reflexivity|]. apply (O (OParser p)). exact P.
  - intros w x _ E. destruct x as [p|]; [|apply i_seq; [apply i_puts|apply i_print_res]]. apply i_cfg_call.
    destruct (cb_cfg (st_cbs st)) as [q|] eqn:P; [|discriminate]. destruct (cfg_isProcessing q w) as [[]|]; cbn in E; try discriminate. injection E as <-. apply (O (OParser q)). exact P.
Qed.
Lemma i_system : forall s i d, ~ X (OStation s) -> indep (st_handleSystemCommand s i d).
Proof.
  intros s i d N. unfold st_handleSystemCommand. apply i_get_station; [exact N|]. intros st O. cbv zeta. apply i_seq; [apply i_puts|]. apply i_if; [|apply i_print].
  apply i_seq; [apply i_puts|].
  repeat (apply i_if; [try apply i_print|]); try apply i_print.
  - apply i_seq; [apply i_print|]. told O OSystem.
  - apply i_seq; [apply i_print|]. told O OEngineCb.
  - apply i_seq; [apply i_print|]. told O OSystem.
  - told O OEngineCb.
Qed.
Lemma i_accessory : forall s d r, ~ X (OStation s) -> indep (st_handleAccessoryPacket s d r).
Proof. intros s d r N. unfold st_handleAccessoryPacket. apply i_get_station; [exact N|]. intros st O. apply i_seq; [apply i_print|]. told O OAccessory. Qed.
Lemma i_direction : forall s d, ~ X (OStation s) -> indep (st_handleLocoDirection s d).
Proof.
  intros s d N. unfold st_handleLocoDirection. apply i_get_station; [exact N|]. intros st O. cbv zeta. apply i_if; [|apply i_skip]. apply i_if; [told O OEngineCb|].
  apply i_if; [told O OEngineCb|apply i_skip].
Qed.
Lemma i_speed : forall s d, ~ X (OStation s) -> indep (st_handleLocoSpeed s d).
Proof. intros s d N. unfold st_handleLocoSpeed. apply i_get_station; [exact N|]. intros st O. cbv zeta. apply i_if; [told O OEngineCb|apply i_skip]. Qed.
Lemma i_function : forall s d, ~ X (OStation s) -> indep (st_handleLocoFunction s d).
Proof. intros s d N. unfold st_handleLocoFunction. apply i_get_station; [exact N|]. intros st O. apply i_if; [told O OEngineCb|apply i_skip]. Qed.
Lemma i_packet : forall s f, ~ X (OStation s) -> indep (st_handlePacket lw s f).
Proof.
  intros s f N. unfold st_handlePacket. cbv zeta. apply i_if; [apply i_system; exact N|]. apply i_if; [apply i_skip|].
  apply i_if; [apply i_seq; [apply i_puts|apply i_seq; [apply i_accessory; exact N|apply i_print]]|].
  apply i_if; [apply i_direction; exact N|]. apply i_if; [apply i_speed; exact N|]. apply i_if; [apply i_function; exact N|]. apply i_if; [apply i_skip|].
  apply i_if; [apply i_stream; exact N|]. apply i_if.
  - apply i_seq; [apply i_puts|]. apply i_seq; [apply i_print_res|apply i_print].
  - apply i_seq; [apply i_print|]. apply i_seq; [apply i_print_res|apply i_print].
Qed.
Lemma i_list : forall s off p, ~ X (OStation s) -> (forall q, p = Some q -> ~ X (OParser q)) -> indep (st_requestEngineList lw s off p).
Proof.
  intros s off p N P. unfold st_requestEngineList. apply i_seq; [apply i_finish; exact N|]. apply i_get_station; [exact N|]. intros st O.
  apply i_seq; [apply i_put_station; [exact N|apply set_cfg_out; assumption]|]. apply i_pure. intros b _. destruct (snprintf9 (list_request_text off)) as [b2 n].
  apply i_if; [|apply i_skip]. apply i_seq; [apply i_when; intros q Q; apply i_cfg_call, P, Q|]. apply i_seq; apply i_tx; exact O.
Qed.
Lemma short_eq : forall r w1 w2, rel w1 w2 -> (forall x, names_ref r x -> ~ X x) -> get_short r w1 = get_short r w2.
Proof.
  intros [e|c k|x] w1 w2 ((_ & _ & S3 & S4) & _) N; cbn [get_short]; [|..|reflexivity]; unfold get_engine, get_cons.
  - rewrite (at_eq _ _ _ _ (S4 e (N _ eq_refl))). reflexivity.
  - rewrite (at_eq _ _ _ _ (S3 c (N _ eq_refl))). reflexivity.
Qed.
Lemma i_request : forall s r p, ~ X (OStation s) -> (forall x, names_ref r x -> ~ X x) -> (forall q, p = Some q -> ~ X (OParser q)) -> indep (st_requestEngine lw s r p).
Proof.
  intros s r p N R P. unfold st_requestEngine. apply i_ask; [intros w1 w2 W; apply short_eq; assumption|]. intros _ si _ _. apply i_if; [apply i_skip|].
  apply i_get_station; [exact N|]. intros st O. apply i_ask.
  - intros w1 w2 W. destruct (cb_cfg (st_cbs st)) as [q|] eqn:Q; [|reflexivity]. apply processing_eq; [exact W|]. apply (O (OParser q)). exact Q.
  - intros _ busy _ _. apply i_if; [apply i_skip|]. apply i_seq; [apply i_finish; exact N|]. apply i_get_station; [exact N|]. intros st' O'.
    apply i_seq; [apply i_put_station; [exact N|apply set_cfg_out; assumption]|]. apply i_seq; [apply i_when; intros q Q; apply i_cfg_call, P, Q|].
    apply i_pure. intros b1 _. apply i_seq; [apply i_tx; exact O'|]. apply i_ask; [intros w1 w2 W; apply short_eq; assumption|]. intros _ si' _ _.
    apply i_pure. intros n _. apply i_pure. intros b2 _. apply i_seq; [apply i_tx; exact O'|]. apply i_pure. intros b3 _. apply i_tx. exact O'.
Qed.
Lemma i_begin : forall s u k, ~ X (OStation s) -> cbs_out k -> indep (st_begin lw s u k).
Proof.
  intros s u k N K. unfold st_begin. apply i_seq; [apply i_finish; exact N|]. apply i_get_station; [exact N|]. intros st O. apply i_seq; apply i_put_station; assumption.
Qed.
Lemma i_step : forall o, (forall x, names o x -> ~ X x) -> indep (step lw o).
Proof.
  intros o N. destruct o as [s o|p|p c|p d|p|c cb|c e|c off|c|c|c|e o]; cbn [step].
  - assert (S : ~ X (OStation s)) by (apply N; left; reflexivity). assert (M : forall x, names_sop o x -> ~ X x) by (intros x H; apply N; right; exact H).
    destruct o; cbn [st_step]; try apply i_skip; try (apply i_finish; exact S); try (apply i_sendPacket; exact S);
      try (unfold st_requestEngineDirection, st_requestEngineVelocity, st_requestEngineFunction, st_sendEmergencyStop, st_sendSystemStop, st_sendSystemGo, st_sendAccessoryPacket;
           apply i_get_station; [exact S|intros st O; apply i_tx; exact O]).
    + apply i_begin; [exact S|]. intros y A. apply M. exact A.
    + apply i_packet; exact S.
    + apply i_accessory; exact S.
    + apply i_stream; exact S.
    + apply i_system; exact S.
    + apply i_direction; exact S.
    + apply i_speed; exact S.
    + apply i_function; exact S.
    + apply i_request; [exact S|intros x H; apply M; left; exact H|intros q Q; apply M; right; eauto].
    + apply i_list; [exact S|intros q Q; apply M; cbn; eauto].
    + unfold st_sendEngineDirection. apply i_if; [apply i_sendPacket; exact S|apply i_skip].
    + unfold st_requestEngineAllFunctions. apply i_get_station; [exact S|]. intros st O. apply i_functions. exact O.
  - assert (P := N _ eq_refl). apply i_get_lib; [exact P|]. intros sp O. apply i_put_lib; [exact P|exact O].
  - assert (P : ~ X (OParser p)) by (apply N; left; reflexivity). apply i_get_lib; [exact P|]. intros sp O. apply i_put_lib; [exact P|].
    intros q Q. apply N. right. exists q. split; [|reflexivity]. cbn in Q. destruct Q; assumption.
  - apply i_addMessage, N. reflexivity.
  - apply i_lib_reset, N. reflexivity.
  - assert (P : ~ X (OConsumer c)) by (apply N; left; reflexivity). apply i_get_cons; [exact P|].
    assert (Q : forall x, Def cb = Def (Some x) -> ~ X (OEndCb x)) by (intros x E; injection E as ->; apply N; right; eauto).
    intros [e k|co i n off k|] O; [apply i_put_cons; [exact P|split; [apply O|exact Q]]|apply i_put_cons; [exact P|exact Q]|apply i_skip].
  - assert (P : ~ X (OConsumer c)) by (apply N; left; reflexivity). apply i_get_cons; [exact P|].
    assert (Q : forall x, Def e = Def (Some x) -> ~ X (OEngine x)) by (intros x E; injection E as ->; apply N; right; eauto).
    intros [e' k|co i n off k|] O; [apply i_put_cons; [exact P|split; [exact Q|apply O]]|apply i_fail|apply i_fail].
  - assert (P := N _ eq_refl). apply i_get_cons; [exact P|]. intros [e' k|co i n off' k|] O; [apply i_fail|apply i_put_cons; [exact P|exact O]|apply i_fail].
  - assert (P := N _ eq_refl). apply i_get_cons; [exact P|]. intros [e' k|co i n off' k|] O; [apply i_fail|apply i_put_cons; [exact P|exact O]|apply i_fail].
  - assert (P := N _ eq_refl). apply i_get_cons; [exact P|]. intros [e' k|co i n off' k|] O; [apply i_fail|apply i_put_cons; [exact P|exact O]|apply i_fail].
  - assert (P := N _ eq_refl). apply i_get_cons; [exact P|]. intros [e' k|co i n off' k|] O; [apply i_fail| |apply i_fail]. apply i_pure. intros m _. apply i_seq; [apply i_print|apply i_print_res].
  - assert (P := N _ eq_refl). apply i_get_engine; [exact P|]. intros l. apply i_pure. intros l' _. apply i_put_engine. exact P.
Qed.
Lemma i_run : forall ops, (forall o x, In o ops -> names o x -> ~ X x) -> indep (run lw ops).
Proof.
  induction ops as [|o ops IH]; intros N; cbn [run]; [apply i_skip|]. apply i_seq; [apply i_step; intros x; apply N; left; reflexivity|].
  apply IH. intros o' x I. apply N. right. exact I.
Qed.
End Indep.

(** ** The pointers after a call *)
Definition view (w : world) := (map st_cbs (w_stations w), map consumer_of (w_parsers w), map wires (w_conss w)).
Lemma upd_id : forall A (l : list A) n x, nth_error l n = Some x -> upd n x l = l.
Proof. intros A l. induction l as [|y l IH]; intros [|n] x H; cbn in *; try discriminate; [congruence|]. rewrite IH by exact H. reflexivity. Qed.
Lemma map_upd : forall A B (f : A -> B) l n x, map f (upd n x l) = upd n (f x) (map f l).
Proof. intros A B f l. induction l as [|y l IH]; intros [|n] x; cbn; try reflexivity. rewrite IH. reflexivity. Qed.
Lemma map_nth : forall A B (f : A -> B) l n x, nth_error l n = Some x -> nth_error (map f l) n = Some (f x).
Proof. intros A B f l n x H. apply map_nth_error. exact H. Qed.
Lemma upd_keep : forall A B (f : A -> B) l n x y, nth_error l n = Some y -> f x = f y -> map f (upd n x l) = map f l.
Proof. intros A B f l n x y H E. rewrite map_upd, E. apply upd_id, map_nth, H. Qed.
Lemma upd_none : forall A (l : list A) n x, nth_error l n = None -> upd n x l = l.
Proof. intros A l. induction l as [|y l IH]; intros [|n] x H; cbn in *; try discriminate; try reflexivity. rewrite IH by exact H. reflexivity. Qed.

Section Pointers.
Variable lw : Z.
Definition keeps (a : act) : Prop := forall w w' t, a w = Ok (w', t) -> view w' = view w.
Lemma k_emit : forall e, keeps (emit e). Proof. intros e w w' t H. injection H as <- _. reflexivity. Qed.
Lemma k_print : forall e, keeps (print e). Proof. intros e. apply k_emit. Qed.
Lemma k_puts : forall e, keeps (puts e). Proof. intros e. apply k_emit. Qed.
Lemma k_skip : keeps skip. Proof. intros w w' t H. injection H as <- _. reflexivity. Qed.
Lemma k_fail : forall u, keeps (fail u). Proof. intros u w w' t H. discriminate. Qed.
Lemma k_seq : forall a b, keeps a -> keeps b -> keeps (World.seq a b).
Proof. intros a b A B w w' t H. apply seq_inv in H. destruct H as (w1 & t1 & t2 & H1 & H2 & _). rewrite (B _ _ _ H2). apply (A _ _ _ H1). Qed.
Lemma k_ask : forall A (f : world -> res A) k, (forall x, keeps (k x)) -> keeps (ask f k).
Proof. intros A f k K w w' t H. apply ask_inv in H. destruct H as (x & _ & H). exact (K x _ _ _ H). Qed.
Lemma k_when : forall A (p : option A) k, (forall x, keeps (k x)) -> keeps (when_some p k).
Proof. intros A [x|] k K; [apply K|apply k_skip]. Qed.
Lemma k_if : forall (b : bool) x y, keeps x -> keeps y -> keeps (if b then x else y). Proof. intros []; auto. Qed.
Lemma k_print_res : forall r, keeps (print_res r). Proof. intros r. apply k_ask. intros x. apply k_print. Qed.
Lemma k_put_engine : forall e l, keeps (put_engine e l). Proof. intros e l w w' t H. injection H as <- _. reflexivity. Qed.
(** writes of a consumer that leave its pointers *)
Lemma put_keep : forall c o x w w' t, nth_error (w_conss w) c = Some o -> wires x = wires o -> put_cons c x w = Ok (w', t) -> view w' = view w.
Proof. intros c o x w w' t E W H. injection H as <- _. unfold view. cbn. rewrite (upd_keep _ _ _ _ _ _ _ E W). reflexivity. Qed.
Lemma get_cons_some : forall c w o, get_cons c w = Ok o -> nth_error (w_conss w) c = Some o.
Proof. intros c w o H. unfold get_cons, at_ in H. destruct (nth_error (w_conss w) c); congruence. Qed.
Lemma get_lib_some : forall p w sp, get_lib p w = Ok sp -> nth_error (w_parsers w) p = Some (LibP sp).
Proof. intros p w sp H. unfold get_lib, get_parser, at_ in H. destruct (nth_error (w_parsers w) p) as [[x|]|]; cbn in H; congruence. Qed.
Lemma k_consume : forall c s k v, keeps (cons_consume lw c s k v).
Proof.
  intros c s k v. unfold cons_consume. apply k_seq; [apply k_emit|]. intros w w' t H. apply ask_inv in H. destruct H as (o & E & H). apply get_cons_some in E.
  destruct o as [e cb|co i n off cb|].
  - revert H. apply k_ask. intros [x|]; [|apply k_skip]. apply k_ask. intros l. apply k_ask. intros l'. apply k_put_engine.
  - unfold list_consume in H. apply ask_inv in H. destruct H as ([] & _ & H).
    + destruct (findFirstFreeEntry i); [|revert H; apply k_print]. apply ask_inv in H. destruct H as (text & _ & H). apply seq_inv in H. destruct H as (w1 & t1 & t2 & H1 & H2 & _).
      injection H1 as <- _. apply ask_inv in H2. destruct H2 as (si & _ & H2). revert H2. apply (put_keep _ _ _ _ _ _ E). reflexivity.
    + apply ask_inv in H. destruct H as ([] & _ & H).
      * apply ask_inv in H. destruct H as ([] & _ & H); [|revert H; apply k_skip]. apply ask_inv in H. destruct H as (m & _ & H). revert H. apply (put_keep _ _ _ _ _ _ E). reflexivity.
      * revert H. apply k_ask. intros text. apply k_print.
  - revert H. apply k_skip.
Qed.
Lemma k_consume_all : forall c l, keeps (cons_consume_all lw c l).
Proof. intros c l. induction l as [|[[s k] v] l IH]; [apply k_skip|]. apply k_seq; [apply k_consume|exact IH]. Qed.
Lemma k_end : forall (cb : mu (option nat)) (e : nat -> event), keeps (ask (fun _ => mread cb) (fun cb => when_some cb (fun cb => emit (e cb)))).
Proof. intros cb e. apply k_ask. intros x. apply k_when. intros y. apply k_emit. Qed.
Lemma k_complete : forall c, keeps (cons_complete c).
Proof.
  intros c. unfold cons_complete. apply k_seq; [apply k_emit|]. intros w w' t H. apply ask_inv in H. destruct H as (o & E & H). apply get_cons_some in E.
  destruct o as [e cb|co i n off cb|].
  - revert H. apply k_ask. intros [x|]; [|apply k_skip]. apply k_ask. intros l. apply k_seq; [apply k_put_engine|]. apply k_seq; [apply k_puts|]. apply k_seq; [apply k_print_res|].
    apply k_seq; [apply k_print|apply k_end].
  - apply seq_inv in H. destruct H as (w1 & t1 & t2 & H1 & H2 & _). apply k_end in H2. rewrite H2. revert H1. apply (put_keep _ _ _ _ _ _ E). reflexivity.
  - revert H. apply k_skip.
Qed.
Lemma k_aborted : forall c, keeps (cons_aborted c).
Proof.
  intros c. unfold cons_aborted. apply k_seq; [apply k_emit|]. intros w w' t H. apply ask_inv in H. destruct H as (o & E & H). apply get_cons_some in E.
  destruct o as [e cb|co i n off cb|].
  - revert H. apply k_end.
  - apply seq_inv in H. destruct H as (w1 & t1 & t2 & H1 & H2 & _). apply k_end in H2. rewrite H2. revert H1. apply (put_keep _ _ _ _ _ _ E). reflexivity.
  - revert H. apply k_skip.
Qed.
(** a write of a parser *)
Lemma put_lib_view : forall p sp w w' t, put_lib p sp w = Ok (w', t) -> view w' = (fst (fst (view w)), upd p (sp_cons sp, tp_cons (sp_text sp)) (snd (fst (view w))), snd (view w)).
Proof. intros p sp w w' t H. injection H as <- _. unfold view. cbn. rewrite map_upd. reflexivity. Qed.
Lemma put_lib_keep : forall p sp sp0 w w' t, snd (fst (view w)) = snd (fst (view w)) -> nth_error (map consumer_of (w_parsers w)) p = Some (consumer_of (LibP sp0)) ->
  consumer_of (LibP sp) = consumer_of (LibP sp0) -> put_lib p sp w = Ok (w', t) -> view w' = view w.
Proof. intros p sp sp0 w w' t _ E C H. apply put_lib_view in H. rewrite H. change (sp_cons sp, tp_cons (sp_text sp)) with (consumer_of (LibP sp)). rewrite C. unfold view. cbn [fst snd]. rewrite upd_id by exact E. reflexivity. Qed.
Definition dropped (p : nat) (w w' : world) : Prop := view w' = (fst (fst (view w)), upd p (None, None) (snd (fst (view w))), snd (view w)).
Lemma reset_view : forall p w w' t, lib_reset p w = Ok (w', t) -> dropped p w w'.
Proof.
  intros p w w' t H. unfold lib_reset in H. apply ask_inv in H. destruct H as (sp & E & H). apply seq_inv in H. destruct H as (w1 & t1 & t2 & H1 & H2 & _).
  assert (V : view w1 = view w). { revert H1. apply k_if; [|apply k_skip]. apply k_when. intros c. apply k_aborted. }
  apply ask_inv in H2. destruct H2 as (sp1 & E1 & H2). apply ask_inv in H2. destruct H2 as (tp & T & H2). apply put_lib_view in H2. unfold dropped. rewrite H2, V. cbn [sp_cons sp_text].
  assert (C : tp_cons tp = None). { unfold tp_reset in T. repeat (match type of T with context [berase ?b] => destruct (berase b); cbn [bind] in T; [|discriminate] end). injection T as <-. reflexivity. }
  rewrite C. reflexivity.
Qed.
Lemma add_view : forall p d w w' t, lib_addMessage lw p d w = Ok (w', t) -> if misfit w p d then dropped p w w' else view w' = view w.
Proof.
  intros p d w w' t H. unfold lib_addMessage in H. apply ask_inv in H. destruct H as (sp & E & H). apply get_lib_some in E. assert (EC := map_nth _ _ consumer_of _ _ _ E).
  unfold misfit. rewrite E. destruct (sp_state sp) eqn:S.
  - revert H. apply k_print.
  - destruct ((dlc d =? 6) || (dlc d =? 7)) eqn:D; cbn [negb].
    + cbv zeta in H. cbn [sp_remaining sp_text sp_crc sp_cons] in H. destruct (header_length d >? 0).
      * revert H. apply (put_lib_keep p _ sp); [reflexivity|exact EC|reflexivity].
      * apply seq_inv in H. destruct H as (w1 & t1 & t2 & H1 & H2 & _). assert (V2 : view w' = view w1) by (revert H2; apply k_when; apply k_complete). rewrite V2.
        revert H1. apply (put_lib_keep p _ sp); [reflexivity|exact EC|reflexivity].
    + assert (R : exists x w1, view w1 = view w /\ lib_reset p w1 = Ok (w', x)).
      { destruct (dlc d >=? 8); apply seq_inv in H; destruct H as (w1 & t1 & t2 & H1 & H2 & _); injection H1 as <- _; eauto. }
      destruct R as (x & w1 & V & R). apply reset_view in R. unfold dropped in *. rewrite R, V. reflexivity.
  - destruct (dlc d =? 8) eqn:D; cbn [negb] in *.
    + cbv zeta in H. apply ask_inv in H. destruct H as (crc & _ & H). apply ask_inv in H. destruct H as ([t' e] & T & H). cbn [fst snd] in H. apply addText_cons in T.
      apply seq_inv in H. destruct H as (w1 & t1 & t2 & H1 & H2 & _).
      assert (V1 : view w1 = view w) by (revert H1; apply (put_lib_keep p _ sp); [reflexivity|exact EC|cbn; rewrite T; reflexivity]).
      apply seq_inv in H2. destruct H2 as (w2 & t3 & t4 & H2 & H3 & _). assert (V2 : view w2 = view w1) by (revert H2; apply k_when; intros c; apply k_consume_all).
      destruct (u32 (sp_remaining sp - dlc d) =? 0); [|injection H3 as <- _; congruence]. apply ask_inv in H3. destruct H3 as (b & _ & H3).
      assert (EC2 : nth_error (map consumer_of (w_parsers w2)) p = Some (consumer_of (LibP sp))). { assert (Q : view w2 = view w) by congruence. unfold view in Q. injection Q as _ Q _. rewrite Q. exact EC. }
      destruct b; apply seq_inv in H3; destruct H3 as (w3 & t5 & t6 & H3 & H4 & _).
      * assert (V3 : view w3 = view w2) by (revert H3; apply (put_lib_keep p _ sp); [reflexivity|exact EC2|cbn; rewrite T; reflexivity]).
        assert (V4 : view w' = view w3) by (revert H4; apply k_when; apply k_complete). congruence.
      * assert (V3 : view w3 = view w2) by (revert H3; apply (put_lib_keep p _ sp); [reflexivity|exact EC2|cbn; rewrite T; reflexivity]).
        assert (V4 : view w' = view w3) by (revert H4; apply k_when; apply k_aborted). congruence.
    + apply seq_inv in H. destruct H as (w1 & t1 & t2 & H1 & H2 & _). injection H1 as <- _. apply reset_view in H2. exact H2.
  - revert H. apply k_print.
Qed.
Lemma call_view : forall p c w w' t, cfg_call lw p c w = Ok (w', t) ->
  if match c with CStart => false | CAdd d => misfit w p d | CReset => true end then dropped p w w' else view w' = view w.
Proof.
  intros p c w w' t H. unfold cfg_call in H. apply seq_inv in H. destruct H as (w1 & t1 & t2 & H1 & H & _). injection H1 as <- _. apply ask_inv in H. destruct H as (o & E & H).
  unfold get_parser, at_ in E. destruct (nth_error (w_parsers w) p) as [x|] eqn:Q; [|discriminate]. injection E as ->. assert (EC := map_nth _ _ consumer_of _ _ _ Q).
  destruct o as [sp|beh h].
  - destruct c as [|d|].
    + revert H. apply (put_lib_keep p _ sp); [reflexivity|exact EC|reflexivity].
    + exact (add_view _ _ _ _ _ H).
    + apply reset_view in H. exact H.
  - assert (V : view w' = view w). { injection H as <- _. unfold view. cbn. rewrite (upd_keep _ _ _ _ _ _ _ Q) by reflexivity. reflexivity. }
    assert (D : dropped p w w'). { unfold dropped. rewrite V. unfold view. cbn [fst snd]. rewrite upd_id by exact EC. reflexivity. }
    destruct c; [exact V| |exact D]. destruct (misfit w p d); assumption.
Qed.
Lemma finish_view : forall s w w' t, st_finish lw s w = Ok (w', t) ->
  view w' = (point s None (map st_cbs (w_stations w)), match config_object w s with Some p => upd p (None, None) (map consumer_of (w_parsers w)) | None => map consumer_of (w_parsers w) end, map wires (w_conss w)).
Proof.
  intros s w w' t H. unfold st_finish in H. apply ask_inv in H. destruct H as (st & E & H). unfold get_station, at_ in E. destruct (nth_error (w_stations w) s) as [x|] eqn:Q; [|discriminate]. injection E as ->.
  unfold config_object. rewrite Q. unfold point. rewrite (map_nth _ _ st_cbs _ _ _ Q). destruct (cb_cfg (st_cbs st)) as [p|] eqn:P; cbn [when_some] in H.
  - apply seq_inv in H. destruct H as (w1 & t1 & t2 & H1 & H2 & _). apply call_view in H1. cbv beta iota in H1. unfold dropped in H1.
    apply ask_inv in H2. destruct H2 as (st1 & E1 & H2). unfold get_station, at_ in E1. destruct (nth_error (w_stations w1) s) as [x|] eqn:Q1; [|discriminate]. injection E1 as ->.
    assert (C : st_cbs st1 = st_cbs st). { apply (map_nth _ _ st_cbs) in Q, Q1. unfold view in H1. injection H1 as H1 _ _. cbn [fst] in H1. rewrite H1, Q in Q1. congruence. }
    unfold view in H1. cbn [fst snd] in H1. injection H1 as A1 A2 A3. injection H2 as <- _. unfold view. cbn. rewrite map_upd, A1, A2, A3. cbn. rewrite C. reflexivity.
  - injection H as <- _. unfold view. rewrite upd_id; [reflexivity|]. rewrite (map_nth _ _ st_cbs _ _ _ Q). unfold with_config. destruct (st_cbs st). cbn in *. subst. reflexivity.
Qed.
Lemma point_twice : forall s p q l, point s p (point s q l) = point s p l.
Proof.
  intros s p q l. unfold point. destruct (nth_error l s) as [k|] eqn:E; [|rewrite E; reflexivity].
  rewrite (nth_upd_cases _ s (with_config k q) l s), Nat.eqb_refl, E. cbn. revert s E. induction l as [|y l IH]; intros [|s] E; cbn in *; try discriminate; [reflexivity|]. rewrite IH by exact E. reflexivity.
Qed.
Lemma put_station_view : forall s st p w w' t, nth_error (w_stations w) s = Some st -> put_station s (set_cfg st p) w = Ok (w', t) ->
  view w' = (point s p (map st_cbs (w_stations w)), map consumer_of (w_parsers w), map wires (w_conss w)).
Proof. intros s st p w w' t Q H. injection H as <- _. unfold view, point. cbn. rewrite map_upd, (map_nth _ _ st_cbs _ _ _ Q). reflexivity. Qed.
Lemma k_tx : forall k f, keeps (tx_send k f). Proof. intros k f. apply k_ask. intros x. apply k_emit. Qed.
Lemma k_start : forall p, keeps (cfg_call lw p CStart).
Proof. intros p w w' t H. apply call_view in H. exact H. Qed.
(** the common part of both requests *)
Lemma retarget_view : forall s q k w w' t, (forall st, keeps (k st)) ->
  World.seq (st_abort lw s) (ask (get_station s) (fun st => World.seq (put_station s (set_cfg st q)) (k st))) w = Ok (w', t) ->
  view w' = (point s q (map st_cbs (w_stations w)), match config_object w s with Some p => upd p (None, None) (map consumer_of (w_parsers w)) | None => map consumer_of (w_parsers w) end, map wires (w_conss w)).
Proof.
  intros s q k w w' t K H. apply seq_inv in H. destruct H as (w1 & t1 & t2 & H1 & H & _). apply finish_view in H1. apply ask_inv in H. destruct H as (st & E & H).
  unfold get_station, at_ in E. destruct (nth_error (w_stations w1) s) as [x|] eqn:Q; [|discriminate]. injection E as ->.
  apply seq_inv in H. destruct H as (w2 & t3 & t4 & H2 & H3 & _). apply (put_station_view s st q w1 w2 t3 Q) in H2. apply K in H3. rewrite H3, H2.
  unfold view in H1. injection H1 as -> -> ->. rewrite point_twice. reflexivity.
Qed.
Lemma processing_some : forall p w b, cfg_isProcessing p w = Ok b -> exists o, nth_error (w_parsers w) p = Some o /\ b = ss_processing (pobj_state o).
Proof. intros p w b H. unfold cfg_isProcessing, get_parser, at_ in H. destruct (nth_error (w_parsers w) p) as [o|]; cbn in H; [|discriminate]. exists o. split; [reflexivity|congruence]. Qed.
Lemma stream_view : forall s d w w' t, st_handleConfigDataStream lw s d w = Ok (w', t) ->
  match config_object w s with Some p => if misfit w p d then dropped p w w' else view w' = view w | None => view w' = view w end.
Proof.
  intros s d w w' t H. unfold st_handleConfigDataStream in H. apply ask_inv in H. destruct H as (st & E & H). unfold get_station, at_ in E.
  destruct (nth_error (w_stations w) s) as [x|] eqn:Q; [|discriminate]. injection E as ->. unfold config_object. rewrite Q. apply ask_inv in H. destruct H as (tg & E & H).
  destruct (cb_cfg (st_cbs st)) as [p|] eqn:P.
  - destruct (cfg_isProcessing p w) as [b|] eqn:B; cbn [bind] in E; [|discriminate]. injection E as <-. apply processing_some in B. destruct B as (o & O & ->).
    destruct (ss_processing (pobj_state o)) eqn:PR.
    + apply call_view in H. exact H.
    + assert (V : view w' = view w) by (revert H; apply k_seq; [apply k_puts|apply k_print_res]). unfold misfit. rewrite O.
      destruct o as [sp|]; [|exact V]. cbn in PR. destruct (sp_state sp); try exact V; discriminate.
  - injection E as <-. revert H. apply k_seq; [apply k_puts|apply k_print_res].
Qed.
Lemma k_get : forall s (k : Station -> act), (forall st, keeps (k st)) -> keeps (ask (get_station s) k).
Proof. intros s k K. apply k_ask. exact K. Qed.
Lemma k_system : forall s i d, keeps (st_handleSystemCommand s i d).
Proof.
  intros s i d. unfold st_handleSystemCommand. apply k_get. intros st. cbv zeta. apply k_seq; [apply k_puts|]. apply k_if; [|apply k_print]. apply k_seq; [apply k_puts|].
  repeat (apply k_if; [first [apply k_print|apply k_seq; [apply k_print|]|idtac]; try (apply k_when; intros; apply k_emit)|]). apply k_print.
Qed.
Lemma k_accessory : forall s d r, keeps (st_handleAccessoryPacket s d r).
Proof. intros s d r. apply k_get. intros st. apply k_seq; [apply k_print|]. apply k_when. intros. apply k_emit. Qed.
Lemma k_direction : forall s d, keeps (st_handleLocoDirection s d).
Proof. intros s d. apply k_get. intros st. cbv zeta. apply k_if; [|apply k_skip]. apply k_if; [apply k_ask; intros; apply k_emit|]. apply k_if; [apply k_ask; intros; apply k_emit|apply k_skip]. Qed.
Lemma k_speed : forall s d, keeps (st_handleLocoSpeed s d).
Proof. intros s d. apply k_get. intros st. cbv zeta. apply k_if; [|apply k_skip]. apply k_when; intros; apply k_emit. Qed.
Lemma k_function : forall s d, keeps (st_handleLocoFunction s d).
Proof. intros s d. apply k_get. intros st. apply k_if; [|apply k_skip]. apply k_ask; intros; apply k_emit. Qed.
Lemma k_send : forall s f, keeps (st_sendPacket s f).
Proof. intros s f. apply k_get. intros st. apply k_tx. Qed.
Lemma k_functions : forall st u n i, keeps (send_functions st u i n).
Proof. intros st u n. induction n; intros i; [apply k_skip|]. apply k_seq; [apply k_tx|apply IHn]. Qed.
Lemma step_view : forall o w w' t, step lw o w = Ok (w', t) -> view w' = (stations_after w o, consumers_after w o, wires_after w o).
Proof.
  intros o w w' t H.
  assert (KK : forall a, keeps a -> a w = Ok (w', t) -> view w' = (map st_cbs (w_stations w), map consumer_of (w_parsers w), map wires (w_conss w))) by (intros a K E; exact (K _ _ _ E)).
  destruct o as [s o|p|p c|p d|p|c cb|c e|c off|c|c|c|e o]; cbn [step] in H; unfold stations_after, consumers_after, wires_after; cbv zeta.
  - assert (SK : drops w s (match config_object w s with Some p => p | None => 0%nat end) o = false -> keeps (st_step lw s o) -> view w' =
      (map st_cbs (w_stations w), match config_object w s with Some p => if drops w s p o then upd p (None, None) (map consumer_of (w_parsers w)) else map consumer_of (w_parsers w) | None => map consumer_of (w_parsers w) end, map wires (w_conss w))).
    { intros D K. rewrite (KK _ K H). destruct (config_object w s) as [p|]; [rewrite D|]; reflexivity. }
    destruct o; cbn [st_step] in H.
    all: try (apply SK; [reflexivity|cbn [st_step]; first
         [apply k_skip|apply k_accessory|apply k_system|apply k_direction|apply k_speed|apply k_function|apply k_send
         |unfold st_sendEngineDirection; apply k_if; [apply k_send|apply k_skip]|apply k_get; intros; apply k_tx|apply k_get; intros; apply k_functions]]).
    + (* Begin *) unfold st_begin, st_abort in H. apply seq_inv in H. destruct H as (w1 & t1 & t2 & H1 & H & _). apply finish_view in H1. apply ask_inv in H. destruct H as (st & E & H).
      apply seq_inv in H. destruct H as (w2 & t3 & t4 & H2 & H3 & _). injection H2 as <- _. injection H3 as <- _. unfold view in *. cbn. injection H1 as A1 A2 A3. rewrite !map_upd, A1, A2, A3. cbn [st_cbs drops].
      f_equal. f_equal. unfold point. assert (T : forall (l : list Cbs) n x y, upd n x (upd n y l) = upd n x l) by (intros l; induction l as [|y0 l IH]; intros [|n] x y; cbn; try reflexivity; rewrite IH; reflexivity).
      destruct (nth_error (map st_cbs (w_stations w)) s); rewrite !T; reflexivity.
    + (* HandlePacket *) unfold st_handlePacket in H. cbv zeta in H. unfold drops. change CMD_CONFIG_DATA with kConfigDataStream.
      destruct (id_getCommand (fid f) =? kConfigDataStream) eqn:C.
      * apply Z.eqb_eq in C. rewrite C in H. change (st_handleConfigDataStream lw s (fdata f) w = Ok (w', t)) in H. apply stream_view in H.
        destruct (config_object w s) as [p|]; [|exact H]. cbn [andb]. destruct (misfit w p (fdata f)); exact H.
      * assert (K : view w' = view w).
        { revert H. apply k_if; [apply k_system|]. apply k_if; [apply k_skip|].
          apply k_if; [apply k_seq; [apply k_puts|apply k_seq; [apply k_accessory|apply k_print]]|].
          apply k_if; [apply k_direction|]. apply k_if; [apply k_speed|]. apply k_if; [apply k_function|]. apply k_if; [apply k_skip|].
          apply k_if; [apply k_seq; [apply k_puts|]; apply k_seq; [apply k_print_res|apply k_print]|].
          apply k_seq; [apply k_print|]. apply k_seq; [apply k_print_res|apply k_print]. }
        rewrite K. cbn [andb]. destruct (config_object w s); reflexivity.
    + (* HandleConfigDataStream *) apply stream_view in H. unfold drops. destruct (config_object w s) as [p|]; [|exact H]. destruct (misfit w p d); exact H.
    + apply finish_view in H. exact H.
    + apply finish_view in H. exact H.
    + apply finish_view in H. exact H.
    + (* RequestEngine *) unfold st_requestEngine in H. apply ask_inv in H. destruct H as (si & SI & H). unfold drops, accepted. rewrite SI. unfold si_isNameKnown in H.
      destruct (si_avail si) eqn:AV; cbn [negb] in H; cbn [andb].
      1: { injection H as <- _. destruct (config_object w s); reflexivity. }
      all: apply ask_inv in H; destruct H as (st & E & H); unfold get_station, at_ in E; destruct (nth_error (w_stations w) s) as [x|] eqn:Q; [|discriminate]; injection E as ->;
        apply ask_inv in H; destruct H as (busy & B & H);
        assert (CO : config_object w s = cb_cfg (st_cbs st)) by (unfold config_object; rewrite Q; reflexivity);
        assert (BU : match config_object w s with Some p => match nth_error (w_parsers w) p with Some o => negb (ss_processing (pobj_state o)) | None => true end | None => true end = negb busy)
          by (rewrite CO; destruct (cb_cfg (st_cbs st)) as [q|]; [apply processing_some in B; destruct B as (o & -> & ->); reflexivity|injection B as <-; reflexivity]);
        rewrite BU; destruct busy; cbn [negb];
        [injection H as <- _; destruct (config_object w s); reflexivity|];
        apply (retarget_view s p (fun st => World.seq (when_some p (fun p => cfg_call lw p CStart)) _)) in H; [exact H|];
        intros st0; apply k_seq; [apply k_when; intros q; apply k_start|]; apply k_ask; intros b1; apply k_seq; [apply k_tx|]; apply k_ask; intros si'; apply k_ask; intros nn; apply k_ask; intros b2;
        apply k_seq; [apply k_tx|]; apply k_ask; intros b3; apply k_tx.
    + (* RequestEngineList *) unfold st_requestEngineList in H. apply (retarget_view s p (fun st => ask (fun _ => c_strncpy (dbytes data0) kEngineNames kDataBufferLength) _)) in H; [exact H|].
      intros st. apply k_ask. intros b1. destruct (snprintf9 (list_request_text offset)) as [b2 n]. apply k_if; [|apply k_skip]. apply k_seq; [apply k_when; intros q; apply k_start|]. apply k_seq; apply k_tx.
  - apply ask_inv in H. destruct H as (sp & E & H). apply get_lib_some in E. revert H. apply (put_lib_keep p _ sp); [reflexivity|apply map_nth, E|reflexivity].
  - apply ask_inv in H. destruct H as (sp & E & H). apply put_lib_view in H. exact H.
  - apply add_view in H. destruct (misfit w p d); exact H.
  - apply reset_view in H. exact H.
  - apply ask_inv in H. destruct H as (o & E & H). apply get_cons_some in E. rewrite E. destruct o as [e cb0|co i n off cb0|].
    + injection H as <- _. unfold view. cbn. rewrite map_upd. reflexivity.
    + injection H as <- _. unfold view. cbn. rewrite map_upd. reflexivity.
    + injection H as <- _. reflexivity.
  - apply ask_inv in H. destruct H as (o & E & H). apply get_cons_some in E. rewrite E. destruct o as [e0 cb|co i n off cb|]; try discriminate. injection H as <- _. unfold view. cbn. rewrite map_upd. reflexivity.
  - apply ask_inv in H. destruct H as (o & E & H). apply get_cons_some in E. destruct o; try discriminate. revert H. apply (put_keep _ _ _ _ _ _ E). reflexivity.
  - apply ask_inv in H. destruct H as (o & E & H). apply get_cons_some in E. destruct o; try discriminate. revert H. apply (put_keep _ _ _ _ _ _ E). reflexivity.
  - apply ask_inv in H. destruct H as (o & E & H). apply get_cons_some in E. destruct o; try discriminate. revert H. apply (put_keep _ _ _ _ _ _ E). reflexivity.
  - revert H. apply (KK (ask (get_cons c) _)). apply k_ask. intros [e cb|co i n off cb|]; try apply k_fail. apply k_ask. intros m. apply k_seq; [apply k_print|apply k_print_res].
  - revert H. apply (KK (ask (get_engine e) _)). apply k_ask. intros l. apply k_ask. intros l'. apply k_put_engine.
Qed.
End Pointers.

(** ** Releasing objects *)
Lemma nth_map : forall A B (f : A -> B) l i y, nth_error (map f l) i = Some y -> exists x, nth_error l i = Some x /\ y = f x.
Proof. intros A B f l. induction l as [|a l IH]; intros [|i] y H; cbn in *; try discriminate; [exists a; split; congruence|apply IH, H]. Qed.
(** pointers can be read off the view *)
Definition refers_in (v : list Cbs * list (option nat * option nat) * list (mu (option nat) * mu (option nat))) (x y : thing) : Prop :=
  match x with
  | OStation s => exists k, nth_error (fst (fst v)) s = Some k /\ among k y
  | OParser p => exists q c, nth_error (snd (fst v)) p = Some q /\ y = OConsumer c /\ (fst q = Some c \/ snd q = Some c)
  | OConsumer c => exists q, nth_error (snd v) c = Some q /\ ((exists e, fst q = Def (Some e) /\ y = OEngine e) \/ (exists cb, snd q = Def (Some cb) /\ y = OEndCb cb))
  | _ => False
  end.
Lemma refers_view : forall w x y, refers w x y <-> refers_in (view w) x y.
Proof.
  intros w x y. destruct x; cbn; try tauto.
  - split.
    + intros (st & E & A). exists (st_cbs st). split; [apply map_nth, E|exact A].
    + intros (k & E & A). apply nth_map in E. destruct E as (st & E & ->). eauto.
  - split.
    + intros (sp & c & E & -> & A). exists (sp_cons sp, tp_cons (sp_text sp)), c. split; [exact (map_nth _ _ consumer_of _ _ _ E)|]. split; [reflexivity|exact A].
    + intros (q & c & E & -> & A). apply nth_map in E. destruct E as ([sp|] & E & ->); [exists sp, c; auto|]. cbn in A. destruct A; discriminate.
  - split.
    + intros (o & E & A). exists (wires o). split; [exact (map_nth _ _ wires _ _ _ E)|].
      destruct A as [(e & cb & -> & ->)|[(e & cb & -> & ->)|(co & i & n & off & cb & -> & ->)]]; cbn; eauto.
    + intros (q & E & A). apply nth_map in E. destruct E as (o & E & ->). exists o. split; [exact E|].
      destruct o as [e cb|co i n off cb|]; cbn in A; destruct A as [(z & Z & ->)|(z & Z & ->)]; try discriminate; subst; [left; eauto|right; left; eauto|right; right; eauto 10].
Qed.

Lemma finish_releases : forall lw w s p w1 t1 (X : thing -> Prop), config_object w s = Some p -> step lw (OnStation s FinishCurrentConfigRequest) w = Ok (w1, t1) ->
  (forall x y, refers w x y -> X y -> X x \/ (x = OStation s /\ y = OParser p) \/ x = OParser p) -> unreferenced w1 X.
Proof.
  intros lw w s p w1 t1 X CO H K x y R Y. apply step_view in H. apply refers_view in R. rewrite H in R. unfold stations_after, consumers_after, wires_after in R. rewrite CO in R. cbn [drops] in R.
  destruct x; cbn in R; try contradiction.
  - destruct R as (k & E & A). unfold point in E. destruct (nth_error (map st_cbs (w_stations w)) s) as [k0|] eqn:Q.
    + rewrite nth_upd_cases in E. destruct (Nat.eqb s0 s) eqn:EQ.
      * apply Nat.eqb_eq in EQ. subst s0. rewrite Q in E. injection E as <-.
        destruct (K (OStation s) y) as [D|[(_ & D)|D]]; [|exact Y|exact D| |discriminate].
        -- cbn. apply nth_map in Q. destruct Q as (st & Q & ->). exists st. split; [exact Q|]. destruct y; cbn in *; try contradiction; try exact A. discriminate.
        -- subst y. cbn in A. discriminate.
      * apply nth_map in E. destruct E as (st & E & ->). destruct (K (OStation s0) y) as [D|[(D & _)|D]]; [|exact Y|exact D| |discriminate].
        -- cbn. eauto.
        -- injection D as ->. rewrite Nat.eqb_refl in EQ. discriminate.
    + apply nth_map in E. destruct E as (st & E & ->). destruct (K (OStation s0) y) as [D|[(D & _)|D]]; [|exact Y|exact D| |discriminate].
      * cbn. eauto.
      * injection D as ->. rewrite (map_nth _ _ st_cbs _ _ _ E) in Q. discriminate.
  - destruct R as (q & c & E & -> & A). rewrite nth_upd_cases in E. destruct (Nat.eqb p0 p) eqn:EQ.
    + destruct (nth_error (map consumer_of (w_parsers w)) p); [|discriminate]. injection E as <-. cbn in A. destruct A; discriminate.
    + destruct (K (OParser p0) (OConsumer c)) as [D|[(D & _)|D]]; [|exact Y|exact D|discriminate|].
      * apply refers_view. cbn. eauto.
      * injection D as ->. rewrite Nat.eqb_refl in EQ. discriminate.
  - destruct (K (OConsumer c) y) as [D|[(D & _)|D]]; [|exact Y|exact D|discriminate|discriminate]. apply refers_view. cbn. exact R.
Qed.

(** ** Two installations *)
Lemma inside_refers : forall X w w' x y, same_inside X w w' -> X x -> refers w' x y -> refers w x y.
Proof.
  intros X w w' x y (S1 & S2 & S3 & _) H R. destruct x; cbn in *; try contradiction.
  - destruct R as (st & E & A). exists st. rewrite (S1 s) by tauto. auto.
  - destruct R as (sp & c & E & A). exists sp, c. rewrite (S2 p) by tauto. auto.
  - destruct R as (o & E & A). exists o. rewrite (S3 c) by tauto. auto.
Qed.
Lemma outside_sym : forall X a b, same_outside X a b -> same_outside X b a.
Proof. intros X a b (A1 & A2 & A3 & A4). split; [|split; [|split]]; intros i H; symmetry; auto. Qed.
Lemma outside_trans : forall X a b c, same_outside X a b -> same_outside X b c -> same_outside X a c.
Proof.
  intros X a b c (A1 & A2 & A3 & A4) (B1 & B2 & B3 & B4).
  split; [|split; [|split]]; intros i H; [rewrite A1 by exact H|rewrite A2 by exact H|rewrite A3 by exact H|rewrite A4 by exact H]; auto.
Qed.
Lemma outside_refl : forall X a, same_outside X a a.
Proof. intros X a. repeat split; reflexivity. Qed.
Lemma weaken : forall (X Y : thing -> Prop) a b, (forall x, Y x -> X x) -> same_outside Y a b -> same_outside X a b.
Proof. intros X Y a b H (A1 & A2 & A3 & A4). split; [|split; [|split]]; intros i N; auto. Qed.
Lemma part_cons : forall A (b c : bool) (x : A) l, part b ((c, x) :: l) = if Bool.eqb c b then x :: part b l else part b l.
Proof. intros A b c x l. unfold part. cbn. destruct (Bool.eqb c b); reflexivity. Qed.
Lemma part_app : forall A b (k l : list (bool * A)), part b (k ++ l) = part b k ++ part b l.
Proof. intros A b k l. unfold part. rewrite filter_app, map_app. reflexivity. Qed.
Lemma part_label : forall A b c (t : list A), part b (map (fun e => (c, e)) t) = if Bool.eqb c b then t else [].
Proof. intros A b c t. induction t as [|e t IH]; [destruct (Bool.eqb c b); reflexivity|]. cbn [map]. rewrite part_cons, IH. destruct (Bool.eqb c b); reflexivity. Qed.
Lemma map_label : forall A (c : bool) (t : list A), map snd (map (fun e => (c, e)) t) = t.
Proof. intros A c t. rewrite map_map. apply map_id. Qed.

Section Merge.
Variable lw : Z.
Variable side : thing -> bool.
Lemma run_cons : forall o l w, run lw (o :: l) w = World.seq (step lw o) (run lw l) w. Proof. reflexivity. Qed.
Definition across (b : bool) (x : thing) : Prop := side x = negb b.
(** one call on side b: the objects of side b, and nothing else, decide about it *)
Lemma one_call : forall b o w wa, separate side w -> same_outside (across b) w wa -> (forall x, names o x -> side x = b) ->
  match step lw o w, step lw o wa with
  | Ok (w1, t), Ok (wa1, ta) => ta = t /\ same_outside (across b) w1 wa1 /\ same_outside (across (negb b)) w w1 /\ separate side w1
  | UB u, UB ua => u = ua
  | _, _ => False
  end.
Proof.
  intros b o w wa U S N. assert (NB : forall c : bool, c <> negb c) by (intros []; discriminate).
  assert (N' : forall x, names o x -> ~ across b x) by (intros x H K; apply (NB b); rewrite <- (N x H) at 1; exact K).
  assert (U' : unreferenced w (across b)) by (intros x y R K; unfold across; rewrite (U x y R); exact K).
  assert (H := i_step lw (across b) o N' w wa (conj S U')). unfold alike in H.
  destruct (step lw o w) as [[w1 t]|u], (step lw o wa) as [[wa1 ta]|ua]; try contradiction; [|exact H].
  destruct H as (-> & (S1 & U3) & I1 & _ & _). split; [reflexivity|]. split; [exact S1|]. split.
  - revert I1. apply weaken. unfold across. intros x H. rewrite Bool.negb_involutive. destruct (side x), b; try reflexivity; exfalso; apply H; reflexivity.
  - intros x y R. destruct (Bool.bool_dec (side x) (negb b)) as [E|E].
    + apply (U x y). apply (inside_refers (across b) w w1); [exact I1|exact E|exact R].
    + destruct (Bool.bool_dec (side y) (negb b)) as [F|F]; [destruct (E (U3 _ _ R F))|]. destruct (side x), (side y), b; cbn in *; congruence.
Qed.
(** together and alone *)
Lemma merged : forall l w (alone : bool -> world), Forall (fun bo => forall x, names (snd bo) x -> side x = fst bo) l -> separate side w ->
  (forall b, same_outside (across b) w (alone b)) ->
  match run lw (map snd l) w with
  | Ok (w', t) => exists lt, map snd lt = t /\ forall b, exists v, run lw (part b l) (alone b) = Ok (v, part b lt) /\ same_outside (across b) w' v
  | UB u => exists b, run lw (part b l) (alone b) = UB u
  end.
Proof.
  intros l. induction l as [|[b o] l IH]; intros w alone SD U S.
  - cbn. exists []. split; [reflexivity|]. intros b. exists (alone b). split; [reflexivity|apply S].
  - inversion SD as [|? ? N SD']; subst. cbn [fst snd] in N. cbn [map snd]. rewrite run_cons. unfold World.seq.
    assert (O := one_call b o w (alone b) U (S b) N).
    destruct (step lw o w) as [[w1 t1]|u] eqn:E, (step lw o (alone b)) as [[wa t1']|u'] eqn:EA; try contradiction.
    + destruct O as (-> & S1 & S2 & U1). cbn [bind].
      specialize (IH w1 (fun c => if Bool.eqb b c then wa else alone c) SD' U1).
      assert (S' : forall c, same_outside (across c) w1 (if Bool.eqb b c then wa else alone c)).
      { intros c. destruct (Bool.eqb b c) eqn:Q; [apply Bool.eqb_prop in Q; subst c; exact S1|]. apply (outside_trans _ _ w); [|apply S]. apply outside_sym.
        replace c with (negb b) by (destruct b, c; try reflexivity; discriminate). exact S2. }
      specialize (IH S'). destruct (run lw (map snd l) w1) as [[w' t]|u]; cbn [bind].
      * destruct IH as (lt & L & K). exists (map (fun e => (b, e)) t1 ++ lt). split; [rewrite map_app, map_label, L; reflexivity|]. intros c. destruct (K c) as (v & R & SV). exists v. split; [|exact SV].
        rewrite part_cons, part_app, part_label. destruct (Bool.eqb b c) eqn:Q; [|exact R]. apply Bool.eqb_prop in Q. subst c. rewrite run_cons. unfold World.seq. rewrite EA. cbn [bind]. rewrite R. reflexivity.
      * destruct IH as (c & R). exists c. rewrite part_cons. destruct (Bool.eqb b c) eqn:Q; [|exact R]. apply Bool.eqb_prop in Q. subst c. rewrite run_cons. unfold World.seq. rewrite EA. cbn [bind]. rewrite R. reflexivity.
    + cbn [bind]. exists b. rewrite part_cons, Bool.eqb_reflx, run_cons. unfold World.seq. rewrite EA, O. reflexivity.
Qed.
End Merge.
Lemma interleaved : forall lw (side : thing -> bool) (l : list (bool * op)) w,
  separate side w -> own_calls side l ->
  match run lw (map snd l) w with
  | Ok (w', t) => exists lt : list (bool * event), map snd lt = t /\
      forall b, exists v, run lw (part b l) w = Ok (v, part b lt) /\ same_side side b w' v
  | UB u => exists b, run lw (part b l) w = UB u
  end.
Proof. intros lw side l w S O. exact (merged lw side l w (fun _ => w) O S (fun b => outside_refl _ w)). Qed.
Lemma defined_together : forall lw side l w, separate side w -> own_calls side l ->
  (forall b, exists v t, run lw (part b l) w = Ok (v, t)) -> exists v t, run lw (map snd l) w = Ok (v, t).
Proof.
  intros lw side l w S O H. assert (M := interleaved lw side l w S O). destruct (run lw (map snd l) w) as [[v t]|u]; [eauto|].
  destruct M as (b & M). destruct (H b) as (v & t & E). congruence.
Qed.
Lemma not_touched : forall lw (X : thing -> Prop) ops w1 w2,
  unreferenced w1 X -> (forall o x, In o ops -> names o x -> ~ X x) -> same_outside X w1 w2 ->
  match run lw ops w1, run lw ops w2 with
  | Ok (v1, t1), Ok (v2, t2) =>
      t2 = t1 /\ same_outside X v1 v2 /\ same_inside X w1 v1 /\ same_inside X w2 v2 /\ unreferenced v1 X /\
      (forall e x, In e t1 -> In x (callee e) -> ~ X x)
  | UB u1, UB u2 => u1 = u2
  | _, _ => False
  end.
Proof.
  intros lw X ops w1 w2 U N S. assert (H := i_run lw X ops N w1 w2 (conj S U)). unfold alike in H.
  destruct (run lw ops w1) as [[v1 t1]|u1], (run lw ops w2) as [[v2 t2]|u2]; try contradiction; [|exact H].
  destruct H as (-> & (S1 & U1) & I1 & I2 & T). repeat (split; [first [reflexivity|assumption]|]).
  intros e x I J. unfold untouched in T. rewrite Forall_forall in T. specialize (T e I). rewrite Forall_forall in T. exact (T x J).
Qed.
Lemma destroy_after_finishing : forall lw (X : thing -> Prop) w s p w1 t1 ops w2,
  config_object w s = Some p ->
  (forall x y, refers w x y -> X y -> X x \/ (x = OStation s /\ y = OParser p) \/ x = OParser p) ->
  step lw (OnStation s FinishCurrentConfigRequest) w = Ok (w1, t1) ->
  (forall o x, In o ops -> names o x -> ~ X x) -> same_outside X w1 w2 ->
  match run lw ops w1, run lw ops w2 with
  | Ok (v1, t1), Ok (v2, t2) => t2 = t1 /\ same_outside X v1 v2
  | UB u1, UB u2 => u1 = u2
  | _, _ => False
  end.
Proof.
  intros lw X w s p w1 t1 ops w2 C K H N S. assert (M := not_touched lw X ops w1 w2 (finish_releases lw w s p w1 t1 X C H K) N S).
  destruct (run lw ops w1) as [[v1 s1]|u1], (run lw ops w2) as [[v2 s2]|u2]; try contradiction; [|exact M]. destruct M as (A & B & _). split; assumption.
Qed.
(** where pointers come from *)
Lemma pointer_origin : forall lw o w w' t x y, step lw o w = Ok (w', t) -> refers w' x y -> refers w x y \/ names o y.
Proof.
  intros lw o w w' t x y H R. apply step_view in H. apply refers_view in R. rewrite H in R. clear H. rewrite refers_view.
  destruct x; cbn in R; try contradiction; cbn.
  - destruct R as (k & E & A).
    assert (PT : forall q, names o (OStation s) \/ True -> (forall p, q = Some p -> y = OParser p -> names o y) ->
      forall s', nth_error (point s' q (map st_cbs (w_stations w))) s = Some k -> (exists k0, nth_error (map st_cbs (w_stations w)) s = Some k0 /\ among k0 y) \/ names o y).
    { intros q _ Q s' E'. unfold point in E'. destruct (nth_error (map st_cbs (w_stations w)) s') as [k0|] eqn:E0; [|left; eauto].
      rewrite nth_upd_cases in E'. destruct (Nat.eqb s s') eqn:EQ; [|left; eauto]. rewrite E0 in E'. injection E' as <-. apply Nat.eqb_eq in EQ. subst s'.
      destruct y; cbn in A; try contradiction; try (left; exists k0; split; [exact E0|exact A]). right. exact (Q p A eq_refl). }
    unfold stations_after in E. cbv zeta in E. destruct o as [s' o| | | | | | | | | | |]; try (left; eauto; fail). destruct o; try (left; eauto; fail).
    + rewrite nth_upd_cases in E. destruct (Nat.eqb s s'); [|left; eauto]. destruct (nth_error (map st_cbs (w_stations w)) s'); [|discriminate]. injection E as <-. right. right. exact A.
    + apply (PT None (or_intror Logic.I)) in E; [exact E|discriminate].
    + apply (PT None (or_intror Logic.I)) in E; [exact E|discriminate].
    + apply (PT None (or_intror Logic.I)) in E; [exact E|discriminate].
    + destruct (accepted w s' engine); [|left; eauto]. apply (PT p (or_intror Logic.I)) in E; [exact E|]. intros q -> ->. right. right. eauto.
    + apply (PT p (or_intror Logic.I)) in E; [exact E|]. intros q -> ->. right. cbn. eauto.
  - destruct R as (q & c & E & -> & A).
    assert (PT : forall p' z, (forall d, fst z = Some d \/ snd z = Some d -> names o (OConsumer d)) -> nth_error (upd p' z (map consumer_of (w_parsers w))) p = Some q ->
      (exists q0 c0, nth_error (map consumer_of (w_parsers w)) p = Some q0 /\ OConsumer c = OConsumer c0 /\ (fst q0 = Some c0 \/ snd q0 = Some c0)) \/ names o (OConsumer c)).
    { intros p' z Z E'. rewrite nth_upd_cases in E'. destruct (Nat.eqb p p'); [|left; eauto 6]. destruct (nth_error (map consumer_of (w_parsers w)) p'); [|discriminate]. injection E' as <-. right. apply Z. exact A. }
    assert (NN : forall d, fst (@None nat, @None nat) = Some d \/ snd (@None nat, @None nat) = Some d -> names o (OConsumer d)) by (intros d [D|D]; discriminate).
    unfold consumers_after in E. cbv zeta in E. destruct o as [s' o| | | | | | | | | | |]; try (left; eauto 6; fail).
    + destruct (config_object w s') as [p'|]; [|left; eauto 6]. destruct (drops w s' p' o); [|left; eauto 6]. apply (PT p' _ NN E).
    + apply (PT _ _) in E; [exact E|]. cbn. intros d D. right. exists d. split; [destruct D; assumption|reflexivity].
    + destruct (misfit w p0 d); [|left; eauto 6]. apply (PT p0 _ NN E).
    + apply (PT p0 _ NN E).
  - destruct R as (q & E & A).
    unfold wires_after in E. cbv zeta in E. destruct o as [s' o| | | | | | | | | | |]; try (left; eauto 6; fail).
    + destruct (nth_error (w_conss w) c0) as [x|] eqn:E0; [|left; eauto]. assert (E1 := map_nth _ _ wires _ _ _ E0).
      destruct x as [e1 cb1|co1 i1 n1 off1 cb1|]; try (left; eauto; fail);
        (rewrite nth_upd_cases in E; destruct (Nat.eqb c c0) eqn:EQ; [|left; eauto]; rewrite E1 in E; injection E as <-; cbn in A; apply Nat.eqb_eq in EQ; subst c0;
         destruct A as [(e & Z & ->)|(z & Z & ->)]; [left; eexists; split; [exact E1|]; left; eauto|right; right; exists z; split; [congruence|reflexivity]]).
    + destruct (nth_error (w_conss w) c0) as [x|] eqn:E0; [|left; eauto]. assert (E1 := map_nth _ _ wires _ _ _ E0).
      rewrite nth_upd_cases in E; destruct (Nat.eqb c c0) eqn:EQ; [|left; eauto]; rewrite E1 in E; injection E as <-; cbn in A; apply Nat.eqb_eq in EQ; subst c0.
      destruct A as [(z & Z & ->)|(z & Z & ->)]; [right; right; exists z; split; [congruence|reflexivity]|left; eexists; split; [exact E1|]; right; eauto].
Qed.

(** ** Completion *)
Section Completion.
Variable lw : Z.
Definition completes (t : list event) : Prop := exists c, In (EvStreamComplete c) t.
Definition nocomp (a : act) : Prop := forall w w' t, a w = Ok (w', t) -> ~ completes t.
Lemma n_emit : forall e, (forall c, e <> EvStreamComplete c) -> nocomp (emit e).
Proof. intros e N w w' t H (c & I). injection H as _ <-. destruct I as [I|[]]. exact (N c I). Qed.
Lemma n_print : forall b, nocomp (print b). Proof. intros b. apply n_emit. discriminate. Qed.
Lemma n_puts : forall b, nocomp (puts b). Proof. intros b. apply n_emit. discriminate. Qed.
Lemma n_quiet : forall a, (forall w w' t, a w = Ok (w', t) -> t = []) -> nocomp a.
Proof. intros a Q w w' t H (c & I). rewrite (Q _ _ _ H) in I. destruct I. Qed.
Lemma n_skip : nocomp skip. Proof. apply n_quiet. intros w w' t H. injection H as _ <-. reflexivity. Qed.
Lemma n_fail : forall u, nocomp (fail u). Proof. intros u w w' t H. discriminate. Qed.
Lemma n_seq : forall a b, nocomp a -> nocomp b -> nocomp (World.seq a b).
Proof. intros a b A B w w' t H (c & I). apply seq_inv in H. destruct H as (w1 & t1 & t2 & H1 & H2 & ->). apply in_app_or in I. destruct I as [I|I]; [apply (A _ _ _ H1)|apply (B _ _ _ H2)]; exists c; exact I. Qed.
Lemma n_ask : forall A (f : world -> res A) k, (forall x, nocomp (k x)) -> nocomp (ask f k).
Proof. intros A f k K w w' t H. apply ask_inv in H. destruct H as (x & _ & H). exact (K x _ _ _ H). Qed.
Lemma n_when : forall A (p : option A) k, (forall x, nocomp (k x)) -> nocomp (when_some p k).
Proof. intros A [x|] k K; [apply K|apply n_skip]. Qed.
Lemma n_if : forall (b : bool) x y, nocomp x -> nocomp y -> nocomp (if b then x else y). Proof. intros []; auto. Qed.
Lemma n_print_res : forall r, nocomp (print_res r). Proof. intros r. apply n_ask. intros x. apply n_print. Qed.
Lemma n_put_cons : forall c x, nocomp (put_cons c x). Proof. intros. apply n_quiet. intros w w' t H. injection H as _ <-. reflexivity. Qed.
Lemma n_put_parser : forall c x, nocomp (put_parser c x). Proof. intros. apply n_quiet. intros w w' t H. injection H as _ <-. reflexivity. Qed.
Lemma n_put_station : forall c x, nocomp (put_station c x). Proof. intros. apply n_quiet. intros w w' t H. injection H as _ <-. reflexivity. Qed.
Lemma n_put_engine : forall c x, nocomp (put_engine c x). Proof. intros. apply n_quiet. intros w w' t H. injection H as _ <-. reflexivity. Qed.
Lemma n_end : forall (cb : mu (option nat)) (e : nat -> event), (forall x c, e x <> EvStreamComplete c) -> nocomp (ask (fun _ => mread cb) (fun cb => when_some cb (fun cb => emit (e cb)))).
Proof. intros cb e N. apply n_ask. intros x. apply n_when. intros y. apply n_emit. apply N. Qed.
Lemma n_aborted : forall c, nocomp (cons_aborted c).
Proof.
  intros c. unfold cons_aborted. apply n_seq; [apply n_emit; discriminate|]. apply n_ask. intros [e cb|co i n off cb|].
  - apply n_end. discriminate.
  - apply n_seq; [apply n_put_cons|]. apply n_end. discriminate.
  - apply n_skip.
Qed.
Lemma n_reset : forall p, nocomp (lib_reset p).
Proof. intros p. unfold lib_reset. apply n_ask. intros sp. apply n_seq; [apply n_if; [apply n_when; apply n_aborted|apply n_skip]|]. apply n_ask. intros sp'. apply n_ask. intros t. apply n_put_parser. Qed.
Lemma n_call : forall p c, (forall d, c <> CAdd d) -> nocomp (cfg_call lw p c).
Proof.
  intros p c N. unfold cfg_call. apply n_seq; [apply n_emit; discriminate|]. apply n_ask. intros [sp|beh h]; [|apply n_put_parser].
  destruct c as [|d|]; [apply n_put_parser|destruct (N d eq_refl)|apply n_reset].
Qed.
Lemma n_finish : forall s, nocomp (st_finish lw s).
Proof. intros s. unfold st_finish. apply n_ask. intros st. apply n_when. intros p. apply n_seq; [apply n_call; discriminate|]. apply n_ask. intros st'. apply n_put_station. Qed.
Lemma n_tx : forall k f, nocomp (tx_send k f). Proof. intros k f. apply n_ask. intros x. apply n_emit. discriminate. Qed.
Lemma n_functions : forall st u n i, nocomp (send_functions st u i n).
Proof. intros st u n. induction n; intros i; [apply n_skip|]. apply n_seq; [apply n_tx|apply IHn]. Qed.
Lemma n_send : forall s f, nocomp (st_sendPacket s f). Proof. intros s f. apply n_ask. intros st. apply n_tx. Qed.
Lemma n_misfit : forall p d w w' t, misfit w p d = true -> lib_addMessage lw p d w = Ok (w', t) -> ~ completes t.
Proof.
  intros p d w w' t M H. unfold misfit in M. unfold lib_addMessage in H. apply ask_inv in H. destruct H as (sp & E & H). apply get_lib_some in E. rewrite E in M.
  destruct (sp_state sp); try discriminate; destruct ((dlc d =? 6) || (dlc d =? 7)), (dlc d =? 8); try discriminate; cbn [negb] in H; revert H;
    repeat apply n_if; (apply n_seq; [apply n_print|apply n_reset]).
Qed.
Lemma call_complete : forall p d w w' t, cfg_call lw p (CAdd d) w = Ok (w', t) -> completes t -> misfit w p d = false.
Proof.
  intros p d w w' t H C. destruct (misfit w p d) eqn:M; [|reflexivity]. exfalso. unfold cfg_call in H. apply seq_inv in H. destruct H as (w1 & t1 & t2 & H1 & H & ->).
  injection H1 as <- <-. destruct C as (c & [I|I]); [discriminate|]. apply ask_inv in H. destruct H as ([sp|beh h] & E & H).
  - apply (n_misfit p d w w' t2 M H). exists c. exact I.
  - injection H as _ <-. destruct I.
Qed.
Lemma stream_complete : forall s d w w' t, st_handleConfigDataStream lw s d w = Ok (w', t) -> completes t -> view w' = view w.
Proof.
  intros s d w w' t H C. assert (V := stream_view lw s d w w' t H). unfold st_handleConfigDataStream in H. apply ask_inv in H. destruct H as (st & E & H).
  unfold get_station, at_ in E. destruct (nth_error (w_stations w) s) as [x|] eqn:Q; [|discriminate]. injection E as ->. unfold config_object in V. rewrite Q in V.
  apply ask_inv in H. destruct H as (tg & E & H). destruct (cb_cfg (st_cbs st)) as [p|]; [|exact V].
  destruct (cfg_isProcessing p w) as [[]|]; cbn [bind] in E; try discriminate; injection E as <-.
  - rewrite (call_complete _ _ _ _ _ H C) in V. exact V.
  - exfalso. revert C. revert H. apply n_seq; [apply n_puts|apply n_print_res].
Qed.
Lemma completion_keeps : forall o w w' t, step lw o w = Ok (w', t) -> completes t -> view w' = view w.
Proof.
  intros o w w' t H C. assert (N : forall a, nocomp a -> a w = Ok (w', t) -> view w' = view w) by (intros a A E; destruct (A _ _ _ E C)).
  destruct o as [s o|p|p c|p d|p|c cb|c e|c off|c|c|c|e o]; cbn [step] in H.
  - destruct o; cbn [st_step] in H.
    all: try (revert H; apply N; first [apply n_skip|apply n_finish|apply n_send|apply n_ask; intros; apply n_tx|apply n_ask; intros; apply n_functions]; fail).
    + revert H. apply N. unfold st_begin. apply n_seq; [apply n_finish|]. apply n_ask. intros. apply n_seq; apply n_put_station.
    + unfold st_handlePacket in H. cbv zeta in H.
      destruct (id_getCommand (fid f) =? kConfigDataStream) eqn:Q.
      * apply Z.eqb_eq in Q. rewrite Q in H. change (st_handleConfigDataStream lw s (fdata f) w = Ok (w', t)) in H. exact (stream_complete _ _ _ _ _ H C).
      * revert H. apply k_if; [apply k_system|]. apply k_if; [apply k_skip|].
        apply k_if; [apply k_seq; [apply k_puts|apply k_seq; [apply k_accessory|apply k_print]]|].
        apply k_if; [apply k_direction|]. apply k_if; [apply k_speed|]. apply k_if; [apply k_function|]. apply k_if; [apply k_skip|].
        apply k_if; [apply k_seq; [apply k_puts|]; apply k_seq; [apply k_print_res|apply k_print]|].
        apply k_seq; [apply k_print|]. apply k_seq; [apply k_print_res|apply k_print].
    + revert H. apply k_accessory.
    + exact (stream_complete _ _ _ _ _ H C).
    + revert H. apply k_system.
    + revert H. apply k_direction.
    + revert H. apply k_speed.
    + revert H. apply k_function.
    + revert H. apply N. unfold st_requestEngine. apply n_ask. intros si. apply n_if; [apply n_skip|]. apply n_ask. intros st. apply n_ask. intros busy. apply n_if; [apply n_skip|].
      apply n_seq; [apply n_finish|]. apply n_ask. intros st'. apply n_seq; [apply n_put_station|]. apply n_seq; [apply n_when; intros; apply n_call; discriminate|]. apply n_ask. intros.
      apply n_seq; [apply n_tx|]. apply n_ask. intros. apply n_ask. intros. apply n_ask. intros. apply n_seq; [apply n_tx|]. apply n_ask. intros. apply n_tx.
    + revert H. apply N. unfold st_requestEngineList. apply n_seq; [apply n_finish|]. apply n_ask. intros st'. apply n_seq; [apply n_put_station|]. apply n_ask. intros.
      destruct (snprintf9 (list_request_text offset)). apply n_if; [|apply n_skip]. apply n_seq; [apply n_when; intros; apply n_call; discriminate|]. apply n_seq; apply n_tx.
    + revert H. apply N. unfold st_sendEngineDirection. apply n_if; [apply n_send|apply n_skip].
  - revert H. apply N. apply n_ask. intros. apply n_put_parser.
  - revert H. apply N. apply n_ask. intros. apply n_put_parser.
  - assert (V := add_view lw p d w w' t H). destruct (misfit w p d) eqn:M; [destruct (n_misfit _ _ _ _ _ M H C)|exact V].
  - revert H. apply N. apply n_reset.
  - revert H. apply N. apply n_ask. intros []; [apply n_put_cons|apply n_put_cons|apply n_skip].
  - revert H. apply N. apply n_ask. intros []; [apply n_put_cons|apply n_fail|apply n_fail].
  - revert H. apply N. apply n_ask. intros []; [apply n_fail|apply n_put_cons|apply n_fail].
  - revert H. apply N. apply n_ask. intros []; [apply n_fail|apply n_put_cons|apply n_fail].
  - revert H. apply N. apply n_ask. intros []; [apply n_fail|apply n_put_cons|apply n_fail].
  - revert H. apply N. apply n_ask. intros [e cb|co i n off cb|]; try apply n_fail. apply n_ask. intros m. apply n_seq; [apply n_print|apply n_print_res].
  - revert H. apply N. apply n_ask. intros. apply n_ask. intros. apply n_put_engine.
Qed.
End Completion.
Lemma completion_releases_nothing : forall lw o w w' t c, step lw o w = Ok (w', t) -> In (EvStreamComplete c) t -> forall x y, refers w' x y <-> refers w x y.
Proof. intros lw o w w' t c H I x y. rewrite !refers_view, (completion_keeps lw o w w' t H (ex_intro _ c I)). tauto. Qed.
