(* ProofsCallback.v -- what callbacks that call back lead to: C58-C60. *)
From Verif Require Import ZLib SpecReentry ProofsCrc ProofsText ProofsStream ProofsConsumer ProofsSafe ProofsReentry ProofsPassive.

(** ** Aborts answered by finishing *)
Section Endless.
Variable lw : Z.
Variable react : list event -> code.
Variables s c cb : nat.
Hypothesis F : finishes_on_abort react s c cb.
Notation told := (aborts_told cb c).

Definition deep {A} (a : ract A) (w : world) (t : list event) (n : nat) : Prop :=
  exists s', a (mkR w t) = (UB TooDeep, s') /\ told (r_t s') = (told t + n)%nat.
Lemma told_more : forall t t', told (t ++ t') = (told t + told t')%nat.
Proof. intros. unfold aborts_told. rewrite filter_app, app_length. reflexivity. Qed.
Lemma deep_bind : forall A B (a : ract A) (f : A -> ract B) w t n, deep a w t n -> deep (rbind a f) w t n.
Proof. intros A B a f w t n (s' & E & H). exists s'. split; [|exact H]. unfold rbind. rewrite E. reflexivity. Qed.
Lemma deep_ask : forall A B (g : world -> res A) x (f : A -> ract B) w t n, g w = Ok x -> deep (f x) w t n -> deep (rbind (rask g) f) w t n.
Proof. intros A B g x f w t n G (s' & E & H). exists s'. split; [|exact H]. unfold rbind, rask. cbn [r_w]. rewrite G. exact E. Qed.
Lemma deep_lift : forall B a w1 t1 (f : unit -> ract B) w t n, a w = Ok (w1, t1) -> told t1 = 0%nat -> deep (f tt) w1 (t ++ t1) n -> deep (rbind (rlift a) f) w t n.
Proof.
  intros B a w1 t1 f w t n G Z (s' & E & H). exists s'. split; [unfold rbind, rlift; cbn [r_w r_t]; rewrite G; exact E|]. rewrite H, told_more, Z. lia.
Qed.

Variable n : nat.
Hypothesis IH : forall w p t o k, downloading w s p c cb -> finishes s o -> deep (rexec lw react n (Call o k)) w t n.
Notation inner := (rexec lw react n).

Lemma deep_call : forall w p t, downloading w s p c cb -> deep (ucall react inner (EvEndAborted cb c)) w t (S n).
Proof.
  intros w p t D. unfold ucall, rbind, rlift, emit. destruct (F t) as (o & k & R & O).
  destruct (IH w p (t ++ [EvEndAborted cb c]) o k D O) as (s' & E & H). exists s'. cbn [r_w r_t]. rewrite R. split; [exact E|].
  rewrite H, told_more. unfold aborts_told at 2. cbn [filter]. rewrite !Nat.eqb_refl. cbn [andb List.length]. lia.
Qed.
Lemma cons_get : forall w x, consumer_at w c x -> get_cons c w = Ok x.
Proof. intros w x H. unfold get_cons, at_. unfold consumer_at in H. rewrite H. reflexivity. Qed.
Lemma deep_aborted : forall w p t, downloading w s p c cb -> deep (rcons_aborted react inner c) w t (S n).
Proof.
  intros w p t D. pose proof D as (st & sp & A1 & A2 & A3 & A4 & A5 & [(e & R)|(co & i & m & off & R)]); unfold rcons_aborted.
  - eapply deep_ask; [apply cons_get; exact R|]. cbv beta iota. eapply deep_lift; [reflexivity|reflexivity|]. eapply deep_ask; [reflexivity|]. eapply deep_call. exact D.
  - eapply deep_ask; [apply cons_get; exact R|]. cbv beta iota. eapply deep_lift; [reflexivity|reflexivity|]. eapply deep_lift; [reflexivity|reflexivity|]. eapply deep_ask; [reflexivity|].
    eapply (deep_call _ p). exists st, sp. repeat (split; [assumption|]). right. unfold consumer_at in *. cbn [w_conss].
    do 4 eexists. unfold list_reset_obj. apply nth_upd_in. apply nth_error_Some. rewrite R. discriminate.
Qed.
Lemma lib_get : forall w p sp, lib_at w p sp -> get_lib p w = Ok sp /\ get_parser p w = Ok (LibP sp).
Proof. intros w p sp H. unfold get_lib, get_parser, at_. unfold lib_at in H. rewrite H. split; reflexivity. Qed.
Lemma deep_reset : forall w p t, downloading w s p c cb -> deep (rlib_reset react inner p) w t (S n).
Proof.
  intros w p t D. pose proof D as (st & sp & A1 & A2 & A3 & A4 & A5 & _). unfold rlib_reset. eapply deep_ask; [apply lib_get; exact A3|].
  apply deep_bind. unfold in_progress in A4. assert (P : ss_processing (sp_state sp) = true) by (destruct (sp_state sp); try discriminate; reflexivity).
  rewrite P, A5. eapply deep_aborted. exact D.
Qed.
Lemma deep_cfg : forall w p t, downloading w s p c cb -> deep (rcfg_call lw react inner p CReset) w t (S n).
Proof.
  intros w p t D. pose proof D as (st & sp & _ & _ & A3 & _). unfold rcfg_call. eapply deep_ask; [apply lib_get; exact A3|]. cbv beta iota.
  eapply deep_lift; [reflexivity|reflexivity|]. apply deep_reset. exact D.
Qed.
Lemma deep_finish : forall w p t, downloading w s p c cb -> deep (rst_finish lw react inner s) w t (S n).
Proof.
  intros w p t D. pose proof D as (st & sp & A1 & A2 & _). unfold rst_finish. eapply deep_ask; [unfold get_station, at_; rewrite A1; reflexivity|].
  cbv beta. rewrite A2. cbn [rwhen_some]. apply deep_bind. apply deep_cfg. exact D.
Qed.
Lemma deep_message : forall w p sp d t, downloading w s p c cb -> lib_at w p sp -> malformed sp d -> deep (rlib_addMessage lw react inner p d) w t (S n).
Proof.
  intros w p sp d t D L M. unfold rlib_addMessage. eapply deep_ask; [apply lib_get; exact L|]. cbv beta. unfold malformed in M. destruct (sp_state sp); try contradiction.
  - replace ((dlc d =? 6) || (dlc d =? 7)) with false by (destruct M; symmetry; apply orb_false_iff; lia).
    destruct (dlc d >=? 8); (eapply deep_lift; [reflexivity|reflexivity|apply deep_reset; exact D]).
  - replace (negb (dlc d =? 8)) with true by (symmetry; apply negb_true_iff; lia). eapply deep_lift; [reflexivity|reflexivity|apply deep_reset; exact D].
Qed.
Lemma deep_stream : forall w p sp d t, downloading w s p c cb -> lib_at w p sp -> malformed sp d ->
  forall s1 st1, nth_error (w_stations w) s1 = Some st1 -> cb_cfg (st_cbs st1) = Some p -> deep (rst_handleConfigDataStream lw react inner s1 d) w t (S n).
Proof.
  intros w p sp d t D L M s1 st1 S1 C1. unfold rst_handleConfigDataStream. eapply deep_ask; [unfold get_station, at_; rewrite S1; reflexivity|].
  eapply deep_ask.
  - cbv beta. rewrite C1. unfold cfg_isProcessing. unfold get_parser, at_. unfold lib_at in L. rewrite L. cbn [bind].
    replace (ss_processing (pobj_state (LibP sp))) with true; [reflexivity|]. unfold malformed in M. cbn. destruct (sp_state sp); try contradiction; reflexivity.
  - cbv beta iota. unfold rcfg_call. eapply deep_ask; [apply lib_get; exact L|]. cbv beta iota. eapply deep_lift; [reflexivity|reflexivity|]. eapply deep_message; eassumption.
Qed.
Lemma deep_step : forall w p t o, downloading w s p c cb -> aborts w s p o -> deep (rstep lw react inner o) w t (S n).
Proof.
  intros w p t o D [H|[(u & c0 & ->)|[(off & q & ->)|[ -> | (d & sp & H & L & M) ]]]].
  - destruct H as [ -> | [ -> | -> ]]; apply (deep_finish _ p); exact D.
  - cbn [rstep rst_step]. unfold rst_begin. apply deep_bind. apply (deep_finish _ p). exact D.
  - cbn [rstep rst_step]. unfold rst_requestEngineList. apply deep_bind. apply (deep_finish _ p). exact D.
  - apply deep_reset. exact D.
  - destruct H as [ -> | (s1 & st1 & S1 & C1 & [ -> | (f & -> & E & I) ])].
    + eapply deep_message; eassumption.
    + eapply deep_stream; eassumption.
    + cbn [rstep rst_step]. unfold rst_handlePacket. cbv zeta. rewrite I. cbn -[rst_handleConfigDataStream]. rewrite E. eapply deep_stream; eassumption.
Qed.
End Endless.

Lemma endless : forall lw react s c cb, finishes_on_abort react s c cb ->
  forall n w p t o k, downloading w s p c cb -> aborts w s p o -> deep c cb (rexec lw react n (Call o k)) w t n.
Proof.
  intros lw react s c cb F n. induction n as [|n IH]; intros w p t o k D A.
  - exists (mkR w t). split; [reflexivity|]. cbn [r_t]. lia.
  - change (rexec lw react (S n) (Call o k)) with (rstep lw react (rexec lw react n) o ~;; (fun s => rexec lw react (S n) (k (r_w s) (r_t s)) s)).
    apply deep_bind. eapply deep_step; [exact F| |exact D|exact A]. intros w1 p1 t1 o1 k1 D1 O1. eapply IH; [exact D1|left; exact O1].
Qed.

(** ** The end of a stream is the last thing that happens *)
Section Tail.
Variable lw : Z.
Variable react : list event -> code.
Variable inner : code -> ract unit.
Hypothesis inner_ret : forall s, inner Ret s = (Ok tt, s).
Definition is_user (o : CObj) : bool := match o with UserC => true | _ => false end.
Definition users (w : world) : list bool := map is_user (w_conss w).
(** user code runs last *)
Definition tailed (b : ract unit) (w : world) (tr : list event) (w' : world) (t' : list event) : Prop :=
  b (mkR w tr) = inner (end_code react w tr t') (mkR w' (tr ++ t')).
Definition tail (w : world) (a : act) (b : ract unit) : Prop := forall tr w' t', a w = Ok (w', t') -> tailed b w tr w' t'.
Lemma tells_users : forall w w' e, users w' = users w -> tells_end w' e = tells_end w e.
Proof.
  intros w w' e U. assert (K : forall c, match nth_error (w_conss w') c with Some UserC => true | _ => false end = match nth_error (w_conss w) c with Some UserC => true | _ => false end).
  { intros c. pose proof (f_equal (fun l => nth_error l c) U) as E. unfold users in E. rewrite !nth_error_map in E.
    destruct (nth_error (w_conss w') c) as [[| |]|], (nth_error (w_conss w) c) as [[| |]|]; cbn in E; try discriminate; reflexivity. }
  destruct e; try reflexivity; apply K.
Qed.
Lemma end_users : forall w w' tr t, users w' = users w -> end_code react w' tr t = end_code react w tr t.
Proof. intros w w' tr t U. unfold end_code. destruct (rev t); [reflexivity|]. rewrite (tells_users _ _ _ U). reflexivity. Qed.
(** silent actions *)
Definition plain (t : list event) : Prop := forall w e l, rev t = e :: l -> tells_end w e = false.
Lemma plain_end : forall w tr t, plain t -> end_code react w tr t = Ret.
Proof. intros w tr t P. unfold end_code. destruct (rev t) eqn:E; [reflexivity|]. rewrite (P w _ _ E). reflexivity. Qed.
Lemma plain_nil : plain []. Proof. intros w e l H. discriminate. Qed.
Lemma plain_last : forall t e, (forall w, tells_end w e = false) -> plain (t ++ [e]).
Proof. intros t e H w x l E. rewrite rev_app_distr in E. cbn in E. inversion E; subst. apply H. Qed.
Lemma tail_skip : forall w, tail w skip (rret tt).
Proof. intros w tr w' t' H. inversion H; subst. unfold tailed. rewrite plain_end by apply plain_nil. rewrite inner_ret, app_nil_r. reflexivity. Qed.
Lemma tail_lift : forall w a, (forall w' t', a w = Ok (w', t') -> plain t') -> tail w a (rlift a).
Proof. intros w a P tr w' t' H. unfold tailed, rlift. cbn [r_w r_t]. rewrite H. rewrite plain_end by (eapply P; exact H). rewrite inner_ret. reflexivity. Qed.
Lemma tail_call : forall w e, tells_end w e = true -> tail w (emit e) (ucall react inner e).
Proof.
  intros w e T tr w' t' H. inversion H; subst. unfold tailed, ucall, rbind, rlift, emit. cbn [r_w r_t]. unfold end_code. cbn [rev app]. rewrite T. reflexivity.
Qed.
Lemma end_app : forall w tr t1 t2, t2 <> [] -> end_code react w (tr ++ t1) t2 = end_code react w tr (t1 ++ t2).
Proof.
  intros w tr t1 t2 H. unfold end_code. rewrite rev_app_distr, app_assoc. destruct (rev t2) eqn:E; [|reflexivity].
  apply (f_equal (@List.length event)) in E. rewrite rev_length in E. destruct t2; [congruence|discriminate].
Qed.
Lemma tail_seq : forall w a b rb, (forall w1 t1, a w = Ok (w1, t1) -> plain t1 /\ users w1 = users w /\ tail w1 b rb) -> tail w (World.seq a b) (rbind (rlift a) (fun _ => rb)).
Proof.
  intros w a b rb H tr w' t' E. apply seq_inv in E. destruct E as (w1 & t1 & t2 & E1 & E2 & ->). destruct (H _ _ E1) as (P & U & T).
  unfold tailed, rbind, rlift. cbn [r_w r_t]. rewrite E1. rewrite (T (tr ++ t1) _ _ E2), <- app_assoc.
  rewrite (end_users _ _ _ _ U). destruct t2 as [|e t2].
  - rewrite app_nil_r. rewrite (plain_end w tr t1) by exact P. rewrite plain_end by apply plain_nil. reflexivity.
  - rewrite end_app by discriminate. reflexivity.
Qed.
Lemma tail_ask : forall w A (f : world -> res A) k rk, (forall x, f w = Ok x -> tail w (k x) (rk x)) -> tail w (ask f k) (rbind (rask f) rk).
Proof.
  intros w A f k rk H tr w' t' E. apply ask_inv in E. destruct E as (x & G & E). unfold tailed, rbind, rask. cbn [r_w]. rewrite G. apply (H x G). exact E.
Qed.
Lemma tail_when : forall w A (p : option A) k rk, (forall x, p = Some x -> tail w (k x) (rk x)) -> tail w (when_some p k) (rwhen_some p rk).
Proof. intros w A [x|] k rk H; [apply H; reflexivity|apply tail_skip]. Qed.
Lemma emit_inv : forall e w w1 t1, emit e w = Ok (w1, t1) -> w1 = w /\ t1 = [e].
Proof. intros. inversion H. auto. Qed.
Lemma print_inv : forall bs w w1 t1, print bs w = Ok (w1, t1) -> w1 = w /\ t1 = [EvPrint bs].
Proof. intros. inversion H. auto. Qed.

(** an event about a library consumer, then ask for it: the two models differ in the order *)
Lemma tail_emit_ask : forall A e (f : world -> res A) k rk w,
  (forall x, f w = Ok x -> tail w (World.seq (emit e) (k x)) (rk x)) -> tail w (World.seq (emit e) (ask f k)) (rbind (rask f) rk).
Proof.
  intros A e f k rk w H tr w' t' E. destruct (emit_ask _ _ _ _ _ _ _ E) as (x & t1 & G & K & ->).
  unfold tailed, rbind, rask. cbn [r_w]. rewrite G. apply (H x G). unfold World.seq, emit. cbn [bind]. rewrite K. reflexivity.
Qed.
Lemma get_user : forall c w, get_cons c w = Ok UserC -> nth_error (w_conss w) c = Some UserC.
Proof. intros c w H. unfold get_cons, at_ in H. destruct (nth_error (w_conss w) c); inversion H. reflexivity. Qed.
Lemma get_not_user : forall c w o, get_cons c w = Ok o -> o <> UserC -> forall e, (e = EvStreamComplete c \/ e = EvStreamAborted c) -> tells_end w e = false.
Proof. intros c w o H N e E. unfold get_cons, at_ in H. destruct (nth_error (w_conss w) c) as [x|] eqn:Q; inversion H; subst. destruct E; subst; cbn; rewrite Q; destruct o; congruence. Qed.
Lemma put_cons_users : forall c o x w, get_cons c w = Ok o -> is_user x = is_user o -> users (mkW (w_stations w) (w_parsers w) (upd c x (w_conss w)) (w_engines w)) = users w.
Proof.
  intros c o x w H E. unfold users. cbn [w_conss]. unfold get_cons, at_ in H. destruct (nth_error (w_conss w) c) as [y|] eqn:Q; inversion H; subst.
  exact (upd_map _ _ is_user c x o _ Q E).
Qed.
(** [plain] at one world *)
Lemma tail_first : forall w e a ra, tells_end w e = false -> tail w a ra -> tail w (World.seq (emit e) a) (rbind (rlift (emit e)) (fun _ => ra)).
Proof.
  intros w e a ra N T tr w' t' E. apply seq_inv in E. destruct E as (w1 & t1 & t2 & E1 & E2 & ->). inversion E1; subst.
  unfold tailed, rbind, rlift, emit. cbn [r_w r_t]. rewrite (T (tr ++ [e]) _ _ E2), <- app_assoc. destruct t2 as [|x t2].
  - rewrite plain_end by apply plain_nil. unfold end_code. cbn [app rev]. rewrite N. reflexivity.
  - rewrite end_app by discriminate. reflexivity.
Qed.
Lemma tail_complete : forall w c, tail w (cons_complete c) (rcons_complete react inner c).
Proof.
  intros w c. apply tail_emit_ask. intros o G. pose proof (fun N => get_not_user c w o G N) as NU. destruct o as [e cb|co i n off cb|].
  - apply tail_first; [apply NU; [discriminate|auto]|]. apply tail_ask. intros [e'|] _; [|apply tail_skip]. apply tail_ask. intros l _.
    apply tail_seq. intros w1 t1 E. inversion E; subst. split; [apply plain_nil|]. split; [reflexivity|].
    apply tail_seq. intros w2 t2 E2. unfold puts in E2. apply print_inv in E2. destruct E2 as [-> ->]. split; [apply (plain_last []); reflexivity|]. split; [reflexivity|].
    apply tail_seq. intros w2 t2 E2. unfold print_res in E2. apply ask_inv in E2. destruct E2 as (x & _ & E2). apply print_inv in E2. destruct E2 as [-> ->]. split; [apply (plain_last []); reflexivity|]. split; [reflexivity|].
    apply tail_seq. intros w2 t2 E2. apply print_inv in E2. destruct E2 as [-> ->]. split; [apply (plain_last []); reflexivity|]. split; [reflexivity|].
    apply tail_ask. intros q _. apply tail_when. intros cb' _. apply tail_call. reflexivity.
  - apply tail_first; [apply NU; [discriminate|auto]|]. apply tail_seq. intros w1 t1 E. inversion E; subst. split; [apply plain_nil|].
    split; [eapply put_cons_users; [exact G|reflexivity]|]. apply tail_ask. intros q _. apply tail_when. intros cb' _. apply tail_call. reflexivity.
  - intros tr w' t' E. apply seq_inv in E. destruct E as (w1 & t1 & t2 & E1 & E2 & ->). inversion E1; inversion E2; subst. rewrite app_nil_r.
    apply tail_call; [|reflexivity]. cbn. rewrite (get_user _ _ G). reflexivity.
Qed.
Lemma tail_aborted : forall w c, tail w (cons_aborted c) (rcons_aborted react inner c).
Proof.
  intros w c. apply tail_emit_ask. intros o G. pose proof (fun N => get_not_user c w o G N) as NU. destruct o as [e cb|co i n off cb|].
  - apply tail_first; [apply NU; [discriminate|auto]|]. apply tail_ask. intros q _. apply tail_when. intros cb' _. apply tail_call. reflexivity.
  - apply tail_first; [apply NU; [discriminate|auto]|]. apply tail_seq. intros w1 t1 E. inversion E; subst. split; [apply plain_nil|].
    split; [eapply put_cons_users; [exact G|reflexivity]|]. apply tail_ask. intros q _. apply tail_when. intros cb' _. apply tail_call. reflexivity.
  - intros tr w' t' E. apply seq_inv in E. destruct E as (w1 & t1 & t2 & E1 & E2 & ->). inversion E1; inversion E2; subst. rewrite app_nil_r.
    apply tail_call; [|reflexivity]. cbn. rewrite (get_user _ _ G). reflexivity.
Qed.

Lemma when_complete : forall w q, tail w (when_some q cons_complete) (rwhen_some q (rcons_complete react inner)).
Proof. intros. apply tail_when. intros. apply tail_complete. Qed.
Lemma when_aborted : forall w q, tail w (when_some q cons_aborted) (rwhen_some q (rcons_aborted react inner)).
Proof. intros. apply tail_when. intros. apply tail_aborted. Qed.

(** lines are handed over without user code *)
Lemma consume_users : forall c s k v w w' t, cons_consume lw c s k v w = Ok (w', t) -> users w' = users w.
Proof.
  intros c s k v w w' t H. unfold cons_consume in H. destruct (emit_ask _ _ _ _ _ _ _ H) as (o & t1 & G & K & ->). destruct o as [e cb|co i n off cb|].
  - unfold loco_consume in K. apply ask_inv in K. destruct K as ([e'|] & _ & K); [|inversion K; reflexivity].
    apply ask_inv in K. destruct K as (l & _ & K). apply ask_inv in K. destruct K as (l' & _ & K). inversion K; reflexivity.
  - unfold list_consume in K. apply ask_inv in K. destruct K as ([|] & _ & K).
    + destruct (findFirstFreeEntry i); [|inversion K; reflexivity]. apply ask_inv in K. destruct K as (x & _ & K). apply seq_inv in K. destruct K as (w1 & x1 & x2 & E1 & K & _).
      inversion E1; subst. apply ask_inv in K. destruct K as (y & _ & K). inversion K; subst. eapply put_cons_users; [exact G|reflexivity].
    + apply ask_inv in K. destruct K as ([|] & _ & K).
      * apply ask_inv in K. destruct K as ([|] & _ & K); [|inversion K; reflexivity]. apply ask_inv in K. destruct K as (y & _ & K). inversion K; subst. eapply put_cons_users; [exact G|reflexivity].
      * apply ask_inv in K. destruct K as (y & _ & K). inversion K; reflexivity.
  - inversion K; reflexivity.
Qed.
Section Message.
Variable w0 : world.
Variable p : nat.
Variable who : option nat.
Definition calmly (w : world) : Prop := users w = users w0 /\ exists sp, lib_at w p sp /\ tp_cons (sp_text sp) = who.
Notation outq := (out calmly eq).
Lemma calmly_wt : forall w sp t t', tp_cons t' = tp_cons t -> calmly (wt w p sp t) -> calmly (wt w p sp t').
Proof.
  intros w sp t t' E (U & q & L & Q). split; [exact U|]. unfold lib_at, wt in *. cbn [w_parsers] in *.
  assert (I : (p < List.length (w_parsers w))%nat).
  { rewrite <- (upd_len _ p (LibP (mkSP (sp_state sp) (sp_remaining sp) t (sp_crc sp) (sp_cons sp)))). apply nth_error_Some. rewrite L. discriminate. }
  rewrite nth_upd_in in L by exact I. inversion L; subst. eexists. rewrite nth_upd_in by exact I. split; [reflexivity|]. cbn [sp_text] in *. congruence.
Qed.
Lemma user_same : forall w c, users w = users w0 -> user_consumer w c -> user_consumer w0 c.
Proof.
  intros w c U H. pose proof (f_equal (fun l => nth_error l c) U) as E. unfold users in E. rewrite !nth_error_map in E. unfold user_consumer in *. rewrite H in E.
  destruct (nth_error (w_conss w0) c) as [[| |]|]; try discriminate. reflexivity.
Qed.
Hypothesis quiet : forall c, who = Some c -> quiet_consumer react w0 c.
Lemma calmly_consume : forall w sp t0 c s k v w' t tr, inside w p -> tp_cons t0 = Some c -> calmly (wt w p sp t0) -> cons_consume lw c s k v (wt w p sp t0) = Ok (w', t) ->
  outq (rcons_consume lw react inner c s k v (mkR (wt w p sp t0) tr)) tt w' tr t.
Proof.
  intros w sp t0 c s k v w' t tr I TC G H. pose proof (consume_users _ _ _ _ _ _ _ H) as U. pose proof (proj2 (consume_other lw _ _ _ _ _ _ _ 0%nat sp_new tp_new H)) as PS.
  destruct G as (U0 & q & L & Q). split; [split; [congruence|]; exists q; split; [unfold lib_at in *; congruence|exact Q]|]. exists t. split; [reflexivity|].
  assert (W : who = Some c). { unfold lib_at, wt in L. cbn [w_parsers] in L. rewrite nth_upd_in in L by exact I. inversion L; subst. cbn [sp_text] in *. congruence. }
  unfold cons_consume in H. destruct (emit_ask _ _ _ _ _ _ _ H) as (o & t1 & F & K & ->). unfold rcons_consume, rbind at 1, rask. cbn [r_w]. rewrite F. destruct o as [e cb|co i n off cb|].
  - unfold rbind, rlift, emit. cbn [r_w r_t]. rewrite K, <- app_assoc. reflexivity.
  - unfold rbind, rlift, emit. cbn [r_w r_t]. rewrite K, <- app_assoc. reflexivity.
  - inversion K; subst. unfold ucall, rbind, rlift, emit. cbn [r_w r_t]. destruct (quiet c W) as [N|R]; [|rewrite R; apply inner_ret].
    destruct N. eapply user_same; [exact U0|]. apply get_user. exact F.
Qed.
Lemma rule_in : forall A (r : ract A) x w tr w' t, outq (r (mkR w tr)) x w' tr t -> r (mkR w tr) = (Ok x, mkR w' (tr ++ t)).
Proof. intros A r x w tr w' t (_ & t' & <- & E). exact E. Qed.
End Message.

Lemma tail_message : forall w p sp d, lib_at w p sp -> tp_cons (sp_text sp) = sp_cons sp -> (forall c, sp_cons sp = Some c -> quiet_consumer react w c) ->
  in_progress sp = true -> ~ malformed sp d -> tail w (lib_addMessage lw p d) (rlib_addMessage lw react inner p d).
Proof.
  intros w p sp d LA TCS QC IP MF. unfold lib_addMessage, rlib_addMessage. apply tail_ask. intros sp0 G.
  assert (sp0 = sp). { pose proof (proj1 (lib_get _ _ _ LA)) as X. rewrite G in X. inversion X. reflexivity. } subst sp0.
  destruct (get_lib_inside _ _ _ G) as [I _]. unfold malformed in MF. unfold in_progress in IP. destruct (sp_state sp) eqn:ST; try discriminate.
  - replace ((dlc d =? 6) || (dlc d =? 7)) with true by (symmetry; apply orb_true_iff; destruct (Z.eq_dec (dlc d) 6); [left; lia|right; lia]).
    cbv zeta. cbn [sp_remaining sp_text sp_crc sp_cons]. intros tr w' t' E. unfold tailed. rewrite put_then. destruct (header_length d >? 0).
    + inversion E; subst. rewrite plain_end by apply plain_nil. rewrite inner_ret, app_nil_r.
      pose proof (put_state unit w p (mkSP SS_FIRST (header_length d) (sp_text sp) (crc_loadReference (sp_crc sp) (header_crc d)) (sp_cons sp)) SS_DATA tr (rret tt) I) as Q.
      unfold rbind at 1 in Q. cbn [sp_remaining sp_text sp_crc sp_cons] in Q.
      match type of Q with (match ?x with _ => _ end) = _ => destruct x as [[[]|u] s'] eqn:X end; [|discriminate]. unfold rret in Q. inversion Q; subst. reflexivity.
    + apply put_lib_seq' in E. rewrite (put_state unit w p) by exact I. cbn [sp_remaining sp_text sp_crc sp_cons]. rewrite get_put by exact I. cbn [sp_cons].
      eapply when_complete in E. unfold tailed in E. rewrite E. erewrite (end_users w); reflexivity.
  - replace (negb (dlc d =? 8)) with false by (symmetry; apply negb_false_iff; lia).
    intros tr w' t' E. unfold tailed. apply ask_inv in E. destruct E as (crc & C & E). apply ask_inv in E. destruct E as ([t1 evs] & T & E). cbn [fst snd] in E.
    apply put_lib_seq' in E. apply seq_inv in E. destruct E as (w1 & x1 & x2 & E1 & E2 & ->).
    erewrite then_val by exact C. rewrite put_then.
    destruct (message_text lw (calmly w p (sp_cons sp)) eq eq_refl (f_equal2 (@app event)) react inner p (calmly_wt w p (sp_cons sp))
      (calmly_consume w p (sp_cons sp) QC) w sp d crc t1 evs w1 x1 tr I ST T) as (K & L & S2); [|exact E1|].
    { split; [reflexivity|]. eexists. unfold lib_at, wt. cbn [w_parsers]. rewrite upd_twice. rewrite nth_upd_in by exact I. split; [reflexivity|exact TCS]. }
    set (spX := mkSP SS_DATA (u32 (sp_remaining sp - dlc d)) t1 crc (sp_cons sp)) in *.
    assert (U1 : users w1 = users w). { rewrite <- S2. destruct K as ((U & _) & _). exact U. }
    unfold rbind at 1. rewrite (rule_in _ _ _ _ _ _ _ _ _ _ K). rewrite get_put by exact L. unfold spX at 1. cbn [sp_remaining].
    assert (P1 : forall x, plain x1 -> end_code react w tr (x1 ++ x) = end_code react w (tr ++ x1) x).
    { intros [|y x] P; [rewrite app_nil_r; rewrite !plain_end by (exact P || apply plain_nil); reflexivity|]. rewrite end_app by discriminate. reflexivity. }
    assert (PX : plain x1). { clear - E1 evs. destruct (tp_cons (sp_text sp)) as [c|]; [|inversion E1; apply plain_nil]. cbn [told when_some] in E1. revert E1. generalize (mkW (w_stations w) (upd p (LibP spX) (w_parsers w)) (w_conss w) (w_engines w)). revert x1.
      induction evs as [|[[s k] v] l IH]; intros x1 w2 H; [inversion H; apply plain_nil|]. cbn [cons_consume_all] in H. apply seq_inv in H. destruct H as (w3 & y1 & y2 & E1 & E2 & ->).
      apply IH in E2. destruct y2 as [|y y2]; [rewrite app_nil_r|].
      - clear - E1. unfold cons_consume in E1. apply seq_inv in E1. destruct E1 as (wa & ya & yb & Ea & Eb & ->). inversion Ea; subst. apply ask_inv in Eb. destruct Eb as (o & _ & Eb).
        assert (Q : yb = [] \/ exists bs, yb = [EvPrint bs]).
        { destruct o as [e cb|co i n off cb|].
          - unfold loco_consume in Eb. apply ask_inv in Eb. destruct Eb as ([e'|] & _ & Eb); [|inversion Eb; auto]. apply ask_inv in Eb. destruct Eb as (l0 & _ & Eb). apply ask_inv in Eb. destruct Eb as (l' & _ & Eb). inversion Eb; auto.
          - unfold list_consume in Eb. apply ask_inv in Eb. destruct Eb as ([|] & _ & Eb).
            + destruct (findFirstFreeEntry i); [|inversion Eb; eauto]. apply ask_inv in Eb. destruct Eb as (x & _ & Eb). apply seq_inv in Eb. destruct Eb as (wb & z1 & z2 & Ec & Eb & ->).
              inversion Ec; subst. apply ask_inv in Eb. destruct Eb as (yy & _ & Eb). inversion Eb; subst. right. eexists. reflexivity.
            + apply ask_inv in Eb. destruct Eb as ([|] & _ & Eb).
              * apply ask_inv in Eb. destruct Eb as ([|] & _ & Eb); [|inversion Eb; auto]. apply ask_inv in Eb. destruct Eb as (yy & _ & Eb). inversion Eb; auto.
              * apply ask_inv in Eb. destruct Eb as (yy & _ & Eb). inversion Eb; eauto.
          - inversion Eb; auto. }
        destruct Q as [-> | (bs & ->)]; [apply (plain_last []); reflexivity|apply (plain_last [_]); reflexivity].
      - intros wx e l0 R. rewrite rev_app_distr in R. destruct (rev (y :: y2)) as [|z zs] eqn:RZ; [apply (f_equal (@List.length event)) in RZ; rewrite rev_length in RZ; discriminate|].
        cbn in R. inversion R; subst. eapply E2. exact RZ. }
    rewrite (P1 x2 PX), app_assoc. clear K.
    destruct (u32 (sp_remaining sp - dlc d) =? 0) eqn:Z0.
    + apply ask_inv in E2. destruct E2 as (valid & V & E2). cbn [sp_crc spX]. erewrite then_val by exact V. destruct valid.
      * apply put_lib_seq' in E2. rewrite (put_state unit w1 p) by exact L. unfold spX at 1 2 3 4. cbn [sp_remaining sp_text sp_crc sp_cons]. rewrite get_put by exact L. cbn [sp_cons].
        eapply when_complete in E2. unfold tailed in E2. rewrite E2. erewrite (end_users w); [reflexivity|exact U1].
      * apply put_lib_seq' in E2. rewrite (put_state unit w1 p) by exact L. unfold spX at 1 2 3 4. cbn [sp_remaining sp_text sp_crc sp_cons]. rewrite get_put by exact L. cbn [sp_cons].
        eapply when_aborted in E2. unfold tailed in E2. rewrite E2. erewrite (end_users w); [reflexivity|exact U1].
    + inversion E2; subst. rewrite S2. rewrite plain_end by apply plain_nil. rewrite inner_ret, app_nil_r. reflexivity.
Qed.
End Tail.

(** ** Frames handed over through a station *)
Section Over.
Variable lw : Z.
Variable react : list event -> code.
Variable inner : code -> ract unit.
Hypothesis inner_ret : forall s, inner Ret s = (Ok tt, s).
Notation tail := (tail react inner).
Lemma tail_cfg : forall w p sp d, lib_at w p sp -> tp_cons (sp_text sp) = sp_cons sp -> (forall c, sp_cons sp = Some c -> quiet_consumer react w c) ->
  in_progress sp = true -> ~ malformed sp d -> tail w (cfg_call lw p (CAdd d)) (rcfg_call lw react inner p (CAdd d)).
Proof.
  intros w p sp d L T Q I M. unfold cfg_call, rcfg_call. apply tail_emit_ask. intros o G.
  assert (o = LibP sp) by (rewrite (proj2 (lib_get _ _ _ L)) in G; inversion G; reflexivity). subst o.
  apply tail_first; [reflexivity|]. eapply tail_message; eassumption.
Qed.
Lemma tail_stream : forall w p sp d s st, lib_at w p sp -> tp_cons (sp_text sp) = sp_cons sp -> (forall c, sp_cons sp = Some c -> quiet_consumer react w c) ->
  in_progress sp = true -> ~ malformed sp d -> nth_error (w_stations w) s = Some st -> cb_cfg (st_cbs st) = Some p ->
  tail w (st_handleConfigDataStream lw s d) (rst_handleConfigDataStream lw react inner s d).
Proof.
  intros w p sp d s st L T Q I M S C. unfold st_handleConfigDataStream, rst_handleConfigDataStream. apply tail_ask. intros st' G.
  assert (st' = st) by (unfold get_station, at_ in G; rewrite S in G; inversion G; reflexivity). subst st'. apply tail_ask. intros target G2.
  rewrite C in G2. unfold cfg_isProcessing in G2. rewrite (proj2 (lib_get _ _ _ L)) in G2. cbn [bind] in G2.
  assert (P : ss_processing (pobj_state (LibP sp)) = true) by (unfold in_progress in I; cbn; destruct (sp_state sp); try discriminate; reflexivity).
  rewrite P in G2. inversion G2; subst. eapply tail_cfg; eassumption.
Qed.
Lemma tail_over : forall w o p sp d, hands_over w o p d -> lib_at w p sp -> usable sp -> (forall c, sp_cons sp = Some c -> quiet_consumer react w c) ->
  in_progress sp = true -> ~ malformed sp d -> tail w (step lw o) (rstep lw react inner o).
Proof.
  intros w o p sp d H L (a & _ & U) Q I M. assert (T : tp_cons (sp_text sp) = sp_cons sp) by (rewrite U; reflexivity).
  destruct H as [ -> | (s1 & st1 & S1 & C1 & [ -> | (f & -> & E & J) ])].
  - eapply tail_message; eassumption.
  - eapply tail_stream; eassumption.
  - cbn [step st_step rstep rst_step]. unfold st_handlePacket, rst_handlePacket. cbv zeta. rewrite J. cbn -[rst_handleConfigDataStream st_handleConfigDataStream]. rewrite E. eapply tail_stream; eassumption.
Qed.
(** finishing when nothing is in progress *)
Lemma finish_calm : forall w s st p sp t w' t', nth_error (w_stations w) s = Some st -> cb_cfg (st_cbs st) = Some p -> lib_at w p sp -> in_progress sp = false ->
  st_finish lw s w = Ok (w', t') -> rst_finish lw react inner s (mkR w t) = (Ok tt, mkR w' (t ++ t')).
Proof.
  intros w s st p sp t w' t' S C L I H. unfold st_finish in H. apply ask_inv in H. destruct H as (st' & G & H).
  assert (st' = st) by (unfold get_station, at_ in G; rewrite S in G; inversion G; reflexivity). subst st'. rewrite C in H. cbn [when_some] in H.
  apply seq_inv in H. destruct H as (w1 & t1 & t2 & H1 & H2 & ->). unfold cfg_call in H1. destruct (emit_ask _ _ _ _ _ _ _ H1) as (o & t0 & G1 & K & ->).
  assert (o = LibP sp) by (rewrite (proj2 (lib_get _ _ _ L)) in G1; inversion G1; reflexivity). subst o.
  unfold lib_reset in K. apply ask_inv in K. destruct K as (sp' & G2 & K). rewrite (proj1 (lib_get _ _ _ L)) in G2. inversion G2; subst sp'.
  assert (P : ss_processing (sp_state sp) = false) by (unfold in_progress in I; destruct (sp_state sp); try discriminate; reflexivity). rewrite P in K.
  apply seq_inv in K. destruct K as (w2 & t3 & t4 & K1 & K2 & ->). inversion K1; subst. apply ask_inv in K2. destruct K2 as (sp' & G3 & K2). rewrite (proj1 (lib_get _ _ _ L)) in G3. inversion G3; subst sp'.
  apply ask_inv in K2. destruct K2 as (tx & T & K2). inversion K2; subst.
  unfold rst_finish, rbind at 1, rask at 1. cbn [r_w]. rewrite G, C. cbn [rwhen_some]. unfold rcfg_call. unfold rbind at 1, rbind at 1, rask at 1. cbn [r_w]. rewrite (proj2 (lib_get _ _ _ L)).
  unfold rbind at 1. unfold rlift at 1, emit at 1. cbn [r_w r_t]. unfold rlib_reset. unfold rbind at 1, rask at 1. cbn [r_w]. rewrite (proj1 (lib_get _ _ _ L)), P.
  unfold rbind at 1, rret at 1. unfold rbind at 1, rask at 1. cbn [r_w]. rewrite (proj1 (lib_get _ _ _ L)). unfold rbind at 1, rval at 1, rask at 1. rewrite T.
  unfold rlift at 1, put_lib at 1, put_parser at 1. cbn [r_w r_t]. apply ask_inv in H2. destruct H2 as (st' & G4 & H2). unfold rbind at 1, rask at 1. cbn [r_w]. rewrite G4.
  inversion H2; subst. unfold rlift, put_station. cbn [r_w r_t]. rewrite !app_nil_r. reflexivity.
Qed.
End Over.

Lemma rexec_ret : forall lw react n s, rexec lw react n Ret s = (Ok tt, s).
Proof. intros lw react [|n] [w t]; reflexivity. Qed.
Lemma end_last : forall lw react n w t o k p d sp w' t',
  hands_over w o p d -> lib_at w p sp -> usable sp -> in_progress sp = true -> ~ malformed sp d -> (forall c, sp_cons sp = Some c -> quiet_consumer react w c) ->
  step lw o w = Ok (w', t') ->
  rexec lw react (S n) (Call o k) (mkR w t) = (rexec lw react n (end_code react w t t') ~;; continue_with lw react (S n) k) (mkR w' (t ++ t')).
Proof.
  intros lw react n w t o k p d sp w' t' H L U I M Q E. pose proof (tail_over lw react (rexec lw react n) (rexec_ret lw react n) w o p sp d H L U Q I M t w' t' E) as T.
  change (rexec lw react (S n) (Call o k)) with (rstep lw react (rexec lw react n) o ~;; (fun s => rexec lw react (S n) (k (r_w s) (r_t s)) s)).
  unfold rbind at 1. unfold tailed in T. rewrite T. reflexivity.
Qed.
Lemma over_inv : forall lw w o p d sp w' t', hands_over w o p d -> lib_at w p sp -> in_progress sp = true -> step lw o w = Ok (w', t') ->
  exists sp', lib_at w' p sp' /\ w_stations w' = w_stations w /\ (ends t' <> [] -> in_progress sp' = false).
Proof.
  intros lw w o p d sp w' t' H L I E.
  assert (K : exists t0, lib_addMessage lw p d w = Ok (w', t0) /\ ends t' = ends t0).
  { assert (C : forall x, cfg_call lw p (CAdd d) w = Ok (w', x) -> exists t0, lib_addMessage lw p d w = Ok (w', t0) /\ ends x = ends t0).
    { intros x C. unfold cfg_call in C. destruct (emit_ask _ _ _ _ _ _ _ C) as (ob & t0 & G & K & ->). rewrite (proj2 (lib_get _ _ _ L)) in G. inversion G; subst ob.
      exists t0. split; [exact K|reflexivity]. }
    assert (S : forall s st x, nth_error (w_stations w) s = Some st -> cb_cfg (st_cbs st) = Some p -> st_handleConfigDataStream lw s d w = Ok (w', x) -> cfg_call lw p (CAdd d) w = Ok (w', x)).
    { intros s st x S1 C1 X. unfold st_handleConfigDataStream in X. apply ask_inv in X. destruct X as (st' & G & X). unfold get_station, at_ in G. rewrite S1 in G. inversion G; subst st'.
      apply ask_inv in X. destruct X as (tg & G2 & X). rewrite C1 in G2. unfold cfg_isProcessing in G2. rewrite (proj2 (lib_get _ _ _ L)) in G2. cbn [bind] in G2.
      assert (P : ss_processing (pobj_state (LibP sp)) = true) by (unfold in_progress in I; cbn; destruct (sp_state sp); try discriminate; reflexivity).
      rewrite P in G2. inversion G2; subst. exact X. }
    destruct H as [ -> | (s1 & st1 & S1 & C1 & [ -> | (f & -> & F & J) ])].
    - exists t'. split; [exact E|reflexivity].
    - apply C. eapply S; eassumption.
    - apply C. cbn [step st_step] in E. unfold st_handlePacket in E. cbv zeta in E. rewrite J in E. cbn -[st_handleConfigDataStream] in E. rewrite F in E. eapply S; eassumption. }
  destruct K as (t0 & K & EE). destruct (add_inv _ _ _ _ _ _ _ L K) as (sp' & e & A & P & S & N). exists sp'. split; [|split; [exact S|]].
  - unfold lib_at. rewrite P. eapply lib_upd. exact L.
  - intros NE. rewrite EE, N in NE. destruct A; try congruence; cbn; try reflexivity. unfold in_progress. destruct valid; reflexivity.
Qed.
Lemma finish_at_end : forall lw react n w t o o' s st p d sp w' t' w2 t2,
  hands_over w o p d -> lib_at w p sp -> usable sp -> in_progress sp = true -> ~ malformed sp d -> (forall c, sp_cons sp = Some c -> quiet_consumer react w c) ->
  nth_error (w_stations w) s = Some st -> cb_cfg (st_cbs st) = Some p ->
  step lw o w = Ok (w', t') -> ends t' <> [] -> end_code react w t t' = Call o' done -> finishes s o' -> run lw [o; o'] w = Ok (w2, t2) ->
  rexec lw react (S (S n)) (Call o done) (mkR w t) = (Ok tt, mkR w2 (t ++ t2)).
Proof.
  intros lw react n w t o o' s st p d sp w' t' w2 t2 H L U I M Q S C E NE EC F R.
  rewrite (end_last lw react (Datatypes.S n) w t o done p d sp w' t' H L U I M Q E), EC.
  destruct (over_inv _ _ _ _ _ _ _ _ H L I E) as (sp' & L' & S' & N).
  cbn [run] in R. apply seq_inv in R. destruct R as (w1 & t1 & t3 & R1 & R2 & ->). rewrite E in R1. inversion R1; subst w1 t1. apply seq_inv in R2. destruct R2 as (w3 & t4 & t5 & R2 & R3 & ->). inversion R3; subst.
  assert (FS : st_finish lw s w' = Ok (w2, t4)) by (destruct F as [ -> | [ -> | -> ]]; exact R2).
  assert (K : rstep lw react (rexec lw react n) o' (mkR w' (t ++ t')) = (Ok tt, mkR w2 ((t ++ t') ++ t4))).
  { assert (K : rst_finish lw react (rexec lw react n) s (mkR w' (t ++ t')) = (Ok tt, mkR w2 ((t ++ t') ++ t4))).
    { eapply finish_calm; [rewrite S'; exact S|exact C|exact L'|apply N; exact NE|exact FS]. }
    destruct F as [ -> | [ -> | -> ]]; exact K. }
  change (rexec lw react (Datatypes.S n) (Call o' done)) with (rstep lw react (rexec lw react n) o' ~;; (fun s => rexec lw react (Datatypes.S n) (done (r_w s) (r_t s)) s)).
  unfold rbind. rewrite K. unfold done at 1. rewrite rexec_ret. unfold continue_with, done. rewrite rexec_ret. rewrite app_nil_r, app_assoc. reflexivity.
Qed.

(** ** What remains after an abort *)
Lemma put_lib_last : forall p sp w w' t, get_lib p w = Ok sp -> forall x, put_lib p x w = Ok (w', t) -> lib_at w' p x.
Proof. intros p sp w w' t G x H. inversion H; subst. unfold lib_at. cbn [w_parsers]. apply nth_upd_in. apply (get_lib_inside _ _ _ G). Qed.
Notation gone := idle.
Lemma bind_inv : forall A B (a : ract A) (f : A -> ract B) s x s', rbind a f s = (Ok x, s') -> exists y s1, a s = (Ok y, s1) /\ f y s1 = (Ok x, s').
Proof. intros A B a f s x s' H. unfold rbind in H. destruct (a s) as [[y|u] s1] eqn:E; [exists y, s1; auto|discriminate]. Qed.
Lemma reset_gone : forall react inner p s s', rlib_reset react inner p s = (Ok tt, s') -> gone (r_w s') p.
Proof.
  intros react inner p s s' H. unfold rlib_reset in H. apply bind_inv in H. destruct H as (sp & s1 & _ & H). apply bind_inv in H. destruct H as ([] & s2 & _ & H).
  apply bind_inv in H. destruct H as (sp2 & s3 & H3 & H). unfold rask in H3. inversion H3; subst. apply bind_inv in H. destruct H as (tx & s4 & H4 & H). unfold rval, rask in H4. inversion H4; subst.
  unfold rlift in H. destruct (put_lib p _ (r_w s4)) as [[w' t']|] eqn:E; inversion H; subst. eexists. split; [eapply put_lib_last; [exact H1|exact E]|]. split; reflexivity.
Qed.
Lemma cfg_reset_gone : forall lw react inner p s s', (exists sp, get_parser p (r_w s) = Ok (LibP sp)) -> rcfg_call lw react inner p CReset s = (Ok tt, s') -> gone (r_w s') p.
Proof.
  intros lw react inner p s s' (sp & G) H. unfold rcfg_call in H. apply bind_inv in H. destruct H as (o & s1 & H1 & H). unfold rask in H1. inversion H1; subst. rewrite G in H2. inversion H2; subst o.
  apply bind_inv in H. destruct H as ([] & s2 & _ & H). exact (reset_gone _ _ _ _ _ H).
Qed.
Lemma finish_gone : forall lw react inner s st p x s', nth_error (w_stations (r_w x)) s = Some st -> cb_cfg (st_cbs st) = Some p -> (exists sp, get_parser p (r_w x) = Ok (LibP sp)) ->
  rst_finish lw react inner s x = (Ok tt, s') -> gone (r_w s') p /\ no_request (r_w s') s.
Proof.
  intros lw react inner s st p x s' S C P H. unfold rst_finish in H. apply bind_inv in H. destruct H as (st0 & s1 & H1 & H). unfold rask, get_station, at_ in H1. rewrite S in H1. inversion H1; subst.
  rewrite C in H. cbn [rwhen_some] in H. apply bind_inv in H. destruct H as ([] & s2 & H2 & H). apply (cfg_reset_gone _ _ _ _ _ _ P) in H2.
  apply bind_inv in H. destruct H as (st1 & s3 & H3 & H). unfold rask in H3. inversion H3; subst. unfold rlift, put_station in H. inversion H; subst. cbn [r_w w_parsers w_stations]. split; [exact H2|].
  exists (set_cfg st1 None). split; [|reflexivity]. apply nth_upd_in. unfold get_station, at_ in H4. destruct (nth_error (w_stations (r_w s3)) s) eqn:E; [|discriminate]. apply nth_error_Some. rewrite E. discriminate.
Qed.
Lemma message_gone : forall lw react inner p sp d s s', get_lib p (r_w s) = Ok sp -> malformed sp d -> rlib_addMessage lw react inner p d s = (Ok tt, s') -> gone (r_w s') p.
Proof.
  intros lw react inner p sp d s s' G M H. unfold rlib_addMessage in H. apply bind_inv in H. destruct H as (sp0 & s1 & H1 & H). unfold rask in H1. rewrite G in H1. inversion H1; subst sp0 s1.
  unfold malformed in M. destruct (sp_state sp); try contradiction.
  - replace ((dlc d =? 6) || (dlc d =? 7)) with false in H by (destruct M; symmetry; apply orb_false_iff; lia).
    destruct (dlc d >=? 8); apply bind_inv in H; destruct H as ([] & s2 & _ & H); exact (reset_gone _ _ _ _ _ H).
  - replace (negb (dlc d =? 8)) with true in H by (symmetry; apply negb_true_iff; lia). apply bind_inv in H; destruct H as ([] & s2 & _ & H); exact (reset_gone _ _ _ _ _ H).
Qed.
Lemma stream_gone : forall lw react inner w p sp d t s st s', lib_at w p sp -> malformed sp d -> nth_error (w_stations w) s = Some st -> cb_cfg (st_cbs st) = Some p ->
  rst_handleConfigDataStream lw react inner s d (mkR w t) = (Ok tt, s') -> gone (r_w s') p.
Proof.
  intros lw react inner w p sp d t s st s' L M S C H. unfold rst_handleConfigDataStream in H. apply bind_inv in H. destruct H as (st0 & s1 & H1 & H). unfold rask, get_station, at_ in H1. cbn [r_w] in H1. rewrite S in H1. inversion H1; subst st0 s1.
  apply bind_inv in H. destruct H as (tg & s2 & H2 & H). unfold rask in H2. rewrite C in H2. unfold cfg_isProcessing in H2. cbn [r_w] in H2. rewrite (proj2 (lib_get _ _ _ L)) in H2. cbn [bind] in H2.
  assert (P : ss_processing (pobj_state (LibP sp)) = true) by (unfold malformed in M; cbn; destruct (sp_state sp); try contradiction; reflexivity). rewrite P in H2. inversion H2; subst.
  unfold rcfg_call in H. apply bind_inv in H. destruct H as (o & s3 & H3 & H). unfold rask in H3. cbn [r_w] in H3. rewrite (proj2 (lib_get _ _ _ L)) in H3. inversion H3; subst.
  apply bind_inv in H. destruct H as ([] & s4 & H4 & H). unfold rlift, emit in H4. inversion H4; subst. eapply message_gone; [|exact M|exact H]. cbn [r_w]. apply lib_get. exact L.
Qed.
Lemma abort_gone : forall lw react n w s st p sp t o s', nth_error (w_stations w) s = Some st -> cb_cfg (st_cbs st) = Some p -> lib_at w p sp ->
  finishes s o \/ o = ParserReset p \/ (exists d, hands_over w o p d /\ malformed sp d) ->
  rexec lw react n (Call o done) (mkR w t) = (Ok tt, s') ->
  gone (r_w s') p /\ (finishes s o -> no_request (r_w s') s).
Proof.
  intros lw react [|n] w s st p sp t o s' S C L A H; [discriminate|].
  change (rexec lw react (Datatypes.S n) (Call o done)) with (rstep lw react (rexec lw react n) o ~;; (fun s => rexec lw react (Datatypes.S n) (done (r_w s) (r_t s)) s)) in H.
  apply bind_inv in H. destruct H as ([] & s1 & H & H2). unfold done in H2. rewrite rexec_ret in H2. inversion H2; subst s1. clear H2.
  destruct A as [F|[ -> | (d & HO & M)]].
  - assert (K : rst_finish lw react (rexec lw react n) s (mkR w t) = (Ok tt, s')) by (destruct F as [ -> | [ -> | -> ]]; exact H).
    destruct (finish_gone _ _ _ s st p (mkR w t) s' S C (ex_intro _ sp (proj2 (lib_get _ _ _ L))) K). split; [assumption|]. intros _. assumption.
  - split; [exact (reset_gone _ _ _ _ _ H)|]. intros [F|[F|F]]; discriminate.
  - destruct HO as [ -> | (s1 & st1 & S1 & C1 & [ -> | (f & -> & E & J) ])].
    + split; [eapply message_gone; [exact (proj1 (lib_get _ _ _ L) : get_lib p (r_w (mkR w t)) = Ok sp)|exact M|exact H]|]. intros [F|[F|F]]; discriminate.
    + split; [eapply stream_gone; eassumption|]. intros [F|[F|F]]; discriminate.
    + split; [|intros [F|[F|F]]; discriminate]. cbn [rstep rst_step] in H. unfold rst_handlePacket in H. cbv zeta in H. rewrite J in H. cbn -[rst_handleConfigDataStream] in H. rewrite E in H. eapply stream_gone; eassumption.
Qed.

(** ** Callbacks that only send *)
Lemma ws_refl : forall a, with_sends a a.
Proof. induction a; constructor; assumption. Qed.
Lemma ws_app : forall a a' b b', with_sends a a' -> with_sends b b' -> with_sends (a ++ b) (a' ++ b').
Proof. intros a a' b b' H K. induction H; cbn [app]; [exact K|constructor; assumption|constructor; assumption]. Qed.
Definition all_tx (l : list event) : Prop := Forall (fun e => exists tx f, e = EvTx tx f) l.
Lemma ws_tx : forall e xs, all_tx xs -> with_sends [e] (e :: xs).
Proof. intros e xs H. constructor. induction H as [|x l (tx & f & ->) _ IH]; constructor; assumption. Qed.

Section Sends.
Variable lw : Z.
Variable react : list event -> code.
Variable N : nat.
Hypothesis tx_ret : forall h tx f, react (h ++ [EvTx tx f]) = Ret.
Notation ok := (fun x : Station => cb_tx (st_cbs x) <> None).
Notation good := (good ok N).
Definition txs (w : world) (b : ract unit) : Prop := forall t, exists xs, b (mkR w t) = (Ok tt, mkR w (t ++ xs)) /\ all_tx xs.
Lemma txs_ret : forall w, txs w (rret tt). Proof. intros w t. exists []. split; [rewrite app_nil_r; reflexivity|constructor]. Qed.
Lemma txs_seq : forall w a b, txs w a -> txs w b -> txs w (a ~;; b).
Proof.
  intros w a b A B t. destruct (A t) as (x1 & E1 & T1). destruct (B (t ++ x1)) as (x2 & E2 & T2). exists (x1 ++ x2). split; [|apply Forall_app; split; assumption].
  unfold rbind. rewrite E1, E2, app_assoc. reflexivity.
Qed.
Variable n : nat.
Notation inner := (rexec lw react n).
Lemma station_good : forall w s, good w -> (s < N)%nat -> exists st tx, get_station s w = Ok st /\ cb_tx (st_cbs st) = Some tx.
Proof.
  intros w s [L F] S. destruct (len_nth _ (w_stations w) s) as (st & E); [rewrite L; exact S|]. pose proof (nth_forall _ _ _ _ _ F E) as T. cbn in T.
  exists st. destruct (cb_tx (st_cbs st)) as [tx|]; [|congruence]. exists tx. split; [unfold get_station, at_; rewrite E; reflexivity|reflexivity].
Qed.
Lemma txs_tx : forall w s f, good w -> (s < N)%nat -> txs w (rtx_send react inner s f).
Proof.
  intros w s f G S t. destruct (station_good w s G S) as (st & tx & E & T). exists [EvTx tx f]. split; [|repeat constructor; eauto].
  unfold rtx_send, rbind at 1, rask. cbn [r_w]. rewrite E, T. unfold rbind at 1, rval, rask, deref. unfold ucall, rbind, rlift, emit. cbn [r_w r_t]. rewrite tx_ret. apply rexec_ret.
Qed.
Lemma txs_ask : forall w A (f : world -> res A) x k, f w = Ok x -> txs w (k x) -> txs w (rbind (rask f) k).
Proof. intros w A f x k E H t. unfold rbind, rask. cbn [r_w]. rewrite E. apply H. Qed.
Lemma txs_own : forall w s c d, good w -> (s < N)%nat -> txs w (rst_sendOwn react inner s c d).
Proof. intros w s c d G S. destruct (station_good w s G S) as (st & tx & E & T). unfold rst_sendOwn. eapply txs_ask; [exact E|]. apply txs_tx; assumption. Qed.
Lemma txs_packet : forall w s f, good w -> (s < N)%nat -> txs w (rst_sendPacket react inner s f).
Proof. intros w s f G S. destruct (station_good w s G S) as (st & tx & E & T). unfold rst_sendPacket. eapply txs_ask; [exact E|]. apply txs_tx; assumption. Qed.
Lemma txs_functions : forall m w s st u i, good w -> (s < N)%nat -> txs w (rsend_functions react inner s st u i m).
Proof. induction m; intros w s st u i G S; cbn [rsend_functions]; [apply txs_ret|]. apply txs_seq; [apply txs_tx; assumption|apply IHm; assumption]. Qed.
Lemma txs_step : forall w o, good w -> sends N o -> txs w (rstep lw react inner o).
Proof.
  intros w o G H. destruct o as [s x| | | | | | | | | | |]; try contradiction. destruct H as (S & H). destruct x; try contradiction; cbn [rstep rst_step];
    lazymatch goal with
    | |- txs _ (rst_sendOwn _ _ _ _ _) => apply txs_own; assumption
    | |- txs _ (rst_sendPacket _ _ _ _) => apply txs_packet; assumption
    | |- txs _ (rret tt) => apply txs_ret
    | |- _ => idtac
    end.
  - destruct ((direction =? DIR_FORWARD) || (direction =? DIR_REVERSE) || (direction =? DIR_CHANGE)); [apply txs_packet; assumption|apply txs_ret].
  - destruct (station_good w s G S) as (st & tx & E & T). eapply txs_ask; [exact E|]. apply txs_functions; assumption.
Qed.
End Sends.
Lemma txs_code : forall lw react N n, (forall h tx f, react (h ++ [EvTx tx f]) = Ret) ->
  forall c, only_calls (sends N) c -> forall w, good (fun x => cb_tx (st_cbs x) <> None) N w -> txs w (rexec lw react (S n) c).
Proof.
  intros lw react N n T c H. induction H as [|o k O K IH]; intros w G t.
  - exists []. split; [rewrite app_nil_r; reflexivity|constructor].
  - change (rexec lw react (S n) (Call o k)) with (rstep lw react (rexec lw react n) o ~;; (fun s => rexec lw react (S n) (k (r_w s) (r_t s)) s)).
    destruct (txs_step lw react N T n w o G O t) as (x1 & E1 & T1). unfold rbind. rewrite E1. cbn [r_w r_t].
    destruct (IH w (t ++ x1) w G (t ++ x1)) as (x2 & E2 & T2). exists (x1 ++ x2). split; [rewrite E2, app_assoc; reflexivity|apply Forall_app; split; assumption].
Qed.
Lemma sending_run : forall lw react n ops w t w' t', can_send w -> Forall keeps_sending ops ->
  (forall h, only_calls (sends (List.length (w_stations w))) (react h)) -> (forall h tx f, react (h ++ [EvTx tx f]) = Ret) ->
  run lw ops w = Ok (w', t') ->
  exists t'', with_sends t' t'' /\ rexec lw react (S (S n)) (ops_code ops) (mkR w t) = (Ok tt, mkR w' (t ++ t'')).
Proof.
  intros lw react n ops w t w' t' C K O T E.
  destruct (calm_run lw react (S n) (fun x => cb_tx (st_cbs x) <> None) (fun _ _ H => H) (fun _ => True) (fun _ _ => Logic.I) (List.length (w_stations w)) with_sends (fun a _ => ws_refl a) ws_app) with (ops := ops) (w := w) (t := t) (w' := w') (t' := t') as (_ & x & X & R).
  - intros h e [w1 t1] _ G. destruct (txs_code lw react _ n T (react (h ++ [e])) (O _) w1 G t1) as (xs & E1 & A). exists xs. split; [exact E1|]. apply ws_tx. exact A.
  - split; [reflexivity|exact C].
  - revert K. apply Forall_impl. intros o K. destruct o; try exact Logic.I. destruct o; try exact Logic.I. cbn in K |- *. auto.
  - apply Forall_forall. intros o _ st tx f _ _. exact Logic.I.
  - exact E.
  - exists x. split; [exact X|exact R].
Qed.

(** ** Callbacks that finish a bounded number of times *)
Section Many.
Variable lw : Z.
Variable react : list event -> code.
Variables s c cb limit : nat.
Hypothesis F : finishes_m_times react s c cb limit.
Notation told := (aborts_told cb c).
Definition ready (w : world) (p : nat) : Prop := downloading w s p c cb /\ exists sp, lib_at w p sp /\ usable sp.
Definition after (w : world) (p : nat) : Prop := (exists sp, lib_at w p sp /\ usable sp) /\ exists st, nth_error (w_stations w) s = Some st.
Lemma ready_after : forall w p, ready w p -> after w p.
Proof. intros w p ((st & sp & S & _) & U). split; [exact U|]. exists st. exact S. Qed.
Definition notified (n : nat) (b : ract unit) (w : world) (t : list event) (Q : world -> Prop) : Prop :=
  exists w' t', b (mkR w t) = (Ok tt, mkR w' t') /\ told t' = n /\ Q w'.
Lemma told_snoc : forall t, told (t ++ [EvEndAborted cb c]) = S (told t).
Proof. intros t. unfold aborts_told. rewrite filter_app, app_length. cbn [filter]. rewrite !Nat.eqb_refl. cbn. lia. Qed.
Lemma told_other : forall t e, (forall x y, e <> EvEndAborted x y) -> told (t ++ [e]) = told t.
Proof. intros t e H. unfold aborts_told. rewrite filter_app, app_length. destruct e; try (cbn; lia). exfalso. eapply H. reflexivity. Qed.
Lemma n_bind : forall n a (b : ract unit) w t Q R, notified n a w t Q -> (forall w1 t1, Q w1 -> told t1 = n -> notified n b w1 t1 R) -> notified n (a ~;; b) w t R.
Proof. intros n a b w t Q R (w1 & t1 & E & T & q) H. destruct (H w1 t1 q T) as (w2 & t2 & E2 & T2 & r). exists w2, t2. unfold rbind. rewrite E. auto. Qed.
Lemma n_ask : forall A n (f : world -> res A) x (k : A -> ract unit) w t R, f w = Ok x -> notified n (k x) w t R -> notified n (rbind (rask f) k) w t R.
Proof. intros A n f x k w t R E (w2 & t2 & E2 & H). exists w2, t2. unfold rbind, rask. cbn [r_w]. rewrite E. auto. Qed.
Lemma n_lift : forall n a w1 t1 (b : ract unit) w t R, a w = Ok (w1, t1) -> notified n b w1 (t ++ t1) R -> notified n (rlift a ~;; b) w t R.
Proof. intros n a w1 t1 b w t R E (w2 & t2 & E2 & H). exists w2, t2. unfold rbind, rlift. cbn [r_w r_t]. rewrite E. auto. Qed.
Lemma finish_given : forall inner p l, (forall w t, ready w p -> told t = l -> notified (S limit) (ucall react inner (EvEndAborted cb c)) w t (fun w' => after w' p)) ->
  forall w t, ready w p -> told t = l -> notified (S limit) (rst_finish lw react inner s) w t (fun w' => after w' p /\ idle w' p /\ no_request w' s).
Proof.
    intros inner p l CALL w t R L. pose proof R as ((st & sp & A1 & A2 & A3 & A4 & A5 & A6) & _).
    unfold rst_finish. eapply n_ask; [unfold get_station, at_; rewrite A1; reflexivity|]. cbv beta. rewrite A2. cbn [rwhen_some]. eapply (n_bind _ _ _ _ _ (fun w' => after w' p /\ idle w' p)).
    + unfold rcfg_call. eapply n_ask; [apply lib_get; exact A3|]. cbv beta iota. eapply n_lift; [reflexivity|]. unfold rlib_reset. eapply n_ask; [apply lib_get; exact A3|].
      eapply (n_bind _ _ _ _ _ (fun w' => after w' p)).
      * assert (P : ss_processing (sp_state sp) = true) by (unfold in_progress in A4; destruct (sp_state sp); try discriminate; reflexivity). rewrite P, A5. cbn [rwhen_some]. unfold rcons_aborted.
        destruct A6 as [(e & C)|(co & i & k & off & C)].
        -- eapply n_ask; [apply cons_get; exact C|]. cbv beta iota. eapply n_lift; [reflexivity|]. eapply n_ask; [reflexivity|]. apply CALL; [exact R|]. rewrite !told_other by discriminate. exact L.
        -- eapply n_ask; [apply cons_get; exact C|]. cbv beta iota. eapply n_lift; [reflexivity|]. eapply n_lift; [reflexivity|]. eapply n_ask; [reflexivity|]. apply CALL; [|rewrite app_nil_r, !told_other by discriminate; exact L].
           destruct R as ((st' & sp' & B1 & B2 & B3 & B4 & B5 & _) & U). split; [|exact U]. exists st', sp'. repeat (split; [assumption|]). right. do 4 eexists. unfold consumer_at in *. cbn [w_conss r_w]. unfold list_reset_obj. apply nth_upd_in. apply nth_error_Some. rewrite C. discriminate.
      * intros w1 t1 ((sp1 & L1 & U1) & ST1) T1. eapply n_ask; [apply lib_get; exact L1|]. destruct U1 as (a & FA & UA). eapply n_ask; [rewrite UA; apply reset_spec; exact FA|].
        eexists. eexists. split; [reflexivity|]. split; [rewrite app_nil_r; exact T1|]. split.
        -- split; [|exact ST1]. eexists. split; [unfold lib_at; cbn [w_parsers r_w]; apply nth_upd_in; apply nth_error_Some; unfold lib_at in L1; rewrite L1; discriminate|]. eexists. split; [apply start_fits|reflexivity].
        -- eexists. split; [unfold lib_at; cbn [w_parsers r_w]; apply nth_upd_in; apply nth_error_Some; unfold lib_at in L1; rewrite L1; discriminate|]. split; reflexivity.
    + intros w1 t1 ((U1 & st1 & ST1) & I1) T1. eapply n_ask; [unfold get_station, at_; rewrite ST1; reflexivity|]. eexists. eexists. split; [reflexivity|]. split; [rewrite app_nil_r; exact T1|].
      assert (N1 : forall x, nth_error (upd s x (w_stations w1)) s = Some x) by (intros x; apply nth_upd_in; apply nth_error_Some; rewrite ST1; discriminate).
      split; [split; [exact U1|]|split; [exact I1|]].
      * eexists. cbn [w_stations r_w]. apply N1.
      * eexists. cbn [w_stations r_w]. split; [apply N1|reflexivity].
Qed.
Lemma finish_many : forall m w t p, ready w p -> (told t + m = limit)%nat ->
  notified (S limit) (rst_finish lw react (rexec lw react m) s) w t (fun w' => after w' p /\ idle w' p /\ no_request w' s).
Proof.
  induction m as [|m IH]; intros w t p R L.
  - refine (finish_given _ p limit _ w t R _); [|lia]. intros w1 t1 R1 L1. exists w1, (t1 ++ [EvEndAborted cb c]). split; [|split; [rewrite told_snoc; lia|apply ready_after; exact R1]].
    unfold ucall, rbind, rlift, emit. cbn [r_w r_t]. rewrite F, told_snoc, L1. replace (Nat.leb (S limit) limit) with false by (symmetry; apply Nat.leb_gt; lia). reflexivity.
  - refine (finish_given _ p (told t) _ w t R eq_refl). intros w1 t1 R1 L1. destruct (IH w1 (t1 ++ [EvEndAborted cb c]) p R1) as (w2 & t2 & E2 & T2 & A2 & _); [rewrite told_snoc; lia|].
    exists w2, t2. split; [|split; [exact T2|exact A2]]. unfold ucall, rbind, rlift, emit. cbn [r_w r_t]. rewrite F, told_snoc, L1. replace (Nat.leb (S (told t)) limit) with true by (symmetry; apply Nat.leb_le; lia).
    change (rexec lw react (S m) (Call (OnStation s FinishCurrentConfigRequest) done)) with (rst_finish lw react (rexec lw react m) s ~;; (fun s => rexec lw react (S m) (done (r_w s) (r_t s)) s)).
    unfold rbind. rewrite E2. reflexivity.
Qed.
End Many.
Lemma finish_m_times : forall lw react s p c cb m w t, finishes_m_times react s c cb m -> downloading w s p c cb -> (exists sp, lib_at w p sp /\ usable sp) -> aborts_told cb c t = 0%nat ->
  exists w' t', rexec lw react (S m) (Call (OnStation s FinishCurrentConfigRequest) done) (mkR w t) = (Ok tt, mkR w' t') /\ aborts_told cb c t' = S m /\ idle w' p /\ no_request w' s.
Proof.
  intros lw react s p c cb m w t F D U T. destruct (finish_many lw react s c cb m F m w t p (conj D U)) as (w' & t' & E & T' & _ & I & N); [lia|].
  exists w', t'. split; [|auto].
  change (rexec lw react (S m) (Call (OnStation s FinishCurrentConfigRequest) done)) with (rst_finish lw react (rexec lw react m) s ~;; (fun s => rexec lw react (S m) (done (r_w s) (r_t s)) s)).
  unfold rbind. rewrite E. reflexivity.
Qed.

(** ** A check for reports without data *)
Fixpoint scan (p c : nat) (on : bool) (t : list event) : bool :=
  match t with
  | [] => false
  | EvCfg q CStart :: t' => scan p c (on || Nat.eqb q p) t'
  | EvCfg q (CAdd _) :: t' => scan p c (on && negb (Nat.eqb q p)) t'
  | EvEndComplete _ x :: t' => (on && Nat.eqb x c) || scan p c on t'
  | _ :: t' => scan p c on t'
  end.
Definition direct (p c : nat) (t : list event) : Prop :=
  exists cb b z, t = b ++ EvEndComplete cb c :: z /\ Forall (fun e => forall d, e <> EvCfg p (CAdd d)) b.
Lemma cwd_cons : forall p c e t, complete_without_data p c t -> complete_without_data p c (e :: t).
Proof. intros p c e t (a & cb & b & z & E & F). exists (e :: a), cb, b, z. rewrite E. split; [reflexivity|exact F]. Qed.
Lemma direct_cons : forall p c e t, (forall d, e <> EvCfg p (CAdd d)) -> direct p c t -> direct p c (e :: t).
Proof. intros p c e t H (cb & b & z & E & F). exists cb, (e :: b), z. rewrite E. split; [reflexivity|constructor; assumption]. Qed.
Lemma scan_sound : forall p c t, (scan p c false t = true -> complete_without_data p c t) /\ (scan p c true t = true -> direct p c t \/ complete_without_data p c t).
Proof.
  intros p c. induction t as [|e t (F & T)]; [split; discriminate|].
  assert (G : (forall d, e <> EvCfg p (CAdd d)) -> (scan p c false t = true -> complete_without_data p c (e :: t)) /\ (scan p c true t = true -> direct p c (e :: t) \/ complete_without_data p c (e :: t))).
  { intros N. split; intros H; [apply cwd_cons, F, H|]. destruct (T H) as [D|D]; [left; apply direct_cons; assumption|right; apply cwd_cons, D]. }
  destruct e as [ | | | | | | | | q [ |d| ] | | | |cb x| | ]; cbn [scan orb andb]; try (apply G; discriminate).
  - destruct (Nat.eqb_spec q p) as [E|E]; [subst q|apply G; discriminate]. split; [|apply G; discriminate]. intros H.
    destruct (T H) as [(cb & b & z & D & B)|D]; [|apply cwd_cons, D]. exists [], cb, b, z. rewrite D. split; [reflexivity|exact B].
  - destruct (Nat.eqb_spec q p) as [E|E]; cbn [negb]; [|apply G; congruence]. split; intros H; [|right]; apply cwd_cons, F, H.
  - destruct (Nat.eqb_spec x c) as [E|E]; cbn [orb]; [subst x|apply G; discriminate]. split; [apply G; discriminate|]. intros _. left. exists cb, [], t. split; [reflexivity|constructor].
Qed.
