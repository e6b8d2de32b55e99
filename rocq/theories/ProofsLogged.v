(* ProofsLogged.v -- proofs about the logging builds (C65, C66). *)
From Verif Require Import ZLib SpecLogged ProofsBuffer ProofsText ProofsStream ProofsConsumer ProofsSafe.

Lemma mo_refl : forall t, more_output t t.
Proof. induction t; constructor; assumption. Qed.
Lemma mo_app : forall a a' c c', more_output a a' -> more_output c c' -> more_output (a ++ c) (a' ++ c').
Proof. intros a a' c c' H H'. induction H; cbn [app]; [exact H'|constructor; assumption|constructor; assumption]. Qed.
Lemma mo_prints : forall t, Forall (fun e => is_print e = true) t -> more_output [] t.
Proof. intros t F. induction F as [|e t E F IH]; [constructor|]. destruct e; try discriminate. constructor. exact IH. Qed.
Lemma mo_calls : forall t t', more_output t t' -> calls t = calls t'.
Proof. intros t t' H. induction H; [reflexivity| |exact IHmore_output]. unfold calls in *. cbn [filter]. rewrite IHmore_output. reflexivity. Qed.

Lemma seq_inv : forall a c w w2 t, (a ;;; c) w = Ok (w2, t) -> exists w1 t1 t2, a w = Ok (w1, t1) /\ c w1 = Ok (w2, t2) /\ t = t1 ++ t2.
Proof.
  intros a c w w2 t H. unfold World.seq in H. destruct (a w) as [(w1 & t1)|] eqn:E; [|discriminate]. cbn [bind] in H. destruct (c w1) as [(w3 & t2)|] eqn:E2; [|discriminate].
  injection H as <- <-. exists w1, t1, t2. auto.
Qed.
Lemma seq_mk : forall a c w w1 t1 w2 t2, a w = Ok (w1, t1) -> c w1 = Ok (w2, t2) -> (a ;;; c) w = Ok (w2, t1 ++ t2).
Proof. intros. unfold World.seq. rewrite H. cbn [bind]. rewrite H0. reflexivity. Qed.
Lemma ask_inv : forall A (f : world -> res A) k w r, ask f k w = Ok r -> exists x, f w = Ok x /\ k x w = Ok r.
Proof. intros A f k w r H. unfold ask in H. destruct (f w) as [x|]; [|discriminate]. exists x. auto. Qed.

(** ** A logging build makes the calls of the plain one *)
Definition logs (a a' : act) : Prop := forall w w' t', a' w = Ok (w', t') -> exists t, a w = Ok (w', t) /\ more_output t t'.
(** console output only *)
Definition quiet (b : act) : Prop := forall w w' t, b w = Ok (w', t) -> w' = w /\ Forall (fun e => is_print e = true) t.

Lemma q_skip : quiet skip. Proof. intros w w' t H. injection H as <- <-. auto. Qed.
Lemma q_print : forall bs, quiet (print bs). Proof. intros bs w w' t H. injection H as <- <-. auto. Qed.
Lemma q_puts : forall s, quiet (puts s). Proof. intros. apply q_print. Qed.
Lemma q_ask : forall A (f : world -> res A) k, (forall x, quiet (k x)) -> quiet (ask f k).
Proof. intros A f k Q w w' t H. apply ask_inv in H. destruct H as (x & _ & H). exact (Q _ _ _ _ H). Qed.
Lemma q_print_res : forall r, quiet (print_res r). Proof. intros. apply q_ask. intros. apply q_print. Qed.
Lemma q_seq : forall a c, quiet a -> quiet c -> quiet (a ;;; c).
Proof.
  intros a c A C w w' t H. apply seq_inv in H. destruct H as (w1 & t1 & t2 & E1 & E2 & ->). destruct (A _ _ _ E1) as (-> & F1). destruct (C _ _ _ E2) as (-> & F2).
  split; [reflexivity|apply Forall_app; auto].
Qed.
Lemma q_if : forall (x : bool) a c, quiet a -> quiet c -> quiet (if x then a else c). Proof. intros [] a c A C; assumption. Qed.
Lemma q_log : forall x a, quiet a -> quiet (log_if x a). Proof. intros. apply q_if; [assumption|apply q_skip]. Qed.
Ltac quiet_tac := repeat (first [apply q_log|apply q_skip|apply q_print|apply q_puts|apply q_print_res|apply q_seq|apply q_if|apply q_ask; intro]).

Lemma l_refl : forall a, logs a a. Proof. intros a w w' t H. exists t. split; [exact H|apply mo_refl]. Qed.
Lemma l_seq : forall a a' c c', logs a a' -> logs c c' -> logs (a ;;; c) (a' ;;; c').
Proof.
  intros a a' c c' A C w w' t H. apply seq_inv in H. destruct H as (w1 & t1 & t2 & E1 & E2 & ->). destruct (A _ _ _ E1) as (u1 & F1 & M1). destruct (C _ _ _ E2) as (u2 & F2 & M2).
  exists (u1 ++ u2). split; [eapply seq_mk; eassumption|apply mo_app; assumption].
Qed.
Lemma l_ask : forall A (f : world -> res A) k k', (forall x, logs (k x) (k' x)) -> logs (ask f k) (ask f k').
Proof.
  intros A f k k' K w w' t H. apply ask_inv in H. destruct H as (x & E & H). destruct (K _ _ _ _ H) as (u & F & M). exists u. split; [|exact M]. unfold ask. rewrite E. exact F.
Qed.
Lemma l_when : forall A (o : option A) k k', (forall x, logs (k x) (k' x)) -> logs (when_some o k) (when_some o k').
Proof. intros A [x|] k k' K; [apply K|apply l_refl]. Qed.
Lemma l_if : forall (x : bool) a a' c c', logs a a' -> logs c c' -> logs (if x then a else c) (if x then a' else c'). Proof. intros [] a a' c c' A C; assumption. Qed.
Lemma l_before : forall b a a', quiet b -> logs a a' -> logs a (b ;;; a').
Proof.
  intros b a a' B A w w' t H. apply seq_inv in H. destruct H as (w1 & t1 & t2 & E1 & E2 & ->). destruct (B _ _ _ E1) as (-> & F1). destruct (A _ _ _ E2) as (u & F2 & M).
  exists u. split; [exact F2|]. change (more_output ([] ++ u) (t1 ++ t2)). apply mo_app; [apply mo_prints; exact F1|exact M].
Qed.
Lemma l_after : forall b a a', quiet b -> logs a a' -> logs a (a' ;;; b).
Proof.
  intros b a a' B A w w' t H. apply seq_inv in H. destruct H as (w1 & t1 & t2 & E1 & E2 & ->). destruct (B _ _ _ E2) as (-> & F2). destruct (A _ _ _ E1) as (u & F1 & M).
  exists u. split; [exact F1|]. rewrite <- (app_nil_r u). apply mo_app; [exact M|apply mo_prints; exact F2].
Qed.
Lemma l_only : forall b, quiet b -> logs skip b.
Proof. intros b B w w' t H. destruct (B _ _ _ H) as (-> & F). exists []. split; [reflexivity|apply mo_prints; exact F]. Qed.

Section Same.
Variable lw : Z.
Variable g : logcfg.
Lemma l_loco : forall e s k v, logs (loco_consume lw e s k v) (g_loco_consume lw g e s k v).
Proof.
  intros. apply l_before; [unfold log_line; quiet_tac|]. apply l_ask. intros [x|]; [|apply l_refl]. apply l_ask. intros l.
  apply l_after; [unfold log_setting; quiet_tac|apply l_refl].
Qed.
Lemma l_consume : forall c s k v, logs (cons_consume lw c s k v) (g_cons_consume lw g c s k v).
Proof.
  intros. apply l_seq; [apply l_refl|]. apply l_ask. intros [e cb|co i n off cb|]; [apply l_loco| |apply l_refl]. apply l_before; [unfold log_line; quiet_tac|apply l_refl].
Qed.
Lemma l_consume_all : forall l c, logs (cons_consume_all lw c l) (g_cons_consume_all lw g c l).
Proof. induction l as [|((s & k) & v) l IH]; intros c; [apply l_refl|]. apply l_seq; [apply l_consume|apply IH]. Qed.
Lemma l_add : forall p d, logs (lib_addMessage lw p d) (g_addMessage lw g p d).
Proof.
  intros p d. apply l_ask. intros sp. destruct (sp_state sp); try apply l_refl.
  - apply l_if; [|apply l_refl]. cbv zeta. apply l_before; [unfold log_header; quiet_tac|apply l_refl].
  - apply l_if; [apply l_refl|]. cbv zeta. apply l_before; [quiet_tac|]. apply l_ask. intros crc. apply l_ask. intros te. apply l_seq; [apply l_refl|].
    apply l_seq; [apply l_when; intros c; apply l_consume_all|]. apply l_if.
    + apply l_ask. intros v. apply l_if; (apply l_seq; [apply l_refl|]; apply l_before; [unfold log_crc_error; quiet_tac|apply l_refl]).
    + apply l_only. unfold log_continues. quiet_tac.
Qed.
Lemma l_cfg : forall p d, logs (cfg_call lw p (CAdd d)) (g_cfg_add lw g p d).
Proof. intros. apply l_seq; [apply l_refl|]. apply l_ask. intros [sp|beh h]; [apply l_add|apply l_refl]. Qed.
Lemma l_stream : forall s d, logs (st_handleConfigDataStream lw s d) (g_handleConfigDataStream lw g s d).
Proof.
  intros. apply l_ask. intros st. apply l_ask. intros [p|]; [|apply l_refl]. apply l_before; [quiet_tac|apply l_cfg].
Qed.
Lemma l_request : forall s e p, logs (st_requestEngine lw s e p) (g_requestEngine lw g s e p).
Proof. intros. apply l_before; [quiet_tac|apply l_refl]. Qed.
Lemma l_accessory : forall s a p d pw, logs (st_sendAccessoryPacket s a p d pw) (g_sendAccessoryPacket g s a p d pw).
Proof. intros. apply l_ask. intros st. cbv zeta. apply l_before; [quiet_tac|apply l_refl]. Qed.
Lemma l_packet : forall s f, logs (st_handlePacket lw s f) (g_handlePacket lw g s f).
Proof.
  intros. unfold g_handlePacket. cbv zeta. apply l_before; [quiet_tac|]. unfold st_handlePacket. cbv zeta.
  do 6 (apply l_if; [apply l_refl|]). apply l_if; [apply l_only; quiet_tac|]. apply l_if; [|apply l_refl]. apply l_before; [quiet_tac|apply l_stream].
Qed.
Lemma l_step : forall o, logs (step lw o) (lstep lw g o).
Proof.
  intros o. destruct o; try apply l_refl; [|apply l_add]. destruct o; try apply l_refl; [apply l_packet|apply l_stream|apply l_accessory|apply l_request].
Qed.
Lemma l_run : forall ops, logs (run lw ops) (lrun lw g ops).
Proof. induction ops; [apply l_refl|]. apply l_seq; [apply l_step|exact IHops]. Qed.
End Same.

(** ** With nothing enabled the logging build is the plain one *)
Definition same (a a' : act) : Prop := forall w, a' w = a w.
Lemma e_refl : forall a, same a a. Proof. intros a w. reflexivity. Qed.
Lemma e_seq : forall a a' c c', same a a' -> same c c' -> same (a ;;; c) (a' ;;; c').
Proof. intros a a' c c' A C w. unfold World.seq. rewrite A. destruct (a w) as [(w1 & t1)|]; [|reflexivity]. cbn [bind]. rewrite C. reflexivity. Qed.
Lemma e_ask : forall A (f : world -> res A) k k', (forall x, same (k x) (k' x)) -> same (ask f k) (ask f k').
Proof. intros A f k k' K w. unfold ask. destruct (f w); [apply K|reflexivity]. Qed.
Lemma e_when : forall A (o : option A) k k', (forall x, same (k x) (k' x)) -> same (when_some o k) (when_some o k').
Proof. intros A [x|] k k' K; [apply K|apply e_refl]. Qed.
Lemma e_if : forall (x : bool) a a' c c', same a a' -> same c c' -> same (if x then a else c) (if x then a' else c'). Proof. intros [] a a' c c' A C; assumption. Qed.
Lemma e_before : forall b l a a', b = false -> same a a' -> same a (log_if b l ;;; a').
Proof. intros b l a a' -> A w. unfold World.seq, log_if, skip. cbn [bind]. rewrite A. destruct (a w) as [(w1 & t1)|]; reflexivity. Qed.
Lemma e_after : forall b l a a', b = false -> same a a' -> same a (a' ;;; log_if b l).
Proof. intros b l a a' -> A w. unfold World.seq, log_if, skip. rewrite A. destruct (a w) as [(w1 & t1)|]; [|reflexivity]. cbn [bind]. rewrite app_nil_r. reflexivity. Qed.
Lemma e_only : forall b l, b = false -> same skip (log_if b l). Proof. intros b l ->. apply e_refl. Qed.

Section Silent.
Variable lw : Z.
Variable g : logcfg.
Hypothesis SG : silent g.
Lemma no_events : events g = false. Proof. destruct SG as (H & _). unfold events, LEVEL_EVENTS. lia. Qed.
Lemma no_packets : packets g = false. Proof. destruct SG as (H & _). unfold packets, LEVEL_PACKETS. lia. Qed.
Lemma no_everything : everything g = false. Proof. destruct SG as (H & _). unfold everything, LEVEL_ALL. lia. Qed.
Lemma e_loco : forall e s k v, same (loco_consume lw e s k v) (g_loco_consume lw g e s k v).
Proof. intros. apply e_before; [exact no_events|]. apply e_ask. intros [x|]; [|apply e_refl]. apply e_ask. intros l. apply e_after; [exact no_events|apply e_refl]. Qed.
Lemma e_consume : forall c s k v, same (cons_consume lw c s k v) (g_cons_consume lw g c s k v).
Proof. intros. apply e_seq; [apply e_refl|]. apply e_ask. intros [e cb|co i n off cb|]; [apply e_loco| |apply e_refl]. apply e_before; [exact no_events|apply e_refl]. Qed.
Lemma e_consume_all : forall l c, same (cons_consume_all lw c l) (g_cons_consume_all lw g c l).
Proof. induction l as [|((s & k) & v) l IH]; intros c; [apply e_refl|]. apply e_seq; [apply e_consume|apply IH]. Qed.
Lemma e_add : forall p d, same (lib_addMessage lw p d) (g_addMessage lw g p d).
Proof.
  intros p d. apply e_ask. intros sp. destruct (sp_state sp); try apply e_refl.
  - apply e_if; [|apply e_refl]. cbv zeta. apply e_before; [exact no_packets|apply e_refl].
  - apply e_if; [apply e_refl|]. cbv zeta. apply e_before; [apply SG|]. apply e_ask. intros crc. apply e_ask. intros te. apply e_seq; [apply e_refl|].
    apply e_seq; [apply e_when; intros c; apply e_consume_all|]. apply e_if.
    + apply e_ask. intros v. apply e_if; (apply e_seq; [apply e_refl|]; apply e_before; [exact no_events|apply e_refl]).
    + apply e_only. exact no_packets.
Qed.
Lemma e_stream : forall s d, same (st_handleConfigDataStream lw s d) (g_handleConfigDataStream lw g s d).
Proof.
  intros. apply e_ask. intros st. apply e_ask. intros [p|]; [|apply e_refl]. apply e_before; [exact no_everything|]. apply e_seq; [apply e_refl|].
  apply e_ask. intros [sp|beh h]; [apply e_add|apply e_refl].
Qed.
Lemma e_packet : forall s f, same (st_handlePacket lw s f) (g_handlePacket lw g s f).
Proof.
  intros. unfold g_handlePacket. cbv zeta. apply e_before; [apply SG|]. unfold st_handlePacket. cbv zeta.
  do 6 (apply e_if; [apply e_refl|]). apply e_if; [apply e_only; exact no_everything|]. apply e_if; [|apply e_refl]. apply e_before; [exact no_everything|apply e_stream].
Qed.
Lemma e_step : forall o, same (step lw o) (lstep lw g o).
Proof.
  intros o. destruct o; try apply e_refl; [|apply e_add]. destruct o; try apply e_refl; [apply e_packet|apply e_stream| |].
  - apply e_ask. intros st. cbv zeta. apply e_before; [apply SG|apply e_refl].
  - apply e_before; [apply SG|apply e_refl].
Qed.
Lemma e_run : forall ops, same (run lw ops) (lrun lw g ops).
Proof. induction ops; [apply e_refl|]. apply e_seq; [apply e_step|exact IHops]. Qed.
End Silent.

(** ** When a logging build is undefined *)
Lemma str_full : forall s, nulfree s -> c_str s = UB OutOfBounds.
Proof. intros s F. induction F as [|x s X F IH]; [reflexivity|]. cbn [c_str]. replace (x =? 0) with false by lia. rewrite IH. reflexivity. Qed.
Lemma str_zb : forall cap s, (List.length s <= cap)%nat -> ~ full cap s -> exists t, c_str (mem (zb cap s)) = Ok t.
Proof.
  intros cap s L NF. apply str_in. rewrite zb_mem. apply in_or_app. destruct (Nat.eq_dec (List.length s) cap) as [E|E].
  - left. destruct (in_dec Z.eq_dec 0 s) as [I|I]; [exact I|]. exfalso. apply NF. split; [exact E|]. apply Forall_forall. intros x X ->. contradiction.
  - right. destruct (cap - List.length s)%nat eqn:C; [lia|]. left. reflexivity.
Qed.
Lemma str_zb_full : forall cap s, full cap s -> c_str (mem (zb cap s)) = UB OutOfBounds.
Proof. intros cap s (L & F). rewrite zb_mem, L, Nat.sub_diag. cbn [repeat]. rewrite app_nil_r. apply str_full. exact F. Qed.
Lemma full_dec : forall cap s, full cap s \/ ~ full cap s.
Proof.
  intros cap s. destruct (Nat.eq_dec (List.length s) cap) as [E|E]; [|right; intros (H & _); contradiction].
  destruct (in_dec Z.eq_dec 0 s) as [I|I].
  - right. intros (_ & F). unfold nulfree in F. rewrite Forall_forall in F. exact (F 0 I eq_refl).
  - left. split; [exact E|]. apply Forall_forall. intros x X ->. contradiction.
Qed.
Lemma overfull_dec : forall r, overfull r \/ ~ overfull r.
Proof.
  intros ((s & k) & v). unfold overfull. destruct (full_dec 11 s); [tauto|]. destruct (full_dec 11 k); [tauto|]. destruct (full_dec 26 v); tauto.
Qed.
Lemma exists_overfull_dec : forall rs, Exists overfull rs \/ ~ Exists overfull rs.
Proof.
  induction rs as [|r rs IH]; [right; intros H; inversion H|]. destruct (overfull_dec r); [left; left; assumption|]. destruct IH; [left; right; assumption|].
  right. intros H'. inversion H'; contradiction.
Qed.

Lemma log_line_ok : forall who s k v w, ok_report (s, k, v) -> ~ overfull (s, k, v) ->
  exists t, log_line who (zb max_section s) (zb max_key k) (zb max_value v) w = Ok (w, t).
Proof.
  intros who s k v w (OS & OK & OV) NO. unfold overfull in NO.
  destruct (str_zb max_section s OS) as (ts & ES); [tauto|]. destruct (str_zb max_key k OK) as (tk & EK); [tauto|]. destruct (str_zb max_value v OV) as (tv & EV); [tauto|].
  unfold log_line, ask. rewrite ES. cbn [bind]. rewrite EK. cbn [bind]. rewrite EV. cbn [bind]. eexists. reflexivity.
Qed.
Lemma log_line_bad : forall who s k v w, ok_report (s, k, v) -> overfull (s, k, v) ->
  exists u, log_line who (zb max_section s) (zb max_key k) (zb max_value v) w = UB u.
Proof.
  intros who s k v w (OS & OK & OV) O. unfold log_line, ask.
  destruct (c_str (mem (zb max_section s))) as [ts|u] eqn:ES; [|cbn [bind]; eauto]. cbn [bind].
  destruct (c_str (mem (zb max_key k))) as [tk|u] eqn:EK; [|cbn [bind]; eauto]. cbn [bind].
  destruct (c_str (mem (zb max_value v))) as [tv|u] eqn:EV; [|cbn [bind]; eauto]. exfalso.
  destruct O as [O|[O|O]]; apply str_zb_full in O; unfold max_section, max_key, max_value in *; congruence.
Qed.

Definition user (x : CObj) : bool := match x with UserC => true | _ => false end.
Section Defined.
Variable lw : Z.
Variable g : logcfg.
Definition follows (w : world) (a a' : act) : Prop := forall w1 t, a w = Ok (w1, t) -> exists t', a' w = Ok (w1, t').
Lemma f_refl : forall w a, follows w a a. Proof. intros w a w1 t H. eauto. Qed.
Lemma f_before : forall w b a a', (exists t, b w = Ok (w, t)) -> follows w a a' -> follows w a (b ;;; a').
Proof. intros w b a a' (t0 & B) A w1 t H. destruct (A _ _ H) as (t' & H'). eexists. eapply seq_mk; eassumption. Qed.
Lemma f_seq : forall w a a' c c', follows w a a' -> (forall w1 t, a w = Ok (w1, t) -> follows w1 c c') -> follows w (a ;;; c) (a' ;;; c').
Proof. intros w a a' c c' A C w2 t H. apply seq_inv in H. destruct H as (w1 & t1 & t2 & E1 & E2 & ->). destruct (A _ _ E1) as (u1 & F1). destruct (C _ _ E1 _ _ E2) as (u2 & F2). eexists. eapply seq_mk; eassumption. Qed.
Lemma f_ask : forall w A (f : world -> res A) k k', (forall x, f w = Ok x -> follows w (k x) (k' x)) -> follows w (ask f k) (ask f k').
Proof. intros w A f k k' K w1 t H. apply ask_inv in H. destruct H as (x & E & H). destruct (K _ E _ _ H) as (u & F). exists u. unfold ask. rewrite E. exact F. Qed.
Lemma f_after : forall w a b, (forall w1 t, a w = Ok (w1, t) -> exists t', b w1 = Ok (w1, t')) -> follows w a (a ;;; b).
Proof. intros w a b B w1 t H. destruct (B _ _ H) as (t' & E). eexists. eapply seq_mk; eassumption. Qed.
Lemma log_ok : forall x a w, (exists t, a w = Ok (w, t)) -> exists t, log_if x a w = Ok (w, t).
Proof. intros [] a w H; [exact H|]. eexists. reflexivity. Qed.
Lemma print_res_ok : forall r w, (exists bs, r = Ok bs) -> exists t, print_res r w = Ok (w, t).
Proof. intros r w (bs & ->). eexists. reflexivity. Qed.
Lemma quiet_seq_ok : forall a c w, (exists t, a w = Ok (w, t)) -> (exists t, c w = Ok (w, t)) -> exists t, (a ;;; c) w = Ok (w, t).
Proof. intros a c w (t & A) (t' & C). eexists. eapply seq_mk; eassumption. Qed.

(** the class of a consumer does not change *)
Section Class.
Variable c : nat.
Variable ux : bool.
Definition keeps (a : act) : Prop := forall w w1 t, a w = Ok (w1, t) -> (exists x, nth_error (w_conss w) c = Some x /\ user x = ux) -> exists y, nth_error (w_conss w1) c = Some y /\ user y = ux.
Lemma k_skip : keeps skip. Proof. intros w w1 t H X. injection H as <- <-. exact X. Qed.
Lemma k_emit : forall e, keeps (emit e). Proof. intros e w w1 t H X. injection H as <- <-. exact X. Qed.
Lemma k_seq : forall a a', keeps a -> keeps a' -> keeps (a ;;; a').
Proof. intros a a' A A' w w1 t H X. apply seq_inv in H. destruct H as (w2 & t1 & t2 & E1 & E2 & _). exact (A' _ _ _ E2 (A _ _ _ E1 X)). Qed.
Lemma k_ask : forall A (f : world -> res A) k, (forall x, keeps (k x)) -> keeps (ask f k).
Proof. intros A f k K w w1 t H X. apply ask_inv in H. destruct H as (x & _ & H). exact (K _ _ _ _ H X). Qed.
Lemma k_if : forall (x : bool) a a', keeps a -> keeps a' -> keeps (if x then a else a'). Proof. intros [] a a' A A'; assumption. Qed.
Lemma k_put_engine : forall e l, keeps (put_engine e l). Proof. intros e l w w1 t H X. injection H as <- <-. exact X. Qed.
Lemma k_put_cons : forall x, user x = ux -> keeps (put_cons c x).
Proof. intros x U w w1 t H (y & N & _). injection H as <- <-. exists x. split; [cbn [w_conss]; eapply upd_at; exact N|exact U]. Qed.
End Class.
Lemma consume_user : forall c s k v w w1 t x, cons_consume lw c s k v w = Ok (w1, t) -> nth_error (w_conss w) c = Some x -> exists y, nth_error (w_conss w1) c = Some y /\ user y = user x.
Proof.
  intros c s k v w w1 t x H N. unfold cons_consume in H. apply seq_inv in H. destruct H as (w2 & t1 & t2 & E1 & H & _). injection E1 as <- <-. apply ask_inv in H. destruct H as (y & E & H).
  unfold get_cons, at_ in E. rewrite N in E. injection E as <-. refine ((_ : keeps c (user x) _) _ _ _ H (ex_intro _ x (conj N eq_refl))).
  destruct x as [e cb|co i n off cb|]; [| |apply k_skip].
  - apply k_ask. intros [e'|]; [|apply k_skip]. apply k_ask. intros l. apply k_ask. intros l'. apply k_put_engine.
  - apply k_ask. intros b1. apply k_if.
    + destruct (findFirstFreeEntry i); [|apply k_emit]. apply k_ask. intros tx. apply k_seq; [apply k_emit|]. apply k_ask. intros si. apply k_put_cons. reflexivity.
    + apply k_ask. intros b2. apply k_if; [|apply k_ask; intros tx; apply k_emit]. apply k_ask. intros b3. apply k_if; [|apply k_skip]. apply k_ask. intros m. apply k_put_cons. reflexivity.
Qed.

Lemma setting_ok : forall l s k v l' w, loco_line lw l s k v = Ok l' -> exists t, log_setting s k w = Ok (w, t).
Proof.
  intros l s k v l' w H. unfold loco_line in H. unfold log_setting, ask. destruct (lit_strncmp kEngineResult s) as [b0|]; [|discriminate]. cbn [bind] in *. destruct b0; [|eexists; reflexivity].
  destruct (lit_strncmp kEngineKeyUid k) as [b1|]; [|discriminate]. cbn [bind] in *. destruct b1; [eexists; reflexivity|].
  destruct (lit_strncmp kEngineKeyProtocol k) as [b2|]; [|discriminate]. cbn [bind] in *. destruct b2; [eexists; reflexivity|].
  destruct (lit_strncmp kEngineKeyAddress k) as [b3|]; [|discriminate]. cbn [bind] in *. destruct b3; eexists; reflexivity.
Qed.
(** the line can be printed, if it has to be *)
Definition printable (x : CObj) (r : report) : Prop := events g = true -> user x = false -> ~ overfull r.
Lemma f_consume : forall w c s k v x, ok_report (s, k, v) -> nth_error (w_conss w) c = Some x -> printable x (s, k, v) ->
  follows w (cons_consume lw c (zb max_section s) (zb max_key k) (zb max_value v)) (g_cons_consume lw g c (zb max_section s) (zb max_key k) (zb max_value v)).
Proof.
  intros w c s k v x O N P. apply f_seq; [apply f_refl|]. intros w1 t H. injection H as <- <-. apply f_ask. intros y E. unfold get_cons, at_ in E. rewrite N in E. injection E as <-.
  assert (LL : forall who, user x = false -> exists t, log_if (events g) (log_line who (zb max_section s) (zb max_key k) (zb max_value v)) w = Ok (w, t)).
  { intros who U. unfold printable in P. destruct (events g); [|eexists; reflexivity]. apply log_line_ok; [exact O|auto]. }
  destruct x as [e cb|co i n off cb|]; [| |apply f_refl].
  - apply f_before; [apply LL; reflexivity|]. apply f_ask. intros [e'|] _; [|apply f_refl]. apply f_ask. intros l _. apply f_after. intros w1 t H. apply ask_inv in H. destruct H as (l' & H & _).
    apply log_ok. eapply setting_ok. exact H.
  - apply f_before; [apply LL; reflexivity|apply f_refl].
Qed.
Lemma f_consume_all : forall c rs w x, Forall ok_report rs -> nth_error (w_conss w) c = Some x -> Forall (printable x) rs ->
  follows w (cons_consume_all lw c (map as_buffers rs)) (g_cons_consume_all lw g c (map as_buffers rs)).
Proof.
  intros c rs w x F. revert w x. induction F as [|((s & k) & v) rs O F IH]; intros w x N P; [apply f_refl|]. inversion P as [|? ? P1 P2]; subst. cbn [map as_buffers cons_consume_all g_cons_consume_all].
  apply f_seq; [eapply f_consume; eassumption|]. intros w1 t H. destruct (consume_user _ _ _ _ _ _ _ _ H N) as (y & NY & U). apply (IH w1 y NY).
  eapply Forall_impl; [|exact P2]. intros r. unfold printable. rewrite U. auto.
Qed.
Lemma b_consume : forall w c s k v x, ok_report (s, k, v) -> nth_error (w_conss w) c = Some x -> events g = true -> user x = false -> overfull (s, k, v) ->
  exists u, g_cons_consume lw g c (zb max_section s) (zb max_key k) (zb max_value v) w = UB u.
Proof.
  intros w c s k v x O N EV U OV. unfold g_cons_consume. rewrite emit_seq. unfold ask, get_cons, at_. rewrite N. cbn [bind].
  assert (LL : forall who, exists u, log_if (events g) (log_line who (zb max_section s) (zb max_key k) (zb max_value v)) w = UB u).
  { intros who. rewrite EV. apply log_line_bad; assumption. }
  destruct x as [e cb|co i n off cb|]; [| |discriminate].
  - unfold g_loco_consume, World.seq. destruct (LL "EngineControl"%string) as (u & ->). cbn [bind]. eauto.
  - unfold g_list_consume, World.seq. destruct (LL "EngineBrowser"%string) as (u & ->). cbn [bind]. eauto.
Qed.
Lemma b_consume_all : forall c rs w x, Forall ok_report rs -> nth_error (w_conss w) c = Some x -> events g = true -> user x = false -> Exists overfull rs ->
  exists u, g_cons_consume_all lw g c (map as_buffers rs) w = UB u.
Proof.
  intros c rs w x F. revert w x. induction F as [|((s & k) & v) rs O F IH]; intros w x N EV U X; [inversion X|]. cbn [map as_buffers g_cons_consume_all]. unfold World.seq.
  destruct (g_cons_consume lw g c (zb max_section s) (zb max_key k) (zb max_value v) w) as [(w1 & t1)|u] eqn:E; [|cbn [bind]; eauto]. cbn [bind].
  inversion X as [? ? X1|? ? X1]; subst.
  - exfalso. destruct (b_consume w c s k v x O N EV U X1) as (u & B). congruence.
  - destruct (l_consume lw g _ _ _ _ _ _ _ E) as (t & E' & _). destruct (consume_user _ _ _ _ _ _ _ _ E' N) as (y & NY & UY). destruct (IH w1 y NY EV) as (u & B); [congruence|exact X1|].
    rewrite B. cbn [bind]. eauto.
Qed.

(** a frame of 8 bytes *)
Definition overfull_frame (w : world) (p : nat) (d : Data) : Prop :=
  exists sp a c x, lib_at w p sp /\ sp_state sp = SS_DATA /\ dlc d = 8 /\ sp_text sp = parser a (sp_cons sp) /\ sp_cons sp = Some c /\
  consumer_at w c x /\ x <> UserC /\ Exists overfull (snd (aadd a (content d))).
Lemma get_lib_at : forall w p sp, lib_at w p sp -> get_lib p w = Ok sp.
Proof. intros w p sp L. unfold get_lib, get_parser, at_. rewrite L. reflexivity. Qed.
Lemma lib_at_get : forall w p sp, get_lib p w = Ok sp -> lib_at w p sp.
Proof. intros w p sp E. unfold get_lib, get_parser, at_ in E. unfold lib_at. destruct (nth_error (w_parsers w) p) as [[x|]|]; try discriminate. injection E as ->. reflexivity. Qed.
Lemma put_lib_conss : forall p sp w w1 t, put_lib p sp w = Ok (w1, t) -> w_conss w1 = w_conss w.
Proof. intros p sp w w1 t H. injection H as <- _. reflexivity. Qed.
Lemma f_add : forall w p d, sound w -> valid_frame d -> ~ (events g = true /\ overfull_frame w p d) -> follows w (lib_addMessage lw p d) (g_addMessage lw g p d).
Proof.
  intros w p d S (PD & D8) NO. apply f_ask. intros sp E. apply lib_at_get in E. destruct S as (_ & SP & _). destruct (nth_forall _ _ _ _ _ SP E) as ((a & FA & TA) & PC & CR).
  destruct (sp_state sp) eqn:ST; try apply f_refl.
  - destruct ((dlc d =? 6) || (dlc d =? 7)); [|apply f_refl]. cbv zeta. apply f_before; [|apply f_refl]. apply log_ok. unfold log_header, ask. destruct CR as (va & CR). cbn [sp_crc crc_loadReference crc_ref crc_acc mread bind].
    rewrite CR. cbn [mread bind]. apply quiet_seq_ok; [eexists; reflexivity|]. destruct (dlc d =? 7); eexists; reflexivity.
  - destruct (negb (dlc d =? 8)) eqn:E8; [apply f_refl|]. assert (D : dlc d = 8) by lia. cbv zeta. apply f_before; [apply log_ok, print_res_ok, text_ok; split; assumption|].
    destruct CR as (CA & CF). destruct (feed_ok (content d) _ CA) as (crc & FE & CA' & CF'). rewrite <- CF' in CF. destruct CA' as (va & CA'). destruct CF as (vr & CF).
    assert (X1 : (bs <- data_visited d ;; crc_feed (sp_crc sp) bs) = Ok crc) by (rewrite (visited_data _ PD D); exact FE).
    apply f_ask. intros crc' EC. rewrite X1 in EC. injection EC as <-.
    assert (X2 : tp_addText (sp_text sp) (mkBuf (dbytes d) CanDataMaxLength (dlc d)) = Ok (parser (fst (aadd a (content d))) (sp_cons sp), told (sp_cons sp) (snd (aadd a (content d))))).
    { rewrite TA. rewrite (addText_spec _ _ _ _ FA (holds_data _ PD D)). reflexivity. }
    apply f_ask. intros te ET. rewrite X2 in ET. injection ET as <-. cbn [fst snd].
    apply f_seq; [apply f_refl|]. intros w1 t1 H1. apply put_lib_conss in H1. apply f_seq.
    + rewrite TA. cbn [tp_cons parser]. destruct (sp_cons sp) as [c|] eqn:C; [|apply f_refl]. cbn [when_some told].
      destruct (nth_error (w_conss w) c) as [x|] eqn:N.
      * eapply f_consume_all; [apply aadd_reports; exact FA|rewrite H1; exact N|]. apply Forall_forall. intros r R EV U O. apply NO. split; [exact EV|].
        exists sp, a, c, x. rewrite C. repeat (split; [first [assumption|reflexivity]|]). split; [intros ->; discriminate|]. apply Exists_exists. eauto.
      * exfalso. cbn [points] in PC. apply nth_error_None in N. lia.
    + intros w2 t2 H2. destruct (u32 (sp_remaining sp - dlc d) =? 0).
      * apply f_ask. intros b _. destruct b; (apply f_seq; [apply f_refl|]; intros w3 t3 H3; apply f_before; [|apply f_refl]; apply log_ok).
        -- eexists. reflexivity.
        -- unfold log_crc_error, ask. rewrite CF. cbn [mread bind]. rewrite CA'. cbn [mread bind]. eexists. reflexivity.
      * intros w3 t3 H3. injection H3 as <- <-. apply log_ok. unfold log_continues, ask. rewrite CA'. cbn [mread bind]. eexists. reflexivity.
Qed.
Lemma b_add : forall w p d, sound w -> valid_frame d -> events g = true -> overfull_frame w p d -> exists u, g_addMessage lw g p d w = UB u.
Proof.
  intros w p d S (PD & D8) EV (sp & a & c & x & L & ST & D & TA & C & N & U & X). destruct S as (_ & SP & _). destruct (nth_forall _ _ _ _ _ SP L) as ((a' & FA & TA') & PC & CR).
  rewrite TA in TA'. apply parser_inj in TA'. subst a'. rewrite ST in CR. destruct CR as (CA & _). destruct (feed_ok (content d) _ CA) as (crc & FE & _).
  unfold g_addMessage, ask at 1. rewrite (get_lib_at _ _ _ L). cbn [bind]. rewrite ST. replace (negb (dlc d =? 8)) with false by lia. cbv zeta.
  destruct (log_ok (lg_dump g) (print_res (printAsText d)) w) as (t0 & E0); [apply print_res_ok, text_ok; split; assumption|].
  unfold World.seq at 1. rewrite E0. cbn [bind]. unfold ask at 1. rewrite (visited_data _ PD D). cbn [bind]. rewrite FE. cbn [bind]. unfold ask at 1.
  rewrite TA. rewrite (addText_spec _ _ _ _ FA (holds_data _ PD D)). cbn [bind fst snd]. unfold World.seq at 1. unfold put_lib at 1, put_parser. cbn [bind].
  cbn [tp_cons parser]. rewrite C. cbn [when_some]. unfold World.seq at 1.
  destruct (b_consume_all c (snd (aadd a (content d))) (mkW (w_stations w) (upd p (LibP (mkSP SS_DATA (u32 (sp_remaining sp - dlc d)) (parser (fst (aadd a (content d))) (Some c)) crc (Some c))) (w_parsers w)) (w_conss w) (w_engines w)) x)
    as (u & B); [apply aadd_reports; exact FA|exact N|exact EV|destruct x; [reflexivity|reflexivity|contradiction]|exact X|].
  unfold told. rewrite B. cbn [bind]. eauto.
Qed.

Lemma overfull_frame_dec : forall w p d, sound w -> overfull_frame w p d \/ ~ overfull_frame w p d.
Proof.
  intros w p d (_ & SP & _). unfold overfull_frame, lib_at. destruct (nth_error (w_parsers w) p) as [[sp|]|] eqn:L; try (right; intros (sp' & ? & ? & ? & E & _); discriminate).
  destruct (nth_forall _ _ _ _ _ SP L) as ((a & F & T) & _). assert (ST : sp_state sp = SS_DATA \/ sp_state sp <> SS_DATA) by (destruct (sp_state sp); auto; right; discriminate).
  destruct ST as [ST|ST]; [|right; intros (sp' & a' & c & x & E & ST' & _); injection E as <-; contradiction].
  destruct (Z.eq_dec (dlc d) 8) as [D|D]; [|right; intros (sp' & a' & c & x & _ & _ & D' & _); contradiction].
  destruct (sp_cons sp) as [c|] eqn:C; [|right; intros (sp' & a' & c & x & E & _ & _ & _ & C' & _); injection E as <-; congruence].
  unfold consumer_at. destruct (nth_error (w_conss w) c) as [x|] eqn:N; [|right; intros (sp' & a' & c' & x & E & _ & _ & _ & C' & N' & _); injection E as <-; congruence].
  assert (U : x = UserC \/ x <> UserC) by (destruct x; auto; right; discriminate).
  destruct U as [U|U]; [right; intros (sp' & a' & c' & x' & E & _ & _ & _ & C' & N' & U' & _); injection E as <-; congruence|].
  destruct (exists_overfull_dec (snd (aadd a (content d)))) as [X|X].
  - left. exists sp, a, c, x. rewrite C. auto 10.
  - right. intros (sp' & a' & c' & x' & E & _ & _ & T' & C' & _ & _ & X'). injection E as <-. rewrite T in T'. rewrite C in T'. apply parser_inj in T'. subst a'. contradiction.
Qed.
Lemma overfull_line_of : forall w o p d, hands_over w o p d -> overfull_frame w p d -> overfull_line w o.
Proof. intros w o p d H (sp & a & c & x & R). exists p, d, sp, a, c, x. auto. Qed.
Lemma hex_ok : forall d, valid_frame d -> exists bs, printAsHex d = Ok bs.
Proof. intros d V. destruct (text_ok d V) as (bs & E). unfold printAsText in E. unfold printAsHex. rewrite E. eexists. reflexivity. Qed.
Lemma f_cfg : forall w p d, sound w -> valid_frame d -> ~ (events g = true /\ overfull_frame w p d) -> follows w (cfg_call lw p (CAdd d)) (g_cfg_add lw g p d).
Proof.
  intros w p d S V NO. apply f_seq; [apply f_refl|]. intros w1 t H. injection H as <- <-. apply f_ask. intros [sp|beh h] _; [apply f_add; assumption|apply f_refl].
Qed.
Lemma f_stream : forall w s d, sound w -> valid_frame d -> (forall p, (exists st, nth_error (w_stations w) s = Some st /\ cb_cfg (st_cbs st) = Some p) -> ~ (events g = true /\ overfull_frame w p d)) ->
  follows w (st_handleConfigDataStream lw s d) (g_handleConfigDataStream lw g s d).
Proof.
  intros w s d S V NO. apply f_ask. intros st E. apply f_ask. intros [p|] EP; [|apply f_refl]. apply f_before.
  - apply log_ok. apply quiet_seq_ok; [apply print_res_ok, hex_ok; exact V|]. apply quiet_seq_ok; [eexists; reflexivity|]. apply quiet_seq_ok; [apply print_res_ok, text_ok; exact V|]. eexists. reflexivity.
  - apply f_cfg; [exact S|exact V|]. apply NO. exists st. unfold get_station, at_ in E. destruct (nth_error (w_stations w) s); [|discriminate]. injection E as ->. split; [reflexivity|].
    destruct (cb_cfg (st_cbs st)) as [q|]; [|discriminate]. destruct (cfg_isProcessing q w) as [[]|]; cbn in EP; congruence.
Qed.
Lemma b_stream : forall w s d st p, sound w -> valid_frame d -> nth_error (w_stations w) s = Some st -> cb_cfg (st_cbs st) = Some p -> events g = true -> overfull_frame w p d ->
  exists u, g_handleConfigDataStream lw g s d w = UB u.
Proof.
  intros w s d st p S V N C EV O. pose proof O as (sp & a & c & x & L & ST & _). destruct (b_add w p d S V EV O) as (u & B).
  unfold g_handleConfigDataStream, ask at 1, get_station, at_. rewrite N. cbn [bind]. unfold ask at 1. rewrite C. unfold cfg_isProcessing, get_parser, at_. unfold lib_at in L. rewrite L. cbn [bind pobj_state]. rewrite ST. cbn [ss_processing].
  destruct (log_ok (everything g) (print_res (printAsHex d) ;;; puts " '" ;;; print_res (printAsText d) ;;; puts "' ") w) as (t0 & E0).
  { apply quiet_seq_ok; [apply print_res_ok, hex_ok; exact V|]. apply quiet_seq_ok; [eexists; reflexivity|]. apply quiet_seq_ok; [apply print_res_ok, text_ok; exact V|]. eexists. reflexivity. }
  unfold World.seq at 1. rewrite E0. cbn [bind]. unfold g_cfg_add. rewrite emit_seq. unfold ask, get_parser, at_. rewrite L. cbn [bind]. rewrite B. cbn [bind]. eauto.
Qed.
Lemma f_packet : forall w s f, sound w -> valid_frame (fdata f) ->
  (id_getCommand (fid f) = CMD_CONFIG_DATA -> forall p, (exists st, nth_error (w_stations w) s = Some st /\ cb_cfg (st_cbs st) = Some p) -> ~ (events g = true /\ overfull_frame w p (fdata f))) ->
  follows w (st_handlePacket lw s f) (g_handlePacket lw g s f).
Proof.
  intros w s f S V NO. unfold g_handlePacket. cbv zeta. apply f_before; [apply log_ok; apply quiet_seq_ok; eexists; reflexivity|]. unfold st_handlePacket. cbv zeta.
  repeat (match goal with |- follows _ (if ?x =? ?k then _ else _) _ => destruct (Z.eqb_spec x k); [first [apply f_refl|idtac]|] end); [| |apply f_refl].
  - intros w1 t H. injection H as <- <-. apply log_ok. apply quiet_seq_ok; [eexists; reflexivity|]. apply quiet_seq_ok; [apply print_res_ok, text_ok; exact V|]. eexists. reflexivity.
  - apply f_before; [apply log_ok; eexists; reflexivity|]. apply f_stream; [exact S|exact V|]. apply NO. assumption.
Qed.
Lemma b_packet : forall w s f st p, sound w -> valid_frame (fdata f) -> id_getCommand (fid f) = CMD_CONFIG_DATA -> nth_error (w_stations w) s = Some st -> cb_cfg (st_cbs st) = Some p ->
  events g = true -> overfull_frame w p (fdata f) -> exists u, g_handlePacket lw g s f w = UB u.
Proof.
  intros w s f st p S V CMD N C EV O. destruct (b_stream w s (fdata f) st p S V N C EV O) as (u & B).
  unfold g_handlePacket. cbv zeta. rewrite CMD.
  destruct (log_ok (lg_raw g) (print (id_printAll (fid f)) ;;; print nl) w) as (t0 & E0); [apply quiet_seq_ok; eexists; reflexivity|].
  unfold World.seq at 1. rewrite E0. cbn [bind]. change (CMD_CONFIG_DATA =? kSystemCommand) with false. change (CMD_CONFIG_DATA =? kPing) with false. change (CMD_CONFIG_DATA =? kAccessorySwitch) with false.
  change (CMD_CONFIG_DATA =? kLocoDirection) with false. change (CMD_CONFIG_DATA =? kLocoSpeed) with false. change (CMD_CONFIG_DATA =? kLocoFunction) with false. change (CMD_CONFIG_DATA =? kRequestConfigData) with false. change (CMD_CONFIG_DATA =? kConfigDataStream) with true. cbv iota.
  destruct (log_ok (everything g) (print (zs "Config Data Stream." ++ nl)) w) as (t1 & E1); [eexists; reflexivity|].
  unfold World.seq. rewrite E1. cbn [bind]. rewrite B. cbn [bind]. eauto.
Qed.
Lemma f_request : forall w s e p, follows w (st_requestEngine lw s e p) (g_requestEngine lw g s e p).
Proof.
  intros w s e p w1 t H. unfold g_requestEngine. refine (f_before _ _ _ _ _ (f_refl _ _) _ _ H). apply log_ok.
  unfold st_requestEngine in H. apply ask_inv in H. destruct H as (si & E & H). unfold ask at 1. rewrite E. cbn [bind]. destruct (negb (si_isNameKnown si)); [eexists; reflexivity|].
  apply ask_inv in H. destruct H as (st & E1 & H). unfold ask at 1. rewrite E1. cbn [bind]. apply ask_inv in H. destruct H as (b & E2 & _). unfold ask. rewrite E2. cbn [bind]. destruct b; eexists; reflexivity.
Qed.
Lemma f_step : forall w o, sound w -> valid_op w o -> follows w (step lw o) (lstep lw g o) \/ (events g = true /\ overfull_line w o).
Proof.
  intros w o S V. destruct o; try (left; apply f_refl).
  - destruct V as (VS & V). destruct o; try (left; apply f_refl).
    + (* HandlePacket *)
      assert (K : (exists p, hands_over w (OnStation s (HandlePacket f)) p (fdata f) /\ overfull_frame w p (fdata f)) \/
                  (id_getCommand (fid f) = CMD_CONFIG_DATA -> forall p, (exists st, nth_error (w_stations w) s = Some st /\ cb_cfg (st_cbs st) = Some p) -> ~ overfull_frame w p (fdata f))).
      { destruct (Z.eq_dec (id_getCommand (fid f)) CMD_CONFIG_DATA) as [CMD|CMD]; [|right; contradiction].
        destruct (len_nth _ _ _ VS) as (st & N). destruct (cb_cfg (st_cbs st)) as [p|] eqn:C.
        - destruct (overfull_frame_dec w p (fdata f) S) as [O|O].
          + left. exists p. split; [|exact O]. right. exists s, st. split; [exact N|]. split; [exact C|]. right. exists f. auto.
          + right. intros _ p' (st' & N' & C'). rewrite N in N'. injection N' as <-. rewrite C in C'. injection C' as <-. exact O.
        - right. intros _ p' (st' & N' & C'). rewrite N in N'. injection N' as <-. congruence. }
      destruct (events g) eqn:EV.
      * destruct K as [(p & H & O)|K]; [right; split; [reflexivity|eapply overfull_line_of; eassumption]|].
        left. apply f_packet; [exact S|exact V|]. intros CMD p P (_ & O). exact (K CMD p P O).
      * left. apply f_packet; [exact S|exact V|]. intros _ p _ (X & _). congruence.
    + (* HandleConfigDataStream *)
      destruct (events g) eqn:EV; [|left; apply f_stream; [exact S|exact V|]; intros p _ (X & _); congruence].
      destruct (len_nth _ _ _ VS) as (st & N). destruct (cb_cfg (st_cbs st)) as [p|] eqn:C.
      * destruct (overfull_frame_dec w p d S) as [O|O].
        -- right. split; [reflexivity|]. apply (overfull_line_of w _ p d); [|exact O]. right. exists s, st. auto.
        -- left. apply f_stream; [exact S|exact V|]. intros p' (st' & N' & C') (_ & O'). rewrite N in N'. injection N' as <-. rewrite C in C'. injection C' as <-. contradiction.
      * left. apply f_stream; [exact S|exact V|]. intros p' (st' & N' & C') _. rewrite N in N'. injection N' as <-. congruence.
    + left. apply f_ask. intros st _. cbv zeta. apply f_before; [apply log_ok; eexists; reflexivity|apply f_refl].
    + left. apply f_request.
  - destruct V as (_ & V). destruct (overfull_frame_dec w p d S) as [O|O].
    + destruct (events g) eqn:EV; [right; split; [reflexivity|]; apply (overfull_line_of w _ p d); [left; reflexivity|exact O]|].
      left. apply f_add; [exact S|exact V|]. intros (X & _). congruence.
    + left. apply f_add; [exact S|exact V|]. intros (_ & X). contradiction.
Qed.
Lemma b_step : forall w o, sound w -> valid_op w o -> events g = true -> overfull_line w o -> exists u, lstep lw g o w = UB u.
Proof.
  intros w o S V EV (p & d & sp & a & c & x & H & R). assert (O : overfull_frame w p d) by (exists sp, a, c, x; exact R).
  destruct H as [->|(s & st & N & C & [->|(f & -> & <- & CMD)])].
  - destruct V as (_ & V). apply b_add; assumption.
  - destruct V as (_ & V). eapply b_stream; eassumption.
  - destruct V as (_ & V). eapply b_packet; eassumption.
Qed.
Lemma events_iff : events g = true <-> prints_lines g. Proof. unfold events, LEVEL_EVENTS, prints_lines. lia. Qed.
Lemma step_undefined : forall w o, sound w -> valid_op w o ->
  ((exists u, lstep lw g o w = UB u) <-> (exists u, step lw o w = UB u) \/ (prints_lines g /\ overfull_line w o)).
Proof.
  intros w o S V. rewrite <- events_iff. split.
  - intros (u & E). destruct (step lw o w) as [(w1 & t)|u'] eqn:E'; [|left; eauto]. right. destruct (f_step w o S V) as [F|F]; [|exact F]. destruct (F _ _ E') as (t' & E2). congruence.
  - intros [(u & E)|(EV & O)]; [|apply b_step; assumption]. destruct (lstep lw g o w) as [(w1 & t')|u'] eqn:E'; [|eauto]. destruct (l_step lw g o _ _ _ E') as (t & E2 & _). congruence.
Qed.
(** arguments stay valid as long as the objects keep their classes *)
Lemma points_len : forall A B (l : list A) (l' : list B) p, List.length l = List.length l' -> points l p -> points l' p.
Proof. intros A B l l' [i|] E H; [cbn in *; lia|exact Logic.I]. Qed.
Lemma valid_same : forall w w' o, same_objects w w' -> valid_op w o -> valid_op w' o.
Proof.
  intros w w' o (LS & MP & MC & LE) V.
  assert (LP : List.length (w_parsers w) = List.length (w_parsers w')) by (rewrite <- (map_length pkind), <- MP, map_length; reflexivity).
  assert (LC : List.length (w_conss w) = List.length (w_conss w')) by (rewrite <- (map_length kind), <- MC, map_length; reflexivity).
  assert (AP : forall p, a_parser w p -> a_parser w' p).
  { intros p (sp & L). destruct (map_nth _ _ _ _ _ _ _ MP L) as ([sp'|] & N & K); [exists sp'; exact N|discriminate]. }
  assert (AL : forall c, a_list_consumer w c -> a_list_consumer w' c).
  { intros c (co & i & n & off & cb & L). destruct (map_nth _ _ _ _ _ _ _ MC L) as ([|co' i' n' off' cb'|] & N & K); try discriminate. exists co', i', n', off', cb'. exact N. }
  destruct o; cbn [valid_op] in *; try (apply AL; exact V); try (apply AP; exact V).
  - destruct V as (VS & V). split; [lia|]. destruct o; try exact V; cbn [valid_sop] in *.
    + destruct V as (T & E & P). split; [exact T|]. split; [exact E|]. eapply points_len; eassumption.
    + destruct V as (R & P). split; [|eapply points_len; eassumption]. destruct engine; cbn [valid_ref] in *; [lia| |exact R].
      destruct R as (co & i & n & off & cb & L & K). destruct (map_nth _ _ _ _ _ _ _ MC L) as ([|co' i' n' off' cb'|] & N & KD); try discriminate.
      exists co', i', n', off', cb'. split; [exact N|]. cbn [kind] in KD. injection KD as KD. lia.
    + eapply points_len; eassumption.
  - destruct V as (P & C). split; [apply AP; exact P|eapply points_len; eassumption].
  - destruct V as (P & D). split; [apply AP; exact P|exact D].
  - unfold a_consumer in *. lia.
  - destruct V as ((e0 & cb & L) & P). split; [|eapply points_len; [|exact P]; lia]. destruct (map_nth _ _ _ _ _ _ _ MC L) as ([e' cb'| |] & N & K); try discriminate. exists e', cb'. exact N.
  - destruct V as (E & V). split; [lia|exact V].
Qed.
(** any history *)
Lemma lrun_safe : forall w0 ops w, G w0 w -> Forall (valid_op w0) ops ->
  (exists w' t, lrun lw g ops w = Ok (w', t) /\ G w0 w') \/
  (exists pre o post w1 t1, ops = pre ++ o :: post /\ lrun lw g pre w = Ok (w1, t1) /\ G w0 w1 /\ (excessive_line w1 o \/ (prints_lines g /\ overfull_line w1 o))).
Proof.
  intros w0 ops. induction ops as [|o ops IH]; intros w gw F.
  - left. exists w, []. split; [reflexivity|exact gw].
  - inversion F as [|? ? V1 V2]; subst. destruct (line_dec w o (G_usable _ _ gw)) as [X|X].
    + right. exists [], o, ops, w, []. split; [reflexivity|]. split; [reflexivity|]. split; [exact gw|left; exact X].
    + destruct (step_safe lw w0 w o gw V1 X) as (w1 & t1 & E1 & g1). destruct (f_step w o (G_sound _ _ gw) (valid_same _ _ _ (proj1 gw) V1)) as [FF|FF].
      2: { right. exists [], o, ops, w, []. split; [reflexivity|]. split; [reflexivity|]. split; [exact gw|right]. rewrite <- events_iff. exact FF. }
      destruct (FF _ _ E1) as (t1' & E1'). destruct (IH w1 g1 V2) as [(w2 & t2 & E2 & g2)|(pre & o' & post & w2 & t2 & -> & E2 & g2 & X2)].
      * left. exists w2, (t1' ++ t2). split; [|exact g2]. cbn [lrun]. eapply seq_mk; eassumption.
      * right. exists (o :: pre), o', post, w2, (t1' ++ t2). split; [reflexivity|]. split; [|auto]. cbn [lrun]. eapply seq_mk; eassumption.
Qed.
End Defined.
