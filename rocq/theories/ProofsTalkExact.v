(* ProofsTalkExact.v -- proofs for C127: with valid calls a logging build ends as the plain one does,
   unless it was to print an overfull line.  The simulation of ProofsTalk.v, recording what a log
   section that fails was printing. *)
From Verif Require Import ZLib SpecTalk ProofsSafe ProofsLogged ProofsRsafe ProofsTalk ProofsTalkSafe.

Section Exact.
Variable g : logcfg.
Definition other (u : ub) : Prop := u <> OutOfBounds /\ u <> TooDeep.
Definition at_line (u : ub) (s : rst) : Prop := u = OutOfBounds /\ events g = true /\
  exists before c x y z o, r_t s = before ++ [EvConsume c x y z] /\ consumer_at (r_w s) c o /\ o <> UserC /\
    ((exists u, c_str (mem x) = UB u) \/ (exists u, c_str (mem y) = UB u) \/ exists u, c_str (mem z) = UB u).

Definition close {A} (p p' : res A * rst) : Prop :=
  (fst p' = fst p /\ r_w (snd p') = r_w (snd p) /\ more_output (r_t (snd p)) (r_t (snd p'))) \/
  ((exists u, fst p' = UB u /\ (other u \/ at_line u (snd p'))) /\ as_far_as (r_t (snd p)) (r_t (snd p'))).
Definition like {A} (x x' : ract A) : Prop :=
  grows x /\ forall s s', r_w s' = r_w s -> more_output (r_t s) (r_t s') -> close (x s) (x' s').

Lemma k_ret : forall A (a : A), like (rret a) (rret a).
Proof. intros A a. split; [apply g_ret|]. intros s s' W T. left. auto. Qed.
Lemma k_ask : forall A (f : world -> res A), like (rask f) (rask f).
Proof. intros A f. split; [apply g_ask|]. intros s s' W T. left. unfold rask. cbn [fst snd]. rewrite W. auto. Qed.
Lemma k_val : forall A (r : res A), like (rval r) (rval r). Proof. intros. apply k_ask. Qed.
Lemma k_lift : forall a, like (rlift a) (rlift a).
Proof.
  intros a. split; [apply g_lift|]. intros s s' W T. left. unfold rlift. rewrite W. destruct (a (r_w s)) as [[w t]|u]; cbn [fst snd r_w r_t]; [|auto].
  split; [reflexivity|]. split; [reflexivity|]. apply mo_app; [exact T|apply mo_refl].
Qed.
Lemma k_bind : forall A B (x x' : ract A) (f f' : A -> ract B), like x x' -> (forall a, like (f a) (f' a)) -> like (rbind x f) (rbind x' f').
Proof.
  intros A B x x' f f' (GX & X) F. split; [apply g_bind; [exact GX|intros a; apply F]|]. intros s s' W T. specialize (X s s' W T). unfold rbind.
  destruct (x s) as [r z] eqn:E. destruct (x' s') as [r' z']. unfold close in X. cbn [fst snd] in X.
  destruct X as [(-> & W1 & T1)|((u & -> & TG) & t1 & t2 & E1 & M)].
  - destruct r as [a|u]; [exact (proj2 (F a) z z' W1 T1)|]. left. cbn [fst snd]. auto.
  - right. cbn [fst snd]. split; [eauto|]. destruct r as [a|v].
    + destruct (proj1 (F a) z) as (t3 & E3). exists t1, (t2 ++ t3). split; [rewrite E3, E1, app_assoc; reflexivity|exact M].
    + exists t1, t2. auto.
Qed.
Lemma k_log : forall A b a (x x' : ract A), quiet a -> (forall w u, a w = UB u -> other u) -> like x x' -> like x (vlog b a ~;; x').
Proof.
  intros A b a x x' Q OT (GX & X). split; [exact GX|]. intros s s' W T. unfold vlog, rbind, rlift. pose proof (q_log b a Q) as QL.
  destruct (log_if b a (r_w s')) as [[w t]|u] eqn:E.
  - destruct (QL _ _ _ E) as (-> & P). apply X; [exact W|]. cbn [r_t]. rewrite <- (app_nil_r (r_t s)). apply mo_app; [exact T|apply mo_prints; exact P].
  - right. cbn [fst snd]. split; [exists u; split; [reflexivity|]; left; destruct b; [exact (OT _ _ E)|discriminate]|]. destruct (GX s) as (t2 & E2). exists (r_t s), t2. auto.
Qed.
Lemma k_log_end : forall b a, quiet a -> (forall w u, a w = UB u -> other u) -> like (rret tt) (vlog b a).
Proof.
  intros b a Q OT. split; [apply g_ret|]. intros s s' W T. unfold vlog, rlift. pose proof (q_log b a Q) as QL.
  destruct (log_if b a (r_w s')) as [[w t]|u] eqn:E.
  - destruct (QL _ _ _ E) as (-> & P). left. cbn [fst snd rret r_w r_t]. split; [reflexivity|]. split; [exact W|]. rewrite <- (app_nil_r (r_t s)). apply mo_app; [exact T|apply mo_prints; exact P].
  - right. cbn [fst snd rret]. split; [exists u; split; [reflexivity|]; left; destruct b; [exact (OT _ _ E)|discriminate]|]. exists (r_t s), []. rewrite app_nil_r. auto.
Qed.
Lemma k_eq : forall A (x y x' : ract A), (forall s, x s = y s) -> like y x' -> like x x'.
Proof. intros A x y x' E (G1 & X). split; [intros s; rewrite E; apply G1|]. intros s s' W T. rewrite E. auto. Qed.
Lemma k_when : forall A (p : option A) k k', (forall x, like (k x) (k' x)) -> like (rwhen_some p k) (rwhen_some p k').
Proof. intros A [x|] k k' H; [apply H|apply k_ret]. Qed.

(** what a section that fails for another reason than memory out of bounds may be *)
Definition fo (a : act) : Prop := forall w u, a w = UB u -> other u.
Definition foq {A} (f : world -> res A) : Prop := forall w u, f w = UB u -> other u.
Lemma fo_skip : fo skip. Proof. intros w u H. discriminate. Qed.
Lemma fo_print : forall b, fo (print b). Proof. intros b w u H. discriminate. Qed.
Lemma fo_seq : forall a b, fo a -> fo b -> fo (World.seq a b).
Proof. intros a b A B w u H. unfold World.seq in H. destruct (a w) as [[w1 t1]|v] eqn:E; cbn [bind] in H; [|injection H as <-; exact (A _ _ E)]. destruct (b w1) as [[w2 t2]|v] eqn:E2; cbn [bind] in H; [discriminate|injection H as <-; exact (B _ _ E2)]. Qed.
Lemma fo_ask : forall A (f : world -> res A) k, foq f -> (forall x, fo (k x)) -> fo (ask f k).
Proof. intros A f k F K w u H. unfold ask in H. destruct (f w) as [x|v] eqn:E; cbn [bind] in H; [exact (K _ _ _ H)|injection H as <-; exact (F _ _ E)]. Qed.
Lemma fo_ok : forall A (r : res A), (exists x, r = Ok x) -> foq (fun _ : world => r). Proof. intros A r (x & ->) w u H. discriminate. Qed.
Lemma fo_mread : forall A (m : mu A), foq (fun _ : world => mread m). Proof. intros A [|x] w u H; [injection H as <-; split; discriminate|discriminate]. Qed.
Lemma fo_at : forall A (f : world -> list A) i, foq (fun w => at_ (f w) i). Proof. intros A f i w u H. unfold at_ in H. destruct (nth_error (f w) i); [discriminate|injection H as <-; split; discriminate]. Qed.
Lemma fo_short : forall r, foq (get_short r).
Proof.
  intros [e|c k|x] w u H; cbn [get_short] in H.
  - destruct (get_engine e w) eqn:E; cbn [bind] in H; [discriminate|]. injection H as <-. exact (fo_at _ w_engines e w _ E).
  - destruct (get_cons c w) as [[]|] eqn:E; cbn [bind] in H; [injection H as <-; split; discriminate| |injection H as <-; split; discriminate|injection H as <-; exact (fo_at _ w_conss c w _ E)].
    exact (fo_at _ (fun _ => infos) k w _ H).
  - discriminate.
Qed.
Lemma fo_proc : forall st, foq (fun w => match cb_cfg (st_cbs st) with None => Ok false | Some p => cfg_isProcessing p w end).
Proof. intros st w u H. destruct (cb_cfg (st_cbs st)) as [p|]; [|discriminate]. unfold cfg_isProcessing, get_parser in H. destruct (at_ (w_parsers w) p) as [[]|] eqn:E; cbn [bind] in H; try discriminate. injection H as <-. exact (fo_at _ w_parsers p w _ E). Qed.
Lemma fo_text : forall d, valid_frame d -> fo (print_res (printAsText d)). Proof. intros d V. unfold print_res. apply fo_ask; [apply fo_ok; apply text_ok; exact V|intros; apply fo_print]. Qed.
Lemma fo_hex : forall d, valid_frame d -> fo (print_res (printAsHex d)). Proof. intros d V. unfold print_res. apply fo_ask; [apply fo_ok; apply ProofsLogged.hex_ok; exact V|intros; apply fo_print]. Qed.
Ltac fo_tac := repeat first [apply fo_skip|apply fo_print|apply fo_text; assumption|apply fo_hex; assumption|apply fo_seq|apply fo_ask; [first [apply fo_mread|apply fo_short|exact (fo_at _ w_stations _)|apply fo_proc]|intros]|match goal with |- fo (if ?b then _ else _) => destruct b end].

Section Like.
Variable lw : Z.
Variable react : list event -> code.
Variables inner inner' : code -> ract unit.
Hypothesis df : deaf react.
Variable allowed : code -> Prop.
Hypothesis ra : forall h, allowed (react h).
Hypothesis ih : forall c, deaf_code c -> allowed c -> like (inner c) (inner' c).
Lemma k_ucall : forall e, like (ucall react inner e) (ucall react inner' e).
Proof.
  intros e. apply k_bind; [apply k_lift|]. intros _. split.
  - intros s. apply (proj1 (ih _ (proj2 df (r_t s)) (ra _))).
  - intros s s' W T. rewrite <- (proj1 df _ _ (mo_calls _ _ T)). apply ih; [apply df|apply ra|exact W|exact T].
Qed.
Ltac k1 := lazymatch goal with
  | |- like (rbind _ _) (rbind _ _) => apply k_bind; [|intros]
  | |- like (rret _) (rret _) => apply k_ret
  | |- like (rask _) _ => apply k_ask
  | |- like (rval _) _ => apply k_val
  | |- like (rlift _) _ => apply k_lift
  | |- like (ucall _ _ _) _ => apply k_ucall
  | |- like (rwhen_some _ _) (rwhen_some _ _) => apply k_when; intros
  | |- like (if ?b then _ else _) _ => destruct b
  | |- like (match ?x with _ => _ end) _ => destruct x
  end.
Ltac ks := repeat k1.
Lemma k_tp : forall p, like (rtp p) (rtp p). Proof. intros. unfold rtp. ks. Qed.
Lemma k_put : forall p t, like (rtp_put p t) (rtp_put p t). Proof. intros. unfold rtp_put. ks. Qed.
Lemma k_state : forall p t, like (rput_state p t) (rput_state p t). Proof. intros. unfold rput_state. ks. Qed.
Ltac k2 := repeat first [k1|lazymatch goal with
  | |- like (rtp _) _ => apply k_tp
  | |- like (rtp_put _ _) _ => apply k_put
  | |- like (rput_state _ _) _ => apply k_state end].
Lemma k_line : forall who s k v, quiet (log_line who s k v). Proof. intros. unfold log_line. quiet_tac. Qed.
Lemma k_setting : forall s k, quiet (log_setting s k). Proof. intros. unfold log_setting. quiet_tac. Qed.
Lemma bind_ask : forall A B (f : world -> res A) (k : A -> ract B) s, (x <~ rask f ~; k x) s = match f (r_w s) with Ok x => k x s | UB u => (UB u, s) end.
Proof. intros. unfold rbind, rask. destruct (f (r_w s)); reflexivity. Qed.
Lemma setting_ok : forall l x y z l' w, loco_line lw l x y z = Ok l' -> exists t, log_setting x y w = Ok (w, t).
Proof.
  intros l x y z l' w H. unfold loco_line in H. unfold log_setting, ask. destruct (lit_strncmp kEngineResult x) as [[|]|]; cbn [bind] in *; [|eexists; reflexivity|discriminate].
  destruct (lit_strncmp kEngineKeyUid y) as [[|]|]; cbn [bind] in *; [eexists; reflexivity| |discriminate].
  destruct (lit_strncmp kEngineKeyProtocol y) as [[|]|]; cbn [bind] in *; [eexists; reflexivity| |discriminate].
  destruct (lit_strncmp kEngineKeyAddress y) as [[|]|]; cbn [bind] in *; [eexists; reflexivity|eexists; reflexivity|discriminate].
Qed.
Lemma k_loco : forall e x y z, like (rlift (loco_consume lw e x y z)) (cur <~ rval (mread e) ~; rwhen_some cur (fun _ => rlift (loco_consume lw e x y z) ~;; vlog (events g) (log_setting x y))).
Proof.
  intros e x y z. split; [apply g_lift|]. intros s s' W T. left. destruct e as [|[e|]].
  - cbn. auto.
  - set (a := loco_consume lw (Def (Some e)) x y z).
    assert (E1 : (cur <~ rval (mread (Def (Some e))) ~; rwhen_some cur (fun _ => rlift a ~;; vlog (events g) (log_setting x y))) s' = (rlift a ~;; vlog (events g) (log_setting x y)) s') by reflexivity.
    rewrite E1. clear E1. destruct (a (r_w s)) as [[w1 t1]|u] eqn:LC.
    + assert (E2 : rlift a s = (Ok tt, mkR w1 (r_t s ++ t1))) by (unfold rlift; rewrite LC; reflexivity).
      assert (E3 : (rlift a ~;; vlog (events g) (log_setting x y)) s' = vlog (events g) (log_setting x y) (mkR w1 (r_t s' ++ t1))) by (unfold rbind, rlift at 1; rewrite W, LC; reflexivity).
      rewrite E2, E3. clear E2 E3.
      assert (TT : more_output (r_t s ++ t1) (r_t s' ++ t1)) by (apply mo_app; [exact T|apply mo_refl]).
      unfold vlog, rlift, log_if. cbn [r_w r_t]. destruct (events g); [|unfold skip; cbn [fst snd r_w r_t]; rewrite app_nil_r; auto].
      unfold a, loco_consume in LC. apply ask_inv in LC. destruct LC as (cur & EC & LC). injection EC as <-. apply ask_inv in LC. destruct LC as (l & _ & LC). apply ask_inv in LC. destruct LC as (l' & LL & _).
      destruct (setting_ok _ _ _ _ _ w1 LL) as (t & E). rewrite E. cbn [fst snd r_w r_t].
      split; [reflexivity|]. split; [reflexivity|]. rewrite <- (app_nil_r (r_t s ++ t1)). apply mo_app; [exact TT|]. apply mo_prints. exact (proj2 (k_setting _ _ _ _ _ E)).
    + assert (E2 : rlift a s = (UB u, s)) by (unfold rlift; rewrite LC; reflexivity).
      assert (E3 : (rlift a ~;; vlog (events g) (log_setting x y)) s' = (UB u, s')) by (unfold rbind, rlift at 1; rewrite W, LC; reflexivity).
      rewrite E2, E3. auto.
  - cbn. rewrite app_nil_r. auto.
Qed.
Lemma log_line_fails : forall who x y z w u, log_line who x y z w = UB u -> u = OutOfBounds /\ ((exists u, c_str (mem x) = UB u) \/ (exists u, c_str (mem y) = UB u) \/ exists u, c_str (mem z) = UB u).
Proof.
  intros who x y z w u H. unfold log_line, ask in H. destruct (c_str (mem x)) eqn:EX; cbn [bind] in H; [|injection H as <-; split; [exact (str_ub _ _ EX)|left; eauto]].
  destruct (c_str (mem y)) eqn:EY; cbn [bind] in H; [|injection H as <-; split; [exact (str_ub _ _ EY)|right; left; eauto]].
  destruct (c_str (mem z)) eqn:EZ; cbn [bind] in H; [discriminate|injection H as <-; split; [exact (str_ub _ _ EZ)|right; right; eauto]].
Qed.
Lemma k_at_line : forall c who x y z o (a a' : ract unit) s s', get_cons c (r_w s) = Ok o -> o <> UserC -> like a a' -> r_w s' = r_w s -> more_output (r_t s) (r_t s') ->
  close ((rlift (emit (EvConsume c x y z)) ~;; a) s) ((rlift (emit (EvConsume c x y z)) ~;; vlog (events g) (log_line who x y z) ~;; a') s').
Proof.
  intros c who x y z o a a' s s' GC NU (GA & A) W T. unfold rbind at 1 2, rlift at 1 2, emit. unfold vlog, rbind, rlift. cbn [r_w r_t]. pose proof (q_log (events g) _ (k_line who x y z)) as QL.
  assert (T1 : more_output (r_t s ++ [EvConsume c x y z]) (r_t s' ++ [EvConsume c x y z])) by (apply mo_app; [exact T|apply mo_refl]).
  destruct (log_if (events g) (log_line who x y z) (r_w s')) as [[w t]|u] eqn:E.
  - destruct (QL _ _ _ E) as (-> & P). apply A; [exact W|]. cbn [r_t]. rewrite <- (app_nil_r (r_t s ++ [EvConsume c x y z])). apply mo_app; [exact T1|apply mo_prints; exact P].
  - right. cbn [fst snd]. split.
    + exists u. split; [reflexivity|]. right. unfold log_if in E. destruct (events g) eqn:EG; [|discriminate]. apply log_line_fails in E. destruct E as (-> & E). split; [reflexivity|]. split; [exact EG|]. exists (r_t s'), c, x, y, z, o. split; [reflexivity|].
      split; [|split; [exact NU|exact E]]. cbn [r_w]. rewrite W. unfold consumer_at. unfold get_cons, at_ in GC. destruct (nth_error (w_conss (r_w s)) c); [|discriminate]. congruence.
    + destruct (GA (mkR (r_w s) (r_t s ++ [EvConsume c x y z]))) as (t2 & E2). eexists. exists t2. split; [exact E2|exact T1].
Qed.
Lemma k_consume : forall c s k v, like (rcons_consume lw react inner c s k v) (vcons_consume lw g react inner' c s k v).
Proof.
  intros c x y z. split. { unfold rcons_consume. apply g_bind; [apply g_ask|]. intros [e cb|co i n off cb|]; [apply g_bind; [apply g_lift|intros; apply g_lift]|apply g_bind; [apply g_lift|intros; apply g_lift]|]. exact (proj1 (k_ucall (EvConsume c x y z))). }
  intros s s' W T. unfold rcons_consume, vcons_consume. rewrite (bind_ask _ _ (get_cons c) _ s), (bind_ask _ _ (get_cons c) _ s'), W. destruct (get_cons c (r_w s)) as [o|u] eqn:GC; [|left; auto].
  destruct o as [e cb|co i n off cb|].
  - eapply k_at_line; [exact GC|discriminate|apply k_loco|exact W|exact T].
  - eapply k_at_line; [exact GC|discriminate|apply k_lift|exact W|exact T].
  - apply k_ucall; assumption.
Qed.
Lemma k_complete : forall c, like (rcons_complete react inner c) (rcons_complete react inner' c). Proof. intros. unfold rcons_complete. k2. Qed.
Lemma k_aborted : forall c, like (rcons_aborted react inner c) (rcons_aborted react inner' c). Proof. intros. unfold rcons_aborted. k2. Qed.
Lemma k_report : forall p, like (rtp_report lw react inner p) (vtp_report lw g react inner' p). Proof. intros. unfold rtp_report, vtp_report. k2. apply k_consume. Qed.
Lemma k_error : forall p, like (rtp_reportParseError lw react inner p) (vtp_reportParseError lw g react inner' p).
Proof. intros. unfold rtp_reportParseError, vtp_reportParseError. k2. apply k_report. Qed.
Lemma k_find : forall p o c d, like (rtp_findToken lw react inner p o c d) (vtp_findToken lw g react inner' p o c d).
Proof. intros. unfold rtp_findToken, vtp_findToken. repeat first [k2|progress cbv beta zeta]. all: try apply k_error. Qed.
Lemma k_iteration : forall p n, like (rtp_iteration lw react inner p n) (vtp_iteration lw g react inner' p n).
Proof. intros. unfold rtp_iteration, vtp_iteration. k2; try apply k_find; try apply k_error; try apply k_report. Qed.
Lemma k_process : forall p f n, like (rtp_process lw react inner p f n) (vtp_process lw g react inner' p f n).
Proof. intros p f. induction f; intros; cbn [rtp_process vtp_process]; k2; try apply k_iteration; apply IHf. Qed.
Lemma k_addLoop : forall p b f n, like (rtp_addLoop lw react inner p f b n) (vtp_addLoop lw g react inner' p f b n).
Proof. intros p b f. induction f; intros; cbn [rtp_addLoop vtp_addLoop]; unfold rtp_processBuffer, vtp_processBuffer; k2; try apply k_error; try apply k_process; apply IHf. Qed.
Lemma k_addText : forall p b, like (rtp_addText lw react inner p b) (vtp_addText lw g react inner' p b).
Proof. intros. unfold rtp_addText, vtp_addText. k2; [apply k_error|apply k_addLoop]. Qed.
Lemma k_reset : forall p, like (rlib_reset react inner p) (rlib_reset react inner' p). Proof. intros. unfold rlib_reset. k2. apply k_aborted. Qed.
Lemma k_message : forall p d, valid_frame d -> like (rlib_addMessage lw react inner p d) (vlib_addMessage lw g react inner' p d).
Proof.
  intros. unfold rlib_addMessage, vlib_addMessage. apply k_bind; [apply k_ask|]. intros sp. destruct (sp_state sp); [apply k_lift| | |apply k_lift].
  - destruct (_ || _); [|destruct (_ >=? _); k2; apply k_reset].
    apply k_bind; [apply k_lift|]. intros _. apply k_log; [unfold log_header; quiet_tac|unfold log_header; fo_tac|]. k2. apply k_complete.
  - destruct (negb _); [k2; apply k_reset|]. apply k_log; [quiet_tac|fo_tac|]. k2; [apply k_addText| | |].
    + apply k_log; [quiet_tac|fo_tac|]. k2. apply k_complete.
    + apply k_log; [unfold log_crc_error; quiet_tac|unfold log_crc_error; fo_tac|]. k2. apply k_aborted.
    + apply k_log_end; unfold log_continues; [quiet_tac|fo_tac].
Qed.
Lemma k_cfg_add : forall p d, valid_frame d -> like (rcfg_call lw react inner p (CAdd d)) (vcfg_add lw g react inner' p d).
Proof. intros. unfold rcfg_call, vcfg_add. k2. apply k_message. assumption. Qed.
Lemma k_cfg : forall p c, (forall d, c <> CAdd d) -> like (rcfg_call lw react inner p c) (rcfg_call lw react inner' p c).
Proof. intros p c N. unfold rcfg_call. destruct c as [|d|]; [| |]; [k2|destruct (N d eq_refl)|k2; apply k_reset]. Qed.
Lemma k_tx : forall s f, like (rtx_send react inner s f) (rtx_send react inner' s f). Proof. intros. unfold rtx_send. k2. Qed.
Lemma k_finish : forall s, like (rst_finish lw react inner s) (rst_finish lw react inner' s). Proof. intros. unfold rst_finish. k2; apply k_cfg; discriminate. Qed.
Lemma k_functions : forall s st u n k, like (rsend_functions react inner s st u k n) (rsend_functions react inner' s st u k n).
Proof. intros s st u n. induction n; intros; cbn [rsend_functions]; k2; [apply k_tx|apply IHn]. Qed.
Lemma k_acc : forall s d r, like (rst_handleAccessoryPacket react inner s d r) (rst_handleAccessoryPacket react inner' s d r). Proof. intros. unfold rst_handleAccessoryPacket. k2. Qed.
Ltac k3 := repeat first [k1|lazymatch goal with
  | |- like (rcfg_call _ _ _ _ _) _ => apply k_cfg; discriminate
  | |- like (rtx_send _ _ _ _) _ => apply k_tx
  | |- like (rst_finish _ _ _ _) _ => apply k_finish
  | |- like (rst_handleAccessoryPacket _ _ _ _ _) _ => apply k_acc
  | |- like (rsend_functions _ _ _ _ _ _ _) _ => apply k_functions
  end].
Lemma k_stream : forall s d, valid_frame d -> like (rst_handleConfigDataStream lw react inner s d) (vst_handleConfigDataStream lw g react inner' s d).
Proof. intros. unfold rst_handleConfigDataStream, vst_handleConfigDataStream. k3. apply k_log; [quiet_tac|fo_tac|apply k_cfg_add; assumption]. Qed.
Lemma k_request : forall s e p, like (rst_requestEngine lw react inner s e p) (vst_requestEngine lw g react inner' s e p).
Proof. intros. unfold vst_requestEngine. apply k_log; [unfold log_dropped; quiet_tac|unfold log_dropped; fo_tac|]. unfold rst_requestEngine. k3. Qed.
Lemma k_system : forall s i d, like (rst_handleSystemCommand react inner s i d) (rst_handleSystemCommand react inner' s i d).
Proof. intros. unfold rst_handleSystemCommand. cbv zeta. k3. Qed.
Lemma k_dir : forall s d, like (rst_handleLocoDirection react inner s d) (rst_handleLocoDirection react inner' s d).
Proof. intros. unfold rst_handleLocoDirection. cbv zeta. k3. Qed.
Lemma k_speed : forall s d, like (rst_handleLocoSpeed react inner s d) (rst_handleLocoSpeed react inner' s d).
Proof. intros. unfold rst_handleLocoSpeed. k3. Qed.
Lemma k_fun : forall s d, like (rst_handleLocoFunction react inner s d) (rst_handleLocoFunction react inner' s d).
Proof. intros. unfold rst_handleLocoFunction. k3. Qed.
Lemma k_list : forall s o p, like (rst_requestEngineList lw react inner s o p) (rst_requestEngineList lw react inner' s o p).
Proof. intros. unfold rst_requestEngineList. k3. Qed.
Lemma k_packet : forall s f, valid_frame (fdata f) -> like (rst_handlePacket lw react inner s f) (vst_handlePacket lw g react inner' s f).
Proof.
  intros. unfold vst_handlePacket, rst_handlePacket. cbv zeta. apply k_log; [quiet_tac|fo_tac|].
  destruct (id_getCommand (fid f) =? kRequestConfigData) eqn:R.
  { apply Z.eqb_eq in R. rewrite R. cbn. change (like (rret tt) (vlog (everything g) (puts "Request Config Data. Payload: " ;;; print_res (printAsText (fdata f)) ;;; print nl))). apply k_log_end; [quiet_tac|fo_tac]. }
  destruct (id_getCommand (fid f) =? kConfigDataStream) eqn:C.
  { apply Z.eqb_eq in C. rewrite C. cbn. change (like (rst_handleConfigDataStream lw react inner s (fdata f)) (vlog (everything g) (print (zs "Config Data Stream." ++ nl)) ~;; vst_handleConfigDataStream lw g react inner' s (fdata f))).
    apply k_log; [quiet_tac|fo_tac|apply k_stream; assumption]. }
  destruct (id_getCommand (fid f) =? kSystemCommand); [apply k_system|]. destruct (id_getCommand (fid f) =? kPing); [apply k_ret|].
  destruct (id_getCommand (fid f) =? kAccessorySwitch); [k3|]. destruct (id_getCommand (fid f) =? kLocoDirection); [apply k_dir|].
  destruct (id_getCommand (fid f) =? kLocoSpeed); [apply k_speed|]. destruct (id_getCommand (fid f) =? kLocoFunction); [apply k_fun|]. k3.
Qed.
Lemma k_accessory : forall s a p d pw, like (rst_sendOwn react inner s kAccessorySwitch (accessory_data a p d pw)) (vst_sendAccessoryPacket g react inner' s a p d pw).
Proof. intros. unfold rst_sendOwn, vst_sendAccessoryPacket. cbv zeta. k3. apply k_log; [apply q_print|apply fo_print|apply k_tx]. Qed.
Definition framed (o : op) : Prop := match o with OnStation _ (HandlePacket f) => valid_frame (fdata f) | OnStation _ (HandleConfigDataStream d) => valid_frame d | ParserAddMessage _ d => valid_frame d | _ => True end.
Lemma k_step : forall o, framed o -> like (rstep lw react inner o) (vstep lw g react inner' o).
Proof.
  intros o FR. destruct o as [s o|p|p c|p d|p|c cb|c e|c off|c|c|c|e o]; try apply k_lift; [|apply k_message; exact FR|apply k_reset].
  destruct o; cbn [rstep vstep rst_step]; unfold rst_begin, rst_sendOwn, rst_sendPacket; lazymatch goal with
    | |- like (rst_handlePacket _ _ _ _ _) _ => apply k_packet; exact FR
    | |- like (rst_handleConfigDataStream _ _ _ _ _) _ => apply k_stream; exact FR
    | |- like (rst_requestEngine _ _ _ _ _ _) _ => apply k_request
    | |- like (rst_requestEngineList _ _ _ _ _ _) _ => apply k_list
    | |- like (rst_handleSystemCommand _ _ _ _ _) _ => apply k_system
    | |- like (rst_handleLocoDirection _ _ _ _) _ => apply k_dir
    | |- like (rst_handleLocoSpeed _ _ _ _) _ => apply k_speed
    | |- like (rst_handleLocoFunction _ _ _ _) _ => apply k_fun
    | |- like _ (vst_sendAccessoryPacket _ _ _ _ _ _ _ _) => apply k_accessory
    | |- _ => k3
    end.
Qed.
End Like.

Lemma only_call_inv : forall P o k, only_calls P (Call o k) -> P o /\ forall w t, only_calls P (k w t).
Proof. intros P o k H. inversion H; subst. auto. Qed.
Lemma k_exec : forall lw react, deaf react -> (forall h, only_calls framed (react h)) -> forall n c, deaf_code c -> only_calls framed c -> like (rexec lw react n c) (vexec lw g react n c).
Proof.
  intros lw react DF RF n. induction n as [|n IHn]; intros c DC.
  - intros _. destruct DC; [apply k_ret|apply k_val].
  - induction DC as [|o k EQ _ IH]; [intros _; apply k_ret|]. intros (FO & FK)%only_call_inv.
    change (like (rstep lw react (rexec lw react n) o ~;; (fun s => rexec lw react (S n) (k (r_w s) (r_t s)) s)) (vstep lw g react (vexec lw g react n) o ~;; (fun s => vexec lw g react (S n) (k (r_w s) (r_t s)) s))).
    apply k_bind; [eapply k_step; [exact DF|exact RF|exact IHn|exact FO]|]. intros _. split; [intros s; apply g_exec|]. intros s s' W T. rewrite W, <- (EQ _ _ _ (mo_calls _ _ T)). apply (proj2 (IH (r_w s) (r_t s) (FK _ _))); assumption.
Qed.
End Exact.

Lemma legal_framed : forall w c, only_calls (legal_op w) c -> only_calls framed c.
Proof.
  intros w c H. induction H as [|o k P _ IH]; [constructor|]. constructor; [|exact IH]. destruct P as [V|(e & x & -> & _)]; [|exact Logic.I].
  destruct o as [s o|p|p c|p d|p|c cb|c e|c off|c|c|c|e o]; cbn [valid_op framed] in *; try exact Logic.I; [|apply V]. destruct o; cbn [valid_sop] in V; try exact Logic.I; apply V.
Qed.
Lemma exists_last_or_nil : forall A (l : list A), l = [] \/ exists l' a, l = l' ++ [a].
Proof. intros A l. destruct l as [|x l]; [auto|]. right. destruct (@exists_last A (x :: l)) as (l' & a & E); [discriminate|eauto]. Qed.
Lemma only_overfull : forall lw g react n w c t r s r' s', decent w -> only_calls (legal_op w) c -> (forall h, only_calls (legal_op w) (react h)) -> deaf react -> deaf_code c ->
  rexec lw react n c (mkR w t) = (r, s) -> vexec lw g react n c (mkR w t) = (r', s') ->
  (r' = r /\ r_w s' = r_w s /\ more_output (r_t s) (r_t s')) \/
  (r' = UB OutOfBounds /\ prints_lines g /\ by_printing (r_w s') (r_t s') /\ as_far_as (r_t s) (r_t s')).
Proof.
  intros lw g react n w c t r s r' s' D OC RH DF DC E E'.
  pose proof (proj2 (k_exec g lw react DF (fun h => legal_framed w _ (RH h)) n c DC (legal_framed w _ OC)) (mkR w t) (mkR w t) eq_refl (mo_refl t)) as H. rewrite E, E' in H.
  destruct H as [H|((u & U & TG) & AF)]; [left; exact H|]. cbn [fst snd] in *. subst r'. right.
  destruct (last_things_logged lw g react n w c t _ s' D OC RH E') as [(H & _)|[H|(H & _ & L)]]; [discriminate| |].
  - injection H as ->. destruct TG as [(_ & N)|(N & _)]; [congruence|discriminate].
  - injection H as ->. split; [reflexivity|]. destruct TG as [(N & _)|(_ & EG & b & i & x & y & z & o & T & CO & NU & F)]; [congruence|].
    assert (PL : prints_lines g) by (unfold prints_lines; unfold events, LEVEL_EVENTS in EG; lia).
    split; [exact PL|]. split; [|exact AF]. destruct L as [(b2 & j & sx & k & v & o2 & out & T2 & PO & C2 & FA & WI)|[(b2 & j & e & cb & l & T2 & _)|(_ & L)]]; [| |exact L].
    + destruct (exists_last_or_nil _ out) as [->|(out' & e & ->)].
      * rewrite T in T2. apply app_inj_tail in T2. destruct T2 as (-> & T2). injection T2 as -> -> -> ->. exists b2, j, sx, k, v, o.
        split; [exact T|]. split; [exact CO|]. split; [exact NU|]. destruct WI as (W1 & W2 & W3). destruct (overfull_dec (sx, k, v)) as [OF|OF]; [exact OF|exfalso].
        unfold overfull in OF. destruct (str_zb max_section sx W1) as (t1 & E1); [tauto|]. destruct (str_zb max_key k W2) as (t2 & E2); [tauto|]. destruct (str_zb max_value v W3) as (t3 & E3); [tauto|].
        destruct F as [(u & F)|[(u & F)|(u & F)]]; congruence.
      * exfalso. apply Forall_app in PO. destruct PO as (_ & PO). inversion PO as [|? ? PE _]; subst. rewrite T in T2. rewrite app_comm_cons, app_assoc in T2. apply app_inj_tail in T2. destruct T2 as (_ & <-). discriminate.
    + exfalso. rewrite T in T2. change [EvStreamComplete j; EvPrint (zs "Downloaded Engine: ")] with ([EvStreamComplete j] ++ [EvPrint (zs "Downloaded Engine: ")]) in T2. rewrite app_assoc in T2. apply app_inj_tail in T2. destruct T2 as (_ & T2). discriminate.
Qed.
