(* ProofsTalk.v -- proofs for C126: a logging build makes the calls of the plain one, whatever the
   callbacks do. *)
From Verif Require Import ZLib SpecTalk ProofsSafe ProofsLogged ProofsRsafe.

Definition close {A} (p p' : res A * rst) : Prop :=
  (fst p' = fst p /\ r_w (snd p') = r_w (snd p) /\ more_output (r_t (snd p)) (r_t (snd p'))) \/
  ((exists u, fst p' = UB u) /\ as_far_as (r_t (snd p)) (r_t (snd p'))).
Definition like {A} (x x' : ract A) : Prop :=
  grows x /\ forall s s', r_w s' = r_w s -> more_output (r_t s) (r_t s') -> close (x s) (x' s').

Lemma k_ret : forall A (a : A), like (rret a) (rret a).
Proof. intros A a. split; [apply g_ret|]. intros s s' W T. left. auto. Qed.
Lemma k_ask : forall A (f : world -> res A), like (rask f) (rask f).
Proof. intros A f. split; [apply g_ask|]. intros s s' W T. left. unfold rask. cbn [fst snd]. rewrite W. auto. Qed.
Lemma k_val : forall A (r : res A), like (rval r) (rval r). Proof. intros. apply k_ask. Qed.
Lemma k_lift : forall a, like (rlift a) (rlift a).
Proof.
  intros a. split; [apply g_lift|]. intros s s' W T. left. unfold rlift. rewrite W. destruct (a (r_w s)) as [[w t]|u]; cbn [fst snd r_w r_t]; [|auto].
  split; [reflexivity|]. split; [reflexivity|]. apply mo_app; [exact T|apply mo_refl].
Qed.
Lemma k_bind : forall A B (x x' : ract A) (f f' : A -> ract B), like x x' -> (forall a, like (f a) (f' a)) -> like (rbind x f) (rbind x' f').
Proof.
  intros A B x x' f f' (GX & X) F. split; [apply g_bind; [exact GX|intros a; apply F]|]. intros s s' W T. specialize (X s s' W T). unfold rbind.
  destruct (x s) as [r z] eqn:E. destruct (x' s') as [r' z']. unfold close in X. cbn [fst snd] in X.
  destruct X as [(-> & W1 & T1)|((u & ->) & t1 & t2 & E1 & M)].
  - destruct r as [a|u]; [exact (proj2 (F a) z z' W1 T1)|]. left. cbn [fst snd]. auto.
  - right. cbn [fst snd]. split; [eauto|]. destruct r as [a|v].
    + destruct (proj1 (F a) z) as (t3 & E3). exists t1, (t2 ++ t3). split; [rewrite E3, E1, app_assoc; reflexivity|exact M].
    + exists t1, t2. auto.
Qed.
Lemma k_log : forall A b a (x x' : ract A), quiet a -> like x x' -> like x (vlog b a ~;; x').
Proof.
  intros A b a x x' Q (GX & X). split; [exact GX|]. intros s s' W T. unfold vlog, rbind, rlift. pose proof (q_log b a Q) as QL.
  destruct (log_if b a (r_w s')) as [[w t]|u] eqn:E.
  - destruct (QL _ _ _ E) as (-> & P). apply X; [exact W|]. cbn [r_t]. rewrite <- (app_nil_r (r_t s)). apply mo_app; [exact T|apply mo_prints; exact P].
  - right. cbn [fst snd]. split; [eauto|]. destruct (GX s) as (t2 & E2). exists (r_t s), t2. auto.
Qed.
Lemma k_log_end : forall b a, quiet a -> like (rret tt) (vlog b a).
Proof.
  intros b a Q. split; [apply g_ret|]. intros s s' W T. unfold vlog, rlift. pose proof (q_log b a Q) as QL.
  destruct (log_if b a (r_w s')) as [[w t]|u] eqn:E.
  - destruct (QL _ _ _ E) as (-> & P). left. cbn [fst snd rret r_w r_t]. split; [reflexivity|]. split; [exact W|]. rewrite <- (app_nil_r (r_t s)). apply mo_app; [exact T|apply mo_prints; exact P].
  - right. cbn [fst snd rret]. split; [eauto|]. exists (r_t s), []. rewrite app_nil_r. auto.
Qed.
Lemma k_eq : forall A (x y x' : ract A), (forall s, x s = y s) -> like y x' -> like x x'.
Proof. intros A x y x' E (G1 & X). split; [intros s; rewrite E; apply G1|]. intros s s' W T. rewrite E. auto. Qed.
Lemma k_when : forall A (p : option A) k k', (forall x, like (k x) (k' x)) -> like (rwhen_some p k) (rwhen_some p k').
Proof. intros A [x|] k k' H; [apply H|apply k_ret]. Qed.

Section Like.
Variable lw : Z.
Variable g : logcfg.
Variable react : list event -> code.
Variables inner inner' : code -> ract unit.
Hypothesis df : deaf react.
Hypothesis ih : forall c, deaf_code c -> like (inner c) (inner' c).
Lemma k_ucall : forall e, like (ucall react inner e) (ucall react inner' e).
Proof.
  intros e. apply k_bind; [apply k_lift|]. intros _. split.
  - intros s. apply (proj1 (ih _ (proj2 df (r_t s)))).
  - intros s s' W T. rewrite <- (proj1 df _ _ (mo_calls _ _ T)). apply ih; [apply df|exact W|exact T].
Qed.
Ltac k1 := lazymatch goal with
  | |- like (rbind _ _) (rbind _ _) => apply k_bind; [|intros]
  | |- like (rret _) (rret _) => apply k_ret
  | |- like (rask _) _ => apply k_ask
  | |- like (rval _) _ => apply k_val
  | |- like (rlift _) _ => apply k_lift
  | |- like (ucall _ _ _) _ => apply k_ucall
  | |- like (rwhen_some _ _) (rwhen_some _ _) => apply k_when; intros
  | |- like (if ?b then _ else _) _ => destruct b
  | |- like (match ?x with _ => _ end) _ => destruct x
  end.
Ltac ks := repeat k1.
Lemma k_tp : forall p, like (rtp p) (rtp p). Proof. intros. unfold rtp. ks. Qed.
Lemma k_put : forall p t, like (rtp_put p t) (rtp_put p t). Proof. intros. unfold rtp_put. ks. Qed.
Lemma k_state : forall p t, like (rput_state p t) (rput_state p t). Proof. intros. unfold rput_state. ks. Qed.
Ltac k2 := repeat first [k1|lazymatch goal with
  | |- like (rtp _) _ => apply k_tp
  | |- like (rtp_put _ _) _ => apply k_put
  | |- like (rput_state _ _) _ => apply k_state end].
Lemma k_line : forall who s k v, quiet (log_line who s k v). Proof. intros. unfold log_line. quiet_tac. Qed.
Lemma k_setting : forall s k, quiet (log_setting s k). Proof. intros. unfold log_setting. quiet_tac. Qed.
Lemma k_after : forall (x x' : ract unit) b a, quiet a -> like x x' -> like x (x' ~;; vlog b a).
Proof.
  intros x x' b a Q X. apply k_eq with (y := x ~;; rret tt); [|apply k_bind; [exact X|intros; apply k_log_end; exact Q]].
  intros s. unfold rbind. destruct (x s) as [[[]|u] z]; reflexivity.
Qed.
Lemma k_consume : forall c s k v, like (rcons_consume lw react inner c s k v) (vcons_consume lw g react inner' c s k v).
Proof.
  intros. unfold rcons_consume, vcons_consume. apply k_bind; [apply k_ask|]. intros [e cb|co i n off cb|]; [| |apply k_ucall].
  - apply k_bind; [apply k_lift|]. intros _. apply k_log; [apply k_line|].
    apply k_eq with (y := cur <~ rval (mread e) ~; rwhen_some cur (fun _ => rlift (loco_consume lw e s k v))).
    + intros z. unfold rlift, loco_consume, rbind, rval, rask, ask. destruct e as [|[e|]]; [reflexivity|reflexivity|]. cbn [mread]. cbv iota beta. cbn [rwhen_some]. unfold skip. cbv iota beta. cbn [bind]. cbv iota beta. rewrite app_nil_r. destruct z. reflexivity.
    + apply k_bind; [apply k_val|]. intros cur. apply k_when. intros _. apply k_after; [apply k_setting|apply k_lift].
  - apply k_bind; [apply k_lift|]. intros _. apply k_log; [apply k_line|]. apply k_lift.
Qed.
Lemma k_complete : forall c, like (rcons_complete react inner c) (rcons_complete react inner' c). Proof. intros. unfold rcons_complete. k2. Qed.
Lemma k_aborted : forall c, like (rcons_aborted react inner c) (rcons_aborted react inner' c). Proof. intros. unfold rcons_aborted. k2. Qed.
Lemma k_report : forall p, like (rtp_report lw react inner p) (vtp_report lw g react inner' p). Proof. intros. unfold rtp_report, vtp_report. k2. apply k_consume. Qed.
Lemma k_error : forall p, like (rtp_reportParseError lw react inner p) (vtp_reportParseError lw g react inner' p).
Proof. intros. unfold rtp_reportParseError, vtp_reportParseError. k2. apply k_report. Qed.
Lemma k_find : forall p o c d, like (rtp_findToken lw react inner p o c d) (vtp_findToken lw g react inner' p o c d).
Proof. intros. unfold rtp_findToken, vtp_findToken. repeat first [k2|progress cbv beta zeta]. all: try apply k_error. Qed.
Lemma k_iteration : forall p n, like (rtp_iteration lw react inner p n) (vtp_iteration lw g react inner' p n).
Proof. intros. unfold rtp_iteration, vtp_iteration. k2; try apply k_find; try apply k_error; try apply k_report. Qed.
Lemma k_process : forall p f n, like (rtp_process lw react inner p f n) (vtp_process lw g react inner' p f n).
Proof. intros p f. induction f; intros; cbn [rtp_process vtp_process]; k2; try apply k_iteration; apply IHf. Qed.
Lemma k_addLoop : forall p b f n, like (rtp_addLoop lw react inner p f b n) (vtp_addLoop lw g react inner' p f b n).
Proof. intros p b f. induction f; intros; cbn [rtp_addLoop vtp_addLoop]; unfold rtp_processBuffer, vtp_processBuffer; k2; try apply k_error; try apply k_process; apply IHf. Qed.
Lemma k_addText : forall p b, like (rtp_addText lw react inner p b) (vtp_addText lw g react inner' p b).
Proof. intros. unfold rtp_addText, vtp_addText. k2; [apply k_error|apply k_addLoop]. Qed.
Lemma k_reset : forall p, like (rlib_reset react inner p) (rlib_reset react inner' p). Proof. intros. unfold rlib_reset. k2. apply k_aborted. Qed.
Lemma k_message : forall p d, like (rlib_addMessage lw react inner p d) (vlib_addMessage lw g react inner' p d).
Proof.
  intros. unfold rlib_addMessage, vlib_addMessage. apply k_bind; [apply k_ask|]. intros sp. destruct (sp_state sp); [apply k_lift| | |apply k_lift].
  - destruct (_ || _); [|destruct (_ >=? _); k2; apply k_reset].
    apply k_bind; [apply k_lift|]. intros _. apply k_log; [unfold log_header; quiet_tac|]. k2. apply k_complete.
  - destruct (negb _); [k2; apply k_reset|]. apply k_log; [quiet_tac|]. k2; [apply k_addText| | |].
    + apply k_log; [quiet_tac|]. k2. apply k_complete.
    + apply k_log; [unfold log_crc_error; quiet_tac|]. k2. apply k_aborted.
    + apply k_log_end. unfold log_continues. quiet_tac.
Qed.
Lemma k_cfg_add : forall p d, like (rcfg_call lw react inner p (CAdd d)) (vcfg_add lw g react inner' p d).
Proof. intros. unfold rcfg_call, vcfg_add. k2. apply k_message. Qed.
Lemma k_cfg : forall p c, (forall d, c <> CAdd d) -> like (rcfg_call lw react inner p c) (rcfg_call lw react inner' p c).
Proof. intros p c N. unfold rcfg_call. destruct c as [|d|]; [| |]; [k2|destruct (N d eq_refl)|k2; apply k_reset]. Qed.
Lemma k_tx : forall s f, like (rtx_send react inner s f) (rtx_send react inner' s f). Proof. intros. unfold rtx_send. k2. Qed.
Lemma k_finish : forall s, like (rst_finish lw react inner s) (rst_finish lw react inner' s). Proof. intros. unfold rst_finish. k2; apply k_cfg; discriminate. Qed.
Lemma k_functions : forall s st u n k, like (rsend_functions react inner s st u k n) (rsend_functions react inner' s st u k n).
Proof. intros s st u n. induction n; intros; cbn [rsend_functions]; k2; [apply k_tx|apply IHn]. Qed.
Lemma k_acc : forall s d r, like (rst_handleAccessoryPacket react inner s d r) (rst_handleAccessoryPacket react inner' s d r). Proof. intros. unfold rst_handleAccessoryPacket. k2. Qed.
Ltac k3 := repeat first [k1|lazymatch goal with
  | |- like (rcfg_call _ _ _ _ _) _ => apply k_cfg; discriminate
  | |- like (rtx_send _ _ _ _) _ => apply k_tx
  | |- like (rst_finish _ _ _ _) _ => apply k_finish
  | |- like (rst_handleAccessoryPacket _ _ _ _ _) _ => apply k_acc
  | |- like (rsend_functions _ _ _ _ _ _ _) _ => apply k_functions
  end].
Lemma k_stream : forall s d, like (rst_handleConfigDataStream lw react inner s d) (vst_handleConfigDataStream lw g react inner' s d).
Proof. intros. unfold rst_handleConfigDataStream, vst_handleConfigDataStream. k3. apply k_log; [quiet_tac|apply k_cfg_add]. Qed.
Lemma k_request : forall s e p, like (rst_requestEngine lw react inner s e p) (vst_requestEngine lw g react inner' s e p).
Proof. intros. unfold vst_requestEngine. apply k_log; [unfold log_dropped; quiet_tac|]. unfold rst_requestEngine. k3. Qed.
Lemma k_system : forall s i d, like (rst_handleSystemCommand react inner s i d) (rst_handleSystemCommand react inner' s i d).
Proof. intros. unfold rst_handleSystemCommand. cbv zeta. k3. Qed.
Lemma k_dir : forall s d, like (rst_handleLocoDirection react inner s d) (rst_handleLocoDirection react inner' s d).
Proof. intros. unfold rst_handleLocoDirection. cbv zeta. k3. Qed.
Lemma k_speed : forall s d, like (rst_handleLocoSpeed react inner s d) (rst_handleLocoSpeed react inner' s d).
Proof. intros. unfold rst_handleLocoSpeed. k3. Qed.
Lemma k_fun : forall s d, like (rst_handleLocoFunction react inner s d) (rst_handleLocoFunction react inner' s d).
Proof. intros. unfold rst_handleLocoFunction. k3. Qed.
Lemma k_list : forall s o p, like (rst_requestEngineList lw react inner s o p) (rst_requestEngineList lw react inner' s o p).
Proof. intros. unfold rst_requestEngineList. k3. Qed.
Lemma k_packet : forall s f, like (rst_handlePacket lw react inner s f) (vst_handlePacket lw g react inner' s f).
Proof.
  intros. unfold vst_handlePacket, rst_handlePacket. cbv zeta. apply k_log; [quiet_tac|].
  destruct (id_getCommand (fid f) =? kRequestConfigData) eqn:R.
  { apply Z.eqb_eq in R. rewrite R. cbn. change (like (rret tt) (vlog (everything g) (puts "Request Config Data. Payload: " ;;; print_res (printAsText (fdata f)) ;;; print nl))). apply k_log_end. quiet_tac. }
  destruct (id_getCommand (fid f) =? kConfigDataStream) eqn:C.
  { apply Z.eqb_eq in C. rewrite C. cbn. change (like (rst_handleConfigDataStream lw react inner s (fdata f)) (vlog (everything g) (print (zs "Config Data Stream." ++ nl)) ~;; vst_handleConfigDataStream lw g react inner' s (fdata f))).
    apply k_log; [quiet_tac|apply k_stream]. }
  destruct (id_getCommand (fid f) =? kSystemCommand); [apply k_system|]. destruct (id_getCommand (fid f) =? kPing); [apply k_ret|].
  destruct (id_getCommand (fid f) =? kAccessorySwitch); [k3|]. destruct (id_getCommand (fid f) =? kLocoDirection); [apply k_dir|].
  destruct (id_getCommand (fid f) =? kLocoSpeed); [apply k_speed|]. destruct (id_getCommand (fid f) =? kLocoFunction); [apply k_fun|]. k3.
Qed.
Lemma k_accessory : forall s a p d pw, like (rst_sendOwn react inner s kAccessorySwitch (accessory_data a p d pw)) (vst_sendAccessoryPacket g react inner' s a p d pw).
Proof. intros. unfold rst_sendOwn, vst_sendAccessoryPacket. cbv zeta. k3. apply k_log; [apply q_print|apply k_tx]. Qed.
Lemma k_step : forall o, like (rstep lw react inner o) (vstep lw g react inner' o).
Proof.
  intros o. destruct o as [s o|p|p c|p d|p|c cb|c e|c off|c|c|c|e o]; try apply k_lift; [|apply k_message|apply k_reset].
  destruct o; cbn [rstep vstep rst_step]; unfold rst_begin, rst_sendOwn, rst_sendPacket; lazymatch goal with
    | |- like (rst_handlePacket _ _ _ _ _) _ => apply k_packet
    | |- like (rst_handleConfigDataStream _ _ _ _ _) _ => apply k_stream
    | |- like (rst_requestEngine _ _ _ _ _ _) _ => apply k_request
    | |- like (rst_requestEngineList _ _ _ _ _ _) _ => apply k_list
    | |- like (rst_handleSystemCommand _ _ _ _ _) _ => apply k_system
    | |- like (rst_handleLocoDirection _ _ _ _) _ => apply k_dir
    | |- like (rst_handleLocoSpeed _ _ _ _) _ => apply k_speed
    | |- like (rst_handleLocoFunction _ _ _ _) _ => apply k_fun
    | |- like _ (vst_sendAccessoryPacket _ _ _ _ _ _ _ _) => apply k_accessory
    | |- _ => k3
    end.
Qed.
End Like.

Lemma k_exec : forall lw g react, deaf react -> forall n c, deaf_code c -> like (rexec lw react n c) (vexec lw g react n c).
Proof.
  intros lw g react DF n. induction n as [|n IHn]; intros c DC.
  - destruct DC; [apply k_ret|apply k_val].
  - induction DC as [|o k EQ _ IH]; [apply k_ret|].
    change (like (rstep lw react (rexec lw react n) o ~;; (fun s => rexec lw react (S n) (k (r_w s) (r_t s)) s)) (vstep lw g react (vexec lw g react n) o ~;; (fun s => vexec lw g react (S n) (k (r_w s) (r_t s)) s))).
    apply k_bind; [apply k_step; assumption|]. intros _. split; [intros s; apply g_exec|]. intros s s' W T. rewrite W, <- (EQ _ _ _ (mo_calls _ _ T)). apply (proj2 (IH (r_w s) (r_t s))); assumption.
Qed.
Lemma only_the_console : forall lw g react n c w t r s r' s', deaf react -> deaf_code c ->
  rexec lw react n c (mkR w t) = (r, s) -> vexec lw g react n c (mkR w t) = (r', s') ->
  (r' = r /\ r_w s' = r_w s /\ more_output (r_t s) (r_t s')) \/ ((exists u, r' = UB u) /\ as_far_as (r_t s) (r_t s')).
Proof.
  intros lw g react n c w t r s r' s' DF DC E E'. pose proof (proj2 (k_exec lw g react DF n c DC) (mkR w t) (mkR w t) eq_refl (mo_refl t)) as H. rewrite E, E' in H. exact H.
Qed.

(** ** With nothing enabled the logging build is the plain one *)
Definition agree {A} (x x' : ract A) : Prop := forall s, x' s = x s.
Lemma a_ret : forall A (a : A), agree (rret a) (rret a). Proof. intros A a s. reflexivity. Qed.
Lemma a_ask : forall A (f : world -> res A), agree (rask f) (rask f). Proof. intros A f s. reflexivity. Qed.
Lemma a_val : forall A (r : res A), agree (rval r) (rval r). Proof. intros A f s. reflexivity. Qed.
Lemma a_lift : forall a, agree (rlift a) (rlift a). Proof. intros a s. reflexivity. Qed.
Lemma a_bind : forall A B (x x' : ract A) (f f' : A -> ract B), agree x x' -> (forall a, agree (f a) (f' a)) -> agree (rbind x f) (rbind x' f').
Proof. intros A B x x' f f' X F s. unfold rbind. rewrite X. destruct (x s) as [[a|u] z]; [apply F|reflexivity]. Qed.
Lemma a_log : forall A b a (x x' : ract A), b = false -> agree x x' -> agree x (vlog b a ~;; x').
Proof. intros A b a x x' -> X s. unfold vlog, rbind, rlift, log_if, skip. rewrite app_nil_r. destruct s. apply X. Qed.
Lemma a_log_end : forall b a, b = false -> agree (rret tt) (vlog b a).
Proof. intros b a -> s. unfold vlog, rlift, log_if, skip. rewrite app_nil_r. destruct s. reflexivity. Qed.
Lemma a_eq : forall A (x y x' : ract A), (forall s, x s = y s) -> agree y x' -> agree x x'.
Proof. intros A x y x' E X s. rewrite E. apply X. Qed.
Lemma a_when : forall A (p : option A) k k', (forall x, agree (k x) (k' x)) -> agree (rwhen_some p k) (rwhen_some p k').
Proof. intros A [x|] k k' H; [apply H|apply a_ret]. Qed.

Section Agree.
Variable lw : Z.
Variable g : logcfg.
Variable react : list event -> code.
Variables inner inner' : code -> ract unit.
Hypothesis sg : silent g.
Hypothesis ih : forall c, agree (inner c) (inner' c).
Ltac sil := destruct sg as (SA & SB & SC & SD); unfold events, packets, everything, LEVEL_EVENTS, LEVEL_PACKETS, LEVEL_ALL; first [assumption|lia].
Lemma a_ucall : forall e, agree (ucall react inner e) (ucall react inner' e).
Proof. intros e. apply a_bind; [apply a_lift|]. intros _ s. apply ih. Qed.
Ltac ag1 := lazymatch goal with
  | |- agree (rbind _ _) (rbind _ _) => apply a_bind; [|intros]
  | |- agree (rret _) (rret _) => apply a_ret
  | |- agree (rask _) _ => apply a_ask
  | |- agree (rval _) _ => apply a_val
  | |- agree (rlift _) _ => apply a_lift
  | |- agree (ucall _ _ _) _ => apply a_ucall
  | |- agree (rwhen_some _ _) (rwhen_some _ _) => apply a_when; intros
  | |- agree (if ?b then _ else _) _ => destruct b
  | |- agree (match ?x with _ => _ end) _ => destruct x
  end.
Ltac ags := repeat ag1.
Lemma a_tp : forall p, agree (rtp p) (rtp p). Proof. intros. unfold rtp. ags. Qed.
Lemma a_put : forall p t, agree (rtp_put p t) (rtp_put p t). Proof. intros. unfold rtp_put. ags. Qed.
Lemma a_state : forall p t, agree (rput_state p t) (rput_state p t). Proof. intros. unfold rput_state. ags. Qed.
Ltac ag2 := repeat first [ag1|lazymatch goal with
  | |- agree (rtp _) _ => apply a_tp
  | |- agree (rtp_put _ _) _ => apply a_put
  | |- agree (rput_state _ _) _ => apply a_state end].
Lemma a_after : forall (x x' : ract unit) b a, b = false -> agree x x' -> agree x (x' ~;; vlog b a).
Proof.
  intros x x' b a Q X. apply a_eq with (y := x ~;; rret tt); [|apply a_bind; [exact X|intros; apply a_log_end; exact Q]].
  intros s. unfold rbind. destruct (x s) as [[[]|u] z]; reflexivity.
Qed.
Lemma a_consume : forall c s k v, agree (rcons_consume lw react inner c s k v) (vcons_consume lw g react inner' c s k v).
Proof.
  intros. unfold rcons_consume, vcons_consume. apply a_bind; [apply a_ask|]. intros [e cb|co i n off cb|]; [| |apply a_ucall].
  - apply a_bind; [apply a_lift|]. intros _. apply a_log; [sil|].
    apply a_eq with (y := cur <~ rval (mread e) ~; rwhen_some cur (fun _ => rlift (loco_consume lw e s k v))).
    + intros z. unfold rlift, loco_consume, rbind, rval, rask, ask. destruct e as [|[e|]]; [reflexivity|reflexivity|]. cbn [mread]. cbv iota beta. cbn [rwhen_some]. unfold skip. cbv iota beta. cbn [bind]. cbv iota beta. rewrite app_nil_r. destruct z. reflexivity.
    + apply a_bind; [apply a_val|]. intros cur. apply a_when. intros _. apply a_after; [sil|apply a_lift].
  - apply a_bind; [apply a_lift|]. intros _. apply a_log; [sil|]. apply a_lift.
Qed.
Lemma a_complete : forall c, agree (rcons_complete react inner c) (rcons_complete react inner' c). Proof. intros. unfold rcons_complete. ag2. Qed.
Lemma a_aborted : forall c, agree (rcons_aborted react inner c) (rcons_aborted react inner' c). Proof. intros. unfold rcons_aborted. ag2. Qed.
Lemma a_report : forall p, agree (rtp_report lw react inner p) (vtp_report lw g react inner' p). Proof. intros. unfold rtp_report, vtp_report. ag2. apply a_consume. Qed.
Lemma a_error : forall p, agree (rtp_reportParseError lw react inner p) (vtp_reportParseError lw g react inner' p).
Proof. intros. unfold rtp_reportParseError, vtp_reportParseError. ag2. apply a_report. Qed.
Lemma a_find : forall p o c d, agree (rtp_findToken lw react inner p o c d) (vtp_findToken lw g react inner' p o c d).
Proof. intros. unfold rtp_findToken, vtp_findToken. repeat first [ag2|progress cbv beta zeta]. all: try apply a_error. Qed.
Lemma a_iteration : forall p n, agree (rtp_iteration lw react inner p n) (vtp_iteration lw g react inner' p n).
Proof. intros. unfold rtp_iteration, vtp_iteration. ag2; try apply a_find; try apply a_error; try apply a_report. Qed.
Lemma a_process : forall p f n, agree (rtp_process lw react inner p f n) (vtp_process lw g react inner' p f n).
Proof. intros p f. induction f; intros; cbn [rtp_process vtp_process]; ag2; try apply a_iteration; apply IHf. Qed.
Lemma a_addLoop : forall p b f n, agree (rtp_addLoop lw react inner p f b n) (vtp_addLoop lw g react inner' p f b n).
Proof. intros p b f. induction f; intros; cbn [rtp_addLoop vtp_addLoop]; unfold rtp_processBuffer, vtp_processBuffer; ag2; try apply a_error; try apply a_process; apply IHf. Qed.
Lemma a_addText : forall p b, agree (rtp_addText lw react inner p b) (vtp_addText lw g react inner' p b).
Proof. intros. unfold rtp_addText, vtp_addText. ag2; [apply a_error|apply a_addLoop]. Qed.
Lemma a_reset : forall p, agree (rlib_reset react inner p) (rlib_reset react inner' p). Proof. intros. unfold rlib_reset. ag2. apply a_aborted. Qed.
Lemma a_message : forall p d, agree (rlib_addMessage lw react inner p d) (vlib_addMessage lw g react inner' p d).
Proof.
  intros. unfold rlib_addMessage, vlib_addMessage. apply a_bind; [apply a_ask|]. intros sp. destruct (sp_state sp); [apply a_lift| | |apply a_lift].
  - destruct (_ || _); [|destruct (_ >=? _); ag2; apply a_reset].
    apply a_bind; [apply a_lift|]. intros _. apply a_log; [sil|]. ag2. apply a_complete.
  - destruct (negb _); [ag2; apply a_reset|]. apply a_log; [sil|]. ag2; [apply a_addText| | |].
    + apply a_log; [sil|]. ag2. apply a_complete.
    + apply a_log; [sil|]. ag2. apply a_aborted.
    + apply a_log_end. sil.
Qed.
Lemma a_cfg_add : forall p d, agree (rcfg_call lw react inner p (CAdd d)) (vcfg_add lw g react inner' p d).
Proof. intros. unfold rcfg_call, vcfg_add. ag2. apply a_message. Qed.
Lemma a_cfg : forall p c, (forall d, c <> CAdd d) -> agree (rcfg_call lw react inner p c) (rcfg_call lw react inner' p c).
Proof. intros p c N. unfold rcfg_call. destruct c as [|d|]; [| |]; [ag2|destruct (N d eq_refl)|ag2; apply a_reset]. Qed.
Lemma a_tx : forall s f, agree (rtx_send react inner s f) (rtx_send react inner' s f). Proof. intros. unfold rtx_send. ag2. Qed.
Lemma a_finish : forall s, agree (rst_finish lw react inner s) (rst_finish lw react inner' s). Proof. intros. unfold rst_finish. ag2; apply a_cfg; discriminate. Qed.
Lemma a_functions : forall s st u n k, agree (rsend_functions react inner s st u k n) (rsend_functions react inner' s st u k n).
Proof. intros s st u n. induction n; intros; cbn [rsend_functions]; ag2; [apply a_tx|apply IHn]. Qed.
Lemma a_acc : forall s d r, agree (rst_handleAccessoryPacket react inner s d r) (rst_handleAccessoryPacket react inner' s d r). Proof. intros. unfold rst_handleAccessoryPacket. ag2. Qed.
Ltac ag3 := repeat first [ag1|lazymatch goal with
  | |- agree (rcfg_call _ _ _ _ _) _ => apply a_cfg; discriminate
  | |- agree (rtx_send _ _ _ _) _ => apply a_tx
  | |- agree (rst_finish _ _ _ _) _ => apply a_finish
  | |- agree (rst_handleAccessoryPacket _ _ _ _ _) _ => apply a_acc
  | |- agree (rsend_functions _ _ _ _ _ _ _) _ => apply a_functions
  end].
Lemma a_stream : forall s d, agree (rst_handleConfigDataStream lw react inner s d) (vst_handleConfigDataStream lw g react inner' s d).
Proof. intros. unfold rst_handleConfigDataStream, vst_handleConfigDataStream. ag3. apply a_log; [sil|apply a_cfg_add]. Qed.
Lemma a_request : forall s e p, agree (rst_requestEngine lw react inner s e p) (vst_requestEngine lw g react inner' s e p).
Proof. intros. unfold vst_requestEngine. apply a_log; [sil|]. unfold rst_requestEngine. ag3. Qed.
Lemma a_system : forall s i d, agree (rst_handleSystemCommand react inner s i d) (rst_handleSystemCommand react inner' s i d).
Proof. intros. unfold rst_handleSystemCommand. cbv zeta. ag3. Qed.
Lemma a_dir : forall s d, agree (rst_handleLocoDirection react inner s d) (rst_handleLocoDirection react inner' s d).
Proof. intros. unfold rst_handleLocoDirection. cbv zeta. ag3. Qed.
Lemma a_speed : forall s d, agree (rst_handleLocoSpeed react inner s d) (rst_handleLocoSpeed react inner' s d).
Proof. intros. unfold rst_handleLocoSpeed. ag3. Qed.
Lemma a_fun : forall s d, agree (rst_handleLocoFunction react inner s d) (rst_handleLocoFunction react inner' s d).
Proof. intros. unfold rst_handleLocoFunction. ag3. Qed.
Lemma a_list : forall s o p, agree (rst_requestEngineList lw react inner s o p) (rst_requestEngineList lw react inner' s o p).
Proof. intros. unfold rst_requestEngineList. ag3. Qed.
Lemma a_packet : forall s f, agree (rst_handlePacket lw react inner s f) (vst_handlePacket lw g react inner' s f).
Proof.
  intros. unfold vst_handlePacket, rst_handlePacket. cbv zeta. apply a_log; [sil|].
  destruct (id_getCommand (fid f) =? kRequestConfigData) eqn:R.
  { apply Z.eqb_eq in R. rewrite R. cbn. change (agree (rret tt) (vlog (everything g) (puts "Request Config Data. Payload: " ;;; print_res (printAsText (fdata f)) ;;; print nl))). apply a_log_end. sil. }
  destruct (id_getCommand (fid f) =? kConfigDataStream) eqn:C.
  { apply Z.eqb_eq in C. rewrite C. cbn. change (agree (rst_handleConfigDataStream lw react inner s (fdata f)) (vlog (everything g) (print (zs "Config Data Stream." ++ nl)) ~;; vst_handleConfigDataStream lw g react inner' s (fdata f))).
    apply a_log; [sil|apply a_stream]. }
  destruct (id_getCommand (fid f) =? kSystemCommand); [apply a_system|]. destruct (id_getCommand (fid f) =? kPing); [apply a_ret|].
  destruct (id_getCommand (fid f) =? kAccessorySwitch); [ag3|]. destruct (id_getCommand (fid f) =? kLocoDirection); [apply a_dir|].
  destruct (id_getCommand (fid f) =? kLocoSpeed); [apply a_speed|]. destruct (id_getCommand (fid f) =? kLocoFunction); [apply a_fun|]. ag3.
Qed.
Lemma a_accessory : forall s a p d pw, agree (rst_sendOwn react inner s kAccessorySwitch (accessory_data a p d pw)) (vst_sendAccessoryPacket g react inner' s a p d pw).
Proof. intros. unfold rst_sendOwn, vst_sendAccessoryPacket. cbv zeta. ag3. apply a_log; [sil|apply a_tx]. Qed.
Lemma a_step : forall o, agree (rstep lw react inner o) (vstep lw g react inner' o).
Proof.
  intros o. destruct o as [s o|p|p c|p d|p|c cb|c e|c off|c|c|c|e o]; try apply a_lift; [|apply a_message|apply a_reset].
  destruct o; cbn [rstep vstep rst_step]; unfold rst_begin, rst_sendOwn, rst_sendPacket; lazymatch goal with
    | |- agree (rst_handlePacket _ _ _ _ _) _ => apply a_packet
    | |- agree (rst_handleConfigDataStream _ _ _ _ _) _ => apply a_stream
    | |- agree (rst_requestEngine _ _ _ _ _ _) _ => apply a_request
    | |- agree (rst_requestEngineList _ _ _ _ _ _) _ => apply a_list
    | |- agree (rst_handleSystemCommand _ _ _ _ _) _ => apply a_system
    | |- agree (rst_handleLocoDirection _ _ _ _) _ => apply a_dir
    | |- agree (rst_handleLocoSpeed _ _ _ _) _ => apply a_speed
    | |- agree (rst_handleLocoFunction _ _ _ _) _ => apply a_fun
    | |- agree _ (vst_sendAccessoryPacket _ _ _ _ _ _ _ _) => apply a_accessory
    | |- _ => ag3
    end.
Qed.
End Agree.

Lemma a_exec : forall lw g react, silent g -> forall n c, agree (rexec lw react n c) (vexec lw g react n c).
Proof.
  intros lw g react SG n. induction n as [|n IHn]; intros c.
  - destruct c; [apply a_ret|apply a_val].
  - induction c as [|o k IH]; [apply a_ret|].
    change (agree (rstep lw react (rexec lw react n) o ~;; (fun s => rexec lw react (S n) (k (r_w s) (r_t s)) s)) (vstep lw g react (vexec lw g react n) o ~;; (fun s => vexec lw g react (S n) (k (r_w s) (r_t s)) s))).
    apply a_bind; [apply a_step; assumption|]. intros _ s. apply IH.
Qed.
