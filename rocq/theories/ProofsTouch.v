(* ProofsTouch.v -- proofs for C130 and C131: the triples of ProofsFatal.v hold with this user code too;
   without buffer operations it is the code of Reentry.v. *)
From Verif Require Import ZLib SpecTouch SpecRecover ProofsBuffer ProofsText ProofsMeddle ProofsSafe ProofsPassive ProofsRsafe ProofsExact ProofsFatal ProofsAgain.
From Verif Require Import ProofsRecover.

(** ** Touching keeps the invariant *)
Lemma h_touch : forall w0 X Y p v, (exists sp, lib_at w0 p sp) -> proper_visit v -> hoare w0 (Inv w0 X Y) (touch p v) (fun _ => Inv w0 X Y).
Proof.
  intros w0 X Y p v L (f & V). unfold touch. apply h_lib; [exact L|]. intros sp P. pose proof P as ((a & text & F & LT & T & D) & PC & CK & CX).
  rewrite T. cbn [loaded tp_sec tp_key tp_val]. destruct (leaves_agrees _ _ V [] (a_sec a, a_key a, a_val a) F) as (E & F').
  cbn [map as_buffers] in E. destruct (f (a_sec a, a_key a, a_val a)) as ((s' & k') & v') eqn:EF. eapply h_val; [exact E|]. cbv beta iota.
  apply h_put_lib_end. split; [|split; [exact PC|split; [exact CK|exact CX]]].
  exists (mkA (a_at a) s' k' v'), text. cbn [sp_text sp_cons]. split; [exact F'|]. split; [exact LT|]. split; [reflexivity|exact D].
Qed.
Lemma gt_touch : forall p v, grows (touch p v).
Proof. intros p v. unfold touch. apply g_bind; [apply g_ask|]. intros sp. apply g_bind; [apply g_val|]. intros ((s & k) & x). apply g_lift. Qed.
Lemma gt_exec : forall lw react n c, grows (texec lw react n c).
Proof.
  intros lw react n. induction n; intros c; induction c as [|o k IH|p v k IH]; cbn [texec]; try apply g_ret.
  - apply g_bind; [apply g_val|]. intros _ s. apply IH.
  - apply g_bind; [apply gt_touch|]. intros _ s. apply IH.
  - apply g_bind; [apply g_step; intros c s; apply IHn|]. intros _ s. apply IH.
  - apply g_bind; [apply gt_touch|]. intros _ s. apply IH.
Qed.
Lemma ht_exec : forall lw react w0, decent w0 -> (forall h, does_only w0 (legal_op w0) (react h)) ->
  forall n X Y c, does_only w0 (legal_op w0) c -> hoare w0 (Inv w0 X Y) (texec lw react n c) (fun _ => Inv w0 X Y).
Proof.
  intros lw react w0 SD RH n. induction n as [|n IHn]; intros X Y c OC; induction OC as [|o k VO _ IH|p sp v k L V _ IH].
  - apply h_ret; auto.
  - intros s q. left. reflexivity.
  - change (hoare w0 (Inv w0 X Y) (touch p v ~;; (fun s => texec lw react 0 (k (r_w s) (r_t s)) s)) (fun _ => Inv w0 X Y)).
    eapply h_unit with (Q := Inv w0 X Y); [apply gt_touch|intros s; apply gt_exec|apply h_touch; [exists sp; exact L|exact V]|intros s q; exact (IH _ _ s q)].
  - apply h_ret; auto.
  - change (hoare w0 (Inv w0 X Y) (rstep lw no_code (fun _ s => texec lw react n (react (r_t s)) s) o ~;; (fun s => texec lw react (S n) (k (r_w s) (r_t s)) s)) (fun _ => Inv w0 X Y)).
    eapply h_unit with (Q := Inv w0 X Y); [apply g_step; intros c s; apply gt_exec|intros s; apply gt_exec| |intros s q; exact (IH _ _ s q)].
    apply hs_step; try assumption; [intros c s; apply gt_exec| |intros h; constructor]. intros X' Y' c _ s q. exact (IHn X' Y' _ (RH _) s q).
  - change (hoare w0 (Inv w0 X Y) (touch p v ~;; (fun s => texec lw react (S n) (k (r_w s) (r_t s)) s)) (fun _ => Inv w0 X Y)).
    eapply h_unit with (Q := Inv w0 X Y); [apply gt_touch|intros s; apply gt_exec|apply h_touch; [exists sp; exact L|exact V]|intros s q; exact (IH _ _ s q)].
Qed.
Lemma touch_last : forall lw react n w c t r s, decent w -> does_only w (legal_op w) c -> (forall h, does_only w (legal_op w) (react h)) ->
  texec lw react n c (mkR w t) = (r, s) ->
  (r = Ok tt /\ decent (r_w s) /\ same_objects w (r_w s)) \/ r = UB TooDeep \/ (r = UB OutOfBounds /\ same_objects w (r_w s) /\ (by_a_line (r_w s) (r_t s) \/ by_an_engine (r_w s) (r_t s))).
Proof.
  intros lw react n w c t r s D OC RH E. assert (H := ht_exec lw react w D RH n _ _ c OC (mkR w t) (start_inv w D)). rewrite E in H. cbn [fst snd] in H.
  destruct r as [[]|u].
  - left. apply end_inv in H. split; [reflexivity|]. split; [exact (GD_decent w _ H)|exact (proj1 H)].
  - destruct H as [->|(-> & H)]; auto.
Qed.
Lemma touch_own : forall lw react n w c t r s, decent w -> does_only w (legal_op w) c -> (forall h, does_only w (legal_op w) (react h)) ->
  Forall (fun x => x = UserC) (w_conss w) -> texec lw react n c (mkR w t) = (r, s) -> (r = Ok tt /\ decent (r_w s)) \/ r = UB TooDeep.
Proof.
  intros lw react n w c t r s D OC RH F E. destruct (touch_last lw react n w c t r s D OC RH E) as [(A & B & _)|[H|(_ & (_ & _ & SC & _) & H)]]; [auto|auto|exfalso].
  assert (U : forall i x, consumer_at (r_w s) i x -> x = UserC).
  { intros i x N. pose proof (map_nth_error kind _ _ N) as M. rewrite SC in M. apply nth_error_In, in_map_iff in M. destruct M as (y & K & IN).
    rewrite Forall_forall in F. rewrite (F y IN) in K. destruct x; try discriminate. reflexivity. }
  destruct H as [(b & i & sx & k & v & x & _ & N & X)|(b & i & e & cb & l & _ & N & _)]; apply U in N; [subst x; destruct X|discriminate].
Qed.

(** ** Without buffer operations: the functions of the library depend on user code only through what it does *)
Definition same {A} (x x' : ract A) : Prop := forall s, x s = x' s.
Lemma k_refl : forall A (x : ract A), same x x. Proof. intros A x s. reflexivity. Qed.
Lemma k_bind : forall A B (x x' : ract A) (f f' : A -> ract B), same x x' -> (forall a, same (f a) (f' a)) -> same (rbind x f) (rbind x' f').
Proof. intros A B x x' f f' H K s. unfold rbind. rewrite H. destruct (x' s) as [[a|u] s']; [apply K|reflexivity]. Qed.
Lemma k_when : forall A (p : option A) k k', (forall x, same (k x) (k' x)) -> same (rwhen_some p k) (rwhen_some p k').
Proof. intros A [x|] k k' H; [apply H|apply k_refl]. Qed.
Section Same.
Variable lw : Z.
Variables react react' : list event -> code.
Variables inner inner' : code -> ract unit.
Hypothesis agree : forall s, inner (react (r_t s)) s = inner' (react' (r_t s)) s.
Lemma k_ucall : forall e, same (ucall react inner e) (ucall react' inner' e).
Proof. intros e. unfold ucall. apply k_bind; [apply k_refl|]. intros _ s. apply agree. Qed.
Ltac k1 := lazymatch goal with
  | |- same (rbind _ _) (rbind _ _) => apply k_bind; [|intros]
  | |- same (rret _) (rret _) => apply k_refl
  | |- same (rask _) _ => apply k_refl
  | |- same (rval _) _ => apply k_refl
  | |- same (rlift _) _ => apply k_refl
  | |- same (rtp _) _ => apply k_refl
  | |- same (rtp_put _ _) _ => apply k_refl
  | |- same (rput_state _ _) _ => apply k_refl
  | |- same (ucall _ _ _) _ => apply k_ucall
  | |- same (rwhen_some _ _) (rwhen_some _ _) => apply k_when; intros
  | |- same (if ?b then _ else _) _ => destruct b
  | |- same (match ?x with _ => _ end) _ => destruct x
  end.
Ltac k2 := repeat k1.
Lemma k_consume : forall c s k v, same (rcons_consume lw react inner c s k v) (rcons_consume lw react' inner' c s k v).
Proof. intros. unfold rcons_consume. k2. Qed.
Lemma k_complete : forall c, same (rcons_complete react inner c) (rcons_complete react' inner' c). Proof. intros. unfold rcons_complete. k2. Qed.
Lemma k_aborted : forall c, same (rcons_aborted react inner c) (rcons_aborted react' inner' c). Proof. intros. unfold rcons_aborted. k2. Qed.
Lemma k_report : forall p, same (rtp_report lw react inner p) (rtp_report lw react' inner' p). Proof. intros. unfold rtp_report. k2. apply k_consume. Qed.
Lemma k_error : forall p, same (rtp_reportParseError lw react inner p) (rtp_reportParseError lw react' inner' p).
Proof. intros. unfold rtp_reportParseError. k2. apply k_report. Qed.
Lemma k_find : forall p o c d, same (rtp_findToken lw react inner p o c d) (rtp_findToken lw react' inner' p o c d).
Proof. intros. unfold rtp_findToken. repeat first [progress k2|progress cbv beta zeta]. all: try apply k_error. Qed.
Lemma k_iteration : forall p n, same (rtp_iteration lw react inner p n) (rtp_iteration lw react' inner' p n).
Proof. intros. unfold rtp_iteration. k2; try apply k_find; try apply k_error; try apply k_report. Qed.
Lemma k_process : forall p f n, same (rtp_process lw react inner p f n) (rtp_process lw react' inner' p f n).
Proof. intros p f. induction f; intros; cbn [rtp_process]; k2; try apply k_iteration; apply IHf. Qed.
Lemma k_addLoop : forall p b f n, same (rtp_addLoop lw react inner p f b n) (rtp_addLoop lw react' inner' p f b n).
Proof. intros p b f. induction f; intros; cbn [rtp_addLoop]; unfold rtp_processBuffer; k2; try apply k_error; try apply k_process; apply IHf. Qed.
Lemma k_addText : forall p b, same (rtp_addText lw react inner p b) (rtp_addText lw react' inner' p b).
Proof. intros. unfold rtp_addText. k2; [apply k_error|apply k_addLoop]. Qed.
Lemma k_reset : forall p, same (rlib_reset react inner p) (rlib_reset react' inner' p). Proof. intros. unfold rlib_reset. k2. apply k_aborted. Qed.
Lemma k_message : forall p d, same (rlib_addMessage lw react inner p d) (rlib_addMessage lw react' inner' p d).
Proof. intros. unfold rlib_addMessage. repeat first [k1|apply k_reset|apply k_addText|apply k_complete|apply k_aborted]. Qed.
Lemma k_cfg : forall p c, same (rcfg_call lw react inner p c) (rcfg_call lw react' inner' p c).
Proof. intros p c. unfold rcfg_call. repeat first [k1|apply k_reset|apply k_message]. Qed.
Lemma k_tx : forall s f, same (rtx_send react inner s f) (rtx_send react' inner' s f). Proof. intros. unfold rtx_send. k2. Qed.
Lemma k_finish : forall s, same (rst_finish lw react inner s) (rst_finish lw react' inner' s). Proof. intros. unfold rst_finish. repeat first [k1|apply k_cfg]. Qed.
Lemma k_functions : forall s st u n k, same (rsend_functions react inner s st u k n) (rsend_functions react' inner' s st u k n).
Proof. intros s st u n. induction n; intros; cbn [rsend_functions]; k2; [apply k_tx|apply IHn]. Qed.
Ltac k3 := repeat first [k1|progress cbv beta zeta|apply k_cfg|apply k_tx|apply k_finish|apply k_functions|apply k_reset|apply k_message].
Lemma k_list : forall s o p, same (rst_requestEngineList lw react inner s o p) (rst_requestEngineList lw react' inner' s o p).
Proof. intros. unfold rst_requestEngineList. k3. Qed.
Lemma k_request : forall s o p, same (rst_requestEngine lw react inner s o p) (rst_requestEngine lw react' inner' s o p).
Proof. intros. unfold rst_requestEngine. k3. Qed.
Lemma k_acc : forall s d r, same (rst_handleAccessoryPacket react inner s d r) (rst_handleAccessoryPacket react' inner' s d r). Proof. intros. unfold rst_handleAccessoryPacket. k3. Qed.
Lemma k_stream : forall s d, same (rst_handleConfigDataStream lw react inner s d) (rst_handleConfigDataStream lw react' inner' s d). Proof. intros. unfold rst_handleConfigDataStream. k3. Qed.
Lemma k_system : forall s i d, same (rst_handleSystemCommand react inner s i d) (rst_handleSystemCommand react' inner' s i d). Proof. intros. unfold rst_handleSystemCommand. k3. Qed.
Lemma k_dir : forall s d, same (rst_handleLocoDirection react inner s d) (rst_handleLocoDirection react' inner' s d). Proof. intros. unfold rst_handleLocoDirection. k3. Qed.
Lemma k_speed : forall s d, same (rst_handleLocoSpeed react inner s d) (rst_handleLocoSpeed react' inner' s d). Proof. intros. unfold rst_handleLocoSpeed. k3. Qed.
Lemma k_fun : forall s d, same (rst_handleLocoFunction react inner s d) (rst_handleLocoFunction react' inner' s d). Proof. intros. unfold rst_handleLocoFunction. k3. Qed.
Lemma k_packet : forall s f, same (rst_handlePacket lw react inner s f) (rst_handlePacket lw react' inner' s f).
Proof. intros. unfold rst_handlePacket. repeat first [k1|progress cbv zeta|apply k_acc|apply k_stream|apply k_system|apply k_dir|apply k_speed|apply k_fun]. Qed.
Lemma k_sop : forall s o, same (rst_step lw react inner s o) (rst_step lw react' inner' s o).
Proof.
  intros s o. destruct o; cbn [rst_step]; try apply k_refl; unfold rst_begin, rst_sendOwn, rst_sendPacket;
  repeat first [k1|progress cbv zeta|apply k_acc|apply k_stream|apply k_system|apply k_dir|apply k_speed|apply k_fun|apply k_packet|apply k_finish|apply k_tx|apply k_functions|apply k_list|apply k_request].
Qed.
Lemma k_step : forall o, same (rstep lw react inner o) (rstep lw react' inner' o).
Proof. intros o. destruct o; cbn [rstep]; try apply k_refl; [apply k_sop|apply k_message|apply k_reset]. Qed.
End Same.
Lemma plain_same : forall lw react n c, same (texec lw (fun h => plain (react h)) n (plain c)) (rexec lw react n c).
Proof.
  intros lw react n. induction n as [|n IHn]; intros c.
  - destruct c as [|o k]; apply k_refl.
  - induction c as [|o k IH]; [apply k_refl|].
    change (same (rstep lw no_code (fun _ s => texec lw (fun h => plain (react h)) n (plain (react (r_t s))) s) o ~;; (fun s => texec lw (fun h => plain (react h)) (S n) (plain (k (r_w s) (r_t s))) s))
      (rstep lw react (rexec lw react n) o ~;; (fun s => rexec lw react (S n) (k (r_w s) (r_t s)) s))).
    apply k_bind; [apply k_step; intros s; apply IHn|]. intros _ s. apply IH.
Qed.

(** ** Code of Reentry.v is such code *)
Lemma plain_only : forall w P c, only_calls P c -> does_only w P (plain c).
Proof. intros w P c H. induction H; cbn [plain]; constructor; auto. Qed.
(** ** Recovering afterwards *)
Lemma engine_recovered : forall lw react n w0 k0 t0 s0 s st p c e l hd ds d id u a tp, 32 <= lw ->
  decent w0 -> does_only w0 (legal_op w0) k0 -> (forall h, does_only w0 (legal_op w0) (react h)) -> texec lw react n k0 (mkR w0 t0) = (Ok tt, s0) ->
  a_parser w0 p -> an_engine_consumer w0 c -> config_id id -> carries ds d -> proper_stream hd ds -> describes d u a tp ->
  station_at (r_w s0) s st -> engine_at (r_w s0) e l -> si_avail (lo_info l) <> EMPTY ->
  exists w1 t1 w2 t2 e0 x, run lw (make_ready s p) (r_w s0) = Ok (w1, t1) /\ w_engines w1 = w_engines (r_w s0) /\ (forall c', ~ In (EvStreamComplete c') t1) /\
    run lw (engine_download s p c e id (hd :: ds)) w1 = Ok (w2, t2) /\ w_engines w2 = upd e (described l u a tp) (w_engines (r_w s0)) /\
    consumer_at (r_w s0) c (LocoC e0 (Def x)) /\ notes t2 = EvStreamComplete c :: callback_note x (fun cb => EvEndComplete cb c).
Proof.
  intros lw react n w0 k0 t0 s0 s st p c e l hd ds d id u a tp LW D OC RH E P C ID CA PS DE Q EE AV.
  destruct (touch_last lw react n w0 k0 t0 _ s0 D OC RH E) as [(_ & DW & SO)|[H|(H & _)]]; try discriminate.
  destruct C as (e0 & cb0 & C). destruct (same_kind _ _ _ _ SO C) as ([e1 cb1|? ? ? ? ?|] & C1 & K); try discriminate.
  exact (engine_again lw (r_w s0) [] (r_w s0) [] s st p c e l hd ds d id u a tp LW DW (Forall_nil _) eq_refl (same_parser _ _ _ SO P) (ex_intro _ e1 (ex_intro _ cb1 C1)) ID CA PS DE Q EE AV).
Qed.
Lemma list_recovered : forall lw react m w0 k0 t0 s0 s st p c n off hd ds d id,
  decent w0 -> does_only w0 (legal_op w0) k0 -> (forall h, does_only w0 (legal_op w0) (react h)) -> texec lw react m k0 (mkR w0 t0) = (Ok tt, s0) ->
  a_parser w0 p -> (exists co i k o cb, consumer_at w0 c (ListC co i k o cb) /\ List.length i = n) -> byte off -> config_id id ->
  carries ds d -> proper_stream hd ds -> doc_ok d -> Forall list_line_fits (reports [] d) -> station_at (r_w s0) s st ->
  exists w1 t1 w2 t2 co i k o x, run lw (make_ready s p) (r_w s0) = Ok (w1, t1) /\ (forall c', ~ In (EvStreamComplete c') t1) /\
    run lw (ListReset c :: list_download s p c off id (hd :: ds)) w1 = Ok (w2, t2) /\ w_engines w2 = w_engines (r_w s0) /\
    consumer_at (r_w s0) c (ListC co i k o (Def x)) /\
    consumer_at w2 c (ListC (Def true) (map named (firstn n (names_in (reports [] d))) ++ repeat si_reset (n - List.length (names_in (reports [] d))))
                           (last (map (fun v => Def (dec_value lw v mod 256)) (counts_in (reports [] d))) (Def 0)) (Def 0) (Def x)) /\
    notes t2 = EvStreamComplete c :: callback_note x (fun cb => EvEndComplete cb c).
Proof.
  intros lw react m w0 k0 t0 s0 s st p c n off hd ds d id D OC RH E P C OB ID CA PS DO LF Q.
  destruct (touch_last lw react m w0 k0 t0 _ s0 D OC RH E) as [(_ & DW & SO)|[H|(H & _)]]; try discriminate.
  destruct C as (co & i & k & o & cb0 & C & <-). destruct (same_kind _ _ _ _ SO C) as ([? ?|co1 i1 k1 o1 cb1|] & C1 & K); try discriminate. injection K as K.
  apply (list_again lw (r_w s0) [] (r_w s0) [] s st p c _ off hd ds d id DW (Forall_nil _) eq_refl (same_parser _ _ _ SO P)); try assumption. exists co1, i1, k1, o1, cb1. split; [exact C1|exact K].
Qed.
