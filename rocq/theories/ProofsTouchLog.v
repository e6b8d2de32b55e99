(* ProofsTouchLog.v -- proofs for C133: the triples of ProofsTalkSafe.v and the simulations of ProofsTalk.v
   and ProofsTalkExact.v hold with user code that changes the buffers of parsers too. *)
From Verif Require Import ZLib SpecTouchLog ProofsBuffer ProofsText ProofsMeddle ProofsSafe ProofsPassive ProofsRsafe ProofsExact ProofsLogged ProofsTalk ProofsTalkSafe.
From Verif Require ProofsTouch ProofsTalkExact.

(** ** The triples *)
Lemma h_touch : forall lg w0 X Y p v, decent w0 -> (exists sp, lib_at w0 p sp) -> proper_visit v -> hoare lg w0 (Inv w0 X Y) (touch p v) (fun _ => Inv w0 X Y).
Proof.
  intros lg w0 X Y p v SD L (f & V). unfold touch. apply h_lib; [assumption..|]. intros sp P. pose proof P as ((a & text & F & LT & T & D) & PC & CK & CX).
  rewrite T. cbn [loaded tp_sec tp_key tp_val]. destruct (leaves_agrees _ _ V [] (a_sec a, a_key a, SpecText.a_val a) F) as (E & F').
  cbn [map as_buffers] in E. destruct (f (a_sec a, a_key a, SpecText.a_val a)) as ((s' & k') & v') eqn:EF. eapply h_val; [exact E|]. cbv beta iota.
  apply h_put_lib_end. split; [|split; [exact PC|split; [exact CK|exact CX]]].
  exists (mkA (a_at a) s' k' v'), text. cbn [sp_text sp_cons]. split; [exact F'|]. split; [exact LT|]. split; [reflexivity|exact D].
Qed.
Lemma hw_exec : forall lw lg react w0, decent w0 -> (forall h, does_only w0 (legal_op w0) (react h)) ->
  forall n X Y c, does_only w0 (legal_op w0) c -> hoare lg w0 (Inv w0 X Y) (wexec lw lg react n c) (fun _ => Inv w0 X Y).
Proof.
  intros lw lg react w0 SD RH n. induction n as [|n IHn]; intros X Y c OC; induction OC as [|o k VO _ IH|p sp v k L V _ IH].
  - apply h_ret; auto.
  - intros s q. left. reflexivity.
  - change (hoare lg w0 (Inv w0 X Y) (touch p v ~;; (fun s => wexec lw lg react 0 (k (r_w s) (r_t s)) s)) (fun _ => Inv w0 X Y)).
    eapply h_unit with (Q := Inv w0 X Y); [apply h_touch; [exact SD|exists sp; exact L|exact V]|intros s q; exact (IH _ _ s q)].
  - apply h_ret; auto.
  - change (hoare lg w0 (Inv w0 X Y) (vstep lw lg no_code (fun _ s => wexec lw lg react n (react (r_t s)) s) o ~;; (fun s => wexec lw lg react (S n) (k (r_w s) (r_t s)) s)) (fun _ => Inv w0 X Y)).
    eapply h_unit with (Q := Inv w0 X Y); [|intros s q; exact (IH _ _ s q)].
    apply hs_step; try assumption; [|intros h; constructor]. intros X' Y' c _ s q. exact (IHn X' Y' _ (RH _) s q).
  - change (hoare lg w0 (Inv w0 X Y) (touch p v ~;; (fun s => wexec lw lg react (S n) (k (r_w s) (r_t s)) s)) (fun _ => Inv w0 X Y)).
    eapply h_unit with (Q := Inv w0 X Y); [apply h_touch; [exact SD|exists sp; exact L|exact V]|intros s q; exact (IH _ _ s q)].
Qed.
Lemma touch_last_logged : forall lw lg react n w c t r s, decent w -> does_only w (legal_op w) c -> (forall h, does_only w (legal_op w) (react h)) ->
  wexec lw lg react n c (mkR w t) = (r, s) ->
  (r = Ok tt /\ decent (r_w s) /\ same_objects w (r_w s)) \/ r = UB TooDeep \/
  (r = UB OutOfBounds /\ same_objects w (r_w s) /\ (by_a_line_logged (r_w s) (r_t s) \/ by_an_engine (r_w s) (r_t s) \/ (prints_lines lg /\ by_printing (r_w s) (r_t s)))).
Proof.
  intros lw lg react n w c t r s D OC RH E. assert (H := hw_exec lw lg react w D RH n _ _ c OC (mkR w t) (start_inv w D)). rewrite E in H. cbn [fst snd] in H.
  destruct r as [[]|u].
  - left. apply end_inv in H. split; [reflexivity|]. split; [exact (GD_decent w _ H)|exact (proj1 H)].
  - destruct H as [->|(-> & H)]; auto.
Qed.
Lemma touch_own_logged : forall lw lg react n w c t r s, decent w -> does_only w (legal_op w) c -> (forall h, does_only w (legal_op w) (react h)) ->
  Forall (fun x => x = UserC) (w_conss w) -> wexec lw lg react n c (mkR w t) = (r, s) -> (r = Ok tt /\ decent (r_w s)) \/ r = UB TooDeep.
Proof.
  intros lw lg react n w c t r s D OC RH F E. destruct (touch_last_logged lw lg react n w c t r s D OC RH E) as [(A & B & _)|[H|(_ & (_ & _ & SC & _) & H)]]; [auto|auto|exfalso].
  assert (U : forall i x, consumer_at (r_w s) i x -> x = UserC).
  { intros i x N. pose proof (map_nth_error kind _ _ N) as M. rewrite SC in M. apply nth_error_In, in_map_iff in M. destruct M as (y & K & IN).
    rewrite Forall_forall in F. rewrite (F y IN) in K. destruct x; try discriminate. reflexivity. }
  destruct H as [(b & i & sx & k & v & x & out & _ & _ & N & X)|[(b & i & e & cb & l & _ & N & _)|(_ & b & i & sx & k & v & x & _ & N & X & _)]]; apply U in N; [subst x; destruct X as ([] & _)|discriminate|contradiction].
Qed.

(** ** Silent settings *)
Lemma no_code_deaf : deaf no_code. Proof. split; [reflexivity|]. intros t. constructor. Qed.
Lemma aw_exec : forall lw g react, silent g -> forall n c, agree (texec lw react n c) (wexec lw g react n c).
Proof.
  intros lw g react SG n. induction n as [|n IHn]; intros c; induction c as [|o k IH|p v k IH]; cbn [texec wexec]; try apply a_ret.
  - apply a_bind; [apply a_val|]. intros _ s. apply IH.
  - apply a_bind; [intros s; reflexivity|]. intros _ s. apply IH.
  - apply a_bind; [|intros _ s; apply IH]. apply a_step; [exact SG|]. intros c s. apply IHn.
  - apply a_bind; [intros s; reflexivity|]. intros _ s. apply IH.
Qed.

(** ** Any setting, code that does not look at the console *)
Lemma k_touch : forall p v, like (touch p v) (touch p v).
Proof. intros p v. unfold touch. apply k_bind; [apply k_ask|]. intros sp. apply k_bind; [apply k_val|]. intros ((s & k) & x). apply k_lift. Qed.
Lemma kw_exec : forall lw g react, deaf_user react -> forall n c, deaf_tcode c -> like (texec lw react n c) (wexec lw g react n c).
Proof.
  intros lw g react DF n. induction n as [|n IHn]; intros c DC; induction DC as [|o k EQ _ IH|p v k EQ _ IH]; cbn [texec wexec]; try apply k_ret;
  (apply k_bind; [|intros _; split; [intros s; exact (proj1 (IH (r_w s) (r_t s)) s)|intros s s' W T; rewrite W, <- (EQ _ _ _ (mo_calls _ _ T)); apply (proj2 (IH (r_w s) (r_t s))); assumption]]);
  try apply k_touch; [apply k_val|].
  apply k_step; [exact no_code_deaf|]. intros c _. split; [intros s; apply ProofsTouch.gt_exec|]. intros s s' W T.
  rewrite <- (proj1 DF _ _ (mo_calls _ _ T)). apply (proj2 (IHn _ (proj2 DF (r_t s)))); assumption.
Qed.
Lemma touch_console : forall lw g react n c w t r s r' s', deaf_user react -> deaf_tcode c ->
  texec lw react n c (mkR w t) = (r, s) -> wexec lw g react n c (mkR w t) = (r', s') ->
  (r' = r /\ r_w s' = r_w s /\ more_output (r_t s) (r_t s')) \/ ((exists u, r' = UB u) /\ as_far_as (r_t s) (r_t s')).
Proof.
  intros lw g react n c w t r s r' s' DF DC E E'. pose proof (proj2 (kw_exec lw g react DF n c DC) (mkR w t) (mkR w t) eq_refl (mo_refl t)) as H. rewrite E, E' in H. exact H.
Qed.

(** ** The same, recording what a log section that fails was printing *)
Import ProofsTalkExact.
Lemma kx_touch : forall g p v, ProofsTalkExact.like g (touch p v) (touch p v).
Proof. intros g p v. unfold touch. apply ProofsTalkExact.k_bind; [apply ProofsTalkExact.k_ask|]. intros sp. apply ProofsTalkExact.k_bind; [apply ProofsTalkExact.k_val|]. intros ((s & k) & x). apply ProofsTalkExact.k_lift. Qed.
Lemma kx_exec : forall g lw react w0, deaf_user react -> (forall h, does_only w0 framed (react h)) -> forall n c, deaf_tcode c -> does_only w0 framed c -> ProofsTalkExact.like g (texec lw react n c) (wexec lw g react n c).
Proof.
  intros g lw react w0 DF RF n. induction n as [|n IHn]; intros c DC; induction DC as [|o k EQ _ IH|p v k EQ _ IH]; intros DO; cbn [texec wexec]; try apply ProofsTalkExact.k_ret;
  inversion DO as [|? ? FO FK|? ? ? ? FL FP FK]; subst;
  (apply ProofsTalkExact.k_bind; [|intros _; split; [intros s; exact (proj1 (IH (r_w s) (r_t s) (FK _ _)) s)|intros s s' W T; rewrite W, <- (EQ _ _ _ (mo_calls _ _ T)); apply (proj2 (IH (r_w s) (r_t s) (FK _ _))); assumption]]);
  try apply kx_touch; [apply ProofsTalkExact.k_val|].
  eapply ProofsTalkExact.k_step with (allowed := fun _ => True); [exact no_code_deaf|intros; exact Logic.I| |exact FO]. intros c _ _. split; [intros s; apply ProofsTouch.gt_exec|]. intros s s' W T.
  rewrite <- (proj1 DF _ _ (mo_calls _ _ T)). apply (proj2 (IHn _ (proj2 DF (r_t s)) (RF _))); assumption.
Qed.
Lemma legal_framed_op : forall w o, legal_op w o -> framed o.
Proof.
  intros w o [V|(e & x & -> & _)]; [|exact Logic.I].
  destruct o as [s o|p|p c|p d|p|c cb|c e|c off|c|c|c|e o]; cbn [valid_op framed] in *; try exact Logic.I; [|apply V]. destruct o; cbn [valid_sop] in V; try exact Logic.I; apply V.
Qed.
Lemma does_framed : forall w c, does_only w (legal_op w) c -> does_only w framed c.
Proof. intros w c H. induction H as [|o k P _ IH|p sp v k L V _ IH]; [constructor|constructor; [exact (legal_framed_op w o P)|exact IH]|eapply does_touch; eassumption]. Qed.
Lemma touch_overfull : forall lw g react n w c t r s r' s', decent w -> does_only w (legal_op w) c -> (forall h, does_only w (legal_op w) (react h)) -> deaf_user react -> deaf_tcode c ->
  texec lw react n c (mkR w t) = (r, s) -> wexec lw g react n c (mkR w t) = (r', s') ->
  (r' = r /\ r_w s' = r_w s /\ more_output (r_t s) (r_t s')) \/
  (r' = UB OutOfBounds /\ prints_lines g /\ by_printing (r_w s') (r_t s') /\ as_far_as (r_t s) (r_t s')).
Proof.
  intros lw g react n w c t r s r' s' D OC RH DF DC E E'.
  pose proof (proj2 (kx_exec g lw react w DF (fun h => does_framed w _ (RH h)) n c DC (does_framed w _ OC)) (mkR w t) (mkR w t) eq_refl (mo_refl t)) as H. rewrite E, E' in H.
  destruct H as [H|((u & U & TG) & AF)]; [left; exact H|]. cbn [fst snd] in *. subst r'. right.
  destruct (touch_last_logged lw g react n w c t _ s' D OC RH E') as [(H & _)|[H|(H & _ & L)]]; [discriminate| |].
  - injection H as ->. destruct TG as [(_ & N)|(N & _)]; [congruence|discriminate].
  - injection H as ->. split; [reflexivity|]. destruct TG as [(N & _)|(_ & EG & b & i & x & y & z & o & T & CO & NU & F)]; [congruence|].
    assert (PL : prints_lines g) by (unfold prints_lines; unfold events, LEVEL_EVENTS in EG; lia).
    split; [exact PL|]. split; [|exact AF]. destruct L as [(b2 & j & sx & k & v & o2 & out & T2 & PO & C2 & FA & WI)|[(b2 & j & e & cb & l & T2 & _)|(_ & L)]]; [| |exact L].
    + destruct (exists_last_or_nil _ out) as [->|(out' & e & ->)].
      * rewrite T in T2. apply app_inj_tail in T2. destruct T2 as (-> & T2). injection T2 as -> -> -> ->. exists b2, j, sx, k, v, o.
        split; [exact T|]. split; [exact CO|]. split; [exact NU|]. destruct WI as (W1 & W2 & W3). destruct (overfull_dec (sx, k, v)) as [OF|OF]; [exact OF|exfalso].
        unfold overfull in OF. destruct (str_zb max_section sx W1) as (t1 & E1); [tauto|]. destruct (str_zb max_key k W2) as (t2 & E2); [tauto|]. destruct (str_zb max_value v W3) as (t3 & E3); [tauto|].
        destruct F as [(u & F)|[(u & F)|(u & F)]]; congruence.
      * exfalso. apply Forall_app in PO. destruct PO as (_ & PO). inversion PO as [|? ? PE _]; subst. rewrite T in T2. rewrite app_comm_cons, app_assoc in T2. apply app_inj_tail in T2. destruct T2 as (_ & <-). discriminate.
    + exfalso. rewrite T in T2. change [EvStreamComplete j; EvPrint (zs "Downloaded Engine: ")] with ([EvStreamComplete j] ++ [EvPrint (zs "Downloaded Engine: ")]) in T2. rewrite app_assoc in T2. apply app_inj_tail in T2. destruct T2 as (_ & T2). discriminate.
Qed.

(** ** Without buffer operations *)
Section Same.
Variable lw : Z.
Variable g : logcfg.
Variables react react' : list event -> code.
Variables inner inner' : code -> ract unit.
Hypothesis ag : forall s, inner (react (r_t s)) s = inner' (react' (r_t s)) s.
Notation same := ProofsTouch.same.
Ltac s1 := first [progress cbv beta zeta|lazymatch goal with
  | |- same (rbind _ _) (rbind _ _) => apply ProofsTouch.k_bind; [|intros]
  | |- same (ucall _ _ _) _ => apply (ProofsTouch.k_ucall _ _ _ _ ag)
  | |- same (rwhen_some _ _) (rwhen_some _ _) => apply ProofsTouch.k_when; intros
  | |- same (if ?b then _ else _) _ => destruct b
  | |- same (match ?x with _ => _ end) _ => destruct x
  | |- same (rlib_reset _ _ _) _ => apply (ProofsTouch.k_reset _ _ _ _ ag)
  | |- same (rcons_complete _ _ _) _ => apply (ProofsTouch.k_complete _ _ _ _ ag)
  | |- same (rcons_aborted _ _ _) _ => apply (ProofsTouch.k_aborted _ _ _ _ ag)
  | |- same (rtx_send _ _ _ _) _ => apply (ProofsTouch.k_tx _ _ _ _ ag)
  | |- same (rst_requestEngine _ _ _ _ _ _) _ => apply (ProofsTouch.k_request _ _ _ _ _ ag)
  | |- same (rst_handlePacket _ _ _ _ _) _ => apply (ProofsTouch.k_packet _ _ _ _ _ ag)
  | |- same (rstep _ _ _ _) _ => apply (ProofsTouch.k_step _ _ _ _ _ ag)
  | |- _ => apply ProofsTouch.k_refl
  end].
Ltac s2 := repeat s1.
Lemma s_consume : forall c s k v, same (vcons_consume lw g react inner c s k v) (vcons_consume lw g react' inner' c s k v).
Proof. intros. unfold vcons_consume. s2. Qed.
Lemma s_report : forall p, same (vtp_report lw g react inner p) (vtp_report lw g react' inner' p).
Proof. intros. unfold vtp_report. apply ProofsTouch.k_bind; [s2|]. intros t. apply ProofsTouch.k_when. intros c. apply s_consume. Qed.
Lemma s_error : forall p, same (vtp_reportParseError lw g react inner p) (vtp_reportParseError lw g react' inner' p).
Proof. intros. unfold vtp_reportParseError. repeat first [apply s_report|s1]. Qed.
Lemma s_find : forall p o c d, same (vtp_findToken lw g react inner p o c d) (vtp_findToken lw g react' inner' p o c d).
Proof. intros. unfold vtp_findToken. repeat first [apply s_error|s1]. Qed.
Lemma s_iteration : forall p n, same (vtp_iteration lw g react inner p n) (vtp_iteration lw g react' inner' p n).
Proof. intros. unfold vtp_iteration. repeat first [apply s_error|apply s_find|apply s_report|s1]. Qed.
Lemma s_process : forall p f n, same (vtp_process lw g react inner p f n) (vtp_process lw g react' inner' p f n).
Proof. intros p f. induction f; intros; cbn [vtp_process]; repeat first [apply s_iteration|apply IHf|s1]. Qed.
Lemma s_addLoop : forall p b f n, same (vtp_addLoop lw g react inner p f b n) (vtp_addLoop lw g react' inner' p f b n).
Proof. intros p b f. induction f; intros; cbn [vtp_addLoop]; unfold vtp_processBuffer; repeat first [apply s_error|apply s_process|apply IHf|s1]. Qed.
Lemma s_addText : forall p b, same (vtp_addText lw g react inner p b) (vtp_addText lw g react' inner' p b).
Proof. intros. unfold vtp_addText. repeat first [apply s_error|apply s_addLoop|s1]. Qed.
Lemma s_message : forall p d, same (vlib_addMessage lw g react inner p d) (vlib_addMessage lw g react' inner' p d).
Proof. intros. unfold vlib_addMessage. repeat first [apply s_addText|s1]. Qed.
Lemma s_stream : forall s d, same (vst_handleConfigDataStream lw g react inner s d) (vst_handleConfigDataStream lw g react' inner' s d).
Proof. intros. unfold vst_handleConfigDataStream, vcfg_add. repeat first [apply s_message|s1]. Qed.
Lemma s_step : forall o, same (vstep lw g react inner o) (vstep lw g react' inner' o).
Proof.
  intros o. destruct o; cbn [vstep]; try (s2; fail); [|apply s_message].
  destruct o; try (s2; fail); cbn [vstep]; unfold vst_handlePacket, vst_requestEngine, vst_sendAccessoryPacket; repeat first [apply s_stream|s1].
Qed.
End Same.
Lemma plain_same_logged : forall lw g react n c, ProofsTouch.same (wexec lw g (fun h => plain (react h)) n (plain c)) (vexec lw g react n c).
Proof.
  intros lw g react n. induction n as [|n IHn]; intros c.
  - destruct c as [|o k]; apply ProofsTouch.k_refl.
  - induction c as [|o k IH]; [apply ProofsTouch.k_refl|].
    change (ProofsTouch.same (vstep lw g no_code (fun _ s => wexec lw g (fun h => plain (react h)) n (plain (react (r_t s))) s) o ~;; (fun s => wexec lw g (fun h => plain (react h)) (S n) (plain (k (r_w s) (r_t s))) s))
      (vstep lw g react (vexec lw g react n) o ~;; (fun s => vexec lw g react (S n) (k (r_w s) (r_t s)) s))).
    apply ProofsTouch.k_bind; [apply s_step; intros s; apply IHn|]. intros _ s. apply IH.
Qed.
