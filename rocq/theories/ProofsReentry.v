(* ProofsReentry.v -- the re-entrant model with passive callbacks is the model of World.v; the
   result does not depend on the bound on nesting. *)
From Verif Require Import Reentry ProofsText.

Ltac unr := unfold rbind, rlift, rask, rval, rret.

(** ** The bound on nested calls only matters while it is exceeded *)
Definition le {A} (x y : res A * rst) : Prop := fst x = UB TooDeep \/ x = y.
Definition mono {A} (a b : ract A) : Prop := forall s, le (a s) (b s).
Lemma le_refl : forall A (x : res A * rst), le x x. Proof. intros. right. reflexivity. Qed.
Lemma mono_refl : forall A (a : ract A), mono a a. Proof. intros A a s. apply le_refl. Qed.
Lemma mono_bind : forall A B (a a' : ract A) (f f' : A -> ract B),
  mono a a' -> (forall x, mono (f x) (f' x)) -> mono (rbind a f) (rbind a' f').
Proof.
  intros A B a a' f f' H K s. unfold rbind. destruct (H s) as [E|E].
  - left. destruct (a s) as [[x|u] s']; cbn in E; [discriminate|]. injection E as ->. reflexivity.
  - rewrite <- E. destruct (a s) as [[x|u] s']; [apply K|apply le_refl].
Qed.
Lemma mono_when : forall A (p : option A) f f', (forall x, mono (f x) (f' x)) -> mono (rwhen_some p f) (rwhen_some p f').
Proof. intros A [x|] f f' H; [apply H|apply mono_refl]. Qed.

Section Mono.
Variable lw : Z.
Variable react : list event -> code.
Variables i j : code -> ract unit.
Hypothesis ij : forall c, mono (i c) (j c).

Lemma m_ucall : forall e, mono (ucall react i e) (ucall react j e).
Proof. intros. apply mono_bind; [apply mono_refl|]. intros _ s. apply ij. Qed.
Ltac mstep :=
  first [ match goal with |- mono ?a ?a => apply mono_refl end | apply m_ucall | apply mono_bind; [|intros] | apply mono_when; intros
        | match goal with |- mono (if ?b then _ else _) (if ?b then _ else _) => destruct b end
        | match goal with |- mono (match ?x with _ => _ end) (match ?x with _ => _ end) => destruct x end
        | match goal with |- mono (let '(_, _) := ?x in _) _ => destruct x end ].
Ltac ms := repeat mstep.
Lemma m_consume : forall c s k v, mono (rcons_consume lw react i c s k v) (rcons_consume lw react j c s k v).
Proof. intros. unfold rcons_consume. ms. Qed.
Opaque rcons_consume.
Lemma m_complete : forall c, mono (rcons_complete react i c) (rcons_complete react j c).
Proof. intros. unfold rcons_complete. ms. Qed.
Opaque rcons_complete.
Lemma m_aborted : forall c, mono (rcons_aborted react i c) (rcons_aborted react j c).
Proof. intros. unfold rcons_aborted. ms. Qed.
Opaque rcons_aborted.
Lemma m_report : forall p, mono (rtp_report lw react i p) (rtp_report lw react j p).
Proof. intros. unfold rtp_report. ms; try apply m_consume. Qed.
Opaque rtp_report.
Lemma m_error : forall p, mono (rtp_reportParseError lw react i p) (rtp_reportParseError lw react j p).
Proof. intros. unfold rtp_reportParseError. ms; try apply m_report. Qed.
Opaque rtp_reportParseError.
Lemma m_find : forall p o c d, mono (rtp_findToken lw react i p o c d) (rtp_findToken lw react j p o c d).
Proof. intros. unfold rtp_findToken. ms; try apply m_error. Qed.
Opaque rtp_findToken.
Lemma m_iteration : forall p n, mono (rtp_iteration lw react i p n) (rtp_iteration lw react j p n).
Proof. intros. unfold rtp_iteration. repeat (first [apply m_find|apply m_error|apply m_report|mstep]). Qed.
Opaque rtp_iteration.
Lemma m_process : forall p f n, mono (rtp_process lw react i p f n) (rtp_process lw react j p f n).
Proof. intros p f. induction f; intros; cbn [rtp_process]; ms; try first [apply m_iteration|apply IHf]. Qed.
Opaque rtp_process.
Lemma m_addLoop : forall p b f n, mono (rtp_addLoop lw react i p f b n) (rtp_addLoop lw react j p f b n).
Proof. intros p b f. induction f; intros; cbn [rtp_addLoop]; unfold rtp_processBuffer; ms; try first [apply m_error|apply m_process|apply IHf]. Qed.
Opaque rtp_addLoop.
Lemma m_addText : forall p b, mono (rtp_addText lw react i p b) (rtp_addText lw react j p b).
Proof. intros. unfold rtp_addText. ms; try first [apply m_error|apply m_addLoop]. Qed.
Opaque rtp_addText.
Lemma m_reset : forall p, mono (rlib_reset react i p) (rlib_reset react j p).
Proof. intros. unfold rlib_reset. ms; try apply m_aborted. Qed.
Opaque rlib_reset.
Lemma m_message : forall p d, mono (rlib_addMessage lw react i p d) (rlib_addMessage lw react j p d).
Proof. intros. unfold rlib_addMessage. ms; try first [apply m_complete|apply m_aborted|apply m_reset|apply m_addText]. Qed.
Opaque rlib_addMessage.
Lemma m_cfg : forall p c, mono (rcfg_call lw react i p c) (rcfg_call lw react j p c).
Proof. intros. unfold rcfg_call. ms; try first [apply m_reset|apply m_message]. Qed.
Opaque rcfg_call.
Lemma m_tx : forall s f, mono (rtx_send react i s f) (rtx_send react j s f).
Proof. intros. unfold rtx_send. ms. Qed.
Opaque rtx_send.
Lemma m_finish : forall s, mono (rst_finish lw react i s) (rst_finish lw react j s).
Proof. intros. unfold rst_finish. ms; try apply m_cfg. Qed.
Opaque rst_finish.
Lemma m_functions : forall s st u n k, mono (rsend_functions react i s st u k n) (rsend_functions react j s st u k n).
Proof. intros s st u n. induction n; intros; cbn [rsend_functions]; ms; try first [apply m_tx|apply IHn]. Qed.
Opaque rsend_functions.
Lemma m_step : forall o, mono (rstep lw react i o) (rstep lw react j o).
Proof.
  intros o. unfold rstep. destruct o; try apply mono_refl; try apply m_message; try apply m_reset.
  destruct o; cbn [rst_step];
  unfold rst_begin, rst_handlePacket, rst_handleAccessoryPacket, rst_handleConfigDataStream, rst_handleSystemCommand,
    rst_handleLocoDirection, rst_handleLocoSpeed, rst_handleLocoFunction, rst_requestEngine, rst_requestEngineList, rst_sendOwn, rst_sendPacket, rst_handleAccessoryPacket;
  repeat (first [apply m_finish|apply m_cfg|apply m_tx|apply m_functions|mstep]).
Qed.
End Mono.
Transparent rcons_consume rcons_complete rcons_aborted rtp_report rtp_reportParseError rtp_findToken rtp_iteration rtp_process rtp_addLoop rtp_addText rlib_reset rlib_addMessage rcfg_call rtx_send rst_finish rsend_functions.

Lemma exec_mono : forall lw react n c, mono (rexec lw react n c) (rexec lw react (S n) c).
Proof.
  intros lw react n. induction n; intros c.
  - destruct c; [apply mono_refl|]. intros s. left. reflexivity.
  - induction c as [|o k IH]; [apply mono_refl|]. change (mono (rstep lw react (rexec lw react n) o ~;; (fun s => rexec lw react (S n) (k (r_w s) (r_t s)) s))
      (rstep lw react (rexec lw react (S n)) o ~;; (fun s => rexec lw react (S (S n)) (k (r_w s) (r_t s)) s))).
    apply mono_bind; [apply m_step; exact IHn|]. intros _ s. apply IH.
Qed.
Theorem depth_irrelevant : forall lw react n m c s r s', (n <= m)%nat ->
  rexec lw react n c s = (r, s') -> r <> UB TooDeep -> rexec lw react m c s = (r, s').
Proof.
  intros lw react n m c s r s' H E N. induction H; [exact E|]. destruct (exec_mono lw react m c s) as [K|K].
  - exfalso. apply N. rewrite IHle in K. exact K.
  - rewrite <- K. exact IHle.
Qed.
