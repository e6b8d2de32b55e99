(* ProofsStream.v -- proofs about config-data streams. *)
From Verif Require Import ZLib SpecStream ProofsCodec ProofsBuffer ProofsText ProofsCrc ProofsWorld ProofsStation ProofsRequest.

Lemma ends_app : forall a c, ends (a ++ c) = ends a ++ ends c. Proof. intros. apply filter_app. Qed.

(** ** Consumer calls do not touch parsers and stations *)
Definition quiet (a : act) : Prop := forall w w' t, a w = Ok (w', t) ->
  w_parsers w' = w_parsers w /\ w_stations w' = w_stations w /\ ends t = [].
Lemma q_skip : quiet skip. Proof. intros w w' t H. inversion H; subst. auto. Qed.
Lemma q_fail : forall u, quiet (fail u). Proof. intros u w w' t H. discriminate. Qed.
Lemma q_emit : forall e, is_end e = false -> quiet (emit e).
Proof. intros e E w w' t H. inversion H; subst. cbn. rewrite E. auto. Qed.
Lemma q_seq : forall a c, quiet a -> quiet c -> quiet (a ;;; c).
Proof.
  intros a c A C w w' t H. apply seq_inv in H. destruct H as (w1 & t1 & t2 & H1 & H2 & ->).
  destruct (A _ _ _ H1) as (A1 & A2 & A3), (C _ _ _ H2) as (C1 & C2 & C3). rewrite ends_app, A3, C3. split; [congruence|]. split; [congruence|reflexivity].
Qed.
Lemma q_ask : forall A (f : world -> res A) k, (forall x, quiet (k x)) -> quiet (ask f k).
Proof. intros A f k K w w' t H. apply ask_inv in H. destruct H as (x & _ & H). exact (K x _ _ _ H). Qed.
Lemma q_when : forall A (o : option A) k, (forall x, quiet (k x)) -> quiet (when_some o k).
Proof. intros A [x|] k K; [apply K|apply q_skip]. Qed.
Lemma q_put_cons : forall c x, quiet (put_cons c x). Proof. intros c x w w' t H. inversion H; subst. auto. Qed.
Lemma q_put_engine : forall c x, quiet (put_engine c x). Proof. intros c x w w' t H. inversion H; subst. auto. Qed.
Lemma q_print : forall x, quiet (print x). Proof. intros. apply q_emit. reflexivity. Qed.
Lemma q_puts : forall x, quiet (puts x). Proof. intros. apply q_print. Qed.
Lemma q_print_res : forall x, quiet (print_res x). Proof. intros. apply q_ask. intros. apply q_print. Qed.
Ltac q := repeat first [apply q_skip|apply q_fail|apply q_print|apply q_puts|apply q_print_res|apply q_put_cons|apply q_put_engine
  |apply q_emit; reflexivity|apply q_seq|apply q_ask; intro|apply q_when; intro
  |match goal with |- quiet (match ?x with _ => _ end) => destruct x end].
Lemma q_consume : forall lw c s k v, quiet (cons_consume lw c s k v).
Proof. intros. unfold cons_consume, loco_consume, list_consume. q. Qed.
Lemma q_consume_all : forall lw c l, quiet (cons_consume_all lw c l).
Proof. induction l as [|[[s k] v] l IH]; cbn [cons_consume_all]; [apply q_skip|]. apply q_seq; [apply q_consume|exact IH]. Qed.
Lemma told_end : forall e (a : act) w w' t, quiet a -> (emit e ;;; a) w = Ok (w', t) ->
  w_parsers w' = w_parsers w /\ w_stations w' = w_stations w /\ ends t = ends [e].
Proof.
  intros e a w w' t A H. apply seq_inv in H. destruct H as (w1 & t1 & t2 & H1 & H2 & ->). inversion H1; subst.
  destruct (A _ _ _ H2) as (A1 & A2 & A3). rewrite ends_app, A3, app_nil_r. auto.
Qed.
Lemma complete_inv : forall c w w' t, cons_complete c w = Ok (w', t) ->
  w_parsers w' = w_parsers w /\ w_stations w' = w_stations w /\ ends t = [EvStreamComplete c].
Proof. intros c w w' t H. unfold cons_complete in H. apply told_end in H; [exact H|]. q. Qed.
Lemma aborted_inv : forall c w w' t, cons_aborted c w = Ok (w', t) ->
  w_parsers w' = w_parsers w /\ w_stations w' = w_stations w /\ ends t = [EvStreamAborted c].
Proof. intros c w w' t H. unfold cons_aborted in H. apply told_end in H; [exact H|]. q. Qed.

(** ** Parser calls *)
Lemma lib_get : forall w p sp, lib_at w p sp -> get_lib p w = Ok sp.
Proof. intros w p sp H. unfold get_lib, get_parser, at_. rewrite H. reflexivity. Qed.
Lemma lib_inv : forall w p sp, get_lib p w = Ok sp -> lib_at w p sp.
Proof.
  intros w p sp H. unfold get_lib, get_parser, at_ in H. unfold lib_at. destruct (nth_error (w_parsers w) p) as [[x|]|]; cbn in H; congruence.
Qed.
Lemma lib_upd : forall w p sp x, lib_at w p sp -> nth_error (upd p x (w_parsers w)) p = Some x.
Proof. intros w p sp x H. eapply nth_error_upd_same. exact H. Qed.
Definition abort_note (q : option nat) : list event := match q with Some c => [EvStreamAborted c] | None => [] end.
Definition done_note (q : option nat) : list event := match q with Some c => [EvStreamComplete c] | None => [] end.
Lemma when_aborted : forall q w w' t, when_some q cons_aborted w = Ok (w', t) ->
  w_parsers w' = w_parsers w /\ w_stations w' = w_stations w /\ ends t = abort_note q.
Proof. intros [c|] w w' t H; [exact (aborted_inv _ _ _ _ H)|inversion H; subst; auto]. Qed.
Lemma when_complete : forall q w w' t, when_some q cons_complete w = Ok (w', t) ->
  w_parsers w' = w_parsers w /\ w_stations w' = w_stations w /\ ends t = done_note q.
Proof. intros [c|] w w' t H; [exact (complete_inv _ _ _ _ H)|inversion H; subst; auto]. Qed.

Lemma reset_inv : forall w p sp w' t, lib_at w p sp -> lib_reset p w = Ok (w', t) ->
  exists tx, tp_reset (sp_text sp) = Ok tx /\ w_parsers w' = upd p (LibP (mkSP SS_IDLE 0 tx crc_reset None)) (w_parsers w) /\
    w_stations w' = w_stations w /\ ends t = if in_progress sp then abort_note (sp_cons sp) else [].
Proof.
  intros w p sp w' t L H. unfold lib_reset in H. rewrite (ask_ok _ _ _ _ _ (lib_get _ _ _ L)) in H.
  apply seq_inv in H. destruct H as (w1 & t1 & t2 & H1 & H2 & ->).
  assert (K : w_parsers w1 = w_parsers w /\ w_stations w1 = w_stations w /\ ends t1 = if in_progress sp then abort_note (sp_cons sp) else []).
  { unfold in_progress. destruct (sp_state sp); cbn [ss_processing] in H1; try (apply (when_aborted _ _ _ _ H1)); inversion H1; subst; auto. }
  destruct K as (K1 & K2 & K3).
  assert (L1 : lib_at w1 p sp) by (unfold lib_at; rewrite K1; exact L).
  rewrite (ask_ok _ _ _ _ _ (lib_get _ _ _ L1)) in H2. apply ask_inv in H2. destruct H2 as (tx & T & H2). inversion H2; subst.
  exists tx. split; [exact T|]. split; [cbn; rewrite K1; reflexivity|]. split; [exact K2|]. rewrite ends_app, K3. apply app_nil_r.
Qed.

(** the outcome of addMessage on the parser object, and the notification it causes *)
Inductive added (sp : SP) (d : Data) : SP -> list event -> Prop :=
| AddIgnored : in_progress sp = false -> added sp d sp []
| AddHeader : sp_state sp = SS_FIRST -> dlc d = 6 \/ dlc d = 7 -> header_length d > 0 ->
    added sp d (mkSP SS_DATA (header_length d) (sp_text sp) (crc_loadReference (sp_crc sp) (header_crc d)) (sp_cons sp)) []
| AddEmpty : sp_state sp = SS_FIRST -> dlc d = 6 \/ dlc d = 7 -> header_length d <= 0 ->
    added sp d (mkSP SS_DONE (header_length d) (sp_text sp) (crc_loadReference (sp_crc sp) (header_crc d)) (sp_cons sp)) (done_note (sp_cons sp))
| AddBad : forall tx, (sp_state sp = SS_FIRST /\ dlc d <> 6 /\ dlc d <> 7) \/ (sp_state sp = SS_DATA /\ dlc d <> 8) ->
    tp_reset (sp_text sp) = Ok tx -> added sp d (mkSP SS_IDLE 0 tx crc_reset None) (abort_note (sp_cons sp))
| AddData : forall bs crc te, sp_state sp = SS_DATA -> dlc d = 8 -> data_visited d = Ok bs -> crc_feed (sp_crc sp) bs = Ok crc ->
    tp_addText (sp_text sp) (mkBuf (dbytes d) CanDataMaxLength (dlc d)) = Ok te -> u32 (sp_remaining sp - dlc d) <> 0 ->
    added sp d (mkSP SS_DATA (u32 (sp_remaining sp - dlc d)) (fst te) crc (sp_cons sp)) []
| AddLast : forall bs crc te (valid : bool), sp_state sp = SS_DATA -> dlc d = 8 -> data_visited d = Ok bs -> crc_feed (sp_crc sp) bs = Ok crc ->
    tp_addText (sp_text sp) (mkBuf (dbytes d) CanDataMaxLength (dlc d)) = Ok te -> u32 (sp_remaining sp - dlc d) = 0 -> crc_isValid crc = Ok valid ->
    added sp d (mkSP (if valid then SS_DONE else SS_IDLE) 0 (fst te) crc (sp_cons sp)) (if valid then done_note (sp_cons sp) else abort_note (sp_cons sp)).

Lemma put_lib_seq : forall p x (a : act) w, (put_lib p x ;;; a) w = a (with_parser w p (LibP x)).
Proof. intros. unfold World.seq, put_lib, put_parser, with_parser. cbn [bind]. destruct (a _) as [[w2 t2]|]; reflexivity. Qed.
Lemma add_inv : forall lw w p sp d w' t, lib_at w p sp -> lib_addMessage lw p d w = Ok (w', t) ->
  exists sp' e, added sp d sp' e /\ w_parsers w' = upd p (LibP sp') (w_parsers w) /\ w_stations w' = w_stations w /\ ends t = e.
Proof.
  intros lw w p sp d w' t L H. unfold lib_addMessage in H. rewrite (ask_ok _ _ _ _ _ (lib_get _ _ _ L)) in H.
  assert (SAME : upd p (LibP sp) (w_parsers w) = w_parsers w) by (apply upd_same_id; exact L).
  destruct (sp_state sp) eqn:ST.
  - inversion H; subst. exists sp, []. split; [apply AddIgnored; unfold in_progress; rewrite ST; reflexivity|]. rewrite SAME. auto.
  - destruct ((dlc d =? 6) || (dlc d =? 7)) eqn:D.
    + apply orb_true_iff in D. rewrite !Z.eqb_eq in D. cbv zeta in H. cbn [sp_remaining sp_text sp_crc sp_cons] in H.
      destruct (header_length d >? 0) eqn:HL.
      * inversion H; subst. eexists. eexists. split; [apply AddHeader; [exact ST|exact D|lia]|]. auto.
      * rewrite put_lib_seq in H. apply when_complete in H. destruct H as (H1 & H2 & H3). eexists. eexists.
        split; [apply AddEmpty; [exact ST|exact D|lia]|]. auto.
    + apply orb_false_iff in D. rewrite !Z.eqb_neq in D.
      assert (K : exists t0, lib_reset p w = Ok (w', t0) /\ ends t0 = ends t).
      { destruct (dlc d >=? 8); apply seq_inv in H; destruct H as (w1 & t1 & t2 & H1 & H2 & ->); inversion H1; subst; exists t2; auto. }
      destruct K as (t0 & K & E). apply (reset_inv _ _ sp) in K; [|exact L]. destruct K as (tx & T & P & Q & N).
      unfold in_progress in N. rewrite ST in N. eexists. eexists. split; [eapply AddBad; [left; auto|exact T]|]. rewrite <- E. auto.
  - destruct (Z.eqb_spec (dlc d) 8) as [D|D]; cbn [negb] in H.
    + cbv zeta in H. apply ask_inv in H. destruct H as (crc & C & H).
      destruct (data_visited d) as [bs|] eqn:V; cbn [bind] in C; [|discriminate].
      apply ask_inv in H. destruct H as (te & T & H). rewrite put_lib_seq in H. apply seq_inv in H. destruct H as (w1 & t1 & t2 & H1 & H2 & ->).
      assert (Q1 : w_parsers w1 = upd p (LibP (mkSP SS_DATA (u32 (sp_remaining sp - dlc d)) (fst te) crc (sp_cons sp))) (w_parsers w) /\ w_stations w1 = w_stations w /\ ends t1 = []).
      { refine (_ (q_when _ (tp_cons (sp_text sp)) (fun c => cons_consume_all lw c (snd te)) _ _ _ _ H1)); [intros (A & B & E); auto|]. intros; apply q_consume_all. }
      destruct Q1 as (P1 & S1 & E1). rewrite ends_app, E1. cbn [app].
      destruct (Z.eqb_spec (u32 (sp_remaining sp - dlc d)) 0) as [Z0|Z0].
      * apply ask_inv in H2. destruct H2 as (valid & VA & H2). exists (mkSP (if valid then SS_DONE else SS_IDLE) 0 (fst te) crc (sp_cons sp)). eexists.
        split; [eapply AddLast; eassumption|]. rewrite Z0 in H2, P1.
        destruct valid; rewrite put_lib_seq in H2; [apply when_complete in H2|apply when_aborted in H2]; destruct H2 as (A & B & E); cbn in A, B;
          rewrite A, B, E, P1, upd_upd; auto.
      * inversion H2; subst. eexists. eexists. split; [eapply AddData; eassumption|]. auto.
    + apply seq_inv in H. destruct H as (w1 & t1 & t2 & H1 & H2 & ->). inversion H1; subst.
      apply (reset_inv _ _ sp) in H2; [|exact L]. destruct H2 as (tx & T & P & Q & N). unfold in_progress in N. rewrite ST in N.
      eexists. eexists. split; [eapply AddBad; [right; auto|exact T]|]. auto.
  - inversion H; subst. exists sp, []. split; [apply AddIgnored; unfold in_progress; rewrite ST; reflexivity|]. rewrite SAME. auto.
Qed.

(** ** C28: counting *)
Lemma note_len : forall q, (List.length (abort_note q) <= 1)%nat /\ (List.length (done_note q) <= 1)%nat.
Proof. intros [c|]; cbn; lia. Qed.
Definition pot (sp : SP) : nat := if in_progress sp then 1%nat else 0%nat.
Lemma added_pot : forall sp d sp' e, added sp d sp' e -> (List.length e + pot sp' <= pot sp)%nat.
Proof.
  intros sp d sp' e A. destruct A; unfold pot, in_progress in *; cbn [sp_state]; destruct (note_len (sp_cons sp)).
  - cbn. lia.
  - rewrite H. cbn. lia.
  - rewrite H. cbn. lia.
  - destruct H as [[H _]|[H _]]; rewrite H; lia.
  - rewrite H. cbn. lia.
  - rewrite H. destruct valid; lia.
Qed.
Definition cost (o : op) : nat := if is_start o then 1%nat else 0%nat.
Lemma op_pot : forall lw p o w sp w' t, on_parser p o -> lib_at w p sp -> step lw o w = Ok (w', t) ->
  exists sp', lib_at w' p sp' /\ w_stations w' = w_stations w /\ (List.length (ends t) + pot sp' <= pot sp + cost o)%nat.
Proof.
  intros lw p o w sp w' t O L H. destruct o; cbn [on_parser] in O; try contradiction; subst; cbn [step] in H.
  - rewrite (ask_ok _ _ _ _ _ (lib_get _ _ _ L)) in H. inversion H; subst. eexists. split; [eapply lib_upd; exact L|]. split; [reflexivity|]. unfold pot, in_progress. cbn. lia.
  - rewrite (ask_ok _ _ _ _ _ (lib_get _ _ _ L)) in H. inversion H; subst. eexists. split; [eapply lib_upd; exact L|]. split; [reflexivity|]. unfold pot, in_progress. cbn. lia.
  - apply (add_inv _ _ _ sp) in H; [|exact L]. destruct H as (sp' & e & A & P & Q & E). exists sp'. split; [unfold lib_at; rewrite P; eapply lib_upd; exact L|].
    split; [exact Q|]. rewrite E. pose proof (added_pot _ _ _ _ A). lia.
  - apply (reset_inv _ _ sp) in H; [|exact L]. destruct H as (tx & T & P & Q & E). eexists. split; [unfold lib_at; rewrite P; eapply lib_upd; exact L|].
    split; [exact Q|]. rewrite E. unfold pot at 1. cbn. unfold pot. destruct (note_len (sp_cons sp)). destruct (in_progress sp); cbn; lia.
Qed.
Definition starts (ops : list op) : nat := List.length (filter is_start ops).
Lemma run_pot : forall lw p ops w sp w' t, Forall (on_parser p) ops -> lib_at w p sp -> run lw ops w = Ok (w', t) ->
  exists sp', lib_at w' p sp' /\ (List.length (ends t) + pot sp' <= pot sp + starts ops)%nat.
Proof.
  induction ops as [|o ops IH]; intros w sp w' t F L H; cbn [run] in H.
  - inversion H; subst. exists sp. split; [exact L|]. cbn. lia.
  - apply seq_inv in H. destruct H as (w1 & t1 & t2 & H1 & H2 & ->). inversion F; subst.
    destruct (op_pot _ _ _ _ _ _ _ H3 L H1) as (sp1 & L1 & _ & B1). destruct (IH _ _ _ _ H4 L1 H2) as (sp2 & L2 & B2).
    exists sp2. split; [exact L2|]. rewrite ends_app, app_length. unfold starts in *. cbn [filter]. unfold cost in B1. destruct (is_start o); cbn [List.length]; lia.
Qed.

(** ** The stream as a machine *)
Inductive phase : Type := Idle | Header | Body (rest expected : Z) (got : list Z) | Finished.
Record mach : Type := mkM { m_ph : phase; m_auto : auto; m_cons : option nat }.
Definition verdict (got : list Z) (expected : Z) : bool := crc_of 0xFFFF got =? expected.
Definition mstep (m : mach) (d : Data) : mach * list event :=
  match m_ph m with
  | Idle | Finished => (m, [])
  | Header =>
      if (dlc d =? 6) || (dlc d =? 7) then
        if header_length d >? 0 then (mkM (Body (header_length d) (header_crc d) []) (m_auto m) (m_cons m), [])
        else (mkM Finished (m_auto m) (m_cons m), done_note (m_cons m))
      else (mkM Idle astart None, abort_note (m_cons m))
  | Body rest expected got =>
      if dlc d =? 8 then
        if u32 (rest - 8) =? 0 then
          if verdict (got ++ content d) expected then (mkM Finished (fst (aadd (m_auto m) (content d))) (m_cons m), done_note (m_cons m))
          else (mkM Idle (fst (aadd (m_auto m) (content d))) (m_cons m), abort_note (m_cons m))
        else (mkM (Body (u32 (rest - 8)) expected (got ++ content d)) (fst (aadd (m_auto m) (content d))) (m_cons m), [])
      else (mkM Idle astart None, abort_note (m_cons m))
  end.
(** what the frame makes the text parser report *)
Definition mreports (m : mach) (d : Data) : list report :=
  match m_ph m with
  | Body _ _ _ => if dlc d =? 8 then snd (aadd (m_auto m) (content d)) else []
  | _ => []
  end.
Definition R (m : mach) (sp : SP) : Prop :=
  sp_cons sp = m_cons m /\ sp_text sp = parser (m_auto m) (m_cons m) /\ fits (m_auto m) /\
  match m_ph m with
  | Idle => sp_state sp = SS_IDLE
  | Header => sp_state sp = SS_FIRST /\ sp_crc sp = crc_reset
  | Body rest expected got => sp_state sp = SS_DATA /\ sp_remaining sp = rest /\ sp_crc sp = mkCrc (Def (crc_of 0xFFFF got)) (Def expected)
  | Finished => sp_state sp = SS_DONE
  end.
Lemma crc_of_app : forall x y a, crc_of a (x ++ y) = crc_of (crc_of a x) y. Proof. intros. unfold crc_of. apply fold_left_app. Qed.
Lemma payload9 : forall d, payload_ok d -> zlen (dbytes d) = 9. Proof. intros d (_ & H & _). unfold zlen. rewrite H. reflexivity. Qed.
Lemma holds_data : forall d, payload_ok d -> dlc d = 8 -> holds (mkBuf (dbytes d) CanDataMaxLength (dlc d)) (content d).
Proof.
  intros d P D. unfold holds, content, CanDataMaxLength. cbn [mem blen bcap]. rewrite (payload9 _ P), D. repeat (split; [lia|]). reflexivity.
Qed.
Lemma visited_data : forall d, payload_ok d -> dlc d = 8 -> data_visited d = Ok (content d).
Proof.
  intros d P D. unfold data_visited, content. rewrite rd_blk_ok by (rewrite ?(payload9 _ P); lia). rewrite D. reflexivity.
Qed.
Lemma R_added : forall m sp d sp' e, R m sp -> payload_ok d -> added sp d sp' e -> R (fst (mstep m d)) sp' /\ e = snd (mstep m d).
Proof.
  intros m sp d sp' e (RC & RT & RF & RP) P A. unfold mstep. destruct A.
  - destruct (m_ph m) eqn:PH; unfold in_progress in H; try (destruct RP as (RP & _)); rewrite RP in H; try discriminate; (split; [|reflexivity]);
      unfold R; cbn [fst]; rewrite PH; auto.
  - destruct (m_ph m) eqn:PH; try (destruct RP as (RP & RP2)); try congruence.
    replace ((dlc d =? 6) || (dlc d =? 7)) with true by (symmetry; rewrite orb_true_iff, !Z.eqb_eq; assumption).
    replace (header_length d >? 0) with true by lia. split; [|reflexivity]. unfold R. cbn. rewrite RP2. auto 10.
  - destruct (m_ph m) eqn:PH; try (destruct RP as (RP & RP2)); try congruence.
    replace ((dlc d =? 6) || (dlc d =? 7)) with true by (symmetry; rewrite orb_true_iff, !Z.eqb_eq; assumption).
    replace (header_length d >? 0) with false by lia. split; [|cbn; congruence]. unfold R. cbn. auto 10.
  - rewrite RT, (reset_spec _ _ RF) in H0. injection H0 as <-.
    assert (Q : R (mkM Idle astart None) (mkSP SS_IDLE 0 tp_new crc_reset None)).
    { unfold R. cbn [m_cons m_auto m_ph sp_cons sp_text sp_state]. rewrite start_parser. repeat split; apply start_fits. }
    destruct (m_ph m) eqn:PH; try (destruct RP as (RP & RP2)); destruct H as [(H & D)|(H & D)]; try congruence.
    + replace ((dlc d =? 6) || (dlc d =? 7)) with false by (symmetry; rewrite orb_false_iff, !Z.eqb_neq; assumption). split; [exact Q|cbn; congruence].
    + replace (dlc d =? 8) with false by lia. split; [exact Q|cbn; congruence].
  - destruct (m_ph m) eqn:PH; try (destruct RP as (RP & RP2)); try congruence. destruct RP2 as (RR & RK).
    rewrite (visited_data _ P H0) in H1. injection H1 as <-. rewrite RK, crc_feed_eq in H2. injection H2 as <-.
    rewrite RT, (addText_spec _ _ _ _ RF (holds_data _ P H0)) in H3. injection H3 as <-. rewrite H0 in *. rewrite RR in *.
    rewrite Z.eqb_refl. replace (u32 (rest - 8) =? 0) with false by lia. split; [|reflexivity]. unfold R. cbn [m_cons m_auto m_ph sp_cons sp_text sp_state sp_remaining sp_crc fst].
    rewrite crc_of_app. split; [assumption|]. split; [congruence|]. split; [apply aadd_fits; assumption|auto].
  - destruct (m_ph m) eqn:PH; try (destruct RP as (RP & RP2)); try congruence. destruct RP2 as (RR & RK).
    rewrite (visited_data _ P H0) in H1. injection H1 as <-. rewrite RK, crc_feed_eq in H2. injection H2 as <-.
    rewrite RT, (addText_spec _ _ _ _ RF (holds_data _ P H0)) in H3. injection H3 as <-. rewrite H0 in *. rewrite RR in *.
    rewrite Z.eqb_refl. replace (u32 (rest - 8) =? 0) with true by lia. cbn in H5. injection H5 as <-.
    unfold verdict. rewrite crc_of_app. destruct (_ =? expected); unfold R; cbn [m_cons m_auto m_ph sp_cons sp_text sp_state sp_remaining sp_crc fst snd];
      rewrite RC; repeat split; apply aadd_fits; assumption.
Qed.
Fixpoint mrun (m : mach) (ds : list Data) : mach * list event :=
  match ds with [] => (m, []) | d :: r => (fst (mrun (fst (mstep m d)) r), snd (mstep m d) ++ snd (mrun (fst (mstep m d)) r)) end.
Lemma R_run : forall lw p ds m sp w w' t, lib_at w p sp -> R m sp -> Forall payload_ok ds ->
  run lw (map (ParserAddMessage p) ds) w = Ok (w', t) ->
  exists sp', lib_at w' p sp' /\ R (fst (mrun m ds)) sp' /\ ends t = snd (mrun m ds) /\
    w_parsers w' = upd p (LibP sp') (w_parsers w) /\ w_stations w' = w_stations w.
Proof.
  induction ds as [|d ds IH]; intros m sp w w' t L RM F H; cbn [map run] in H.
  - inversion H; subst. exists sp. cbn [mrun fst snd]. repeat (split; [first [assumption|reflexivity]|]). split; [|reflexivity]. symmetry. apply upd_same_id. exact L.
  - apply seq_inv in H. destruct H as (w1 & t1 & t2 & H1 & H2 & ->). inversion F; subst. cbn [step] in H1.
    apply (add_inv _ _ _ sp) in H1; [|exact L]. destruct H1 as (sp1 & e & A & P1 & S1 & E1).
    destruct (R_added _ _ _ _ _ RM H3 A) as (R1 & ->). assert (L1 : lib_at w1 p sp1) by (unfold lib_at; rewrite P1; eapply lib_upd; exact L).
    destruct (IH _ _ _ _ _ L1 R1 H4 H2) as (sp2 & L2 & R2 & E2 & P2 & S2). exists sp2. cbn [mrun fst snd]. rewrite ends_app, E1, E2, P2, P1, upd_upd, S2, S1.
    split; [unfold lib_at; rewrite P2, P1, upd_upd; eapply lib_upd; exact L|]. auto.
Qed.

(** header decoding *)
Lemma header_decodes : forall d len crc, header_for d len crc -> header_length d = len /\ header_crc d = crc.
Proof.
  intros d len crc (P & D & L & C). unfold header_length, header_crc. rewrite <- L, <- C. clear L C D.
  nine d P. unfold b, dget, byte in *. cbn [dbytes nth].
  split; [apply be32; assumption|]. rewrite be16 by assumption. unfold u16. apply Z.mod_small. lia.
Qed.

(** ** The machine on whole downloads *)
Lemma mrun_app : forall xs ys m, mrun m (xs ++ ys) = (fst (mrun (fst (mrun m xs)) ys), snd (mrun m xs) ++ snd (mrun (fst (mrun m xs)) ys)).
Proof.
  induction xs as [|x xs IH]; intros ys m; cbn [app mrun fst snd]; [destruct (mrun m ys); reflexivity|]. rewrite IH. cbn [fst snd]. rewrite app_assoc. reflexivity.
Qed.
Lemma mrun_off : forall ds m, m_ph m = Idle \/ m_ph m = Finished -> mrun m ds = (m, []).
Proof.
  induction ds as [|d ds IH]; intros m H; [reflexivity|]. cbn [mrun]. unfold mstep. destruct H as [H|H]; rewrite H; cbn [fst snd app]; rewrite IH by auto; reflexivity.
Qed.
Lemma aadds_snoc : forall l a s, aadds a (l ++ [s]) = (fst (aadd (fst (aadds a l)) s), snd (aadds a l) ++ snd (aadd (fst (aadds a l)) s)).
Proof.
  induction l as [|x l IH]; intros a s; cbn [app aadds fst snd].
  - destruct (aadd a s). cbn. rewrite app_nil_r. reflexivity.
  - destruct (aadd a x) as (a1, e1). rewrite IH. destruct (aadds a1 l) as (a2, e2). cbn [fst snd]. rewrite app_assoc. reflexivity.
Qed.
Definition auto_after (a : auto) (ds : list Data) : auto := fst (aadds a (map content ds)).
Definition lines_of (a : auto) (ds : list Data) : list report := snd (aadds a (map content ds)).
Lemma received_app : forall x y, received (x ++ y) = received x ++ received y. Proof. intros. apply flat_map_app. Qed.
Lemma mrun_body : forall ds rest expected a q, Forall data_frame ds -> is_u32 rest ->
  (forall i, 0 < i <= zlen ds -> u32 (rest - 8 * i) <> 0) ->
  mrun (mkM (Body rest expected []) a q) ds = (mkM (Body (u32 (rest - 8 * zlen ds)) expected (received ds)) (auto_after a ds) q, []).
Proof.
  induction ds as [|d ds IH] using rev_ind; intros rest expected a q F U N.
  - cbn. rewrite Z.sub_0_r. unfold u32. rewrite Z.mod_small by exact U. reflexivity.
  - apply Forall_app in F. destruct F as (F & FD). inversion_clear FD as [|? ? (P & D) _].
    assert (ZL : zlen (ds ++ [d]) = zlen ds + 1) by (unfold zlen; rewrite app_length; cbn; lia). rewrite ZL in *.
    rewrite mrun_app, IH by (try assumption; intros; apply N; lia). cbn [fst snd app mrun]. unfold mstep. cbn [m_ph m_auto m_cons]. rewrite D, Z.eqb_refl.
    assert (E : u32 (u32 (rest - 8 * zlen ds) - 8) = u32 (rest - 8 * (zlen ds + 1))).
    { unfold u32. rewrite Zminus_mod_idemp_l. f_equal. lia. }
    rewrite E. assert (Z0 : 0 <= zlen ds) by (unfold zlen; lia). replace (u32 (rest - 8 * (zlen ds + 1)) =? 0) with false by (specialize (N (zlen ds + 1)); lia).
    cbn [fst snd app]. unfold auto_after. rewrite map_app. change (map content [d]) with [content d]. rewrite aadds_snoc, received_app. replace (received [d]) with (content d) by (unfold received; cbn [flat_map]; rewrite app_nil_r; reflexivity). reflexivity.
Qed.
Definition ending (got : list Z) (expected : Z) (c : nat) : event := if verdict got expected then EvStreamComplete c else EvStreamAborted c.
Lemma mrun_exact : forall ds n expected a c, Forall data_frame ds -> 0 < n -> 8 * n < 4294967296 -> zlen ds = n ->
  mrun (mkM (Body (8 * n) expected []) a (Some c)) ds =
  (mkM (if verdict (received ds) expected then Finished else Idle) (auto_after a ds) (Some c), [ending (received ds) expected c]).
Proof.
  intros ds n expected a c F N1 N2 L. destruct ds as [|d ds _] using rev_ind; [cbn in L; lia|].
  apply Forall_app in F. destruct F as (F & FD). inversion_clear FD as [|? ? (P & D) _].
  assert (ZL : zlen (ds ++ [d]) = zlen ds + 1) by (unfold zlen; rewrite app_length; cbn; lia). rewrite ZL in *. assert (Z0 : 0 <= zlen ds) by (unfold zlen; lia).
  rewrite mrun_app, mrun_body.
  - cbn [fst snd app mrun]. unfold mstep. cbn [m_ph m_auto m_cons]. rewrite D, Z.eqb_refl.
    replace (u32 (u32 (8 * n - 8 * zlen ds) - 8)) with 0 by (unfold u32; rewrite (Z.mod_small (8 * n - 8 * zlen ds)) by lia; rewrite Z.mod_small; lia).
    cbn [Z.eqb]. unfold ending, auto_after. rewrite map_app. change (map content [d]) with [content d]. rewrite aadds_snoc, received_app. replace (received [d]) with (content d) by (unfold received; cbn [flat_map]; rewrite app_nil_r; reflexivity).
    destruct (verdict _ expected); reflexivity.
  - exact F.
  - unfold is_u32. lia.
  - intros i Hi. unfold u32. rewrite Z.mod_small by lia. lia.
Qed.
Lemma mrun_short : forall ds n expected a q, Forall data_frame ds -> 8 * n < 4294967296 -> zlen ds < n ->
  mrun (mkM (Body (8 * n) expected []) a q) ds = (mkM (Body (8 * n - 8 * zlen ds) expected (received ds)) (auto_after a ds) q, []).
Proof.
  intros ds n expected a q F N L. assert (Z0 : 0 <= zlen ds) by (unfold zlen; lia). rewrite mrun_body.
  - unfold u32. rewrite Z.mod_small by lia. reflexivity.
  - exact F.
  - unfold is_u32. lia.
  - intros i Hi. unfold u32. rewrite Z.mod_small by lia. lia.
Qed.
Lemma mrun_header : forall hd len crc a q, header_for hd len crc -> 0 < len ->
  mstep (mkM Header a q) hd = (mkM (Body len crc []) a q, []).
Proof.
  intros hd len crc a q H L. destruct (header_decodes _ _ _ H) as (E1 & E2). destruct H as (_ & D & _). unfold mstep. cbn [m_ph m_auto m_cons].
  replace ((dlc hd =? 6) || (dlc hd =? 7)) with true by (symmetry; rewrite orb_true_iff, !Z.eqb_eq; assumption). rewrite E1, E2.
  replace (len >? 0) with true by lia. reflexivity.
Qed.
Lemma firstn_zlen : forall (ds : list Data) n, 0 <= n <= zlen ds -> zlen (firstn (Z.to_nat n) ds) = n.
Proof. intros ds n H. unfold zlen in *. rewrite firstn_length. lia. Qed.
Lemma Forall_firstn : forall A (P : A -> Prop) n l, Forall P l -> Forall P (firstn n l).
Proof. intros A P n l H. revert n. induction H; intros [|n]; cbn; auto. Qed.
Lemma mrun_download : forall hd ds n crc a c, header_for hd (8 * n) crc -> 0 < n -> 8 * n < 4294967296 -> Forall data_frame ds ->
  mrun (mkM Header a (Some c)) (hd :: ds) =
  let used := firstn (Z.to_nat n) ds in
  if zlen ds <? n then (mkM (Body (8 * n - 8 * zlen ds) crc (received ds)) (auto_after a ds) (Some c), [])
  else (mkM (if verdict (received used) crc then Finished else Idle) (auto_after a used) (Some c), [ending (received used) crc c]).
Proof.
  intros hd ds n crc a c H N1 N2 F. cbn [mrun]. rewrite (mrun_header _ _ _ _ _ H) by lia. cbn [fst snd app]. cbv zeta.
  destruct (Z.ltb_spec (zlen ds) n) as [L|L].
  - rewrite mrun_short by assumption. reflexivity.
  - rewrite <- (firstn_skipn (Z.to_nat n) ds) at 1 2. rewrite mrun_app.
    rewrite (mrun_exact (firstn (Z.to_nat n) ds) n) by first [assumption|apply Forall_firstn; assumption|apply firstn_zlen; lia]. cbn [fst snd].
    rewrite mrun_off by (cbn [m_ph]; destruct (verdict _ _); auto). reflexivity.
Qed.
Lemma verdict_true : forall got expected, verdict got expected = true <-> checksum_is got expected.
Proof. intros. unfold verdict. rewrite Z.eqb_eq, checksum_fun. intuition congruence. Qed.

(** start of a download *)
Lemma download_start : forall lw p c hd ds w sp a w' t, lib_at w p sp -> fits a -> sp_text sp = parser a (sp_cons sp) ->
  run lw (download p c hd ds) w = Ok (w', t) ->
  exists sp1, R (mkM Header a (Some c)) sp1 /\ run lw (map (ParserAddMessage p) (hd :: ds)) (with_parser w p (LibP sp1)) = Ok (w', t).
Proof.
  intros lw p c hd ds w sp a w' t L F T H. unfold download in H. cbn [run] in H. apply seq_inv in H. destruct H as (w1 & t1 & t2 & H1 & H & ->).
  apply seq_inv in H. destruct H as (w2 & t3 & t4 & H2 & H & ->). cbn [step] in H1, H2.
  rewrite (ask_ok _ _ _ _ _ (lib_get _ _ _ L)) in H1. inversion H1; subst.
  assert (L1 : lib_at {| w_stations := w_stations w; w_parsers := upd p (LibP (sp_setConsumer sp (Some c))) (w_parsers w); w_conss := w_conss w; w_engines := w_engines w |} p (sp_setConsumer sp (Some c)))
    by (unfold lib_at; cbn; eapply lib_upd; exact L).
  rewrite (ask_ok _ _ _ _ _ (lib_get _ _ _ L1)) in H2. inversion H2; subst. cbn [app w_parsers w_stations w_conss w_engines] in *.
  exists (sp_startStream (sp_setConsumer sp (Some c))). split.
  - unfold R, sp_startStream, sp_setConsumer. cbn [sp_cons sp_text sp_state sp_crc m_cons m_auto m_ph]. rewrite T. repeat split; apply F.
  - rewrite upd_upd in H. exact H.
Qed.
Lemma lib_with : forall w p sp x, lib_at w p sp -> lib_at (with_parser w p (LibP x)) p x.
Proof. intros w p sp x L. unfold lib_at, with_parser. cbn [w_parsers]. eapply lib_upd. exact L. Qed.
Lemma frames_payload : forall ds, Forall data_frame ds -> Forall payload_ok ds.
Proof. intros ds H. eapply Forall_impl; [|exact H]. intros d (P & _). exact P. Qed.

Lemma download_ends : forall lw p c hd ds n crc w sp w' t, lib_at w p sp -> usable sp -> header_for hd (8 * n) crc -> 0 < n -> 8 * n < 4294967296 ->
  Forall data_frame ds -> run lw (download p c hd ds) w = Ok (w', t) ->
  exists sp', lib_at w' p sp' /\ usable sp' /\ sp_cons sp' = Some c /\
    (zlen ds < n -> ends t = [] /\ sp_state sp' = SS_DATA) /\
    (n <= zlen ds -> checksum_is (received (firstn (Z.to_nat n) ds)) crc -> ends t = [EvStreamComplete c] /\ sp_state sp' = SS_DONE) /\
    (n <= zlen ds -> ~ checksum_is (received (firstn (Z.to_nat n) ds)) crc -> ends t = [EvStreamAborted c] /\ sp_state sp' = SS_IDLE).
Proof.
  intros lw p c hd ds n crc w sp w' t L (a & F & T) H N1 N2 FD E. destruct (download_start _ _ _ _ _ _ _ _ _ _ L F T E) as (sp1 & R1 & E1).
  assert (PO : Forall payload_ok (hd :: ds)) by (constructor; [apply H|apply frames_payload; assumption]).
  destruct (R_run _ _ _ _ _ _ _ _ (lib_with _ _ _ sp1 L) R1 PO E1) as (sp' & L' & R' & EN & _).
  rewrite (mrun_download _ _ _ _ _ _ H N1 N2 FD) in R', EN. cbv zeta in R', EN. exists sp'. split; [exact L'|].
  destruct (Z.ltb_spec (zlen ds) n) as [Q|Q]; cbn [fst snd] in R', EN; destruct R' as (C' & T' & F' & P'); cbn [m_cons m_auto m_ph] in *.
  - split; [exists (auto_after a ds); rewrite C'; auto|]. split; [exact C'|]. split; [intros _; split; [exact EN|apply P']|]. split; intros; lia.
  - split; [eexists; rewrite C'; split; [exact F'|exact T']|]. split; [exact C'|]. split; [intros; lia|]. unfold ending in EN. split; intros _ V.
    + apply verdict_true in V. rewrite V in EN, P'. auto.
    + destruct (verdict _ crc) eqn:VV; [apply verdict_true in VV; contradiction|]. auto.
Qed.

(** C26 *)
Lemma download_endless : forall lw p c hd ds len crc w sp w' t, lib_at w p sp -> usable sp -> header_for hd len crc -> len mod 8 <> 0 ->
  Forall data_frame ds -> run lw (download p c hd ds) w = Ok (w', t) ->
  exists sp', lib_at w' p sp' /\ sp_cons sp' = Some c /\ ends t = [] /\ sp_state sp' = SS_DATA.
Proof.
  intros lw p c hd ds len crc w sp w' t L (a & F & T) H N FD E. destruct (download_start _ _ _ _ _ _ _ _ _ _ L F T E) as (sp1 & R1 & E1).
  assert (PO : Forall payload_ok (hd :: ds)) by (constructor; [apply H|apply frames_payload; assumption]).
  destruct (R_run _ _ _ _ _ _ _ _ (lib_with _ _ _ sp1 L) R1 PO E1) as (sp' & L' & R' & EN & _).
  assert (B : 0 <= len < 4294967296).
  { destruct H as (P & _ & <- & _). nine hd P. unfold b, be, byte in *. cbn [dbytes nth]. lia. }
  assert (B1 : 0 < len) by (destruct (Z.eq_dec len 0) as [->|]; [cbn in N; lia|lia]).
  cbn [mrun] in R', EN. rewrite (mrun_header _ _ _ _ _ H B1) in R', EN. cbn [fst snd app] in R', EN.
  assert (NZ : forall i, 0 < i <= zlen ds -> u32 (len - 8 * i) <> 0).
  { intros i _ Z0. apply N. unfold u32 in Z0. apply Z.mod_divide in Z0; [|lia]. destruct Z0 as (k & Z0). replace len with ((i + k * 536870912) * 8) by lia. apply Z.mod_mul. lia. }
  rewrite (mrun_body _ _ _ _ _ FD B NZ) in R', EN.
  exists sp'. destruct R' as (C' & _ & _ & P'). cbn [fst m_ph m_cons] in *. split; [exact L'|]. split; [exact C'|]. split; [exact EN|apply P'].
Qed.

(** C27 *)
Definition waits (sp : SP) (d : Data) : Prop := (sp_state sp = SS_FIRST /\ dlc d <> 6 /\ dlc d <> 7) \/ (sp_state sp = SS_DATA /\ dlc d <> 8).
Lemma bad_frame : forall lw p d ds w sp w' t, lib_at w p sp -> usable sp -> waits sp d ->
  run lw (map (ParserAddMessage p) (d :: ds)) w = Ok (w', t) ->
  lib_at w' p (mkSP SS_IDLE 0 tp_new crc_reset None) /\ ends t = abort_note (sp_cons sp).
Proof.
  intros lw p d ds w sp w' t L (a & F & T) W H. cbn [map run] in H. apply seq_inv in H. destruct H as (w1 & t1 & t2 & H1 & H2 & ->). cbn [step] in H1.
  apply (add_inv _ _ _ sp) in H1; [|exact L]. destruct H1 as (sp1 & e & A & P1 & S1 & E1).
  assert (Q : sp1 = mkSP SS_IDLE 0 tp_new crc_reset None /\ e = abort_note (sp_cons sp)).
  { unfold waits in W. destruct A; unfold in_progress in *; try (destruct W as [(W & ? & ?)|(W & ?)]; rewrite ?W in *; first [discriminate|congruence|lia|intuition congruence]).
    rewrite T, (reset_spec _ _ F) in H0. injection H0 as <-. auto. }
  destruct Q as (-> & ->). assert (L1 : lib_at w1 p (mkSP SS_IDLE 0 tp_new crc_reset None)) by (unfold lib_at; rewrite P1; eapply lib_upd; exact L).
  rewrite ends_app, E1. clear - L1 H2. revert w1 t2 L1 H2. induction ds as [|x ds IH]; intros w1 t2 L1 H2; cbn [map run] in H2.
  - inversion H2; subst. cbn. rewrite app_nil_r. auto.
  - apply seq_inv in H2. destruct H2 as (w2 & t3 & t4 & H3 & H4 & ->). cbn [step] in H3. unfold lib_addMessage in H3. rewrite (ask_ok _ _ _ _ _ (lib_get _ _ _ L1)) in H3.
    cbn [sp_state] in H3. inversion H3; subst. destruct (IH _ _ L1 H4) as (A & B). split; [exact A|]. exact B.
Qed.

(** ** User consumers: the exact calls *)
Lemma calls_app : forall a c, calls (a ++ c) = calls a ++ calls c. Proof. intros. apply filter_app. Qed.
Lemma seq_ok : forall (a c : act) w w1 t1, a w = Ok (w1, t1) -> (a ;;; c) w = match c w1 with Ok (w2, t2) => Ok (w2, t1 ++ t2) | UB u => UB u end.
Proof. intros a c w w1 t1 H. unfold World.seq. rewrite H. cbn [bind]. destruct (c w1) as [[w2 t2]|]; reflexivity. Qed.
Lemma consume_user : forall lw c s k v w, user_consumer w c -> cons_consume lw c s k v w = Ok (w, [EvConsume c s k v]).
Proof. intros lw c s k v w H. unfold user_consumer in H. unfold cons_consume, World.seq, emit, ask, get_cons, at_. cbn [bind]. rewrite H. reflexivity. Qed.
Lemma consume_all_user : forall lw c l w, user_consumer w c ->
  cons_consume_all lw c (map as_buffers l) w = Ok (w, consumed c l).
Proof.
  intros lw c l w H. induction l as [|r l IH]; [reflexivity|]. unfold consumed in *. cbn [map]. destruct (as_buffers r) as ((s, k), v). cbn [cons_consume_all].
  rewrite (seq_ok _ _ _ _ _ (consume_user lw c s k v w H)), IH. reflexivity.
Qed.
Lemma complete_user : forall c w, user_consumer w c -> cons_complete c w = Ok (w, [EvStreamComplete c]).
Proof. intros c w H. unfold user_consumer in H. unfold cons_complete, World.seq, emit, ask, get_cons, at_. cbn [bind]. rewrite H. reflexivity. Qed.
Lemma aborted_user : forall c w, user_consumer w c -> cons_aborted c w = Ok (w, [EvStreamAborted c]).
Proof. intros c w H. unfold user_consumer in H. unfold cons_aborted, World.seq, emit, ask, get_cons, at_. cbn [bind]. rewrite H. reflexivity. Qed.
Definition heard_by (q : option nat) (l : list report) : list event := match q with Some c => consumed c l | None => [] end.
Definition mine (w : world) (q : option nat) : Prop := forall c, q = Some c -> user_consumer w c.
Lemma when_complete_user : forall q w, mine w q -> when_some q cons_complete w = Ok (w, done_note q).
Proof. intros [c|] w H; [apply complete_user; apply H; reflexivity|reflexivity]. Qed.
Lemma when_aborted_user : forall q w, mine w q -> when_some q cons_aborted w = Ok (w, abort_note q).
Proof. intros [c|] w H; [apply aborted_user; apply H; reflexivity|reflexivity]. Qed.
Lemma when_consume_user : forall lw q l w, mine w q ->
  when_some q (fun c => cons_consume_all lw c (told q l)) w = Ok (w, heard_by q l).
Proof. intros lw [c|] l w H; [apply consume_all_user; apply H; reflexivity|reflexivity]. Qed.
Lemma reset_user : forall w p sp a, lib_at w p sp -> fits a -> sp_text sp = parser a (sp_cons sp) -> mine w (sp_cons sp) ->
  lib_reset p w = Ok (with_parser w p (LibP (mkSP SS_IDLE 0 tp_new crc_reset None)), if in_progress sp then abort_note (sp_cons sp) else []).
Proof.
  intros w p sp a L F T M. unfold lib_reset. rewrite (ask_ok _ _ _ _ _ (lib_get _ _ _ L)).
  assert (Q : (if ss_processing (sp_state sp) then when_some (sp_cons sp) cons_aborted else skip) w = Ok (w, if in_progress sp then abort_note (sp_cons sp) else [])).
  { unfold in_progress. destruct (sp_state sp); cbn [ss_processing]; first [apply when_aborted_user; exact M|reflexivity]. }
  rewrite (seq_ok _ _ _ _ _ Q). rewrite (ask_ok _ _ _ _ _ (lib_get _ _ _ L)). unfold ask. rewrite T, (reset_spec _ _ F). cbn [bind put_lib put_parser]. rewrite app_nil_r. reflexivity.
Qed.
Lemma mine_with : forall w p x q, mine w q -> mine (with_parser w p x) q. Proof. intros w p x q H. exact H. Qed.
Lemma with_parser_twice : forall w p x y, with_parser (with_parser w p x) p y = with_parser w p y.
Proof. intros. unfold with_parser. cbn. rewrite upd_upd. reflexivity. Qed.
Lemma calls_note : forall q, calls (abort_note q) = abort_note q /\ calls (done_note q) = done_note q. Proof. intros [c|]; split; reflexivity. Qed.
Lemma calls_heard : forall q l, calls (heard_by q l) = heard_by q l.
Proof.
  intros [c|] l; [|reflexivity]. cbn [heard_by]. unfold consumed, calls. induction l as [|r l IH]; [reflexivity|]. cbn [map filter]. rewrite IH. destruct (as_buffers r) as ((s, k), v). reflexivity.
Qed.
Lemma add_user : forall lw w p sp m d, lib_at w p sp -> R m sp -> payload_ok d -> mine w (m_cons m) ->
  exists sp' t, lib_addMessage lw p d w = Ok (with_parser w p (LibP sp'), t) /\ R (fst (mstep m d)) sp' /\
    calls t = heard_by (m_cons m) (mreports m d) ++ snd (mstep m d).
Proof.
  intros lw w p sp m d L RM P M. destruct RM as (RC & RT & RF & RP).
  assert (SAME : with_parser w p (LibP sp) = w) by (unfold with_parser; rewrite (upd_same_id _ _ _ _ L); destruct w; reflexivity).
  assert (RST : fits (m_auto m)) by exact RF. assert (TXT : sp_text sp = parser (m_auto m) (sp_cons sp)) by congruence. assert (MC : mine w (sp_cons sp)) by (rewrite RC; exact M).
  pose proof (reset_user _ _ _ _ L RST TXT MC) as RES.
  assert (QR : R (mkM Idle astart None) (mkSP SS_IDLE 0 tp_new crc_reset None)).
  { unfold R. cbn [m_cons m_auto m_ph sp_cons sp_text sp_state]. rewrite start_parser. repeat split; apply start_fits. }
  unfold lib_addMessage. rewrite (ask_ok _ _ _ _ _ (lib_get _ _ _ L)). unfold mstep, mreports. destruct (m_ph m) eqn:PH.
  - rewrite RP. exists sp. eexists. split; [rewrite SAME; reflexivity|]. split; [unfold R; cbn [fst]; rewrite PH; auto|]. destruct (m_cons m); reflexivity.
  - destruct RP as (RP & RK). rewrite RP. destruct ((dlc d =? 6) || (dlc d =? 7)) eqn:D.
    + cbv zeta. cbn [sp_remaining sp_text sp_crc sp_cons]. destruct (header_length d >? 0) eqn:HL.
      * eexists. eexists. split; [reflexivity|]. split; [unfold R; cbn; rewrite RK; auto 10|]. destruct (m_cons m); reflexivity.
      * rewrite put_lib_seq, when_complete_user by exact MC. eexists. eexists. split; [reflexivity|]. split; [unfold R; cbn; auto 10|]. rewrite RC. cbn [snd]. rewrite (proj2 (calls_note _)). destruct (m_cons m); reflexivity.
    + unfold in_progress in RES. rewrite RP in RES.
      assert (G : forall x, exists t, (print x ;;; lib_reset p) w = Ok (with_parser w p (LibP (mkSP SS_IDLE 0 tp_new crc_reset None)), t) /\ calls t = abort_note (m_cons m)).
      { intros x. rewrite (seq_ok _ _ _ w [EvPrint x] eq_refl), RES. eexists. split; [reflexivity|]. rewrite calls_app, (proj1 (calls_note _)), RC. reflexivity. }
      eexists. destruct (dlc d >=? 8).
      * destruct (G (zs "Oversized first packet! Aborting parse." ++ nl)) as (t & G1 & G2). eexists. split; [exact G1|]. split; [exact QR|]. rewrite G2. destruct (m_cons m); reflexivity.
      * destruct (G (zs "Undersized first packet! Aborting parse." ++ nl)) as (t & G1 & G2). eexists. split; [exact G1|]. split; [exact QR|]. rewrite G2. destruct (m_cons m); reflexivity.
  - destruct RP as (RP & RR & RK). rewrite RP. destruct (Z.eqb_spec (dlc d) 8) as [D|D]; cbn [negb].
    + cbv zeta. unfold ask at 1. rewrite (visited_data _ P D), RK. cbn [bind]. rewrite crc_feed_eq. cbn [bind].
      unfold ask at 1. rewrite RT, (addText_spec _ _ _ _ RF (holds_data _ P D)). cbn [bind fst snd]. rewrite put_lib_seq.
      change (tp_cons (parser (m_auto m) (m_cons m))) with (m_cons m).
      match goal with |- context [(_ ;;; _) ?w1] => rewrite (seq_ok _ _ w1 _ _ (when_consume_user lw (m_cons m) (snd (aadd (m_auto m) (content d))) w1 M)) end.
      rewrite D, RR, RC. rewrite <- crc_of_app. destruct (u32 (rest - 8) =? 0) eqn:Z0.
      * unfold ask. cbn [crc_isValid mread crc_acc crc_ref bind]. unfold verdict. destruct (crc_of 0xFFFF (got ++ content d) =? expected); rewrite put_lib_seq, with_parser_twice.
        -- rewrite when_complete_user by exact M. eexists. eexists. split; [reflexivity|]. split; [unfold R; cbn [m_cons m_auto m_ph sp_cons sp_text sp_state fst]; repeat split; apply aadd_fits; exact RF|].
           rewrite calls_app, calls_heard. cbn [snd]. rewrite (proj2 (calls_note _)). reflexivity.
        -- rewrite when_aborted_user by exact M. eexists. eexists. split; [reflexivity|]. split; [unfold R; cbn [m_cons m_auto m_ph sp_cons sp_text sp_state fst]; repeat split; apply aadd_fits; exact RF|].
           rewrite calls_app, calls_heard. cbn [snd]. rewrite (proj1 (calls_note _)). reflexivity.
      * eexists. eexists. split; [reflexivity|]. split; [unfold R; cbn [m_cons m_auto m_ph sp_cons sp_text sp_state sp_remaining sp_crc fst]; repeat split; apply aadd_fits; exact RF|].
        cbn [snd]. rewrite !app_nil_r. apply calls_heard.
    + unfold in_progress in RES. rewrite RP in RES. rewrite (seq_ok _ _ _ w [EvPrint _] eq_refl), RES.
      eexists. eexists. split; [reflexivity|]. split; [exact QR|]. rewrite calls_app, (proj1 (calls_note _)), RC. destruct (m_cons m); reflexivity.
  - rewrite RP. exists sp. eexists. split; [rewrite SAME; reflexivity|]. split; [unfold R; cbn [fst]; rewrite PH; auto|]. destruct (m_cons m); reflexivity.
Qed.
Fixpoint mtrace (m : mach) (ds : list Data) : list event :=
  match ds with [] => [] | d :: r => heard_by (m_cons m) (mreports m d) ++ snd (mstep m d) ++ mtrace (fst (mstep m d)) r end.
Lemma mstep_cons : forall m d, m_cons (fst (mstep m d)) = m_cons m \/ m_cons (fst (mstep m d)) = None.
Proof.
  intros m d. unfold mstep. destruct (m_ph m); auto.
  - destruct (_ || _); auto. destruct (_ >? _); auto.
  - destruct (_ =? _); auto. destruct (_ =? _); auto. destruct (verdict _ _); auto.
Qed.
Lemma run_user : forall lw p ds m sp w, lib_at w p sp -> R m sp -> Forall payload_ok ds -> mine w (m_cons m) ->
  exists sp' t, run lw (map (ParserAddMessage p) ds) w = Ok (with_parser w p (LibP sp'), t) /\ R (fst (mrun m ds)) sp' /\ calls t = mtrace m ds.
Proof.
  induction ds as [|d ds IH]; intros m sp w L RM F M; cbn [map run mrun mtrace fst].
  - exists sp, []. split; [|split; [exact RM|reflexivity]]. unfold with_parser. rewrite (upd_same_id _ _ _ _ L). destruct w; reflexivity.
  - inversion F; subst. destruct (add_user lw w p sp m d L RM H1 M) as (sp1 & t1 & E1 & R1 & C1).
    assert (M1 : mine (with_parser w p (LibP sp1)) (m_cons (fst (mstep m d)))) by (destruct (mstep_cons m d) as [->| ->]; [exact M|intros c; discriminate]).
    destruct (IH _ _ _ (lib_with _ _ _ sp1 L) R1 H2 M1) as (sp2 & t2 & E2 & R2 & C2). exists sp2, (t1 ++ t2).
    split; [cbn [step]; rewrite (seq_ok _ _ _ _ _ E1), E2, with_parser_twice; reflexivity|]. split; [exact R2|]. rewrite calls_app, C1, C2, app_assoc. reflexivity.
Qed.
Lemma mtrace_off : forall ds m, m_ph m = Idle \/ m_ph m = Finished -> mtrace m ds = [].
Proof.
  induction ds as [|d ds IH]; intros m H; [reflexivity|]. cbn [mtrace]. unfold mreports, mstep. destruct H as [H|H]; rewrite H; cbn [fst snd app]; rewrite IH by auto; destruct (m_cons m); reflexivity.
Qed.
Lemma mtrace_app : forall xs ys m, mtrace m (xs ++ ys) = mtrace m xs ++ mtrace (fst (mrun m xs)) ys.
Proof. induction xs as [|x xs IH]; intros ys m; cbn [app mtrace mrun fst]; [reflexivity|]. rewrite IH, !app_assoc. reflexivity. Qed.
Lemma consumed_app : forall c x y, consumed c (x ++ y) = consumed c x ++ consumed c y. Proof. intros. apply map_app. Qed.
Lemma mtrace_body : forall ds rest expected got a c, Forall data_frame ds ->
  (forall i, 0 < i < zlen ds -> u32 (rest - 8 * i) <> 0) -> is_u32 rest ->
  mtrace (mkM (Body rest expected got) a (Some c)) ds = consumed c (lines_of a ds) ++ snd (mrun (mkM (Body rest expected got) a (Some c)) ds).
Proof.
  induction ds as [|d ds IH]; intros rest expected got a c F N U; [reflexivity|]. inversion_clear F as [|? ? (P & D) F1].
  cbn [mtrace mrun snd]. unfold mreports, mstep. cbn [m_ph m_auto m_cons heard_by]. rewrite D, Z.eqb_refl.
  unfold lines_of. cbn [map aadds]. fold (auto_after (fst (aadd a (content d))) ds).
  destruct (aadd a (content d)) as (a1, e1) eqn:A. cbn [fst snd]. destruct (aadds a1 (map content ds)) as (a2, e2) eqn:A2. cbn [snd]. rewrite consumed_app.
  assert (E2 : e2 = lines_of a1 ds) by (unfold lines_of; rewrite A2; reflexivity). rewrite <- app_assoc. f_equal.
  destruct (u32 (rest - 8) =? 0) eqn:Z0.
  - destruct ds as [|d2 ds]; [|exfalso; specialize (N 1); unfold zlen in N; cbn [List.length] in N; rewrite Z.mul_1_r in N; lia].
    cbn in A2. injection A2 as <- <-. cbn [consumed map app mtrace mrun fst snd]. destruct (verdict _ _); reflexivity.
  - cbn [fst snd app]. rewrite IH.
    + rewrite E2. reflexivity.
    + exact F1.
    + intros i Hi. specialize (N (i + 1)). unfold zlen in *. cbn [List.length] in N. unfold u32 in *. rewrite Zminus_mod_idemp_l. replace (rest - 8 - 8 * i) with (rest - 8 * (i + 1)) by lia. apply N. lia.
    + unfold is_u32, u32. apply Z.mod_pos_bound. lia.
Qed.
Lemma download_user : forall lw p c hd ds n crc w sp a, lib_at w p sp -> fits a -> sp_text sp = parser a (sp_cons sp) -> user_consumer w c ->
  header_for hd (8 * n) crc -> 0 < n -> 8 * n < 4294967296 -> Forall data_frame ds -> zlen ds = n ->
  exists sp' t, run lw (download p c hd ds) w = Ok (with_parser w p (LibP sp'), t) /\
    calls t = consumed c (lines_of a ds) ++ [ending (received ds) crc c].
Proof.
  intros lw p c hd ds n crc w sp a L F T UC H N1 N2 FD ZL.
  set (sp1 := sp_startStream (sp_setConsumer sp (Some c))).
  assert (R1 : R (mkM Header a (Some c)) sp1).
  { unfold R, sp1, sp_startStream, sp_setConsumer. cbn [sp_cons sp_text sp_state sp_crc m_cons m_auto m_ph]. rewrite T. repeat split; apply F. }
  assert (PO : Forall payload_ok (hd :: ds)) by (constructor; [apply H|apply frames_payload; assumption]).
  destruct (run_user lw p (hd :: ds) _ _ (with_parser w p (LibP sp1)) (lib_with _ _ _ sp1 L) R1 PO) as (sp2 & t2 & E2 & R2 & C2).
  { intros c' Hc. cbn in Hc. injection Hc as <-. exact UC. }
  exists sp2, t2. split.
  - unfold download. cbn [run step]. unfold World.seq at 1. rewrite (ask_ok _ _ _ _ _ (lib_get _ _ _ L)). cbn [put_lib put_parser bind].
    match goal with |- context [World.seq _ _ ?w1] => change w1 with (with_parser w p (LibP (sp_setConsumer sp (Some c)))) end.
    unfold World.seq at 1. rewrite (ask_ok _ _ _ _ _ (lib_get _ _ _ (lib_with _ _ _ (sp_setConsumer sp (Some c)) L))). cbn [put_lib put_parser bind].
    match goal with |- context [run lw _ ?w1] => change w1 with (with_parser (with_parser w p (LibP (sp_setConsumer sp (Some c)))) p (LibP sp1)) end.
    rewrite with_parser_twice, E2. cbn [bind app]. rewrite with_parser_twice. reflexivity.
  - rewrite C2. cbn [mtrace mrun]. rewrite (mrun_header _ _ _ _ _ H) by lia. cbn [fst snd app heard_by m_cons]. unfold mreports. cbn [m_ph consumed map app].
    rewrite mtrace_body.
    + rewrite (mrun_exact _ _ _ _ _ FD N1 N2 ZL). reflexivity.
    + exact FD.
    + intros i Hi. unfold u32. rewrite Z.mod_small by lia. lia.
    + unfold is_u32. lia.
Qed.

(** ** Every reachable parser is usable *)
Lemma R_usable : forall m sp, R m sp -> usable sp.
Proof. intros m sp (A & B & C & _). exists (m_auto m). rewrite A. auto. Qed.
Lemma added_usable : forall sp d sp' e, usable sp -> payload_ok d -> added sp d sp' e -> usable sp'.
Proof.
  intros sp d sp' e (a & F & T) P A. destruct A.
  - exists a. auto.
  - exists a. auto.
  - exists a. auto.
  - rewrite T, (reset_spec _ _ F) in H0. injection H0 as <-. exists astart. split; [apply start_fits|reflexivity].
  - rewrite T, (addText_spec _ _ _ _ F (holds_data _ P H0)) in H3. injection H3 as <-. eexists. split; [apply aadd_fits; exact F|reflexivity].
  - rewrite T, (addText_spec _ _ _ _ F (holds_data _ P H0)) in H3. injection H3 as <-. eexists. split; [apply aadd_fits; exact F|reflexivity].
Qed.
Definition keeps (a : act) : Prop := forall w w' t, all_usable w -> a w = Ok (w', t) -> all_usable w'.
Lemma k_quiet : forall a, quiet a -> keeps a.
Proof. intros a Q w w' t A H p sp L. apply (A p). unfold lib_at in *. rewrite <- (proj1 (Q _ _ _ H)). exact L. Qed.
Lemma k_seq : forall a c, keeps a -> keeps c -> keeps (a ;;; c).
Proof. intros a c A C w w' t U H. apply seq_inv in H. destruct H as (w1 & t1 & t2 & H1 & H2 & _). eauto. Qed.
Lemma k_ask : forall A (f : world -> res A) k, (forall x, keeps (k x)) -> keeps (ask f k).
Proof. intros A f k K w w' t U H. apply ask_inv in H. destruct H as (x & _ & H). exact (K x _ _ _ U H). Qed.
Lemma k_when : forall A (o : option A) k, (forall x, keeps (k x)) -> keeps (when_some o k).
Proof. intros A [x|] k K; [apply K|apply k_quiet, q_skip]. Qed.
Lemma k_put_station : forall s x, keeps (put_station s x).
Proof. intros s x w w' t U H. inversion H; subst. exact U. Qed.
Lemma all_usable_upd : forall w w' p x, all_usable w -> (forall sp, x = LibP sp -> usable sp) -> w_parsers w' = upd p x (w_parsers w) -> all_usable w'.
Proof.
  intros w w' p x U X E q sp L. unfold lib_at in L. rewrite E in L. destruct (Nat.eq_dec p q) as [->|N].
  - destruct (nth_error (w_parsers w) q) eqn:Q.
    + rewrite (nth_error_upd_same _ _ _ _ _ Q) in L. injection L as ->. apply X. reflexivity.
    + apply nth_error_None in Q. assert (Q2 : nth_error (upd q x (w_parsers w)) q = None) by (apply nth_error_None; rewrite upd_length; exact Q). congruence.
  - rewrite nth_error_upd_other in L by assumption. exact (U _ _ L).
Qed.
Lemma k_lib : forall p (k : SP -> act), (forall sp w w' t, lib_at w p sp -> usable sp -> all_usable w -> k sp w = Ok (w', t) -> all_usable w') -> keeps (ask (get_lib p) k).
Proof. intros p k K w w' t U H. apply ask_inv in H. destruct H as (sp & G & H). apply lib_inv in G. exact (K _ _ _ _ G (U _ _ G) U H). Qed.
Lemma k_reset : forall p, keeps (lib_reset p).
Proof.
  intros p w w' t U H. assert (G : exists sp, lib_at w p sp).
  { unfold lib_reset in H. apply ask_inv in H. destruct H as (sp & G & _). exists sp. apply lib_inv. exact G. }
  destruct G as (sp & L). apply (reset_inv _ _ sp) in H; [|exact L]. destruct H as (tx & T & P & _). destruct (U _ _ L) as (a & F & TX). rewrite TX, (reset_spec _ _ F) in T. injection T as <-.
  eapply all_usable_upd; [exact U| |exact P]. intros sp' E. injection E as <-. exists astart. split; [apply start_fits|reflexivity].
Qed.
Lemma k_add : forall lw p d, payload_ok d -> keeps (lib_addMessage lw p d).
Proof.
  intros lw p d PO w w' t U H. assert (G : exists sp, lib_at w p sp).
  { unfold lib_addMessage in H. apply ask_inv in H. destruct H as (sp & G & _). exists sp. apply lib_inv. exact G. }
  destruct G as (sp & L). apply (add_inv _ _ _ sp) in H; [|exact L]. destruct H as (sp' & e & A & P & _).
  eapply all_usable_upd; [exact U| |exact P]. intros x E. injection E as <-. eapply added_usable; eauto.
Qed.
Lemma k_cfg_call : forall lw p c, match c with CAdd d => payload_ok d | _ => True end -> keeps (cfg_call lw p c).
Proof.
  intros lw p c PO. unfold cfg_call. apply k_seq; [apply k_quiet, q_emit; reflexivity|]. intros w w' t U H. apply ask_inv in H. destruct H as (o & G & H).
  unfold get_parser, at_ in G. destruct (nth_error (w_parsers w) p) as [o'|] eqn:N; [|discriminate]. injection G as ->. destruct o as [sp|beh h].
  - destruct c as [|d|].
    + inversion H; subst. eapply all_usable_upd; [exact U| |reflexivity]. intros x E. injection E as <-. destruct (U _ _ N) as (a & F & T). exists a. auto.
    + eapply k_add; eauto.
    + eapply k_reset; eauto.
  - inversion H; subst. eapply all_usable_upd; [exact U| |reflexivity]. intros x E. discriminate.
Qed.
Ltac k := repeat first [apply k_put_station|solve [apply k_quiet; q]|apply k_cfg_call; exact I|apply k_seq|apply k_when; intro|apply k_ask; intro
  |match goal with |- keeps (match ?x with _ => _ end) => destruct x end].
Lemma k_finish : forall lw s, keeps (st_finish lw s). Proof. intros. unfold st_finish. k. Qed.
Lemma q_send_functions : forall st u n i, quiet (send_functions st u i n).
Proof. intros st u. induction n as [|n IH]; intros i; cbn [send_functions]; [apply q_skip|]. apply q_seq; [unfold tx_send; q|apply IH]. Qed.
Lemma k_config : forall lw s d, payload_ok d -> keeps (st_handleConfigDataStream lw s d).
Proof.
  intros lw s d P. unfold st_handleConfigDataStream. apply k_ask. intro st. apply k_ask. intros [p|]; [apply k_cfg_call; exact P|apply k_quiet; q].
Qed.
Lemma k_step : forall lw o, frames_ok o -> keeps (step lw o).
Proof.
  intros lw o F. destruct o as [s o|p|p c|p d|p|c cb|c e|c off|c|c|c|e o]; cbn [step].
  - destruct o; cbn [st_step].
    + unfold st_begin, st_abort. apply k_seq; [apply k_finish|]. k.
    + k.
    + unfold st_handlePacket. cbv zeta. cbn [frames_ok] in F.
      repeat match goal with |- keeps (if _ then _ else _) => destruct (_ =? _); [first [apply k_config; exact F|solve [apply k_quiet; unfold st_handleSystemCommand, st_handleAccessoryPacket, st_handleLocoDirection, st_handleLocoSpeed, st_handleLocoFunction; cbv zeta; q]]|] end.
      apply k_quiet; q.
    + apply k_quiet. unfold st_handleAccessoryPacket. q.
    + apply k_config. exact F.
    + apply k_quiet. unfold st_handleSystemCommand. cbv zeta. q.
    + apply k_quiet. unfold st_handleLocoDirection. cbv zeta. q.
    + apply k_quiet. unfold st_handleLocoSpeed. cbv zeta. q.
    + apply k_quiet. unfold st_handleLocoFunction. cbv zeta. q.
    + apply k_quiet. unfold st_sendAccessoryPacket, tx_send. cbv zeta. q.
    + apply k_finish.
    + apply k_finish.
    + apply k_finish.
    + unfold st_requestEngine, st_abort, tx_send. repeat first [apply k_finish|solve [apply k_quiet; q]|progress k].
    + unfold st_requestEngineList, st_abort, tx_send. repeat first [apply k_finish|solve [apply k_quiet; q]|progress k|progress cbv zeta].
    + apply k_quiet. unfold st_requestEngineDirection, tx_send. q.
    + apply k_quiet. unfold st_sendEngineDirection, st_sendPacket, tx_send. q.
    + apply k_quiet. unfold st_requestEngineVelocity, tx_send. q.
    + apply k_quiet. unfold st_sendEngineVelocity, st_sendPacket, tx_send. q.
    + apply k_quiet. unfold st_requestEngineFunction, tx_send. q.
    + apply k_quiet. unfold st_requestEngineAllFunctions. apply q_ask. intro. apply q_send_functions.
    + apply k_quiet. unfold st_sendEngineFunction, st_sendPacket, tx_send. q.
    + apply k_quiet. unfold st_sendEmergencyStop, tx_send. q.
    + apply k_quiet. unfold st_sendSystemStop, tx_send. q.
    + apply k_quiet. unfold st_sendSystemGo, tx_send. q.
    + apply k_quiet. unfold st_sendPacket, tx_send. q.
  - apply k_lib. intros sp w w' t L (a & F1 & T) U H. inversion H; subst. eapply all_usable_upd; [exact U| |reflexivity]. intros x E. injection E as <-. exists a. auto.
  - apply k_lib. intros sp w w' t L (a & F1 & T) U H. inversion H; subst. eapply all_usable_upd; [exact U| |reflexivity]. intros x E. injection E as <-. exists a. cbn. rewrite T. auto.
  - apply k_add. exact F.
  - apply k_reset.
  - apply k_quiet; q.
  - apply k_quiet; q.
  - apply k_quiet; q.
  - apply k_quiet; q.
  - apply k_quiet; q.
  - apply k_quiet; q.
  - apply k_quiet; q.
Qed.
Lemma always_usable : forall lw ops w w' t, all_usable w -> Forall frames_ok ops -> run lw ops w = Ok (w', t) -> all_usable w'.
Proof.
  induction ops as [|o ops IH]; intros w w' t U F H; cbn [run] in H; [inversion H; subst; exact U|].
  apply seq_inv in H. destruct H as (w1 & t1 & t2 & H1 & H2 & _). inversion F; subst. eapply IH; [|eassumption|exact H2]. eapply k_step; eauto.
Qed.

(** ** C33 *)
Lemma content_bytes : forall d, payload_ok d -> Forall byte (content d).
Proof. intros d (_ & _ & H). unfold content. apply Forall_firstn. exact H. Qed.
Lemma received_bytes : forall ds, Forall data_frame ds -> Forall byte (received ds).
Proof. intros ds H. induction H as [|d ds (P & _) H IH]; [constructor|]. cbn. apply Forall_app. split; [apply content_bytes; exact P|exact IH]. Qed.
Lemma corrupted_checksum : forall good bad r, Forall byte good -> Forall byte bad -> corrupted good bad -> checksum_is good r -> ~ checksum_is bad r.
Proof.
  intros good bad r G B (L & [(e & k & K & E & D)|O]) H H'.
  - exact (burst _ _ _ _ _ _ G B L H H' K E D eq_refl).
  - exact (odd_errors _ _ _ _ G B L H H' O eq_refl).
Qed.
Lemma received_len : forall ds, Forall data_frame ds -> zlen (received ds) = 8 * zlen ds.
Proof.
  intros ds H. unfold zlen. induction H as [|d ds (P & D) H IH]; [reflexivity|]. cbn [received flat_map List.length]. rewrite app_length.
  fold (received ds). unfold content. rewrite firstn_length. destruct P as (_ & -> & _). lia.
Qed.

(** ** C54 *)
Lemma header_built : forall len crc, is_u32 len -> is_u16 crc ->
  header_for (fdata (fr_Config_Data_Header len crc)) len crc /\ id_getCommand (fid (fr_Config_Data_Header len crc)) = CMD_CONFIG_DATA.
Proof.
  intros len crc L C. unfold is_u32, is_u16 in *. split; [|reflexivity]. unfold header_for, fr_Config_Data_Header, fdata.
  unfold dset, set_dlc, data0, b, be. cbn [dlc dbytes upd repeat nth]. 
  rewrite !Z.shiftr_div_pow2 by lia. replace (Z.land crc 0xFF) with (crc mod 256) by (symmetry; apply (Z.land_ones crc 8); lia).
  change (2 ^ 24) with 16777216. change (2 ^ 16) with 65536. change (2 ^ 8) with 256. unfold u8.
  split; [|split; [left; reflexivity|split; lia]].
  unfold payload_ok. cbn [dlc dbytes]. split; [unfold byte; lia|]. split; [reflexivity|]. repeat constructor; unfold byte; lia.
Qed.
Lemma data_built : forall bs, (8 <= List.length bs)%nat -> Forall byte bs ->
  exists f, fr_Config_Data bs = Ok f /\ data_frame (fdata f) /\ content (fdata f) = firstn 8 bs /\ id_getCommand (fid f) = CMD_CONFIG_DATA.
Proof.
  intros bs L B. do 8 (destruct bs as [|? bs]; [cbn in L; lia|]). cbn [firstn].
  eexists. split.
  - unfold fr_Config_Data, CanDataMaxLength. rewrite rd_blk_ok by (unfold zlen; cbn [List.length]; lia). cbn [bind]. change (Z.to_nat 0) with 0%nat. change (Z.to_nat 8) with 8%nat. cbn [skipn firstn].
    reflexivity.
  - repeat match goal with F : Forall byte (_ :: _) |- _ => inversion F; clear F; subst end.
    split; [|split; reflexivity]. unfold data_frame, payload_ok. cbn [fdata dlc dbytes]. split; [|reflexivity]. split; [unfold byte; lia|]. split; [reflexivity|].
    repeat (apply Forall_cons; [first [assumption|unfold byte; lia]|]). apply Forall_nil.
Qed.
Lemma data_short : forall bs, (List.length bs < 8)%nat -> fr_Config_Data bs = UB OutOfBounds.
Proof.
  intros bs L. unfold fr_Config_Data, rd_blk, CanDataMaxLength, zlen. 
  do 8 (destruct bs as [|? bs]; [reflexivity|]). cbn in L. lia.
Qed.
Lemma pieces_concat : forall n bs, List.length bs = (8 * n)%nat -> List.concat (pieces n bs) = bs.
Proof.
  induction n as [|n IH]; intros bs L; [destruct bs; [reflexivity|cbn in L; lia]|]. cbn [pieces List.concat].
  rewrite IH by (rewrite skipn_length; lia). apply firstn_skipn.
Qed.
Lemma pieces_count : forall n bs, List.length (pieces n bs) = n. Proof. induction n; intros; cbn; auto. Qed.
Lemma build_pieces : forall n bs, List.length bs = (8 * n)%nat -> Forall byte bs ->
  exists fs, build (pieces n bs) = Ok fs /\ map (fun f => content (fdata f)) fs = pieces n bs /\ Forall data_frame (map fdata fs) /\
    Forall (fun f => id_getCommand (fid f) = CMD_CONFIG_DATA) fs.
Proof.
  induction n as [|n IH]; intros bs L B.
  - exists []. cbn. auto.
  - cbn [pieces build]. destruct (data_built (firstn 8 bs)) as (f & E & D & C & I).
    { rewrite firstn_length. lia. }
    { apply Forall_firstn. exact B. }
    destruct (IH (skipn 8 bs)) as (fs & E2 & C2 & D2 & I2).
    { rewrite skipn_length. lia. }
    { rewrite <- (firstn_skipn 8 bs) in B. apply Forall_app in B. apply B. }
    exists (f :: fs). rewrite E. cbn [bind]. rewrite E2. cbn [bind map]. rewrite C, C2, firstn_firstn. split; [reflexivity|]. split; [reflexivity|]. split; constructor; assumption.
Qed.
Lemma built_download : forall lw p c w sp a n bs crc, lib_at w p sp -> fits a -> sp_text sp = parser a (sp_cons sp) -> user_consumer w c ->
  0 < n -> 8 * n < 4294967296 -> zlen bs = 8 * n -> Forall byte bs -> checksum_is bs crc ->
  exists fs sp' t, build (pieces (Z.to_nat n) bs) = Ok fs /\
    run lw (download p c (fdata (fr_Config_Data_Header (8 * n) crc)) (map fdata fs)) w = Ok (with_parser w p (LibP sp'), t) /\
    calls t = consumed c (snd (aadds a (pieces (Z.to_nat n) bs))) ++ [EvStreamComplete c].
Proof.
  intros lw p c w sp a n bs crc L F T UC N1 N2 ZL B CK. destruct (build_pieces (Z.to_nat n) bs) as (fs & E & C & D & _); [unfold zlen in ZL; lia|exact B|].
  assert (K : is_u16 crc) by (destruct (checksum_total bs B) as (r & R1 & R2); apply checksum_fun in R1, CK; subst; exact R2).
  destruct (header_built (8 * n) crc) as (H & _); [unfold is_u32; lia|exact K|].
  assert (Q : zlen (map fdata fs) = n). { unfold zlen. rewrite map_length. pose proof (f_equal (@List.length _) C) as Q. rewrite map_length, pieces_count in Q. lia. }
  destruct (download_user lw p c _ _ n crc w sp a L F T UC H N1 N2 D Q) as (sp' & t & R1 & R2). exists fs, sp', t. split; [exact E|]. split; [exact R1|].
  assert (M : map content (map fdata fs) = pieces (Z.to_nat n) bs) by (rewrite map_map; exact C).
  rewrite R2. unfold lines_of, ending. rewrite M. replace (received (map fdata fs)) with bs.
  - replace (verdict bs crc) with true; [reflexivity|]. symmetry. apply verdict_true. exact CK.
  - unfold received. rewrite flat_map_concat_map, M, pieces_concat; [reflexivity|unfold zlen in ZL; lia].
Qed.

(** remaining statements of PropsStream.v *)
Lemma download_empty : forall lw p c hd ds crc w sp w' t, lib_at w p sp -> usable sp -> header_for hd 0 crc -> Forall payload_ok ds ->
  run lw (download p c hd ds) w = Ok (w', t) -> ends t = [EvStreamComplete c].
Proof.
  intros lw p c hd ds crc w sp w' t L (a & F & T) H FD E. destruct (download_start _ _ _ _ _ _ _ _ _ _ L F T E) as (sp1 & R1 & E1).
  assert (PO : Forall payload_ok (hd :: ds)) by (constructor; [apply H|assumption]).
  destruct (R_run _ _ _ _ _ _ _ _ (lib_with _ _ _ sp1 L) R1 PO E1) as (sp' & L' & R' & EN & _). rewrite EN. cbn [mrun snd]. unfold mstep at 1 2.
  destruct (header_decodes _ _ _ H) as (D1 & D2). destruct H as (_ & D & _). cbn [m_ph m_auto m_cons].
  replace ((dlc hd =? 6) || (dlc hd =? 7)) with true by (symmetry; rewrite orb_true_iff, !Z.eqb_eq; assumption). rewrite D1. cbn [fst snd Z.gtb Z.compare].
  rewrite mrun_off by (cbn; auto). reflexivity.
Qed.
Lemma ignored : forall lw p d w sp w' t, lib_at w p sp -> (sp_state sp = SS_IDLE \/ sp_state sp = SS_DONE) ->
  step lw (ParserAddMessage p d) w = Ok (w', t) -> w' = w /\ calls t = [].
Proof.
  intros lw p d w sp w' t L S0 H. cbn [step] in H. unfold lib_addMessage in H. rewrite (ask_ok _ _ _ _ _ (lib_get _ _ _ L)) in H.
  destruct S0 as [S0|S0]; rewrite S0 in H; inversion H; subst; auto.
Qed.
Lemma starts0 : forall ops, Forall (fun o => is_start o = false) ops -> starts ops = 0%nat.
Proof. intros ops H. unfold starts. induction H as [|o ops E H IH]; [reflexivity|]. cbn [filter]. rewrite E. exact IH. Qed.
Lemma one_end_per_start : forall lw p ops w sp w' t, lib_at w p sp -> Forall (on_parser p) ops -> Forall (fun o => is_start o = false) ops ->
  run lw (ParserStartStream p :: ops) w = Ok (w', t) -> (List.length (ends t) <= 1)%nat.
Proof.
  intros lw p ops w sp w' t L F S0 H. cbn [run] in H. apply seq_inv in H. destruct H as (w1 & t1 & t2 & H1 & H2 & ->). cbn [step] in H1.
  rewrite (ask_ok _ _ _ _ _ (lib_get _ _ _ L)) in H1. inversion H1; subst. 
  destruct (run_pot _ _ _ _ _ _ _ F (lib_with w p sp (sp_startStream sp) L) H2) as (sp' & _ & B). rewrite (starts0 _ S0) in B. cbn [app]. unfold pot in B at 2. cbn in B. lia.
Qed.
Lemma no_end_before_start : forall lw p ops w sp w' t, lib_at w p sp -> Forall (on_parser p) ops -> Forall (fun o => is_start o = false) ops ->
  in_progress sp = false -> run lw ops w = Ok (w', t) -> ends t = [].
Proof.
  intros lw p ops w sp w' t L F S0 I H. destruct (run_pot _ _ _ _ _ _ _ F L H) as (sp' & _ & B). rewrite (starts0 _ S0) in B. unfold pot in B at 2. rewrite I in B.
  destruct (ends t); [reflexivity|cbn in B; lia].
Qed.
Lemma ends_bounded : forall lw p ops w sp w' t, lib_at w p sp -> Forall (on_parser p) ops -> run lw ops w = Ok (w', t) ->
  (List.length (ends t) <= List.length (filter is_start ops) + (if in_progress sp then 1 else 0))%nat.
Proof. intros lw p ops w sp w' t L F H. destruct (run_pot _ _ _ _ _ _ _ F L H) as (sp' & _ & B). unfold pot in B at 2. unfold starts in B. lia. Qed.
Lemma zlen_firstn_all : forall (ds : list Data) n, zlen ds = n -> firstn (Z.to_nat n) ds = ds.
Proof. intros ds n <-. unfold zlen. rewrite Nat2Z.id. apply firstn_all. Qed.
Lemma corruption_reported : forall lw p c hd ds n crc w sp w' t lw2 p2 c2 ds2 w2 sp2 w2' t2,
  header_for hd (8 * n) crc -> 0 < n -> 8 * n < 4294967296 ->
  lib_at w p sp -> usable sp -> Forall data_frame ds -> zlen ds = n ->
  run lw (download p c hd ds) w = Ok (w', t) -> In (EvStreamComplete c) t ->
  lib_at w2 p2 sp2 -> usable sp2 -> Forall data_frame ds2 -> corrupted (received ds) (received ds2) ->
  run lw2 (download p2 c2 hd ds2) w2 = Ok (w2', t2) -> ends t2 = [EvStreamAborted c2].
Proof.
  intros lw p c hd ds n crc w sp w' t lw2 p2 c2 ds2 w2 sp2 w2' t2 H N1 N2 L U F ZL E I L2 U2 F2 C E2.
  assert (I2 : In (EvStreamComplete c) (ends t)) by (apply filter_In; split; [exact I|reflexivity]).
  assert (ZL2 : zlen ds2 = n). { destruct C as (C & _). rewrite !received_len in C by assumption. lia. }
  destruct (download_ends _ _ _ _ _ _ _ _ _ _ _ L U H N1 N2 F E) as (sp' & _ & _ & _ & _ & A & B). rewrite (zlen_firstn_all _ _ ZL) in A, B.
  assert (V : checksum_is (received ds) crc).
  { destruct (verdict (received ds) crc) eqn:V; [apply verdict_true; exact V|]. exfalso. destruct B as (B & _); [lia|rewrite <- verdict_true; congruence|].
    rewrite B in I2. destruct I2 as [I2|[]]. discriminate. }
  destruct (download_ends _ _ _ _ _ _ _ _ _ _ _ L2 U2 H N1 N2 F2 E2) as (sp3 & _ & _ & _ & _ & _ & B3). rewrite (zlen_firstn_all _ _ ZL2) in B3.
  apply B3; [lia|]. refine (corrupted_checksum (received ds) _ _ (received_bytes _ F) (received_bytes _ F2) C V).
Qed.
