(* ProofsWork.v -- lemmas for C95. *)
From Verif Require Import ZLib SpecWork ProofsWorld ProofsCrc ProofsText ProofsStation ProofsStream.

Definition budget : Type := (nat * nat * nat * nat)%type. (* calls, lines, ends, transmissions *)
Section LW.
Variable lw : Z.
Definition ends_ (e : event) : bool := is_end e.
Definition cost (c l e x : nat) (t : list event) : Prop :=
  (List.length (calls t) <= c)%nat /\ (count is_line t <= l)%nat /\ (count is_end t <= e)%nat /\ (count is_tx t <= x)%nat.
Definition within (c l e x : nat) (a : act) : Prop := forall w w' t, a w = Ok (w', t) -> cost c l e x t.
Definition withinu (c l e x : nat) (a : act) : Prop := forall w w' t, all_usable w -> a w = Ok (w', t) -> cost c l e x t.
Lemma cost_nil : cost 0 0 0 0 []. Proof. unfold cost, count, calls. cbn. lia. Qed.
Lemma cost_app : forall c1 l1 e1 x1 c2 l2 e2 x2 a b, cost c1 l1 e1 x1 a -> cost c2 l2 e2 x2 b -> cost (c1 + c2) (l1 + l2) (e1 + e2) (x1 + x2) (a ++ b).
Proof. intros. unfold cost, count, calls in *. rewrite !filter_app, !app_length. lia. Qed.
Lemma cost_mono : forall c1 l1 e1 x1 c2 l2 e2 x2 t, cost c1 l1 e1 x1 t -> (c1 <= c2)%nat -> (l1 <= l2)%nat -> (e1 <= e2)%nat -> (x1 <= x2)%nat -> cost c2 l2 e2 x2 t.
Proof. unfold cost. intros. lia. Qed.
Lemma w_mono : forall c1 l1 e1 x1 c2 l2 e2 x2 a, within c1 l1 e1 x1 a -> (c1 <= c2)%nat -> (l1 <= l2)%nat -> (e1 <= e2)%nat -> (x1 <= x2)%nat -> within c2 l2 e2 x2 a.
Proof. intros. intros w w' t R. eapply cost_mono; [eapply H; exact R|lia|lia|lia|lia]. Qed.
Lemma w_seq : forall c1 l1 e1 x1 c2 l2 e2 x2 c l e x a b, within c1 l1 e1 x1 a -> within c2 l2 e2 x2 b ->
  (c1 + c2 <= c)%nat -> (l1 + l2 <= l)%nat -> (e1 + e2 <= e)%nat -> (x1 + x2 <= x)%nat -> within c l e x (World.seq a b).
Proof.
  intros. intros w w' t R. apply seq_inv in R. destruct R as (w1 & t1 & t2 & R1 & R2 & ->). eapply cost_mono; [eapply cost_app; [eapply H; exact R1|eapply H0; exact R2]|lia|lia|lia|lia].
Qed.
Lemma w_skip : forall c l e x, within c l e x skip. Proof. intros c l e x w w' t R. injection R as <- <-. eapply cost_mono; [apply cost_nil|lia|lia|lia|lia]. Qed.
Lemma w_fail : forall u c l e x, within c l e x (fail u). Proof. intros u c l e x w w' t R. discriminate. Qed.
Lemma w_ask : forall A (f : world -> res A) k c l e x, (forall y, within c l e x (k y)) -> within c l e x (ask f k).
Proof. intros A f k c l e x K w w' t R. apply ask_inv in R. destruct R as (y & _ & R). eapply K; exact R. Qed.
Lemma w_when : forall A (o : option A) k c l e x, (forall y, within c l e x (k y)) -> within c l e x (when_some o k).
Proof. intros A [y|] k c l e x K; [apply K|apply w_skip]. Qed.
Lemma w_put_station : forall s y c l e x, within c l e x (put_station s y). Proof. intros s y c l e x w w' t R. injection R as <- <-. eapply cost_mono; [apply cost_nil|lia|lia|lia|lia]. Qed.
Lemma w_put_parser : forall s y c l e x, within c l e x (put_parser s y). Proof. intros s y c l e x w w' t R. injection R as <- <-. eapply cost_mono; [apply cost_nil|lia|lia|lia|lia]. Qed.
Lemma w_put_cons : forall s y c l e x, within c l e x (put_cons s y). Proof. intros s y c l e x w w' t R. injection R as <- <-. eapply cost_mono; [apply cost_nil|lia|lia|lia|lia]. Qed.
Lemma w_put_engine : forall s y c l e x, within c l e x (put_engine s y). Proof. intros s y c l e x w w' t R. injection R as <- <-. eapply cost_mono; [apply cost_nil|lia|lia|lia|lia]. Qed.
Lemma w_print : forall b c l e x, within c l e x (print b). Proof. intros b c l e x w w' t R. injection R as <- <-. unfold cost, count, calls. cbn. lia. Qed.
Lemma w_puts : forall b c l e x, within c l e x (puts b). Proof. intros. apply w_print. Qed.
Lemma w_print_res : forall b c l e x, within c l e x (print_res b). Proof. intros. apply w_ask. intros. apply w_print. Qed.
Lemma w_emit : forall ev, within 1 (if is_line ev then 1 else 0) (if is_end ev then 1 else 0) (if is_tx ev then 1 else 0) (emit ev).
Proof. intros ev w w' t R. injection R as <- <-. unfold cost, count, calls. destruct ev; cbn; lia. Qed.
Lemma w_emit1 : forall ev c l e x, is_line ev = false -> is_end ev = false -> is_tx ev = false -> within (S c) l e x (emit ev).
Proof. intros ev c l e x A B C. eapply w_mono; [apply w_emit|lia|rewrite A; lia|rewrite B; lia|rewrite C; lia]. Qed.
Lemma w_tx : forall c f k l e x, within (S k) l e (S x) (tx_send c f).
Proof. intros. unfold tx_send. apply w_ask. intro y. eapply w_mono; [apply w_emit|cbn; lia|cbn; lia|cbn; lia|cbn; lia]. Qed.
(** silent parts may be put in front *)
Lemma w_quiet : forall a b c l e x, within 0 0 0 0 a -> within c l e x b -> within c l e x (World.seq a b).
Proof. intros. eapply w_seq; [exact H|exact H0|lia|lia|lia|lia]. Qed.
Ltac w0 := repeat first [apply w_skip|apply w_fail|apply w_print|apply w_puts|apply w_print_res|apply w_put_station|apply w_put_parser|apply w_put_cons|apply w_put_engine|apply w_tx
  |apply w_emit1; reflexivity|apply w_quiet|apply w_when; intro|apply w_ask; intro|match goal with |- within _ _ _ _ (match ?x with _ => _ end) => destruct x end].

Lemma w_consume : forall c s k v, within 1 1 0 0 (cons_consume lw c s k v).
Proof.
  intros. unfold cons_consume. eapply (w_seq 1 1 0 0 0 0 0 0); [apply (w_emit (EvConsume c s k v))|unfold loco_consume, list_consume; w0|lia|lia|lia|lia].
Qed.
Lemma w_consume_all : forall c ts, within (List.length ts) (List.length ts) 0 0 (cons_consume_all lw c ts).
Proof.
  intros c. induction ts as [|((s & k) & v) ts IH]; [apply w_skip|]. cbn [cons_consume_all List.length]. eapply w_seq; [apply w_consume|exact IH|lia|lia|lia|lia].
Qed.
Lemma w_complete : forall c, within 2 0 1 0 (cons_complete c).
Proof.
  intros. unfold cons_complete. eapply (w_seq 1 0 1 0 1 0 0 0); [apply (w_emit (EvStreamComplete c))|w0|lia|lia|lia|lia].
Qed.
Lemma w_aborted : forall c, within 2 0 1 0 (cons_aborted c).
Proof.
  intros. unfold cons_aborted. eapply (w_seq 1 0 1 0 1 0 0 0); [apply (w_emit (EvStreamAborted c))|w0|lia|lia|lia|lia].
Qed.
Lemma w_reset : forall p, within 2 0 1 0 (lib_reset p).
Proof.
  intros p. unfold lib_reset. apply w_ask. intro sp. eapply (w_seq 2 0 1 0 0 0 0 0); [|unfold put_lib; w0|lia|lia|lia|lia]. destruct (ss_processing (sp_state sp)); [|apply w_skip].
  apply w_when. intro c. apply w_aborted.
Qed.
(** at most four lines in eight bytes *)
Definition open (a : auto) : nat := match a_at a with InSection | InKey | InValue => 1 | _ => 0 end.
Lemma step_lines : forall a c, (2 * List.length (snd (astep a c)) + open (fst (astep a c)) <= 1 + open a)%nat.
Proof.
  intros a c. unfold astep, open. destruct (a_at a) eqn:E; repeat match goal with |- context [if ?b then _ else _] => destruct b end; cbn [fst snd List.length failed a_at]; rewrite ?E; lia.
Qed.
Lemma feed_lines : forall s a, (2 * List.length (snd (afeed a s)) + open (fst (afeed a s)) <= List.length s + open a)%nat.
Proof.
  induction s as [|c s IH]; intro a; [cbn; lia|]. cbn [afeed]. pose proof (step_lines a c) as A. destruct (astep a c) as (a1 & e1). specialize (IH a1). destruct (afeed a1 s) as (a2 & e2). cbn [fst snd] in *. rewrite app_length. cbn [List.length]. lia.
Qed.
Lemma add_lines : forall a s, (List.length s <= 8)%nat -> (List.length (snd (aadd a s)) <= 4)%nat.
Proof.
  intros a s L. unfold aadd. destruct ((zlen s >? max_text) || afailed a); [cbn; lia|]. pose proof (feed_lines s a). assert (open a <= 1)%nat by (unfold open; destruct (a_at a); lia). lia.
Qed.
Lemma wu_add : forall p d, payload_ok d -> withinu 6 4 1 0 (lib_addMessage lw p d).
Proof.
  intros p d P w w' t U H. unfold lib_addMessage in H. apply ask_inv in H. destruct H as (sp & G & H). apply lib_inv in G. destruct (U _ _ G) as (a & F & T).
  assert (CO : forall o, within 2 0 1 0 (when_some o cons_complete)) by (intro; apply w_when; intro; apply w_complete).
  assert (AB : forall o, within 2 0 1 0 (when_some o cons_aborted)) by (intro; apply w_when; intro; apply w_aborted).
  assert (PQ : forall sp b, within 2 0 1 0 b -> within 2 0 1 0 (World.seq (put_lib p sp) b)) by (intros; apply w_quiet; [unfold put_lib; w0|assumption]).
  assert (RS : forall s, within 2 0 1 0 (World.seq (print s) (lib_reset p))) by (intros; apply w_quiet; [w0|apply w_reset]).
  revert H. match goal with |- ?a _ = _ -> _ => assert (B : within 6 4 1 0 a); [|apply B] end. destruct (sp_state sp).
  - apply w_print.
  - repeat match goal with |- within _ _ _ _ (if ?b then _ else _) => destruct b end; try (eapply w_mono; [apply RS|lia|lia|lia|lia]); [unfold put_lib; w0|]. eapply w_mono; [apply PQ, CO|lia|lia|lia|lia].
  - destruct (dlc d =? 8) eqn:D; cbn [negb]; [|eapply w_mono; [apply RS|lia|lia|lia|lia]].
    apply Z.eqb_eq in D. apply w_ask. intro crc. intros w1 w2 t1 H1. apply ask_inv in H1. destruct H1 as (te & ET & H1). rewrite T, (addText_spec _ _ _ _ F (holds_data _ P D)) in ET.
    injection ET as <-. revert H1. match goal with |- ?a _ = _ -> _ => assert (B : within 6 4 1 0 a); [|apply B] end. cbn [fst snd]. apply w_quiet; [unfold put_lib; w0|]. eapply (w_seq 4 4 0 0 2 0 1 0); [| |lia|lia|lia|lia].
    + rewrite T. cbn [parser tp_cons]. destruct (sp_cons sp) as [c|]; [|apply w_skip]. cbn [when_some told]. eapply w_mono; [apply w_consume_all| | |lia|lia]; rewrite map_length; apply add_lines; unfold content; rewrite firstn_length; lia.
    + match goal with |- within _ _ _ _ (if ?b then _ else _) => destruct b end; [|apply w_skip]. apply w_ask. intros []; apply PQ; auto.
  - apply w_print.
Qed.
Lemma w_start : forall p, within 1 0 0 0 (cfg_call lw p CStart).
Proof. intros p. unfold cfg_call, put_lib. eapply (w_seq 1 0 0 0 0 0 0 0); [apply w_emit1; reflexivity|w0|lia|lia|lia|lia]. Qed.
Lemma w_creset : forall p, within 3 0 1 0 (cfg_call lw p CReset).
Proof. intros p. unfold cfg_call. eapply (w_seq 1 0 0 0 2 0 1 0); [apply w_emit1; reflexivity| |lia|lia|lia|lia]. apply w_ask. intros [sp|beh h]; [apply w_reset|apply w_put_parser]. Qed.
Lemma w_finish : forall s, within 3 0 1 0 (st_finish lw s).
Proof. intros s. unfold st_finish. apply w_ask. intro st. apply w_when. intro p. eapply (w_seq 3 0 1 0 0 0 0 0); [apply w_creset|w0|lia|lia|lia|lia]. Qed.
Lemma wu_config : forall s d, payload_ok d -> withinu 7 4 1 0 (st_handleConfigDataStream lw s d).
Proof.
  intros s d P w w' t U H. unfold st_handleConfigDataStream in H. apply ask_inv in H. destruct H as (st & _ & H). apply ask_inv in H. destruct H as (tg & _ & H). destruct tg as [p|].
  - unfold cfg_call in H. apply seq_inv in H. destruct H as (w1 & t1 & t2 & H1 & H & ->). injection H1 as <- <-. apply (cost_app 1 0 0 0 6 4 1 0 [EvCfg p (CAdd d)] t2); [unfold cost, count, calls; cbn; lia|]. apply ask_inv in H. destruct H as (o & _ & H). destruct o as [sp|beh h]; [eapply wu_add; eauto|]. revert H. apply w_put_parser.
  - revert H. match goal with |- ?a _ = _ -> _ => assert (B : within 7 4 1 0 a); [|apply B] end. w0.
Qed.
Lemma quiet_finish : forall s st w w' t, get_station s w = Ok st -> (match cb_cfg (st_cbs st) with None => Ok false | Some p => cfg_isProcessing p w end) = Ok false ->
  st_finish lw s w = Ok (w', t) -> cost 1 0 0 0 t.
Proof.
  intros s st w w' t G B H. unfold st_finish in H. apply ask_inv in H. destruct H as (st' & G' & H). rewrite G in G'. injection G' as <-. destruct (cb_cfg (st_cbs st)) as [p|]; [|injection H as <- <-; unfold cost, count, calls; cbn; lia].
  cbn [when_some] in H. apply seq_inv in H. destruct H as (w1 & t1 & t2 & H1 & H2 & ->). apply (cost_app 1 0 0 0 0 0 0 0); [|revert H2; match goal with |- ?a _ = _ -> _ => assert (X : within 0 0 0 0 a); [w0|apply X] end].
  unfold cfg_call in H1. apply seq_inv in H1. destruct H1 as (w2 & t3 & t4 & H1 & H3 & ->). injection H1 as <- <-. apply (cost_app 1 0 0 0 0 0 0 0); [unfold cost, count, calls; cbn; lia|].
  unfold cfg_isProcessing in B. apply ask_inv in H3. destruct H3 as (o & GO & H3). rewrite GO in B. cbn in B. destruct o as [sp|beh h]; [|revert H3; apply w_put_parser].
  unfold lib_reset in H3. apply ask_inv in H3. destruct H3 as (sp' & GL & H3). unfold get_lib in GL. rewrite GO in GL. cbn in GL. injection GL as <-. injection B as B. rewrite B in H3.
  revert H3. match goal with |- ?a _ = _ -> _ => assert (X : within 0 0 0 0 a); [unfold put_lib; w0|apply X] end.
Qed.
Lemma w_functions : forall st u n i, within n 0 0 n (send_functions st u i n).
Proof. intros st u. induction n as [|n IH]; intro i; cbn [send_functions]; [apply w_skip|]. eapply (w_seq 1 0 0 1 n 0 0 n); [apply w_tx|apply IH|lia|lia|lia|lia]. Qed.
Lemma step_cost : forall o w w' t, all_usable w -> frames_ok o -> step lw o w = Ok (w', t) ->
  cost (may_call o) (if delivers o then 4 else 0) (may_end o) (may_send o) t.
Proof.
  intros o w w' t U F H. destruct o as [s o|p|p c|p d|p|c cb|c e|c off|c|c|c|e o]; cbn [step] in H.
  2, 3, 6-12: revert H; match goal with |- ?a _ = _ -> _ => assert (B : within 0 0 0 0 a); [|apply B] end; unfold put_lib; w0.
  2: { cbn [may_call delivers may_send may_end]. eapply wu_add; eauto. }
  2: { cbn [may_call delivers may_send may_end]. eapply w_reset; eauto. }
  destruct o; cbn [st_step] in H; cbn [may_call delivers may_send may_end].
  all: try (revert H; match goal with |- ?a _ = _ -> cost ?c ?l ?e ?x _ => assert (B : within c l e x a); [|apply B] end;
    first [apply w_finish|unfold st_handleAccessoryPacket, st_handleSystemCommand, st_handleLocoDirection, st_handleLocoSpeed, st_handleLocoFunction,
    st_sendAccessoryPacket, st_requestEngineDirection, st_sendEngineDirection, st_requestEngineVelocity, st_sendEngineVelocity, st_requestEngineFunction, st_sendEngineFunction, st_sendEmergencyStop, st_sendSystemStop, st_sendSystemGo, st_sendPacket; solve [w0]]).
  - revert H. match goal with |- ?a _ = _ -> cost ?c ?l ?e ?x _ => assert (B : within c l e x a); [|apply B] end. unfold st_begin, st_abort. eapply (w_seq 3 0 1 0 0 0 0 0); [apply w_finish|w0|lia|lia|lia|lia].
  - unfold st_handlePacket in H. cbn in F. set (d := fdata f) in *.
    assert (X : forall b a1 a2, withinu 7 4 1 0 a1 -> withinu 7 4 1 0 a2 -> withinu 7 4 1 0 (if b : bool then a1 else a2)) by (intros []; auto).
    revert U H. match goal with |- _ -> ?a _ = _ -> _ => assert (B : withinu 7 4 1 0 a); [|apply B] end.
    repeat apply X; try (apply wu_config; exact F); intros w1 w2 t1 _; match goal with |- ?a _ = _ -> _ => assert (B : within 7 4 1 0 a); [|apply B] end;
      unfold st_handleAccessoryPacket, st_handleSystemCommand, st_handleLocoDirection, st_handleLocoSpeed, st_handleLocoFunction; try solve [w0].
    apply w_quiet; [w0|]. eapply (w_seq 1 0 0 0 0 0 0 0); [w0|w0|lia|lia|lia|lia].
  - eapply wu_config; eauto.
  - unfold st_requestEngine, st_abort in H. apply ask_inv in H. destruct H as (si & _ & H). destruct (negb (si_isNameKnown si)); [injection H as <- <-; unfold cost, count, calls; cbn; lia|].
    apply ask_inv in H. destruct H as (st & ES & H). apply ask_inv in H. destruct H as (busy & EB & H). destruct busy; [injection H as <- <-; unfold cost, count, calls; cbn; lia|].
    apply seq_inv in H. destruct H as (w1 & t1 & t2 & H1 & H & ->). apply (cost_app 1 0 0 0 4 0 0 3); [exact (quiet_finish s st w w1 t1 ES EB H1)|].
    revert H. match goal with |- ?a _ = _ -> cost ?c ?l ?e ?x _ => assert (B : within c l e x a); [|apply B] end. apply w_ask. intro st'. apply w_quiet; [w0|]. eapply (w_seq 1 0 0 0 3 0 0 3); [apply w_when; intro; apply w_start| |lia|lia|lia|lia].
    apply w_ask. intro b1. eapply (w_seq 1 0 0 1 2 0 0 2); [apply w_tx| |lia|lia|lia|lia]. do 3 (apply w_ask; intro). eapply (w_seq 1 0 0 1 1 0 0 1); [apply w_tx| |lia|lia|lia|lia]. w0.
  - revert H. match goal with |- ?a _ = _ -> cost ?c ?l ?e ?x _ => assert (B : within c l e x a); [|apply B] end. unfold st_requestEngineList, st_abort. eapply (w_seq 3 0 1 0 3 0 0 2); [apply w_finish| |lia|lia|lia|lia]. apply w_ask. intro st'. apply w_quiet; [w0|]. apply w_ask. intro b1.
    destruct (snprintf9 (list_request_text offset)) as (b2 & n). destruct (u8 n <=? CanDataMaxLength); [|apply w_skip]. eapply (w_seq 1 0 0 0 2 0 0 2); [apply w_when; intro; apply w_start| |lia|lia|lia|lia].
    eapply (w_seq 1 0 0 1 1 0 0 1); [apply w_tx|apply w_tx|lia|lia|lia|lia].
  - revert H. match goal with |- ?a _ = _ -> cost ?c ?l ?e ?x _ => assert (B : within c l e x a); [|apply B] end. unfold st_requestEngineAllFunctions. apply w_ask. intro st. eapply w_mono; [apply w_functions|lia|lia|lia|lia].
Qed.
Lemma count_app : forall f a b, count f (a ++ b) = (count f a + count f b)%nat. Proof. intros. unfold count. rewrite filter_app, app_length. reflexivity. Qed.
Lemma history_cost : forall ops w w' t, all_usable w -> Forall frames_ok ops -> run lw ops w = Ok (w', t) ->
  (count is_line t <= 4 * List.length (filter delivers ops))%nat /\ (count is_end t <= list_sum (map may_end ops))%nat /\ (count is_tx t <= list_sum (map may_send ops))%nat /\ (List.length (calls t) <= list_sum (map may_call ops))%nat.
Proof.
  induction ops as [|o ops IH]; intros w w' t U F H; cbn [run] in H; [injection H as <- <-; cbn; lia|]. apply seq_inv in H. destruct H as (w1 & t1 & t2 & H1 & H2 & ->). inversion F as [|? ? F1 F2]; subst.
  destruct (step_cost o w w1 t1 U F1 H1) as (A & B & C & D). destruct (IH w1 w' t2) as (A' & B' & C' & D'); [eapply k_step; eauto|exact F2|exact H2|].
  unfold calls in *. rewrite !count_app, filter_app, app_length. change (list_sum (map may_send (o :: ops))) with (may_send o + list_sum (map may_send ops))%nat. change (list_sum (map may_end (o :: ops))) with (may_end o + list_sum (map may_end ops))%nat. change (list_sum (map may_call (o :: ops))) with (may_call o + list_sum (map may_call ops))%nat.
  cbn [filter]. destruct (delivers o); cbn [List.length]; lia.
Qed.
End LW.
