(* ProofsLength.v -- proofs about frames whose length field may be anything (C122). *)
From Verif Require Import ZLib SpecLength ProofsText ProofsSafe ProofsStation ProofsExact.

Section Length.
Variable lw : Z.
Variable w0 : world.
Notation GD := (GD w0).
Notation exactly := (exactly w0).

Lemma long_never_breaks : forall w p d, 8 < dlc d -> ~ breaks lw w p d.
Proof. intros w p d D (sp & c & x & _ & _ & _ & [(_ & (H & _) & _)|(_ & H & _)]); lia. Qed.
Lemma long_add : forall w p d, GD w -> lib0_d w0 p -> 8 < dlc d -> dsafe_at w0 w (lib_addMessage lw p d).
Proof.
  intros w p d g H D. unfold lib_addMessage. apply (d_lib w0); [exact H| |exact g]. intros sp _. destruct (sp_state sp); try apply d_print.
  - replace ((dlc d =? 6) || (dlc d =? 7)) with false by lia. replace (dlc d >=? 8) with true by lia. apply d_seq; [apply d_print|apply d_reset; exact H].
  - replace (negb (dlc d =? 8)) with true by lia. apply d_seq; [apply d_print|apply d_reset; exact H].
Qed.
Lemma long_cfg : forall w p d, GD w -> parser0_d w0 p -> 8 < dlc d -> dsafe_at w0 w (cfg_call lw p (CAdd d)).
Proof.
  intros w p d g H V. destruct (len_nth _ _ _ H) as (o & N). unfold cfg_call. apply d_emit_at.
  destruct (parser_there_d w0 w p o g N) as (o' & E & K & S).
  assert (X : forall k, dsafe_at w0 w (k o') -> dsafe_at w0 w (ask (get_parser p) k)).
  { intros k (w' & t & Y). exists w', t. unfold ask, get_parser, at_. rewrite E. exact Y. }
  apply X. clear X. destruct o' as [sp|beh h].
  - apply long_add; try assumption. destruct o as [sp0|]; [exists sp0; exact N|discriminate].
  - apply (d_put_parser w0 p o); [exact N|exact K|exact Logic.I|exact g].
Qed.
(** printing the bytes *)
Lemma text_exact : forall w d a b, GD w -> payload_ok d -> dsafe w0 a -> dsafe w0 b -> exactly (9 < dlc d) w (a ;;; print_res (printAsText d) ;;; b).
Proof.
  intros w d a b0 g P SA SB. destruct (Z_lt_le_dec 9 (dlc d)) as [L|L].
  - left. split; [exact L|]. destruct (SA w g) as (w' & t & E & g'). unfold World.seq. rewrite E. cbn [bind]. unfold print_res, ask, printAsText. rewrite visited_ub by assumption. reflexivity.
  - right. split; [lia|]. apply d_seq; [exact SA| |exact g]. apply d_seq; [|exact SB]. apply d_print_res. unfold printAsText. rewrite visited_ok by assumption. eauto.
Qed.
Lemma text_exact1 : forall w d a, GD w -> payload_ok d -> dsafe w0 a -> exactly (9 < dlc d) w (a ;;; print_res (printAsText d)).
Proof.
  intros w d a g P SA. destruct (Z_lt_le_dec 9 (dlc d)) as [L|L].
  - left. split; [exact L|]. destruct (SA w g) as (w' & t & E & g'). unfold World.seq. rewrite E. cbn [bind]. unfold print_res, ask, printAsText. rewrite visited_ub by assumption. reflexivity.
  - right. split; [lia|]. apply d_seq; [exact SA| |exact g]. apply d_print_res. unfold printAsText. rewrite visited_ok by assumption. eauto.
Qed.
Lemma hex_exact : forall w d a b, GD w -> payload_ok d -> dsafe w0 a -> dsafe w0 b -> exactly (9 < dlc d) w (a ;;; print_res (printAsHex d) ;;; b).
Proof.
  intros w d a b0 g P SA SB. destruct (Z_lt_le_dec 9 (dlc d)) as [L|L].
  - left. split; [exact L|]. destruct (SA w g) as (w' & t & E & g'). unfold World.seq. rewrite E. cbn [bind]. unfold print_res, ask, printAsHex. rewrite visited_ub by assumption. reflexivity.
  - right. split; [lia|]. apply d_seq; [exact SA| |exact g]. apply d_seq; [|exact SB]. apply d_print_res. unfold printAsHex. rewrite visited_ok by assumption. cbn [bind]. eauto.
Qed.
Lemma long_stream : forall w s d st, GD w -> station0_d w0 s -> payload_ok d -> 8 < dlc d -> nth_error (w_stations w) s = Some st ->
  exactly (9 < dlc d /\ ~ takes_data w st) w (st_handleConfigDataStream lw s d).
Proof.
  intros w s d st g H P D N. unfold st_handleConfigDataStream. apply x_ask with (x := st); [unfold get_station, at_; rewrite N; reflexivity|].
  pose proof g as (_ & S & _). pose proof (nth_forall _ _ _ _ _ S N) as (_ & _ & PC). cbn beta in PC.
  assert (Q : ~ takes_data w st -> exactly (9 < dlc d /\ ~ takes_data w st) w (puts "Ignoring ConfigData Stream: " ;;; print_res (printAsText d))).
  { intros T. eapply x_iff; [|apply text_exact1; [exact g|exact P|apply d_puts]]. tauto. }
  destruct (cb_cfg (st_cbs st)) as [p|] eqn:CB.
  - destruct (len_nth _ _ _ PC) as (o & NO). destruct (parser_there_d w0 w p o g NO) as (o' & E & _).
    apply x_ask with (x := if ss_processing (pobj_state o') then Some p else None). { unfold cfg_isProcessing, get_parser, at_. rewrite E. reflexivity. }
    destruct (ss_processing (pobj_state o')) eqn:PR.
    + apply x_safe; [|apply long_cfg; assumption]. intros (_ & T). apply T. exists p, o'. split; [exact CB|]. split; [exact E|]. destruct (pobj_state o'); try discriminate; auto.
    + apply Q. intros (p' & o2 & C2 & E2 & Y). rewrite CB in C2. injection C2 as <-. rewrite E in E2. injection E2 as <-. destruct Y as [Y|Y]; rewrite Y in PR; discriminate.
  - apply x_ask with (x := None); [reflexivity|]. apply Q. intros (p' & o2 & C2 & _). congruence.
Qed.
Lemma long_packet : forall w s f st, GD w -> station0_d w0 s -> payload_ok (fdata f) -> 8 < dlc (fdata f) -> nth_error (w_stations w) s = Some st ->
  exactly (9 < dlc (fdata f) /\ dumped (id_getCommand (fid f)) /\ (id_getCommand (fid f) = CMD_CONFIG_DATA -> ~ takes_data w st)) w (st_handlePacket lw s f).
Proof.
  intros w s f st g H P D N. unfold st_handlePacket. cbv zeta. set (c := id_getCommand (fid f)).
  assert (NO : forall cmd a, In cmd [CMD_SYSTEM; CMD_SPEED; CMD_DIRECTION; CMD_FUNCTION; CMD_ACCESSORY; CMD_PING; CMD_REQUEST_CONFIG] -> (c =? cmd) = true -> dsafe w0 a ->
    exactly (9 < dlc (fdata f) /\ dumped c /\ (c = CMD_CONFIG_DATA -> ~ takes_data w st)) w a).
  { intros cmd a I E SA. apply x_safe; [|apply SA; exact g]. intros (_ & Y & _). apply Z.eqb_eq in E. apply Y. rewrite E. exact I. }
  destruct (c =? kSystemCommand) eqn:E1; [apply (NO kSystemCommand); [cbn; auto|exact E1|apply d_system; exact H]|].
  destruct (c =? kPing) eqn:E2; [apply (NO kPing); [cbn; tauto|exact E2|apply d_skip]|].
  destruct (c =? kAccessorySwitch) eqn:E3; [apply (NO kAccessorySwitch); [cbn; tauto|exact E3|apply d_seq; [apply d_puts|apply d_seq; [apply d_acc; exact H|apply d_print]]]|].
  destruct (c =? kLocoDirection) eqn:E4; [apply (NO kLocoDirection); [cbn; tauto|exact E4|apply d_dir; exact H]|].
  destruct (c =? kLocoSpeed) eqn:E5; [apply (NO kLocoSpeed); [cbn; tauto|exact E5|apply d_speed; exact H]|].
  destruct (c =? kLocoFunction) eqn:E6; [apply (NO kLocoFunction); [cbn; tauto|exact E6|apply d_fun; exact H]|].
  destruct (c =? kRequestConfigData) eqn:E7; [apply (NO kRequestConfigData); [cbn; tauto|exact E7|apply d_skip]|].
  assert (DU : dumped c).
  { intros I. cbn in I. unfold kSystemCommand, kPing, kAccessorySwitch, kLocoDirection, kLocoSpeed, kLocoFunction, kRequestConfigData in *.
    unfold CMD_SYSTEM, CMD_SPEED, CMD_DIRECTION, CMD_FUNCTION, CMD_ACCESSORY, CMD_PING, CMD_REQUEST_CONFIG in I. lia. }
  destruct (c =? kConfigDataStream) eqn:E8.
  { eapply x_iff; [|apply (long_stream w s (fdata f) st); assumption]. apply Z.eqb_eq in E8. rewrite E8 in *. change kConfigDataStream with CMD_CONFIG_DATA in *. tauto. }
  assert (NC : c <> CMD_CONFIG_DATA) by (apply Z.eqb_neq in E8; exact E8).
  apply x_iff with (P := 9 < dlc (fdata f)); [tauto|].
  destruct (c =? kDebugText).
  - apply text_exact; [exact g|exact P|apply d_puts|apply d_print].
  - apply hex_exact; [exact g|exact P|apply d_print|apply d_print].
Qed.
Lemma only_printed : forall w o, (forall s f, o <> OnStation s (HandlePacket f)) -> (forall s d, o <> OnStation s (HandleConfigDataStream d)) -> ~ overprinted w o.
Proof. intros w o A B (s & st & d & _ & _ & [(E & _)|(i & E & _)]); [exact (B _ _ E)|exact (A _ _ E)]. Qed.
Lemma short_not_printed : forall w o, legal_op w0 o -> ~ overprinted w o.
Proof.
  intros w o L (s & st & d & _ & D & [(-> & _)|(i & -> & _)]); (destruct L as [(_ & _ & V)|(e & x & E & _)]; [cbn in V; lia|discriminate]).
Qed.
Lemma wild_exact : forall w o, GD w -> wild_op w0 o -> exactly (undefined_by lw w o \/ overprinted w o) w (step lw o).
Proof.
  intros w o g [L|W].
  { apply x_iff with (P := undefined_by lw w o); [|apply step_exact; assumption]. pose proof (short_not_printed w o L). tauto. }
  assert (SH : forall d, payload_ok d -> dlc d <= 8 -> (payload_ok d -> dlc d <= 8 -> legal_op w0 o) -> exactly (undefined_by lw w o \/ overprinted w o) w (step lw o)).
  { intros d P D LL. specialize (LL P D). apply x_iff with (P := undefined_by lw w o); [|apply step_exact; assumption]. pose proof (short_not_printed w o LL). tauto. }
  assert (NB : forall d, 8 < dlc d -> (forall p d', hands_over w o p d' -> d' = d) -> ~ undefined_by lw w o).
  { intros d D HO (p & d' & HA & B). rewrite (HO _ _ HA) in B. exact (long_never_breaks _ _ _ D B). }
  destruct o as [s o|p|p c|p d|p|c cb|c e|c off|c|c|c|e o]; try contradiction; [destruct o as [| |f| |d| | | | | | | | | | | | | | | | | | | | |]; try contradiction|].
  - destruct W as (H & P). destruct (Z_le_gt_dec (dlc (fdata f)) 8) as [D|D]; [apply (SH _ P D); intros _ _; left; split; [exact H|split; assumption]|].
    destruct (len_nth _ (w_stations w) s) as (st & N); [destruct g as ((LL & _) & _); rewrite LL; exact H|].
    assert (Q : ~ undefined_by lw w (OnStation s (HandlePacket f))).
    { apply (NB (fdata f)); [lia|]. intros p d' [E|(s' & st' & _ & _ & [E|(f' & E & <- & _)])]; try discriminate. injection E as <- <-. reflexivity. }
    eapply x_iff; [|apply (long_packet w s f st g H P); [lia|exact N]]. split.
    + intros (A & B & C). right. exists s, st, (fdata f). split; [exact N|]. split; [exact A|]. right. exists (fid f). split; [destruct f; reflexivity|]. auto.
    + intros [Y|(s' & st' & d & N' & A & [(E & _)|(i & E & B & C)])]; [contradiction|discriminate|]. injection E as <- ->. cbn [fdata fid]. rewrite N in N'. injection N' as <-. auto.
  - destruct W as (H & P). destruct (Z_le_gt_dec (dlc d) 8) as [D|D]; [apply (SH _ P D); intros _ _; left; split; [exact H|split; assumption]|].
    destruct (len_nth _ (w_stations w) s) as (st & N); [destruct g as ((LL & _) & _); rewrite LL; exact H|].
    assert (Q : ~ undefined_by lw w (OnStation s (HandleConfigDataStream d))).
    { apply (NB d); [lia|]. intros p d' [E|(s' & st' & _ & _ & [E|(f' & E & <- & _)])]; try discriminate. injection E as <- <-. reflexivity. }
    eapply x_iff; [|apply (long_stream w s d st g H P); [lia|exact N]]. split.
    + intros (A & B). right. exists s, st, d. split; [exact N|]. split; [exact A|]. left. auto.
    + intros [Y|(s' & st' & d' & N' & A & [(E & B)|(i & E & _)])]; [contradiction| |discriminate]. injection E as <- <-. rewrite N in N'. injection N' as <-. auto.
  - destruct W as (H & P). destruct (Z_le_gt_dec (dlc d) 8) as [D|D]; [apply (SH _ P D); intros _ _; left; split; [exact H|split; assumption]|].
    apply x_safe; [|cbn [step]; apply long_add; [exact g|exact H|lia]]. intros [Y|Y].
    + revert Y. apply (NB d); [lia|]. intros p' d' [E|(s' & st' & _ & _ & [E|(f' & E & <- & _)])]; try discriminate. injection E as <- <-. reflexivity.
    + revert Y. apply only_printed; discriminate.
Qed.
End Length.
Lemma wild_one : forall lw w o, decent w -> wild_op w o ->
  ((undefined_by lw w o \/ overprinted w o) /\ step lw o w = UB OutOfBounds) \/
  (~ (undefined_by lw w o \/ overprinted w o) /\ exists w' t, step lw o w = Ok (w', t) /\ decent w' /\ same_objects w w').
Proof.
  intros lw w o D L. destruct (wild_exact lw w w o (decent_GD w D) L) as [H|(N & w' & t & E & g)]; [left; exact H|right]. split; [exact N|]. exists w', t. split; [exact E|].
  split; [exact (GD_decent w w' g)|exact (proj1 g)].
Qed.
Lemma wild_run : forall lw w0 ops w, GD w0 w -> Forall (wild_op w0) ops ->
  (exists w' t, run lw ops w = Ok (w', t) /\ GD w0 w' /\ forall pre o post w1 t1, ops = pre ++ o :: post -> run lw pre w = Ok (w1, t1) -> ~ (undefined_by lw w1 o \/ overprinted w1 o)) \/
  (exists pre o post w1 t1, ops = pre ++ o :: post /\ run lw pre w = Ok (w1, t1) /\ (undefined_by lw w1 o \/ overprinted w1 o) /\ run lw ops w = UB OutOfBounds).
Proof.
  intros lw w0 ops. induction ops as [|o ops IH]; intros w g F.
  - left. exists w, []. split; [reflexivity|]. split; [exact g|]. intros pre o post w1 t1 E. destruct pre; discriminate.
  - inversion F; subst. destruct (wild_exact lw w0 w o g H1) as [(B & E)|(B & w1 & t1 & E1 & g1)].
    + right. exists [], o, ops, w, []. split; [reflexivity|]. split; [reflexivity|]. split; [exact B|]. cbn [run]. unfold World.seq. rewrite E. reflexivity.
    + destruct (IH w1 g1 H2) as [(w2 & t2 & E2 & g2 & NB)|(pre & o' & post & w2 & t2 & -> & E2 & X2 & R2)].
      * left. exists w2, (t1 ++ t2). split; [cbn [run]; unfold World.seq; rewrite E1; cbn [bind]; rewrite E2; reflexivity|]. split; [exact g2|].
        intros [|o1 pre] o' post w3 t3 EQ E3; cbn [app] in EQ; injection EQ as <- EQ.
        -- cbn [run] in E3. unfold skip in E3. injection E3 as <- _. exact B.
        -- cbn [run] in E3. unfold World.seq in E3. rewrite E1 in E3. cbn [bind] in E3. destruct (run lw pre w1) as [(w4 & t4)|] eqn:E4; [|discriminate]. cbn [bind] in E3. injection E3 as <- _.
           exact (NB pre o' post w4 t4 EQ E4).
      * right. exists (o :: pre), o', post, w2, (t1 ++ t2). split; [reflexivity|]. split; [cbn [run]; unfold World.seq; rewrite E1; cbn [bind]; rewrite E2; reflexivity|].
        split; [exact X2|]. cbn [run]. unfold World.seq. rewrite E1. cbn [bind]. rewrite R2. reflexivity.
Qed.
Lemma wild_history : forall lw w ops, decent w -> Forall (wild_op w) ops ->
  (forall u, run lw ops w = UB u <-> u = OutOfBounds /\ exists pre o post w1 t1, ops = pre ++ o :: post /\ run lw pre w = Ok (w1, t1) /\ (undefined_by lw w1 o \/ overprinted w1 o)) /\
  (forall w' t, run lw ops w = Ok (w', t) -> decent w').
Proof.
  intros lw w ops D F. destruct (wild_run lw w ops w (decent_GD w D) F) as [(w' & t & E & g & NB)|(pre & o & post & w1 & t1 & EQ & E1 & X & R)].
  - split.
    + intros u. split; [congruence|]. intros (_ & pre & o & post & w1 & t1 & EQ & E1 & X). destruct (NB _ _ _ _ _ EQ E1 X).
    + intros w2 t2 E2. rewrite E in E2. injection E2 as <- <-. exact (GD_decent w w' g).
  - split; [|congruence]. intros u. split; [|intros (-> & _); exact R]. intros E. split; [congruence|]. exists pre, o, post, w1, t1. auto.
Qed.
