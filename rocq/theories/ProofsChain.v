(* ProofsChain.v -- proofs for C129: a program driven by its end callback. *)
From Verif Require Import ZLib SpecLate SpecChain ProofsBuffer ProofsWorld ProofsStation ProofsRequest ProofsLoco ProofsCrc ProofsText ProofsStream ProofsConsumer ProofsSafe ProofsWork ProofsRecover ProofsCatalog ProofsPassive ProofsLate.

(** ** Making ready completes nothing *)
Lemma passive_late : late passive. Proof. intros h e _. reflexivity. Qed.
Lemma like_early : forall lw o, like (rstep lw passive (rexec lw passive 0) o) (rstep lw passive (rexec lw passive 0) o) ->
  forall w w1 t1, step lw o w = Ok (w1, t1) -> Forall early t1.
Proof.
  intros lw o K w w1 t1 E.
  assert (P : run lw [o] w = Ok (w1, t1)) by (cbn [run]; unfold World.seq; rewrite E; cbn; rewrite app_nil_r; reflexivity).
  apply (passive_run lw passive 0 [o] w [] w1 t1 (fun _ => eq_refl)) in P.
  change (rexec lw passive 1 (ops_code [o])) with (rstep lw passive (rexec lw passive 0) o ~;; rexec lw passive 1 Ret) in P.
  destruct (K (mkR w [])) as (_ & t & T & F). unfold rbind in P. destruct (rstep lw passive (rexec lw passive 0) o (mkR w [])) as ([[]|u] & s1); [|discriminate P].
  rewrite ret_exec in P. injection P as ->. cbn in T. subst t1. exact F.
Qed.
Lemma ready_early : forall lw s p w w1 t1, run lw (make_ready s p) w = Ok (w1, t1) -> Forall early t1.
Proof.
  intros lw s p w w1 t1 E. unfold make_ready in E. cbn [run] in E. apply seq_inv in E. destruct E as (wa & ta & tb & Ea & Eb & ->).
  apply seq_inv in Eb. destruct Eb as (wb & tc & td & Ec & Ed & ->). inversion Ed; subst. rewrite app_nil_r. apply Forall_app. split.
  - eapply (like_early lw (OnStation s FinishCurrentConfigRequest)); [|exact Ea]. apply (k_finish lw passive (rexec lw passive 0) (rexec lw passive 0) passive_late (ret_exec lw passive 0) (ret_exec lw passive 0)).
  - eapply (like_early lw (ParserReset p)); [|exact Ec]. apply (k_reset passive (rexec lw passive 0) (rexec lw passive 0) passive_late (ret_exec lw passive 0) (ret_exec lw passive 0)).
Qed.

(** ** The last frame of an answer *)
Definition is_complete (e : event) : bool := match e with EvEndComplete _ _ => true | _ => false end.
Definition incomplete (t : list event) : Prop := Forall (fun e => is_complete e = false) t.
Lemma early_incomplete : forall t, Forall early t -> incomplete t.
Proof. intros t. apply Forall_impl. intros e. unfold early. destruct e; cbn; auto; discriminate. Qed.
Lemma notes_incomplete : forall t, (forall cb c, ~ In (EvEndComplete cb c) (notes t)) -> incomplete t.
Proof.
  intros t H. apply Forall_forall. intros e IN. destruct e; try reflexivity. exfalso. eapply H. unfold notes. apply filter_In. split; [exact IN|reflexivity].
Qed.
Lemma complete_last : forall c w w' t e cb, cons_complete c w = Ok (w', t) -> consumer_at w c (LocoC (Def (Some e)) (Def (Some cb))) ->
  w_conss w' = w_conss w /\ exists t0, t = t0 ++ [EvEndComplete cb c] /\ incomplete t0.
Proof.
  intros c w w' t e cb H C. unfold cons_complete in H. destruct (emit_ask _ _ _ _ _ _ _ H) as (o & t1 & F & K & ->).
  rewrite (get_cons_ok _ _ _ C) in F. injection F as <-. apply ask_inv in K. destruct K as (x & X & K). injection X as <-. apply ask_inv in K. destruct K as (l & _ & K).
  apply seq_inv in K. destruct K as (w1 & ta & tb & A & K & ->). inversion A; subst. clear A.
  apply seq_inv in K. destruct K as (w2 & ta & tc & A & K & ->). inversion A; subst. clear A.
  apply seq_inv in K. destruct K as (w3 & ta & td & A & K & ->). unfold print_res in A. apply ask_inv in A. destruct A as (bs & _ & A). inversion A; subst. clear A.
  apply seq_inv in K. destruct K as (w4 & ta & te & A & K & ->). inversion A; subst. clear A.
  apply ask_inv in K. destruct K as (y & Y & K). injection Y as <-. cbn [when_some] in K. inversion K; subst.
  split; [reflexivity|]. eexists (EvStreamComplete c :: [] ++ [_] ++ [_] ++ [_]). split; [reflexivity|]. repeat constructor.
Qed.

Lemma chain_stream : forall lw p c e cb deliver pre (Q : world -> Prop) hd ds n crc a w sp l w4 t4,
  (forall w w', w_stations w' = w_stations w -> Q w -> Q w') ->
  (forall w sp d, lib_at w p sp -> in_progress sp = true -> Q w -> payload_ok d ->
    step lw (deliver d) w = match lib_addMessage lw p d w with Ok (w', t) => Ok (w', pre d ++ t) | UB u => UB u end) ->
  (forall d, notes (pre d) = []) -> (forall d, console (pre d) = []) ->
  lib_at w p sp -> sp_state sp = SS_FIRST -> sp_crc sp = crc_reset -> sp_cons sp = Some c ->
  sp_text sp = parser a (Some c) -> fits a -> header_for hd (8 * n) crc -> 0 < n -> 8 * n < 4294967296 -> Forall data_frame ds -> zlen ds = n ->
  Forall line_fits (lines_of a ds) -> Q w ->
  consumer_at w c (LocoC (Def (Some e)) (Def (Some cb))) -> engine_at w e l -> List.length (lo_proto l) = 8%nat ->
  verdict (received ds) crc = true -> run lw (map deliver (hd :: ds)) w = Ok (w4, t4) ->
  exists ds0 d w1 t1 t2, ds = ds0 ++ [d] /\ run lw (map deliver (hd :: ds0)) w = Ok (w1, t1) /\ incomplete t1 /\
    step lw (deliver d) w1 = Ok (w4, t2 ++ [EvEndComplete cb c]) /\ incomplete t2 /\ t4 = t1 ++ t2 ++ [EvEndComplete cb c] /\ w_conss w4 = w_conss w.
Proof.
  intros lw p c e cb deliver pre Q hd ds n crc a w sp l w4 t4 HQ HD HN HP L S C QC T F HF N0 N1 D ZL O HQw HC HE P8 V E4.
  set (I := fun rs w' => w_conss w' = w_conss w /\ w_engines w' = upd e (after_lines lw l rs) (w_engines w)).
  assert (HI : forall rs w0 x, I rs w0 -> I rs (with_parser w0 p x)) by (intros rs w0 x H; exact H).
  assert (HC1 : forall rs s k v0 w0, line_fits (s, k, v0) -> I rs w0 ->
    exists w' t, cons_consume lw c (zb max_section s) (zb max_key k) (zb max_value v0) w0 = Ok (w', t) /\ I (rs ++ [(s, k, v0)]) w' /\ w_parsers w' = w_parsers w0 /\ w_stations w' = w_stations w0 /\
      notes t = [] /\ (fun _ : list report => @nil Z) (rs ++ [(s, k, v0)]) = (fun _ : list report => @nil Z) rs ++ console t).
  { intros rs s k v0 w0 (_ & _ & VV) (HC0 & HE0).
    assert (E0 : engine_at w0 e (after_lines lw l rs)) by (unfold engine_at; rewrite HE0; eapply upd_at; exact HE).
    assert (C0 : consumer_at w0 c (LocoC (Def (Some e)) (Def (Some cb)))) by (unfold consumer_at; rewrite HC0; exact HC).
    eexists. eexists. split; [apply (consume_loco _ _ _ _ _ _ _ _ _ C0 E0 (lines_proto _ _ _ P8) VV)|].
    split; [|split; [reflexivity|split; [reflexivity|split; reflexivity]]]. split; [exact HC0|]. cbn [with_engine w_engines]. rewrite HE0, upd_upd, lines_snoc. reflexivity. }
  assert (H0 : I [] w) by (split; [reflexivity|cbn; symmetry; apply upd_same_id; exact HE]).
  destruct (header_decodes _ _ _ HF) as (HL & HCR). destruct HF as (PH & DH & _).
  assert (IP : in_progress sp = true) by (unfold in_progress; rewrite S; reflexivity).
  pose proof (HD _ _ _ L IP HQw PH) as E0. rewrite (add_header lw w p sp (Some c) hd L S DH ltac:(lia) QC C a T) in E0.
  rewrite HL, HCR in E0. set (w0 := with_parser w p _) in E0.
  assert (L0 : lib_at w0 p (body_sp (8 * n) crc [] a (Some c) SS_DATA)) by (eapply lib_with; exact L).
  assert (DS : exists ds0 d, ds = ds0 ++ [d]). { destruct (@exists_last _ ds) as (x & y & E). intros X. subst ds. unfold zlen in ZL. cbn in ZL. lia. eauto. }
  destruct DS as (ds0 & d & ->). apply Forall_app in D. destruct D as (D0 & D1). assert (H2 : data_frame d) by (inversion D1; assumption). clear HL HCR. subst n.
  assert (ZN : zlen (ds0 ++ [d]) = zlen ds0 + 1) by (unfold zlen; rewrite app_length; cbn [List.length]; lia). rewrite ZN in *.
  assert (LN : lines_of a (ds0 ++ [d]) = lines_of a ds0 ++ snd (aadd (auto_after a ds0) (content d))).
  { unfold lines_of, auto_after. rewrite map_app. change (map content [d]) with [content d]. rewrite aadds_snoc. reflexivity. }
  assert (RC : received (ds0 ++ [d]) = [] ++ received ds0 ++ content d) by (rewrite received_app; unfold received at 2; cbn [flat_map]; rewrite app_nil_r; reflexivity).
  rewrite LN in O. apply Forall_app in O. destruct O as (O1 & O2).
  assert (B1 : 8 * zlen ds0 < 8 * (zlen ds0 + 1) < 4294967296) by lia.
  destruct (body_run lw p c I line_fits deliver pre Q (fun _ => []) HI HC1 HQ HD HN HP ds0 _ crc [] a [] w0 L0 F D0 B1 O1 (HI _ _ _ H0) (HQ w w0 eq_refl HQw)) as (w1 & t1 & E1 & L1 & I1 & NN1 & Y1 & S1 & P1).
  replace (8 * (zlen ds0 + 1) - 8 * zlen ds0) with 8 in L1, P1 by lia.
  assert (FA : fits (auto_after a ds0)) by (apply after_fits; exact F).
  assert (SS1 : w_stations w1 = w_stations w) by (rewrite S1; reflexivity).
  destruct (last_run lw p c I line_fits deliver pre Q (fun _ => []) HI HC1 HD HN HP d crc ([] ++ received ds0) (auto_after a ds0) _ w1 L1 FA H2 O2 I1 (HQ _ _ SS1 HQw)) as (w2 & t2 & L2 & I2 & NN2 & Y2 & S2 & P2 & E2).
  assert (VV : verdict (([] ++ received ds0) ++ content d) crc = true) by (rewrite <- V, RC; reflexivity).
  rewrite VV in E2.
  assert (E3 : run lw (map deliver (hd :: ds0)) w = Ok (w1, (pre hd ++ []) ++ t1)) by (cbn [map run]; rewrite (seq_ok _ _ _ _ _ E0), E1; reflexivity).
  change (hd :: ds0 ++ [d]) with ((hd :: ds0) ++ [d]) in E4. rewrite map_app, (run_app _ _ _ _ _ _ E3) in E4. cbn [map run] in E4. unfold World.seq in E4. rewrite E2 in E4.
  destruct (cons_complete c w2) as [[w5 t5]|u] eqn:CC; [|discriminate E4]. cbn [bind skip] in E4. rewrite app_nil_r in E4. injection E4 as <- <-.
  assert (C2 : consumer_at w2 c (LocoC (Def (Some e)) (Def (Some cb)))) by (unfold consumer_at; rewrite (proj1 I2); exact HC).
  destruct (complete_last _ _ _ _ _ _ CC C2) as (WC & t6 & -> & I6).
  exists ds0, d, w1, ((pre hd ++ []) ++ t1), (t2 ++ t6). split; [reflexivity|]. split; [exact E3|].
  split; [apply notes_incomplete; rewrite !notes_app, HN, NN1; intros cb' c' []|]. split; [rewrite E2, app_assoc; reflexivity|].
  split; [apply Forall_app; split; [apply notes_incomplete; rewrite NN2; intros cb' c' []|exact I6]|]. split; [rewrite !app_assoc, !app_nil_r; reflexivity|]. rewrite WC. apply (proj1 I2).
Qed.

Lemma run_usable : forall lw ops w w' t, all_usable w -> Forall frames_ok ops -> run lw ops w = Ok (w', t) -> all_usable w'.
Proof.
  intros lw. induction ops as [|o ops IH]; intros w w' t U F H; cbn [run] in H; [injection H as <- <-; exact U|]. apply seq_inv in H. destruct H as (w1 & t1 & t2 & H1 & H2 & ->). inversion F; subst.
  eapply IH; [|eassumption|eassumption]. eapply k_step; eauto.
Qed.
Lemma traced : forall lw cat answer s p c e cb e0 id name x w, 32 <= lw -> serves cat answer -> config_id id -> nulfree name ->
  find (fun y => same_text (e_name y) (firstn 16 name)) cat = Some x ->
  equipped w s p -> consumer_at w c (LocoC e0 (Def (Some cb))) -> has_engine w e ->
  exists w3 t3 hd ds0 d wa ta w4 tb, run lw (ask_for s p c (e, name)) w = Ok (w3, t3) /\ incomplete t3 /\ sent t3 <> [] /\ answer (sent t3) = (hd, ds0 ++ [d]) /\
    run lw (arriving s id (hd :: ds0)) w3 = Ok (wa, ta) /\ incomplete ta /\ step lw (OnStation s (HandlePacket (mkFrame id d))) wa = Ok (w4, tb ++ [EvEndComplete cb c]) /\ incomplete tb /\
    sent (ta ++ tb ++ [EvEndComplete cb c]) = [] /\
    equipped w4 s p /\ w_engines w4 = upd e (filed name x) (w_engines w) /\ same_objects w w4 /\ consumer_at w4 c (LocoC (Def (Some e)) (Def (Some cb))).
Proof.
  intros lw cat answer s p c e cb e0 id name x w LW SV ID NF FD EQ C HE.
  destruct (one_engine lw cat answer s p c e id name x w LW SV ID NF FD EQ (ex_intro _ e0 (ex_intro _ (Def (Some cb)) C)) HE) as (wf & FE & _ & EQf & WEf & SOf & _).
  destruct EQ as (S & (st & Q) & P). destruct HE as (l & EL).
  destruct (made_ready lw w s st p S Q P) as (w1 & t1 & E1 & R & _). pose proof (ready_sends _ _ _ _ _ _ S E1) as T1. pose proof (ready_early _ _ _ _ _ _ E1) as RE.
  destruct R as [S1 Q1 L1 EN C1]. destruct (sound_tx _ _ _ S1 Q1) as (tx & T). destruct (C1 _ _ C) as (x' & C' & M).
  assert (x' = LocoC e0 (Def (Some cb))) by (destruct M as [M|(?&?&?&?&?&M&_)]; [exact M|discriminate]). subst x'.
  assert (N32 : nulfree (firstn 32 name)) by (apply nulfree_firstn; exact NF).
  assert (L32 : (List.length (firstn 32 name) <= 32)%nat) by (rewrite firstn_length; lia).
  assert (EL1 : engine_at w1 e l) by (unfold engine_at; rewrite EN; exact EL).
  set (fresh := mkLoco (named (firstn 32 name)) ld_reset (repeat 0 8)).
  assert (ER : step lw (OnEngine e (ESetName (name ++ [0]))) w1 = Ok (mkW (w_stations w1) (w_parsers w1) (w_conss w1) (upd e fresh (w_engines w1)), [])).
  { cbn [step]. unfold ask, get_engine, at_. rewrite EL1. cbn [bind eop_apply]. unfold lo_setName. change (si_name (lo_info lo_reset)) with erased_name. rewrite name_copy by exact NF. reflexivity. }
  set (w2 := mkW (w_stations w1) (w_parsers w1) (w_conss w1) (upd e fresh (w_engines w1))) in *.
  assert (EL2 : engine_at w2 e fresh) by (eapply upd_at; exact EL1).
  assert (B : between_lines (blank SS_IDLE None) []) by (split; [reflexivity|cbn; lia]).
  assert (SN : shows_name (si_name (lo_info fresh)) (firstn 32 name)) by (split; [exact N32|]; split; [exact L32|reflexivity]).
  assert (AV : si_avail (lo_info fresh) <> EMPTY) by discriminate.
  pose proof (engine_prefix lw w2 s (now_using st None) tx p c e _ [] (Def (Some cb)) e0 fresh (firstn 32 name) Q1 T eq_refl L1 B C' EL2 AV SN) as E3. cbv zeta in E3.
  change (st_hash (now_using st None)) with (st_hash st) in E3.
  set (sp1 := mkSP SS_FIRST _ _ _ _) in E3. set (w3 := mkW _ _ _ _) in E3.
  assert (E4 : run lw (ask_for s p c (e, name)) w = Ok (w3, t1 ++ EvCfg p CStart :: map (EvTx tx) (engine_request (st_hash st) (firstn 32 name)))).
  { unfold ask_for. cbn [fst snd]. rewrite (run_app _ _ _ _ _ _ E1). cbn [run]. unfold World.seq at 1. rewrite ER. cbn [bind]. cbn [run] in E3. rewrite E3. reflexivity. }
  set (t3 := t1 ++ _) in *.
  assert (SE : sent t3 = engine_request (st_hash st) (firstn 32 name)).
  { unfold t3. rewrite sent_app, T1. change (sent (EvCfg p CStart :: ?l)) with (sent l). apply sent_tx. }
  pose proof (SV _ _ (any_wish (st_hash st) name (proj2 Q) NF)) as GA. cbn [good_answer] in GA. rewrite FD in GA.
  destruct (answer (engine_request (st_hash st) (firstn 32 name))) as (hd & ds) eqn:AN. cbn [fst snd] in GA.
  destruct GA as (d & (crc & HF & CK & NE & SZ & DF) & CA & (DO & LF & _)).
  destruct (doc_lines ds d [] DO CA) as (DL & DA).
  assert (L3 : lib_at w3 p sp1) by (eapply lib_upd; exact L1).
  assert (Q3 : nth_error (w_stations w3) s = Some (now_using st (Some p))) by (eapply upd_at; apply (proj1 Q1)).
  assert (H16 : is_u16 (st_hash (now_using st (Some p)))) by (apply (proj2 Q)).
  assert (C3 : consumer_at w3 c (LocoC (Def (Some e)) (Def (Some cb)))) by (eapply upd_at; exact C').
  assert (VT : verdict (received ds) crc = true) by (apply verdict_true; exact CK).
  unfold fetch_engine, ask_master in FE. unfold ask_for in E4. cbn [fst snd] in E4. rewrite E4 in FE. cbn [bind] in FE. rewrite SE, AN in FE. cbn [fst snd] in FE.
  destruct (run lw (arriving s id (hd :: ds)) w3) as [[w4 t4]|u] eqn:E5; [|discriminate FE]. cbn [bind] in FE. unfold get_engine, at_ in FE. destruct (nth_error (w_engines w4) e) as [lf|]; [|discriminate FE]. cbn [bind] in FE. injection FE as -> ->.
  destruct (chain_stream lw p c e cb (fun d => OnStation s (HandlePacket (mkFrame id d))) (fun d => [EvCfg p (CAdd d)]) (fun w => nth_error (w_stations w) s = Some (now_using st (Some p)))
     hd ds (zlen ds) crc (mkA Between [] [] []) w3 sp1 fresh wf t4) as (ds0 & d0 & wa & ta & tb & -> & EA & IA & EB & IB & -> & WC); try assumption; try reflexivity.
  - intros wx wy Y1 Y2. rewrite Y1. exact Y2.
  - intros. eapply config_deliver; try eassumption. reflexivity.
  - apply sec_fits. cbn. lia.
  - apply nonempty_pos. exact NE.
  - rewrite DL. exact LF.
  - assert (FO : Forall frames_ok (arriving s id (hd :: ds0 ++ [d0]))).
    { unfold arriving. apply Forall_map. constructor; [exact (proj1 HF)|]. eapply Forall_impl; [|exact DF]. intros y Y. exact (proj1 Y). }
    assert (U3 : all_usable w3).
    { eapply (run_usable lw); [apply usable_all; exact S| |exact E4]. repeat constructor. }
    assert (SX : sent (ta ++ tb ++ [EvEndComplete cb c]) = []).
    { apply sent_none. destruct (history_cost lw _ w3 wf _ U3 FO E5) as (_ & _ & H & _).
      assert (Z : forall l, list_sum (map SpecWork.may_send (arriving s id l)) = 0%nat) by (induction l0; [reflexivity|exact IHl0]). rewrite Z in H. lia. }
    exists w3, t3, hd, ds0, d0, wa, ta, wf, tb. split; [exact E4|]. split.
    { unfold t3. apply Forall_app. split; [apply early_incomplete; exact RE|]. constructor; [reflexivity|]. apply Forall_map. apply Forall_forall. intros. reflexivity. }
    split; [rewrite SE; discriminate|]. split; [rewrite SE; exact AN|]. split; [exact EA|]. split; [exact IA|]. split; [exact EB|]. split; [exact IB|]. split; [exact SX|]. split; [exact EQf|]. split; [exact WEf|]. split; [exact SOf|].
    unfold consumer_at. rewrite WC. exact C3.
Qed.

(** ** Running with the callback *)
Section Run.
Variables (lw : Z) (s p c : nat) (jobs : list job).
Notation react := (next_job s p c jobs).
Lemma next_late : late react.
Proof. intros h e E. unfold next_job. rewrite rev_app_distr. cbn [rev app]. destruct e; try reflexivity. discriminate E. Qed.
Lemma to_do_none : forall w a t, incomplete t -> to_do react w a t = Ret.
Proof.
  intros w a t F. unfold to_do. destruct (rev t) as [|e r] eqn:R; [reflexivity|]. destruct (told_user w e); [|reflexivity].
  unfold next_job. rewrite rev_app_distr, R. cbn [app]. assert (IN : In e t) by (apply in_rev; rewrite R; left; reflexivity).
  unfold incomplete in F. rewrite Forall_forall in F. specialize (F e IN). destruct e; try reflexivity. discriminate F.
Qed.
Lemma run_quiet : forall n ops rest k w t w1 t1, run lw ops w = Ok (w1, t1) -> incomplete t1 ->
  rexec lw react (S n) (then_do (ops ++ rest) k w t) (mkR w t) = rexec lw react (S n) (then_do rest k w1 (t ++ t1)) (mkR w1 (t ++ t1)).
Proof.
  intros n ops rest k. induction ops as [|o ops IH]; intros w t w1 t1 E F; [inversion E; subst; rewrite app_nil_r; reflexivity|].
  cbn [run] in E. apply seq_inv in E. destruct E as (w2 & t2 & t3 & E1 & E2 & ->). apply Forall_app in F. destruct F as (F1 & F2).
  cbn [app then_do]. rewrite (late_call lw react n o _ w w2 t t2 next_late E1). rewrite (to_do_none _ _ _ F1). unfold rbind. rewrite ret_exec. cbn [r_w r_t].
  rewrite (IH w2 (t ++ t2) w1 t3 E2 F2), !app_assoc. reflexivity.
Qed.
Lemma ops_quiet : forall n ops w t w1 t1, run lw ops w = Ok (w1, t1) -> incomplete t1 ->
  rexec lw react (S n) (ops_code ops) (mkR w t) = (Ok tt, mkR w1 (t ++ t1)).
Proof.
  intros n ops. induction ops as [|o ops IH]; intros w t w1 t1 E F; [inversion E; subst; rewrite app_nil_r; reflexivity|].
  cbn [run] in E. apply seq_inv in E. destruct E as (w2 & t2 & t3 & E1 & E2 & ->). apply Forall_app in F. destruct F as (F1 & F2).
  change (ops_code (o :: ops)) with (Call o (fun _ _ => ops_code ops)). rewrite (late_call lw react n o _ w w2 t t2 next_late E1). rewrite (to_do_none _ _ _ F1). unfold rbind. rewrite ret_exec. cbn [r_w r_t].
  rewrite (IH w2 (t ++ t2) w1 t3 E2 F2), !app_assoc. reflexivity.
Qed.
Lemma completions_app : forall a b, completions c (a ++ b) = (completions c a + completions c b)%nat.
Proof. intros. unfold completions. rewrite filter_app, app_length. reflexivity. Qed.
Lemma completions_none : forall t, incomplete t -> completions c t = 0%nat.
Proof. induction t as [|e t IH]; intros F; [reflexivity|]. inversion F; subst. unfold completions in *. cbn [filter]. destruct e; cbn [completes]; try (apply IH; assumption). discriminate. Qed.
Lemma completions_one : forall cb, completions c [EvEndComplete cb c] = 1%nat.
Proof. intros. unfold completions. cbn [filter completes]. rewrite Nat.eqb_refl. reflexivity. Qed.

Variables (cat : catalogue) (answer : list CanFrame -> Data * list Data) (id : Z).
Hypothesis LW : 32 <= lw.
Hypothesis SV : serves cat answer.
Hypothesis ID : config_id id.
Fixpoint stored (js : list job) (xs : list entry) (l : list Loco) : list Loco :=
  match js, xs with j :: js', x :: xs' => stored js' xs' (upd (fst j) (filed (snd j) x) l) | _, _ => l end.
Lemma still_reports : forall w w' e e' cb, same_objects w w' -> consumer_at w' c (LocoC e' (Def (Some cb))) -> consumer_at w c (LocoC e (Def (Some cb))) -> reports_to_user w' c.
Proof. intros. eexists. eexists. eassumption. Qed.
Lemma still_able : forall w w' j x, same_objects w w' -> can_be_done cat w j x -> can_be_done cat w' j x.
Proof. intros w w' j x SO (A & B & C). split; [eapply still_engine; eassumption|]. split; assumption. Qed.

Lemma two_inv : forall A B (R : A -> B -> Prop) a l b m, Forall2 R (a :: l) (b :: m) -> R a b /\ Forall2 R l m.
Proof. intros A B R a l b m H. inversion H; auto. Qed.
Lemma skip_nth : forall A k (l : list A) x r, skipn k l = x :: r -> nth_error l (S k) = nth_error r 0 /\ skipn (S k) l = r /\ List.length l = (S k + List.length r)%nat.
Proof.
  induction k as [|k IH]; intros l x r H; [cbn in H; subst l; repeat split; destruct r; reflexivity|]. destruct l as [|y l]; [discriminate H|]. cbn [skipn] in H. destruct (IH l x r H) as (A1 & A2 & A3).
  split; [exact A1|]. split; [exact A2|]. cbn [List.length]. lia.
Qed.
Lemma chain : forall n js xs j x k rounds T T0 T1 t3 w w3,
  skipn k jobs = j :: js -> (List.length js < rounds)%nat -> Forall2 (can_be_done cat w) (j :: js) (x :: xs) ->
  equipped w s p -> reports_to_user w c -> run lw (ask_for s p c j) w = Ok (w3, t3) -> T = T0 ++ T1 ++ t3 -> sent T1 = [] -> completions c T = k ->
  exists w' T', rexec lw react (S (S n)) (main_loop s id answer rounds (List.length T0) w3 T) (mkR w3 T) = (Ok tt, mkR w' T') /\
    equipped w' s p /\ same_objects w w' /\ w_engines w' = stored (j :: js) (x :: xs) (w_engines w) /\ completions c T' = List.length jobs.
Proof.
  intros n. induction js as [|j2 js IH]; intros xs j x k rounds T T0 T1 t3 w w3 HJ HR F2 EQ (e0 & cb & C) E3 HT HS HC;
    (destruct rounds as [|rounds]; [inversion HR|]); apply two_inv in F2; destruct F2 as ((HE & NF & FD) & F3); subst T; destruct j as (e & name); cbn [fst snd] in *;
    destruct (traced lw cat answer s p c e cb e0 id name x w LW SV ID NF FD EQ C HE) as (w3' & t3' & hd & ds0 & d & wa & ta & w4 & tb & E3' & I3 & NS & AN & EA & IA & EB & IB & SX & EQ4 & WE4 & SO4 & C4);
    rewrite E3 in E3'; injection E3' as <- <-; set (T := T0 ++ T1 ++ t3) in *.
  all: assert (SK : sent (skipn (List.length T0) T) = sent t3) by (unfold T; rewrite skipn_app, skipn_all, Nat.sub_diag; cbn [app skipn]; rewrite sent_app, HS; reflexivity).
  all: cbn [main_loop]; rewrite SK; destruct (sent t3) as [|f fs] eqn:FS; [congruence|]; rewrite AN; cbn [fst snd].
  all: change (hd :: ds0 ++ [d]) with ((hd :: ds0) ++ [d]); unfold arriving in EA |- *; rewrite map_app, (run_quiet (S n) _ _ _ w3 T wa ta EA IA).
  all: cbn [map then_do]; rewrite (late_call lw react (S n) _ _ wa w4 (T ++ ta) _ next_late EB).
  all: unfold to_do; rewrite rev_app_distr; cbn [rev app told_user comes_last andb]; unfold next_job at 2; rewrite !app_assoc, rev_app_distr; cbn [rev app completes]; rewrite Nat.eqb_refl.
  all: rewrite !completions_app, completions_one, (completions_none ta IA), (completions_none tb IB); rewrite HC.
  all: destruct (skip_nth _ _ _ _ _ HJ) as (HN & HK & HL).
  all: replace (k + 0 + 0 + 1)%nat with (S k) by lia; rewrite HN; cbn [nth_error].
  all: assert (CK : completions c (((T ++ ta) ++ tb) ++ [EvEndComplete cb c]) = S k) by (rewrite !completions_app, completions_one, (completions_none ta IA), (completions_none tb IB), HC; lia).
  all: unfold rbind; replace (((T ++ ta) ++ tb) ++ [EvEndComplete cb c]) with (T ++ ta ++ tb ++ [EvEndComplete cb c]) in * by (rewrite !app_assoc; reflexivity).
  - rewrite ret_exec. cbn [r_w r_t]. exists w4. eexists. split; [|split; [exact EQ4|split; [exact SO4|split]]].
    + destruct rounds as [|r]; cbn [main_loop]; [reflexivity|]. rewrite skipn_app, skipn_all, Nat.sub_diag. cbn [app skipn]. rewrite SX. reflexivity.
    + inversion F3; subst. exact WE4.
    + rewrite HL, CK. cbn [List.length]. lia.
  - destruct xs as [|x2 xs]; [inversion F3|]. assert (F4 : Forall2 (can_be_done cat w4) (j2 :: js) (x2 :: xs)).
    { clear - F3 SO4. induction F3; constructor; [eapply still_able; eassumption|assumption]. }
    pose proof (two_inv _ _ _ _ _ _ _ F4) as ((HE2 & NF2 & FD2) & _). destruct j2 as (e2 & name2). cbn [fst snd] in HE2, NF2, FD2.
    destruct (traced lw cat answer s p c e2 cb (Def (Some e)) id name2 x2 w4 LW SV ID NF2 FD2 EQ4 C4 HE2) as (w5 & t5 & _ & _ & _ & _ & _ & _ & _ & E5 & I5 & _).
    rewrite (ops_quiet n _ w4 _ w5 t5 E5 I5). cbn [r_w r_t].
    destruct (IH xs (e2, name2) x2 (S k) rounds ((T ++ ta ++ tb ++ [EvEndComplete cb c]) ++ t5) T (ta ++ tb ++ [EvEndComplete cb c]) t5 w4 w5) as (w' & T' & EX & EQ' & SO' & WE' & CC); try assumption.
    + cbn [List.length] in HR. lia.
    + eexists. eexists. exact C4.
    + rewrite <- !app_assoc. reflexivity.
    + rewrite completions_app, CK, (completions_none t5 I5). lia.
    + exists w', T'. split; [exact EX|]. split; [exact EQ'|]. split; [eapply same_trans; eassumption|]. split; [rewrite WE', WE4; reflexivity|exact CC].
Qed.

Lemma upd_other : forall A i k (x : A) l, k <> i -> nth_error (upd i x l) k = nth_error l k.
Proof. intros A. induction i; intros k x [|y l] H; destruct k; cbn; try reflexivity; try congruence. apply IHi. congruence. Qed.
Lemma stored_other : forall js xs l k, ~ In k (map fst js) -> nth_error (stored js xs l) k = nth_error l k.
Proof.
  induction js as [|j js IH]; intros xs l k H; [reflexivity|]. destruct xs as [|x xs]; [reflexivity|]. cbn [stored]. cbn [map In] in H. rewrite IH by tauto. apply upd_other. intros E. apply H. left. congruence.
Qed.
Lemma stored_own : forall js xs l, NoDup (map fst js) -> Forall2 (fun j (x : entry) => exists y, nth_error l (fst j) = Some y) js xs ->
  Forall2 (fun j x => nth_error (stored js xs l) (fst j) = Some (filed (snd j) x)) js xs.
Proof.
  induction js as [|j js IH]; intros xs l ND F; inversion F as [|? x ? xs' (y & Y) F']; subst; [constructor|]. cbn [map] in ND. inversion ND as [|? ? NI ND']; subst. constructor.
  - cbn [stored]. rewrite stored_other by exact NI. eapply upd_at. exact Y.
  - cbn [stored]. apply IH; [exact ND'|]. clear - F' NI. induction F' as [|j2 x2 js xs (y2 & Y2) F IH]; constructor.
    + exists y2. rewrite upd_other; [exact Y2|]. intros E. apply NI. rewrite <- E. left. reflexivity.
    + apply IH. intros H. apply NI. right. exact H.
Qed.
End Run.

Lemma two_impl : forall A B (R R' : A -> B -> Prop) l m, (forall a b, R a b -> R' a b) -> Forall2 R l m -> Forall2 R' l m.
Proof. intros A B R R' l m H F. induction F; constructor; auto. Qed.
Lemma driven : forall lw cat answer s p c id jobs xs n rounds w, 32 <= lw -> serves cat answer -> config_id id -> equipped w s p -> reports_to_user w c ->
  Forall2 (can_be_done cat w) jobs xs -> NoDup (map fst jobs) -> (List.length jobs <= rounds)%nat ->
  exists w' t', rexec lw (next_job s p c jobs) (S (S n)) (driven_by_callback s p c id answer jobs rounds w) (mkR w []) = (Ok tt, mkR w' t') /\
    Forall2 (is_done w') jobs xs /\ (forall k, ~ In k (map fst jobs) -> nth_error (w_engines w') k = nth_error (w_engines w) k) /\
    completions c t' = List.length jobs /\ equipped w' s p.
Proof.
  intros lw cat answer s p c id jobs xs n rounds w LW SV ID EQ (e0 & cb & C) F2 ND HR. destruct jobs as [|j js]; [inversion F2; subst; exists w, []; repeat split; auto; apply EQ|].
  destruct xs as [|x xs]; [inversion F2|]. pose proof (two_inv _ _ _ _ _ _ _ F2) as ((HE & NF & FD) & _). destruct j as (e & name). cbn [fst snd] in *.
  destruct (traced lw cat answer s p c e cb e0 id name x w LW SV ID NF FD EQ C HE) as (w3 & t3 & _ & _ & _ & _ & _ & _ & _ & E3 & I3 & _).
  destruct (chain lw s p c ((e, name) :: js) cat answer id LW SV ID n js xs (e, name) x 0 rounds t3 [] [] t3 w w3) as (w' & T' & EX & EQ' & SO & WE & CC); try assumption; try reflexivity.
  - exists e0, cb. exact C.
  - apply completions_none. exact I3.
  - exists w', T'. split; [|split; [|split; [|split; [exact CC|exact EQ']]]].
    + unfold driven_by_callback. rewrite <- (app_nil_r (ask_for s p c (e, name))). rewrite (run_quiet lw s p c ((e, name) :: js) (S n) _ [] _ w [] w3 t3 E3 I3). cbn [then_do app]. exact EX.
    + pose proof (stored_own _ (x :: xs) (w_engines w) ND) as SO1. rewrite <- WE in SO1.
      assert (FF : Forall2 (fun j (_ : entry) => exists y, nth_error (w_engines w) (fst j) = Some y) ((e, name) :: js) (x :: xs)) by (eapply two_impl; [|exact F2]; intros a b (H & _); exact H).
      specialize (SO1 FF). clear - SO1 F2 LW SV ID EQ C. revert SO1 F2. generalize ((e, name) :: js) as a. generalize (x :: xs) as b. intros b a SO1. induction SO1 as [|j' x' a' b' H F IH]; intros F2; [constructor|]. apply two_inv in F2. destruct F2 as ((HE' & NF' & FD') & F2). constructor; [|apply IH; exact F2].
      exists (filed (snd j') x'). split; [exact H|]. split; [|reflexivity].
      assert (EC : an_engine_consumer w c) by (exists e0, (Def (Some cb)); exact C). destruct (one_engine lw cat answer s p c (fst j') id (snd j') x' w LW SV ID NF' FD' EQ EC HE') as (_ & _ & EO & _). exact EO.
    + intros k H. rewrite WE. apply stored_other. exact H.
Qed.
Lemma map_fst_combine : forall A B (l : list A) (m : list B), List.length l = List.length m -> map fst (combine l m) = l.
Proof. induction l as [|a l IH]; intros [|b m] H; try discriminate; [reflexivity|]. cbn in *. rewrite IH by congruence. reflexivity. Qed.
Lemma driven_catalogue : forall lw cat answer s p c id engines n rounds w, 32 <= lw -> serves cat answer -> config_id id -> equipped w s p -> reports_to_user w c ->
  NoDup (map e_name cat) -> Forall (fun x => name_fits (e_name x)) cat -> NoDup engines -> Forall (has_engine w) engines -> List.length engines = List.length cat ->
  (List.length cat <= rounds)%nat ->
  let jobs := combine engines (map e_name cat) in
  exists w' t', rexec lw (next_job s p c jobs) (S (S n)) (driven_by_callback s p c id answer jobs rounds w) (mkR w []) = (Ok tt, mkR w' t') /\
    Forall2 (fun e x => exists l, engine_at w' e l /\ entry_of l = x /\ si_avail (lo_info l) = FULL_DETAILS) engines cat.
Proof.
  intros lw cat answer s p c id engines n rounds w LW SV ID EQ RU ND NF NE HE LE HR jobs.
  assert (LM : List.length engines = List.length (map e_name cat)) by (rewrite map_length; exact LE).
  destruct (driven lw cat answer s p c id jobs cat n rounds w LW SV ID EQ RU) as (w' & t' & EX & DN & _).
  - unfold jobs. rewrite Forall_forall in NF. assert (IN : forall x, In x cat -> find (fun y => same_text (e_name y) (firstn 16 (e_name x))) cat = Some x).
    { intros x X. rewrite firstn_all2 by apply (NF x X). apply find_own; assumption. }
    assert (G : forall l es, incl l cat -> Forall (has_engine w) es -> List.length es = List.length l -> Forall2 (can_be_done cat w) (combine es (map e_name l)) l);
      [|apply G; [intros x X; exact X|exact HE|exact LE]].
    clear - NF IN. induction l as [|x l IH]; intros [|e es] IC HE LE; try discriminate; [constructor|].
    inversion HE; subst. cbn [map combine]. constructor; [|apply IH; [intros y Y; apply IC; right; exact Y|assumption|cbn in LE; congruence]].
    assert (X : In x cat) by (apply IC; left; reflexivity). split; [assumption|]. split; [apply (NF x X)|apply IN; exact X].
  - unfold jobs. rewrite map_fst_combine by exact LM. exact NE.
  - pose proof (combine_length engines (map e_name cat)) as X. rewrite map_length in X. etransitivity; [apply Nat.eq_le_incl; exact X|lia].
  - exists w', t'. split; [exact EX|]. unfold jobs in DN. clear - DN NF LE. revert engines LE DN. induction cat as [|x l IH]; intros [|e es] LE DN; try discriminate; [constructor|].
    inversion NF as [|? ? (_ & L16) NF']; subst. cbn [map combine] in DN. apply two_inv in DN. destruct DN as ((y & A & B & C) & DN). constructor; [|apply IH; [exact NF'|cbn in LE; congruence|exact DN]].
    exists y. split; [exact A|]. split; [|exact C]. rewrite B. cbn [snd]. rewrite firstn_all2 by lia. destruct x; reflexivity.
Qed.
