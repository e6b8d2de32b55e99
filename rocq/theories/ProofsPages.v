(* ProofsPages.v -- proofs for C134: the names of a master's list, read by an end callback. *)
From Verif Require Import ZLib SpecLate SpecPages ProofsBuffer ProofsWorld ProofsStation ProofsRequest ProofsLoco ProofsCrc ProofsText ProofsStream ProofsConsumer ProofsSafe ProofsWork ProofsRecover ProofsCatalog ProofsPassive ProofsLate ProofsChain.

(** ** The last frame of an answer *)
Lemma list_chain_stream : forall lw p c co i num off cb deliver pre (Q : world -> Prop) hd ds n crc a w sp w4 t4,
  (forall w w', w_stations w' = w_stations w -> Q w -> Q w') ->
  (forall w sp d, lib_at w p sp -> in_progress sp = true -> Q w -> payload_ok d ->
    step lw (deliver d) w = match lib_addMessage lw p d w with Ok (w', t) => Ok (w', pre d ++ t) | UB u => UB u end) ->
  (forall d, notes (pre d) = []) -> (forall d, console (pre d) = []) ->
  lib_at w p sp -> sp_state sp = SS_FIRST -> sp_crc sp = crc_reset -> sp_cons sp = Some c ->
  sp_text sp = parser a (Some c) -> fits a -> header_for hd (8 * n) crc -> 0 < n -> 8 * n < 4294967296 -> Forall data_frame ds -> zlen ds = n ->
  Forall list_line_fits (lines_of a ds) -> Q w ->
  consumer_at w c (ListC co i num off (Def (Some cb))) ->
  verdict (received ds) crc = true -> run lw (map deliver (hd :: ds)) w = Ok (w4, t4) ->
  exists ds0 d w1 t1 t2, ds = ds0 ++ [d] /\ run lw (map deliver (hd :: ds0)) w = Ok (w1, t1) /\ incomplete t1 /\
    step lw (deliver d) w1 = Ok (w4, t2 ++ [EvEndComplete cb c]) /\ incomplete t2 /\ t4 = t1 ++ t2 ++ [EvEndComplete cb c].
Proof.
  intros lw p c co i num off cb deliver pre Q hd ds n crc a w sp w4 t4 HQ HD HN HP L S C QC T F HF N0 N1 D ZL O HQw HC V E4.
  set (I := fun rs w' => w_engines w' = w_engines w /\ w_conss w' = upd c (after_list lw co i num off (Def (Some cb)) rs) (w_conss w)).
  assert (HI : forall rs w0 x, I rs w0 -> I rs (with_parser w0 p x)) by (intros rs w0 x H; exact H).
  assert (HC1 : forall rs s k v0 w0, list_line_fits (s, k, v0) -> I rs w0 ->
    exists w' t, cons_consume lw c (zb max_section s) (zb max_key k) (zb max_value v0) w0 = Ok (w', t) /\ I (rs ++ [(s, k, v0)]) w' /\ w_parsers w' = w_parsers w0 /\ w_stations w' = w_stations w0 /\
      notes t = [] /\ list_talk (free_count i) (rs ++ [(s, k, v0)]) = list_talk (free_count i) rs ++ console t).
  { intros rs s k v0 w0 V0 (HE0 & HC0).
    assert (C0 : consumer_at w0 c (after_list lw co i num off (Def (Some cb)) rs)) by (unfold consumer_at; rewrite HC0; eapply upd_at; exact HC).
    unfold after_list in C0. destruct (consume_list lw _ _ _ _ _ _ _ _ k v0 C0 V0) as (t & E & K & Y). eexists. eexists. split; [exact E|].
    split; [|split; [reflexivity|split; [reflexivity|split]]].
    - split; [exact HE0|]. cbn [with_consumer w_conss]. rewrite HC0, upd_upd. f_equal. rewrite after_list_snoc.
      change [(s, k, v0)] with ([] ++ [(s, k, v0)]). rewrite after_list_snoc. cbn [names_in flat_map counts_in rev]. rewrite filled_nil. unfold after_list. cbn [names_in flat_map counts_in rev].
      rewrite filled_nil. destruct (list_entry_of (s, k, v0)); reflexivity.
    - cbn [notes filter is_note]. unfold calls in K. clear - K. induction t as [|x t IH]; [reflexivity|]. cbn in *. destruct x; cbn in *; try discriminate; auto.
    - rewrite list_talk_snoc. f_equal. change (console (EvConsume c (zb max_section s) (zb max_key k) (zb max_value v0) :: t)) with (console t). rewrite Y, free_filled. reflexivity. }
  assert (H0 : I [] w).
  { split; [reflexivity|]. unfold after_list. cbn [names_in flat_map counts_in rev]. rewrite filled_nil. symmetry. apply upd_same_id. exact HC. }
  destruct (header_decodes _ _ _ HF) as (HL & HCR). destruct HF as (PH & DH & _).
  assert (IP : in_progress sp = true) by (unfold in_progress; rewrite S; reflexivity).
  pose proof (HD _ _ _ L IP HQw PH) as E0. rewrite (add_header lw w p sp (Some c) hd L S DH ltac:(lia) QC C a T) in E0.
  rewrite HL, HCR in E0. set (w0 := with_parser w p _) in E0.
  assert (L0 : lib_at w0 p (body_sp (8 * n) crc [] a (Some c) SS_DATA)) by (eapply lib_with; exact L).
  assert (DS : exists ds0 d, ds = ds0 ++ [d]). { destruct (@exists_last _ ds) as (x & y & E). intros X. subst ds. unfold zlen in ZL. cbn in ZL. lia. eauto. }
  destruct DS as (ds0 & d & ->). apply Forall_app in D. destruct D as (D0 & D1). assert (H2 : data_frame d) by (inversion D1; assumption). clear HL HCR. subst n.
  assert (ZN : zlen (ds0 ++ [d]) = zlen ds0 + 1) by (unfold zlen; rewrite app_length; cbn [List.length]; lia). rewrite ZN in *.
  assert (LN : lines_of a (ds0 ++ [d]) = lines_of a ds0 ++ snd (aadd (auto_after a ds0) (content d))).
  { unfold lines_of, auto_after. rewrite map_app. change (map content [d]) with [content d]. rewrite aadds_snoc. reflexivity. }
  assert (RC : received (ds0 ++ [d]) = [] ++ received ds0 ++ content d) by (rewrite received_app; unfold received at 2; cbn [flat_map]; rewrite app_nil_r; reflexivity).
  rewrite LN in O. apply Forall_app in O. destruct O as (O1 & O2).
  assert (B1 : 8 * zlen ds0 < 8 * (zlen ds0 + 1) < 4294967296) by lia.
  destruct (body_run lw p c I list_line_fits deliver pre Q (list_talk (free_count i)) HI HC1 HQ HD HN HP ds0 _ crc [] a [] w0 L0 F D0 B1 O1 (HI _ _ _ H0) (HQ w w0 eq_refl HQw)) as (w1 & t1 & E1 & L1 & I1 & NN1 & Y1 & S1 & P1).
  replace (8 * (zlen ds0 + 1) - 8 * zlen ds0) with 8 in L1, P1 by lia.
  assert (FA : fits (auto_after a ds0)) by (apply after_fits; exact F).
  assert (SS1 : w_stations w1 = w_stations w) by (rewrite S1; reflexivity).
  destruct (last_run lw p c I list_line_fits deliver pre Q (list_talk (free_count i)) HI HC1 HD HN HP d crc ([] ++ received ds0) (auto_after a ds0) _ w1 L1 FA H2 O2 I1 (HQ _ _ SS1 HQw)) as (w2 & t2 & L2 & I2 & NN2 & Y2 & S2 & P2 & E2).
  assert (VV : verdict (([] ++ received ds0) ++ content d) crc = true) by (rewrite <- V, RC; reflexivity).
  rewrite VV in E2.
  assert (E3 : run lw (map deliver (hd :: ds0)) w = Ok (w1, (pre hd ++ []) ++ t1)) by (cbn [map run]; rewrite (seq_ok _ _ _ _ _ E0), E1; reflexivity).
  assert (C2 : consumer_at w2 c (after_list lw co i num off (Def (Some cb)) ([] ++ lines_of a ds0 ++ snd (aadd (auto_after a ds0) (content d))))) by (unfold consumer_at; destruct I2 as (_ & I2); rewrite app_assoc; rewrite I2; eapply upd_at; exact HC).
  unfold after_list in C2. rewrite (complete_list _ _ _ _ _ _ _ C2) in E2.
  change (hd :: ds0 ++ [d]) with ((hd :: ds0) ++ [d]) in E4. rewrite map_app, (run_app _ _ _ _ _ _ E3) in E4. cbn [map run] in E4. unfold World.seq in E4. rewrite E2 in E4.
  cbn [bind skip] in E4. rewrite app_nil_r in E4. injection E4 as <- <-.
  exists ds0, d, w1, ((pre hd ++ []) ++ t1), (t2 ++ [EvStreamComplete c]). split; [reflexivity|]. split; [exact E3|].
  split; [apply notes_incomplete; rewrite !notes_app, HN, NN1; intros cb' c' []|].
  split; [rewrite E2, <- app_assoc; reflexivity|].
  split; [apply Forall_app; split; [apply notes_incomplete; rewrite NN2; intros cb' c' []|repeat constructor]|]. rewrite <- !app_assoc. reflexivity.
Qed.

(** ** One page *)
Lemma traced_page : forall lw cat answer s p c id first w co i0 n0 o0 cb, 32 <= lw -> serves cat answer -> config_id id -> byte first -> zlen cat < 2 ^ 31 ->
  equipped w s p -> consumer_at w c (ListC co i0 n0 o0 (Def (Some cb))) -> (2 <= List.length i0)%nat ->
  exists w3 t3 hd ds0 d wa ta w4 tb i o sp, run lw (ask_page s p c first) w = Ok (w3, t3) /\ incomplete t3 /\ sent t3 <> [] /\ answer (sent t3) = (hd, ds0 ++ [d]) /\
    run lw (arriving s id (hd :: ds0)) w3 = Ok (wa, ta) /\ incomplete ta /\ step lw (OnStation s (HandlePacket (mkFrame id d))) wa = Ok (w4, tb ++ [EvEndComplete cb c]) /\ incomplete tb /\
    sent (ta ++ tb ++ [EvEndComplete cb c]) = [] /\
    equipped w4 s p /\ w_engines w4 = w_engines w /\ same_objects w w4 /\ consumer_at w4 c (ListC (Def true) i (Def (zlen cat mod 256)) o (Def (Some cb))) /\ (2 <= List.length i)%nat /\
    map name_of (filter (fun i => negb (si_isFree i)) i) = part first 2 (map e_name cat) /\ Forall (fun n => nulfree n /\ (List.length n <= 25)%nat) (part first 2 (map e_name cat)) /\
    lib_at w4 p sp /\ sp_setConsumer sp (Some c) = sp /\ (forall k e cb', consumer_at w k (LocoC e cb') -> consumer_at w4 k (LocoC e cb')).
Proof.
  intros lw cat answer s p c id first w co i n o cb LW SV ID FB CL EQ C L2.
  destruct (page lw cat answer s p c id first w LW SV ID FB CL EQ (ex_intro _ co (ex_intro _ i (ex_intro _ n (ex_intro _ o (ex_intro _ (Def (Some cb)) (conj C L2))))))) as (wf & ifn & of & cbf & FE & EQf & HLf & WEf & Cf & NMf & SOf).
  destruct EQ as (S & (st & Q) & P).
  destruct (made_ready lw w s st p S Q P) as (w1 & t1 & E1 & R & _). pose proof (ready_sends _ _ _ _ _ _ S E1) as T1. pose proof (ready_early _ _ _ _ _ _ E1) as RE.
  destruct R as [S1 Q1 L1 EN C1]. destruct (sound_tx _ _ _ S1 Q1) as (tx & T). destruct (C1 _ _ C) as (x' & C' & M).
  assert (X : exists co' i' n' o', x' = ListC co' i' n' o' (Def (Some cb)) /\ List.length i' = List.length i).
  { destruct M as [->|(?&?&?&?&?&M&->)]; [repeat eexists|]. injection M as <- <- <- <- <-. repeat eexists. apply map_length. }
  destruct X as (co' & i' & n' & o' & -> & LI).
  set (obj := ListC (Def false) (repeat si_reset (List.length i)) (Def 0) (Def 0) (Def (Some cb))).
  assert (ER : step lw (ListReset c) w1 = Ok (with_consumer w1 c obj, [])).
  { cbn [step]. unfold ask, get_cons, at_. unfold consumer_at in C'. rewrite C'. cbn [bind]. unfold put_cons, list_reset_obj, list_cleared, obj, with_consumer. rewrite map_reset, LI. reflexivity. }
  set (w2 := with_consumer w1 c obj) in *.
  assert (C2 : consumer_at w2 c obj) by (eapply upd_at; exact C').
  assert (B : between_lines (blank SS_IDLE None) []) by (split; [reflexivity|cbn; lia]).
  pose proof (list_prefix lw w2 s (now_using st None) tx p c _ [] first Q1 T eq_refl L1 B FB) as E3. cbv zeta in E3.
  change (st_hash (now_using st None)) with (st_hash st) in E3.
  set (sp1 := mkSP SS_FIRST _ _ _ _) in E3. set (w3 := mkW _ _ _ _) in E3.
  assert (E4 : run lw (ask_page s p c first) w = Ok (w3, t1 ++ EvCfg p CStart :: map (EvTx tx) (ProofsRequest.list_frames (st_hash st) first))).
  { unfold ask_page, make_list_ready. rewrite <- app_assoc, (run_app _ _ _ _ _ _ E1). cbn [app run]. unfold World.seq at 1. rewrite ER. cbn [bind]. cbn [run] in E3. rewrite E3. reflexivity. }
  set (t3 := t1 ++ _) in *.
  assert (SE : sent t3 = ProofsRequest.list_frames (st_hash st) first).
  { unfold t3. rewrite sent_app, T1. change (sent (EvCfg p CStart :: ?l)) with (sent l). apply sent_tx. }
  pose proof (SV _ _ (list_wish (st_hash st) first (proj2 Q) FB)) as GA. cbn [good_answer] in GA.
  destruct (answer (ProofsRequest.list_frames (st_hash st) first)) as (hd & ds) eqn:AN. cbn [fst snd] in GA.
  destruct GA as (d & (crc & HF & CK & NE & SZ & DF) & CA & DO & LF & NI & v & CI & VN & VD).
  destruct (doc_lines ds d [] DO CA) as (DL & DA).
  assert (L3 : lib_at w3 p sp1) by (eapply lib_upd; exact L1).
  assert (Q3 : nth_error (w_stations w3) s = Some (now_using st (Some p))) by (eapply upd_at; apply (proj1 Q1)).
  assert (VT : verdict (received ds) crc = true) by (apply verdict_true; exact CK).
  assert (HQ : forall wx wy, w_stations wy = w_stations wx -> nth_error (w_stations wx) s = Some (now_using st (Some p)) -> nth_error (w_stations wy) s = Some (now_using st (Some p))) by (intros wx wy Y1 Y2; rewrite Y1; exact Y2).
  assert (HD : forall w0 sp d0, lib_at w0 p sp -> in_progress sp = true -> nth_error (w_stations w0) s = Some (now_using st (Some p)) -> payload_ok d0 ->
    step lw (OnStation s (HandlePacket (mkFrame id d0))) w0 = match lib_addMessage lw p d0 w0 with Ok (w', t) => Ok (w', [EvCfg p (CAdd d0)] ++ t) | UB u => UB u end).
  { assert (H16 : is_u16 (st_hash (now_using st (Some p)))) by (apply (proj2 Q)). intros. eapply config_deliver; try eassumption. reflexivity. }
  assert (FI : fits (mkA Between [] [] [])) by (apply sec_fits; cbn; lia).
  assert (LF' : Forall list_line_fits (lines_of (mkA Between [] [] []) ds)) by (rewrite DL; exact LF).
  pose proof (nonempty_pos _ NE) as N0.
  destruct (list_stream lw p c (Def false) (repeat si_reset (List.length i)) (Def 0) (Def 0) (Some cb) (fun d => OnStation s (HandlePacket (mkFrame id d))) (fun d => [EvCfg p (CAdd d)]) (fun w => nth_error (w_stations w) s = Some (now_using st (Some p)))
     hd ds (zlen ds) crc (mkA Between [] [] []) w3 sp1 HQ HD) as (w4 & t4 & E5 & _ & _ & P5 & CC5 & _ & _); try assumption; try reflexivity.
  rewrite VT in P5, CC5.
  unfold ask_master in FE. fold (ask_page s p c first) in FE. rewrite E4 in FE. cbn [bind] in FE. rewrite SE, AN in FE. cbn [fst snd] in FE. unfold arriving in FE. rewrite E5 in FE. cbn [bind] in FE. injection FE as <-.
  destruct (list_chain_stream lw p c (Def false) (repeat si_reset (List.length i)) (Def 0) (Def 0) cb (fun d => OnStation s (HandlePacket (mkFrame id d))) (fun d => [EvCfg p (CAdd d)]) (fun w => nth_error (w_stations w) s = Some (now_using st (Some p)))
     hd ds (zlen ds) crc (mkA Between [] [] []) w3 sp1 w4 t4 HQ HD) as (ds0 & d0 & wa & ta & tb & -> & EA & IA & EB & IB & ->); try assumption; try reflexivity.
  assert (FO : Forall frames_ok (arriving s id (hd :: ds0 ++ [d0]))).
  { unfold arriving. apply Forall_map. constructor; [exact (proj1 HF)|]. eapply Forall_impl; [|exact DF]. intros y Y. exact (proj1 Y). }
  assert (U3 : all_usable w3).
  { eapply (run_usable lw); [apply usable_all; exact S| |exact E4]. repeat constructor. }
  assert (SX : sent (ta ++ tb ++ [EvEndComplete cb c]) = []).
  { apply sent_none. destruct (history_cost lw _ w3 w4 _ U3 FO E5) as (_ & _ & H & _).
    assert (Z : forall l, list_sum (map SpecWork.may_send (arriving s id l)) = 0%nat) by (induction l; [reflexivity|exact IHl]). rewrite Z in H. lia. }
  assert (CF : cbf = Def (Some cb)).
  { unfold consumer_at in Cf. rewrite CC5 in Cf. unfold after_list in Cf. erewrite upd_at in Cf by (unfold w3; cbn [w_conss]; exact C2). injection Cf as _ _ _ ->. reflexivity. }
  subst cbf. destruct HLf as (co5 & i5 & n5 & o5 & cb5 & C5 & L5). assert (EI : i5 = ifn) by (unfold consumer_at in C5, Cf; rewrite Cf in C5; injection C5 as _ -> _ _ _; reflexivity). subst i5.
  exists w3, t3, hd, ds0, d0, wa, ta, w4, tb, ifn, of. eexists. split; [exact E4|]. split.
  { unfold t3. apply Forall_app. split; [apply early_incomplete; exact RE|]. constructor; [reflexivity|]. apply Forall_map. apply Forall_forall. intros. reflexivity. }
  split; [rewrite SE; discriminate|]. split; [rewrite SE; exact AN|]. split; [exact EA|]. split; [exact IA|]. split; [exact EB|]. split; [exact IB|]. split; [exact SX|]. split; [exact EQf|]. split; [exact WEf|]. split; [exact SOf|].
  split; [exact Cf|]. split; [exact L5|]. split; [exact NMf|]. split; [rewrite <- NI; apply names_small; exact LF|].
  split; [unfold lib_at; rewrite P5; eapply upd_at; exact L3|]. split; [reflexivity|].
  intros k e cb' CE. destruct (C1 _ _ CE) as (x & CX & [->|(?&?&?&?&?&M2&_)]); [|discriminate M2].
  assert (K : k <> c) by (intros ->; unfold consumer_at in *; rewrite CE in C; discriminate C).
  unfold consumer_at. rewrite CC5, upd_other by exact K. unfold w3. cbn [w_conss]. unfold w2, with_consumer. cbn [w_conss]. rewrite upd_other by exact K. exact CX.
Qed.

(** ** Giving names *)
Definition by_name (n : list Z) : Loco := mkLoco (named (firstn 32 n)) ld_reset (repeat 0 8).
Fixpoint name_all (l : list (nat * list Z)) (es : list Loco) : list Loco :=
  match l with [] => es | x :: r => name_all r (upd (fst x) (by_name (snd x)) es) end.
Definition with_engines (w : world) (es : list Loco) : world := mkW (w_stations w) (w_parsers w) (w_conss w) es.
Lemma name_all_app : forall a b es, name_all (a ++ b) es = name_all b (name_all a es).
Proof. induction a as [|x a IH]; intros b es; [reflexivity|]. apply IH. Qed.
Lemma name_all_length : forall l es, List.length (name_all l es) = List.length es.
Proof. induction l as [|x l IH]; intros es; [reflexivity|]. cbn [name_all]. rewrite IH. apply upd_length. Qed.
Lemma name_all_other : forall l es k, ~ In k (map fst l) -> nth_error (name_all l es) k = nth_error es k.
Proof.
  induction l as [|x l IH]; intros es k H; [reflexivity|]. cbn [name_all]. cbn [map In] in H. rewrite IH by tauto. apply upd_other. intros E. apply H. left. congruence.
Qed.
Lemma name_all_own : forall l es, NoDup (map fst l) -> Forall (fun x => exists y, nth_error es (fst x) = Some y) l ->
  Forall (fun x => nth_error (name_all l es) (fst x) = Some (by_name (snd x))) l.
Proof.
  induction l as [|x l IH]; intros es ND F; [constructor|]. inversion F as [|? ? (y & Y) F']; subst. cbn [map] in ND. inversion ND as [|? ? NI ND']; subst. constructor.
  - cbn [name_all]. rewrite name_all_other by exact NI. eapply upd_at. exact Y.
  - cbn [name_all]. apply IH; [exact ND'|]. rewrite Forall_forall in *. intros z Z. destruct (F' z Z) as (y2 & Y2). exists y2. rewrite upd_other; [exact Y2|]. intros E. apply NI. rewrite <- E. apply in_map. exact Z.
Qed.
Lemma named_run : forall lw l w, Forall (fun x => has_engine w (fst x) /\ nulfree (snd x)) l -> run lw (give_names l) w = Ok (with_engines w (name_all l (w_engines w)), []).
Proof.
  intros lw. induction l as [|x l IH]; intros w F; [destruct w; reflexivity|]. inversion F as [|? ? ((y & Y) & N) F']; subst. cbn [give_names map run]. unfold World.seq.
  assert (ER : step lw (OnEngine (fst x) (ESetName (snd x ++ [0]))) w = Ok (with_engines w (upd (fst x) (by_name (snd x)) (w_engines w)), [])).
  { cbn [step]. unfold ask, get_engine, at_. unfold engine_at in Y. rewrite Y. cbn [bind eop_apply]. unfold lo_setName. change (si_name (lo_info lo_reset)) with erased_name. rewrite name_copy by exact N. reflexivity. }
  rewrite ER. cbn [bind]. fold (give_names l). rewrite IH; [reflexivity|].
  eapply Forall_impl; [|exact F']. intros z ((y2 & Y2) & N2). split; [|exact N2]. unfold has_engine, engine_at. cbn [w_engines with_engines].
  destruct (Nat.eq_dec (fst z) (fst x)) as [->|NE]; [eexists; eapply upd_at; exact Y|]. exists y2. rewrite upd_other by exact NE; exact Y2.
Qed.
Lemma name_all_sound : forall l es, Forall sound_engine es -> Forall (fun x => nulfree (snd x)) l -> Forall sound_engine (name_all l es).
Proof.
  induction l as [|x l IH]; intros es F N; [exact F|]. inversion N; subst. cbn [name_all]. apply IH; [|assumption]. apply Forall_upd; [exact F|].
  unfold by_name. split; [apply named_sound; [apply nulfree_firstn; assumption|rewrite firstn_length; lia]|]. split; [reflexivity|]. left. reflexivity.
Qed.
Lemma named_equipped : forall w l s p, equipped w s p -> Forall (fun x => nulfree (snd x)) l -> equipped (with_engines w (name_all l (w_engines w))) s p.
Proof.
  intros w l s p (S & Q & P) N. destruct S as (S1 & S2 & S3 & S4). split; [|split; [exact Q|exact P]].
  eapply sound_like; [exact (conj S1 (conj S2 (conj S3 S4)))|reflexivity|reflexivity|apply name_all_length|exact S1|exact S2|exact S3|]. apply name_all_sound; assumption.
Qed.
Lemma named_same : forall w l, same_objects w (with_engines w (name_all l (w_engines w))).
Proof. intros w l. repeat split. apply name_all_length. Qed.

(** ** Lists in steps of two *)
Lemma combine_two : forall A B (l : list A) (m : list B), combine l (firstn 2 m) ++ combine (skipn 2 l) (skipn 2 m) = combine l m.
Proof. intros A B [|a [|a2 l]] [|b [|b2 m]]; cbn; rewrite ?combine_nil; try reflexivity. Qed.
Lemma skip_two : forall A k (l : list A), skipn 2 (skipn (2 * k) l) = skipn (2 * S k) l.
Proof. intros. rewrite skipn_skipn. f_equal. lia. Qed.
Lemma page_part : forall A k (l : list A), part (2 * Z.of_nat k) 2 l = firstn 2 (skipn (2 * k) l).
Proof. intros. unfold part. f_equal. f_equal. lia. Qed.

(** ** Running with the callback *)
Section Run.
Variables (lw : Z) (s p c : nat) (engines : list nat).
Notation react := (next_page s p c engines).
Lemma page_late : late react.
Proof. intros h e E. unfold next_page. rewrite rev_app_distr. cbn [rev app]. destruct e; try reflexivity. discriminate E. Qed.
Lemma page_none : forall w a t, incomplete t -> to_do react w a t = Ret.
Proof.
  intros w a t F. unfold to_do. destruct (rev t) as [|e r] eqn:R; [reflexivity|]. destruct (told_user w e); [|reflexivity].
  unfold next_page. rewrite rev_app_distr, R. cbn [app]. assert (IN : In e t) by (apply in_rev; rewrite R; left; reflexivity).
  unfold incomplete in F. rewrite Forall_forall in F. specialize (F e IN). destruct e; try reflexivity. discriminate F.
Qed.
Lemma page_run : forall n ops rest k w t w1 t1, run lw ops w = Ok (w1, t1) -> incomplete t1 ->
  rexec lw react (S n) (then_do (ops ++ rest) k w t) (mkR w t) = rexec lw react (S n) (then_do rest k w1 (t ++ t1)) (mkR w1 (t ++ t1)).
Proof.
  intros n ops rest k. induction ops as [|o ops IH]; intros w t w1 t1 E F; [inversion E; subst; rewrite app_nil_r; reflexivity|].
  cbn [run] in E. apply seq_inv in E. destruct E as (w2 & t2 & t3 & E1 & E2 & ->). apply Forall_app in F. destruct F as (F1 & F2).
  cbn [app then_do]. rewrite (late_call lw react n o _ w w2 t t2 page_late E1). rewrite (page_none _ _ _ F1). unfold rbind. rewrite ret_exec. cbn [r_w r_t].
  rewrite (IH w2 (t ++ t2) w1 t3 E2 F2), !app_assoc. reflexivity.
Qed.
Lemma page_ops : forall n ops w t w1 t1, run lw ops w = Ok (w1, t1) -> incomplete t1 ->
  rexec lw react (S n) (ops_code ops) (mkR w t) = (Ok tt, mkR w1 (t ++ t1)).
Proof.
  intros n ops. induction ops as [|o ops IH]; intros w t w1 t1 E F; [inversion E; subst; rewrite app_nil_r; reflexivity|].
  cbn [run] in E. apply seq_inv in E. destruct E as (w2 & t2 & t3 & E1 & E2 & ->). apply Forall_app in F. destruct F as (F1 & F2).
  change (ops_code (o :: ops)) with (Call o (fun _ _ => ops_code ops)). rewrite (late_call lw react n o _ w w2 t t2 page_late E1). rewrite (page_none _ _ _ F1). unfold rbind. rewrite ret_exec. cbn [r_w r_t].
  rewrite (IH w2 (t ++ t2) w1 t3 E2 F2), !app_assoc. reflexivity.
Qed.

Variables (cat : catalogue) (answer : list CanFrame -> Data * list Data) (id : Z).
Hypothesis LW : 32 <= lw.
Hypothesis SV : serves cat answer.
Hypothesis ID : config_id id.
Hypothesis SM : zlen cat <= 255.
Notation names := (map e_name cat).
Lemma pages : forall n m k rounds T T0 T1 t3 w w3,
  (List.length cat <= 2 * (k + S m))%nat -> (2 * k <= List.length cat)%nat -> (m < rounds)%nat -> List.length engines = List.length cat -> Forall (has_engine w) engines ->
  equipped w s p -> lists_to_user w c -> run lw (ask_page s p c (2 * Z.of_nat k)) w = Ok (w3, t3) -> T = T0 ++ T1 ++ t3 -> sent T1 = [] -> completions c T = k ->
  exists w' T', rexec lw react (S (S n)) (main_loop s id answer rounds (List.length T0) w3 T) (mkR w3 T) = (Ok tt, mkR w' T') /\
    equipped w' s p /\ same_objects w w' /\ w_engines w' = name_all (combine (skipn (2 * k) engines) (skipn (2 * k) names)) (w_engines w) /\
    completions c T' = Nat.max (S k) ((List.length cat + 1) / 2).
Proof.
  intros n m. induction m as [|m IH]; intros k rounds T T0 T1 t3 w w3 HM HK HR LE HE EQ (co & i0 & n0 & o0 & cb & C & L2) E3 HT HS HC;
    (destruct rounds as [|rounds]; [inversion HR|]); subst T;
    (assert (FB : byte (2 * Z.of_nat k)) by (unfold byte, zlen in *; lia)); (assert (CL : zlen cat < 2 ^ 31) by lia);
    destruct (traced_page lw cat answer s p c id (2 * Z.of_nat k) w co i0 n0 o0 cb LW SV ID FB CL EQ C L2) as (w3' & t3' & hd & ds0 & d & wa & ta & w4 & tb & i & o & sp & E3' & I3 & NS & AN & EA & IA & EB & IB & SX & EQ4 & WE4 & SO4 & C4 & L4 & NM & NF & LP & SPC & _);
    rewrite E3 in E3'; injection E3' as <- <-; set (T := T0 ++ T1 ++ t3) in *; rewrite page_part in NM, NF.
  all: assert (SK : sent (skipn (List.length T0) T) = sent t3) by (unfold T; rewrite skipn_app, skipn_all, Nat.sub_diag; cbn [app skipn]; rewrite sent_app, HS; reflexivity).
  all: cbn [main_loop]; rewrite SK; destruct (sent t3) as [|f fs] eqn:FS; [congruence|]; rewrite AN; cbn [fst snd].
  all: change (hd :: ds0 ++ [d]) with ((hd :: ds0) ++ [d]); unfold arriving in EA |- *; rewrite map_app, (page_run (S n) _ _ _ w3 T wa ta EA IA).
  all: cbn [map then_do]; rewrite (late_call lw react (S n) _ _ wa w4 (T ++ ta) _ page_late EB).
  all: unfold to_do; rewrite rev_app_distr; cbn [rev app told_user comes_last andb]; unfold next_page at 2; rewrite !app_assoc, rev_app_distr; cbn [rev app completes]; rewrite Nat.eqb_refl.
  all: assert (CK : completions c (((T ++ ta) ++ tb) ++ [EvEndComplete cb c]) = S k) by (rewrite !completions_app, completions_one, (completions_none c ta IA), (completions_none c tb IB), HC; lia); rewrite CK.
  all: unfold rbind at 1; replace (((T ++ ta) ++ tb) ++ [EvEndComplete cb c]) with (T ++ ta ++ tb ++ [EvEndComplete cb c]) in * by (rewrite !app_assoc; reflexivity).
  all: assert (EP : step lw (ParserSetConsumer p (Some c)) w4 = Ok (w4, [])) by
    (cbn [step]; unfold ask, get_lib, get_parser, at_; unfold lib_at in LP; rewrite LP; cbn [bind]; rewrite SPC; unfold put_lib, put_parser; rewrite (upd_same_id _ _ _ _ LP); destruct w4; reflexivity).
  all: rewrite (late_call lw react n _ _ w4 w4 _ [] page_late EP), (page_none _ _ _ (Forall_nil _)); unfold rbind at 1; rewrite ret_exec; cbn [r_w r_t]; rewrite app_nil_r.
  all: assert (QI : q_getEngineInfos w4 c = Ok i) by (unfold q_getEngineInfos, get_cons, at_; unfold consumer_at in C4; rewrite C4; reflexivity).
  all: assert (QN : q_getNumEngines w4 c = Ok (zlen cat)) by (unfold q_getNumEngines, get_cons, at_; unfold consumer_at in C4; rewrite C4; cbn [bind mread]; rewrite Z.mod_small by (unfold zlen in *; lia); reflexivity).
  all: unfold file_page; rewrite QI, QN, NM; replace (2 * (S k - 1))%nat with (2 * k)%nat by lia; replace (2 * (Z.of_nat (S k) - 1)) with (2 * Z.of_nat k) by lia.
  all: set (l := combine (skipn (2 * k) engines) (firstn 2 (skipn (2 * k) names))).
  all: assert (FN : Forall (fun x => has_engine w4 (fst x) /\ nulfree (snd x)) l) by
    (apply Forall_forall; intros (e & nm) X; pose proof (in_combine_l _ _ _ _ X) as X1; pose proof (in_combine_r _ _ _ _ X) as X2; rewrite Forall_forall in HE, NF; cbn [fst snd]; split;
     [eapply still_engine; [exact SO4|apply HE; rewrite <- (firstn_skipn (2 * k) engines); apply in_or_app; right; exact X1]|apply (NF nm X2)]).
  all: pose proof (named_run lw l w4 FN) as EN; assert (FN2 : Forall (fun x => nulfree (snd x)) l) by (eapply Forall_impl; [|exact FN]; intros a (_ & H); exact H); rewrite WE4 in EN.
  all: assert (EQ5 : equipped (with_engines w4 (name_all l (w_engines w))) s p) by (rewrite <- WE4; apply named_equipped; assumption).
  all: assert (SO5 : same_objects w (with_engines w4 (name_all l (w_engines w)))) by (eapply same_trans; [exact SO4|]; rewrite <- WE4; apply named_same).
  all: set (w5 := with_engines w4 (name_all l (w_engines w))) in *.
  all: pose proof (combine_two _ _ (skipn (2 * k) engines) (skipn (2 * k) names)) as CB; fold l in CB; rewrite !skip_two in CB.
  all: destruct (Z.ltb_spec (2 * Z.of_nat k + 2) (zlen cat)) as [LT|GE]; [try (exfalso; unfold zlen in *; lia)|].
  1,3: rewrite app_nil_r, (page_ops n _ w4 _ w5 [] EN (Forall_nil _)); cbn [r_w r_t]; rewrite app_nil_r; exists w5; eexists; (split; [|split; [exact EQ5|split; [exact SO5|split]]]).
  1,4: destruct rounds as [|r]; cbn [main_loop]; [reflexivity|]; rewrite skipn_app, skipn_all, Nat.sub_diag; cbn [app skipn]; rewrite SX; reflexivity.
  1,3: rewrite <- CB, (skipn_all2 engines) by (unfold zlen in *; lia); cbn [combine]; rewrite app_nil_r; reflexivity.
  1,2: rewrite CK; symmetry; apply Nat.max_l; apply Nat.lt_succ_r; apply Nat.div_lt_upper_bound; unfold zlen in *; lia.
  assert (C5 : consumer_at w5 c (ListC (Def true) i (Def (zlen cat mod 256)) o (Def (Some cb)))) by exact C4.
  assert (FB2 : byte (2 * Z.of_nat (S k))) by (unfold byte, zlen in *; lia).
  destruct (traced_page lw cat answer s p c id (2 * Z.of_nat (S k)) w5 _ i _ o cb LW SV ID FB2 CL EQ5 C5 L4) as (w6 & t6 & _ & _ & _ & _ & _ & _ & _ & _ & _ & _ & E6 & I6 & _).
  replace (2 * Z.of_nat k + 2) with (2 * Z.of_nat (S k)) by lia.
  assert (E7 : run lw (give_names l ++ ask_page s p c (2 * Z.of_nat (S k))) w4 = Ok (w6, t6)) by (rewrite (run_app _ _ _ _ _ _ EN), E6; reflexivity).
  rewrite (page_ops n _ w4 _ w6 t6 E7 I6). cbn [r_w r_t].
  destruct (IH (S k) rounds ((T ++ ta ++ tb ++ [EvEndComplete cb c]) ++ t6) T (ta ++ tb ++ [EvEndComplete cb c]) t6 w5 w6) as (w' & T' & EX & EQ' & SO' & WE' & CC); try assumption.
  - lia.
  - unfold zlen in LT. lia.
  - lia.
  - eapply Forall_impl; [|exact HE]. intros e H. eapply still_engine; eassumption.
  - do 5 eexists. split; [exact C5|exact L4].
  - rewrite <- !app_assoc. reflexivity.
  - rewrite completions_app, CK, (completions_none c t6 I6). lia.
  - exists w', T'. split; [exact EX|]. split; [exact EQ'|]. split; [eapply same_trans; eassumption|]. split; [rewrite WE', <- CB, name_all_app; reflexivity|]. rewrite CC.
    assert (S (S k) <= (List.length cat + 1) / 2)%nat by (apply Nat.div_le_lower_bound; unfold zlen in LT; lia). lia.
Qed.
End Run.

Lemma until_named : forall n, nulfree n -> (List.length n <= 32)%nat -> name_of (lo_info (by_name n)) = n.
Proof.
  intros n N L. unfold by_name, name_of, named. cbn [lo_info si_name]. rewrite firstn_all2 by lia. apply until_pad. exact N.
Qed.
Lemma names_known : forall cat answer, serves cat answer -> forall h first, is_u16 h -> byte first -> Forall (fun n => nulfree n /\ (List.length n <= 25)%nat) (part first 2 (map e_name cat)).
Proof.
  intros cat answer SV h first H FB. pose proof (SV _ _ (list_wish h first H FB)) as GA. cbn [good_answer] in GA. destruct GA as (d & _ & _ & _ & LF & NI & _). rewrite <- NI. apply names_small. exact LF.
Qed.
Lemma all_names_known : forall cat answer, serves cat answer -> zlen cat <= 255 -> Forall (fun n => nulfree n /\ (List.length n <= 25)%nat) (map e_name cat).
Proof.
  intros cat answer SV SM. apply Forall_forall. intros n IN. apply In_nth_error in IN. destruct IN as (j & J).
  assert (LJ : (j < List.length cat)%nat) by (rewrite <- (map_length e_name cat); apply nth_error_Some; congruence).
  assert (FB : byte (Z.of_nat j)) by (unfold byte, zlen in *; lia).
  pose proof (names_known cat answer SV 0 (Z.of_nat j) ltac:(unfold is_u16; lia) FB) as F. rewrite Forall_forall in F. apply F. unfold part. rewrite Nat2Z.id.
  clear - J. revert j J. generalize (map e_name cat) as l. induction l as [|x l IH]; intros [|j] J; try discriminate; [injection J as ->; left; reflexivity|]. apply IH. exact J.
Qed.
Lemma all_named : forall lw cat answer s p c id engines n rounds w, 32 <= lw -> serves cat answer -> config_id id -> zlen cat <= 255 -> equipped w s p -> lists_to_user w c ->
  NoDup engines -> Forall (has_engine w) engines -> List.length engines = List.length cat -> (List.length cat <= 2 * rounds)%nat -> (0 < rounds)%nat ->
  exists w' t', rexec lw (next_page s p c engines) (S (S n)) (names_by_callback s p c id answer rounds w) (mkR w []) = (Ok tt, mkR w' t') /\
    Forall2 (only_named w') engines (map e_name cat) /\ (forall k, ~ In k engines -> nth_error (w_engines w') k = nth_error (w_engines w) k) /\
    completions c t' = Nat.max 1 ((List.length cat + 1) / 2) /\ equipped w' s p.
Proof.
  intros lw cat answer s p c id engines n rounds w LW SV ID SM EQ LU ND HE LE HR R0. destruct rounds as [|m]; [lia|].
  assert (LU' := LU). destruct LU' as (co & i & n0 & o & cb & C & L2). assert (FB : byte 0) by (unfold byte; lia). assert (CL : zlen cat < 2 ^ 31) by lia.
  destruct (traced_page lw cat answer s p c id 0 w co i n0 o cb LW SV ID FB CL EQ C L2) as (w3 & t3 & _ & _ & _ & _ & _ & _ & _ & _ & _ & _ & E3 & I3 & _).
  destruct (pages lw s p c engines cat answer id LW SV ID SM n m 0 (S m) t3 [] [] t3 w w3) as (w' & T' & EX & EQ' & SO & WE & CC); try assumption; try reflexivity; try lia.
  - apply completions_none. exact I3.
  - assert (LM : List.length engines = List.length (map e_name cat)) by (rewrite map_length; exact LE). change (2 * 0)%nat with 0%nat in WE. cbn [skipn] in WE.
    exists w', T'. split; [|split; [|split; [|split; [exact CC|exact EQ']]]].
    + unfold names_by_callback. rewrite <- (app_nil_r (ask_page s p c 0)). rewrite (page_run lw s p c engines (S n) _ [] _ w [] w3 t3 E3 I3). cbn [then_do app]. exact EX.
    + pose proof (all_names_known cat answer SV SM) as NK. pose proof (name_all_own (combine engines (map e_name cat)) (w_engines w)) as NA. rewrite map_fst_combine in NA by exact LM. specialize (NA ND).
      assert (F : Forall (fun x : nat * list Z => exists y, nth_error (w_engines w) (fst x) = Some y) (combine engines (map e_name cat))).
      { apply Forall_forall. intros (e, nm) X. rewrite Forall_forall in HE. apply HE. eapply in_combine_l. exact X. }
      specialize (NA F). rewrite <- WE in NA. clear - NA NK LM. revert NK LM NA. generalize (map e_name cat) as l. induction engines as [|e es IH]; intros [|x l] NK LM NA; try discriminate; [constructor|].
      cbn [combine] in NA. inversion NA as [|? ? N1 N2]; subst. inversion NK as [|? ? (K1 & K2) K3]; subst. constructor; [|apply IH; [exact K3|cbn in LM; congruence|exact N2]].
      exists (by_name x). split; [exact N1|]. split; [apply until_named; [exact K1|lia]|reflexivity].
    + intros k H. rewrite WE. apply name_all_other. rewrite map_fst_combine by exact LM. exact H.
Qed.
