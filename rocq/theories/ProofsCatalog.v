(* ProofsCatalog.v -- lemmas for C96-C98. *)
From Verif Require Import ZLib ProofsBuffer SpecCatalog ProofsWorld ProofsCrc ProofsText ProofsStation ProofsRequest ProofsStream ProofsLoco ProofsConsumer ProofsSafe ProofsRecover SpecWork ProofsWork.

(** ** The requests as the master reads them *)
Lemma command_out : forall h c, is_u16 h -> byte c -> command_field (id_value 0 0 c false h) = c /\ response_field (id_value 0 0 c false h) = false.
Proof.
  intros h c H C. unfold is_u16, byte in *. unfold command_field, response_field, id_value. change (2 ^ 17) with 131072. change (2 ^ 16) with 65536. change (bit_of false) with 0. split.
  - match goal with |- (?x / _) mod _ = _ => replace (x / 131072) with c by (apply Z.div_unique with (r := h); lia) end. apply Z.mod_small. lia.
  - match goal with |- ((?x / _) mod _ =? _) = _ => replace (x / 65536) with (c * 2) by (apply Z.div_unique with (r := h); lia) end. rewrite Z_mod_mult. reflexivity.
Qed.
Lemma request_out : forall h l, is_u16 h -> is_request (outgoing h CMD_REQUEST_CONFIG l) = true.
Proof.
  intros h l H. unfold is_request, outgoing. cbn [fid]. destruct (command_out h CMD_REQUEST_CONFIG H) as (A & B); [unfold byte, CMD_REQUEST_CONFIG; lia|]. rewrite A, B. reflexivity.
Qed.
Lemma bytes_out : forall h c l, wire_bytes (outgoing h c l) = l.
Proof. intros. unfold wire_bytes, outgoing, padded. cbn [fdata dlc dbytes]. unfold zlen. rewrite Nat2Z.id, firstn_app, firstn_all, Nat.sub_diag. cbn. apply app_nil_r. Qed.
Lemma read_decimal : forall x, byte x -> read_number 0 (decimal x ++ zs " 2") = (x, zs " 2").
Proof.
  assert (DG : forall y, 0 <= y < 10 -> (48 <=? 48 + y) && (48 + y <=? 57) = true) by (intros; lia).
  intros x B. unfold byte in B. change (zs " 2") with [32; 50]. unfold decimal. pose proof (Z.div_mod x 10 ltac:(lia)). pose proof (Z.mod_pos_bound x 10 ltac:(lia)). pose proof (Z.div_mod (x / 10) 10 ltac:(lia)). pose proof (Z.mod_pos_bound (x / 10) 10 ltac:(lia)).
  assert (X : x / 100 = x / 10 / 10) by (rewrite Z.div_div by lia; reflexivity).
  destruct (Z.ltb_spec x 10); [|destruct (Z.ltb_spec x 100)]; cbn [app read_number]; rewrite ?X, !DG by lia; change (48 <=? 32) with false; cbn [andb]; cbn iota; f_equal; lia.
Qed.
Lemma list_wish : forall h off, is_u16 h -> byte off -> read_wish (ProofsRequest.list_frames h off) = Some (WantNames off 2).
Proof.
  intros h off H O. unfold read_wish, ProofsRequest.list_frames. cbn [forallb]. rewrite !request_out by exact H. cbn [andb map]. rewrite !bytes_out. change (until_nul (zs "loknamen")) with (zs "loknamen").
  unfold same_text at 1. destruct (list_eq_dec Z.eq_dec (zs "loknamen") (zs "loknamen")); [|congruence]. rewrite read_decimal by exact O. reflexivity.
Qed.
Lemma until_app : forall a b, nulfree a -> until_nul (a ++ b) = a ++ until_nul b.
Proof. induction a as [|x a IH]; intros b N; [reflexivity|]. inversion N; subst. cbn [app until_nul]. destruct (Z.eqb_spec x 0); [congruence|]. rewrite IH by assumption. reflexivity. Qed.
Lemma until_zeros : forall n, until_nul (repeat 0 n) = []. Proof. intros []; reflexivity. Qed.
Lemma until_pad : forall a n, nulfree a -> until_nul (a ++ repeat 0 n) = a. Proof. intros. rewrite until_app, until_zeros by assumption. apply app_nil_r. Qed.
Lemma engine_wish : forall h name, is_u16 h -> name_fits name -> read_wish (engine_request h name) = Some (WantEngine name).
Proof.
  intros h name H (N & L). unfold read_wish, engine_request. cbn [forallb]. rewrite !request_out by exact H. cbn [andb map]. rewrite !bytes_out. change (until_nul (pad8 (zs "lokinfo"))) with (zs "lokinfo").
  unfold same_text at 1. destruct (list_eq_dec Z.eq_dec (zs "lokinfo") (zs "lokinfo")); [|congruence]. do 2 f_equal. unfold pad8.
  destruct (Nat.le_gt_cases (List.length name) 8) as [S|S].
  - rewrite (firstn_all2 name) by lia. rewrite (skipn_all2 name) by lia. cbn [firstn app List.length]. rewrite <- app_assoc. change (8 - 0)%nat with 8%nat. rewrite <- repeat_app. apply until_pad. exact N.
  - rewrite (firstn_length_le name) by lia. cbn [Nat.sub repeat]. rewrite app_nil_r. rewrite (firstn_all2 (skipn 8 name)) by (rewrite skipn_length; lia). rewrite app_assoc, firstn_skipn. apply until_pad. exact N.
Qed.
Lemma request_short : forall h name, engine_request h (firstn 16 name) = engine_request h name.
Proof.
  intros h name. unfold engine_request. rewrite firstn_firstn. change (Init.Nat.min 8 16) with 8%nat. do 4 f_equal. rewrite skipn_firstn_comm, firstn_firstn. reflexivity.
Qed.
Lemma any_wish : forall h name, is_u16 h -> nulfree name -> read_wish (engine_request h (firstn 32 name)) = Some (WantEngine (firstn 16 name)).
Proof.
  intros h name H N. rewrite <- request_short, firstn_firstn. change (Init.Nat.min 16 32) with 16%nat. apply engine_wish; [exact H|]. split; [apply nulfree_firstn; exact N|rewrite firstn_length; lia].
Qed.

(** ** One exchange with the master *)
Lemma sent_app : forall a b, sent (a ++ b) = sent a ++ sent b. Proof. intros. unfold sent. rewrite map_app, concat_app. reflexivity. Qed.
Lemma sent_tx : forall tx fs, sent (map (EvTx tx) fs) = fs. Proof. induction fs as [|f fs IH]; [reflexivity|]. unfold sent in *. cbn. rewrite IH. reflexivity. Qed.
Lemma sent_none : forall t, count is_tx t = 0%nat -> sent t = [].
Proof. induction t as [|e t IH]; intro H; [reflexivity|]. unfold sent, count in *. destruct e; cbn in *; try discriminate; auto. Qed.
Lemma usable_all : forall w, sound w -> all_usable w. Proof. intros w S p sp L. exact (sound_usable w p sp S L). Qed.
Lemma ready_sends : forall lw s p w w' t, sound w -> run lw (make_ready s p) w = Ok (w', t) -> sent t = [].
Proof.
  intros lw s p w w' t S E. apply sent_none. destruct (history_cost lw (make_ready s p) w w' t (usable_all w S)) as (_ & _ & H & _); [repeat constructor|exact E|]. cbn in H. lia.
Qed.
(** a world that differs only by sound objects is sound *)
Lemma points_len : forall A B (l : list A) (l' : list B) q, List.length l = List.length l' -> points l q -> points l' q.
Proof. intros A B l l' [i|] E P; cbn in *; [lia|exact P]. Qed.
Lemma sound_like : forall w w', sound w -> List.length (w_parsers w') = List.length (w_parsers w) -> List.length (w_conss w') = List.length (w_conss w) -> List.length (w_engines w') = List.length (w_engines w) ->
  Forall (fun st => sound_cbs w (st_cbs st)) (w_stations w') -> Forall (sound_parser w) (w_parsers w') -> Forall (sound_consumer w) (w_conss w') -> Forall sound_engine (w_engines w') -> sound w'.
Proof.
  intros w w' _ P C E S1 S2 S3 S4. split; [|split; [|split; [|exact S4]]].
  - eapply Forall_impl; [|exact S1]. intros st (A & B & D). split; [exact A|]. split; [exact B|]. eapply points_len; [symmetry; exact P|exact D].
  - eapply Forall_impl; [|exact S2]. intros [sp|beh h]; [|auto]. intros (A & B & D). split; [exact A|]. split; [eapply points_len; [symmetry; exact C|exact B]|exact D].
  - eapply Forall_impl; [|exact S3]. intros [e cb|co i n o cb|]; [|auto|auto]. intros ((e' & -> & A) & B). split; [|exact B]. exists e'. split; [reflexivity|]. eapply points_len; [symmetry; exact E|exact A].
Qed.
Lemma Forall_upd : forall A (P : A -> Prop) n x l, Forall P l -> P x -> Forall P (upd n x l).
Proof. intros A P n. induction n as [|n IH]; intros x [|y l] F X; cbn; inversion F; subst; constructor; auto. Qed.
Lemma named_sound : forall t, nulfree t -> (List.length t <= 32)%nat -> sound_short (named t).
Proof. intros t N L. exists t. split; [exact N|]. split; [exact L|reflexivity]. Qed.
Lemma until_free : forall v, nulfree (until_nul v). Proof. intros v. destruct (until_nul_split v []) as (_ & _ & N). exact N. Qed.
Lemma names_small : forall rs, Forall list_line_fits rs -> Forall (fun n => nulfree n /\ (List.length n <= 25)%nat) (names_in rs).
Proof.
  induction rs as [|((s & k) & v) rs IH]; intros F; [constructor|]. inversion F as [|? ? F1 F2]; subst. unfold names_in. cbn [flat_map]. apply Forall_app. split; [|exact (IH F2)].
  destruct (list_entry_of (s, k, v)) as [x|x|] eqn:E; try constructor; [|constructor]. assert (x = v).
  { unfold list_entry_of in E. repeat match type of E with context [if ?b then _ else _] => destruct b end; congruence. }
  subst x. split; [apply until_free|]. destruct F1 as ((_ & _ & V) & _). pose proof (until_nul_len v). lia.
Qed.
Lemma named_shows : forall t, nulfree t -> (List.length t <= 32)%nat -> name_of (named t) = t.
Proof. intros t N L. unfold name_of, named. cbn [si_name]. apply until_pad. exact N. Qed.

Lemma filter_resets : forall n, filter (fun i => negb (si_isFree i)) (repeat si_reset n) = [].
Proof. induction n; cbn; auto. Qed.
Lemma filter_named : forall ns, Forall (fun n => nulfree n /\ (List.length n <= 25)%nat) ns -> map name_of (filter (fun i => negb (si_isFree i)) (map named ns)) = ns.
Proof.
  induction ns as [|n ns IH]; intros F; [reflexivity|]. inversion F as [|? ? (N & L) F2]; subst. cbn [map filter]. change (negb (si_isFree (named n))) with true. cbn iota. cbn [map].
  rewrite (named_shows n N) by lia. rewrite (IH F2). reflexivity.
Qed.
Lemma s_ready : forall s p, Forall no_config_data (make_ready s p). Proof. repeat constructor. Qed.
Lemma ready_kinds : forall lw s p st w w1 t1, sound w -> station_at w s st -> a_parser w p -> run lw (make_ready s p) w = Ok (w1, t1) -> same_objects w w1.
Proof.
  intros lw s p st w w1 t1 S Q P E. destruct (history_same lw w (make_ready s p) S) as (w' & t' & E' & _ & SO).
  - constructor; [split; [eapply station_lt; exact Q|exact Logic.I]|]. constructor; [exact P|constructor].
  - intros pre o post wa ta H _ (pp & d & sp & a & c & x & HO & _). assert (I : In o (make_ready s p)) by (rewrite H; apply in_elt).
    destruct I as [<-|[<-|[]]]; destruct HO as [HO|(s' & st' & _ & _ & [HO|(f & HO & _)])]; discriminate.
  - congruence.
Qed.

Lemma after_fits : forall ds a, fits a -> fits (auto_after a ds).
Proof.
  intros ds. unfold auto_after. induction (map content ds) as [|x r IH]; intros a F; [exact F|]. cbn [aadds]. destruct (aadd a x) as (a1 & e1) eqn:X. specialize (IH a1).
  destruct (aadds a1 r). cbn in *. apply IH. pose proof (aadd_fits a x F) as Y. rewrite X in Y. exact Y.
Qed.
Lemma reset_sound : sound_short si_reset. Proof. exists []. split; [constructor|]. split; [cbn; lia|reflexivity]. Qed.

(** what is left after a page: everything needed for the next request *)
Lemma page : forall lw cat answer s p c id first w, 32 <= lw -> serves cat answer -> config_id id -> byte first -> zlen cat < 2 ^ 31 ->
  equipped w s p -> has_list w c ->
  exists w' i o cb, ask_master lw s id answer (make_list_ready s p c ++ [ParserSetConsumer p (Some c); OnStation s (RequestEngineList first (Some p))]) w = Ok w' /\
    equipped w' s p /\ has_list w' c /\ w_engines w' = w_engines w /\ 
    consumer_at w' c (ListC (Def true) i (Def (zlen cat mod 256)) o cb) /\
    map name_of (filter (fun i => negb (si_isFree i)) i) = part first 2 (map e_name cat) /\
    same_objects w w'.
Proof.
  intros lw cat answer s p c id first w LW SV ID FB CL (S & (st & Q) & P) (co & i & n & o & cb & C & L2).
  destruct (made_ready lw w s st p S Q P) as (w1 & t1 & E1 & R & _). pose proof (ready_sends _ _ _ _ _ _ S E1) as T1.
  destruct R as [S1 Q1 L1 EN C1]. destruct (sound_tx _ _ _ S1 Q1) as (tx & T). destruct (C1 _ _ C) as (x' & C' & M).
  assert (X : exists co' i' n' o', x' = ListC co' i' n' o' cb /\ List.length i' = List.length i).
  { destruct M as [->|(?&?&?&?&?&M&->)]; [repeat eexists|]. injection M as <- <- <- <- <-. repeat eexists. apply map_length. }
  destruct X as (co' & i' & n' & o' & -> & LI).
  assert (SC : sound_consumer w (ListC co i n o cb)). { destruct S as (_ & _ & S & _). rewrite Forall_forall in S. exact (S _ (nth_error_In _ _ C)). }
  destruct SC as (_ & _ & _ & (x & ->) & _).
  set (obj := ListC (Def false) (repeat si_reset (List.length i)) (Def 0) (Def 0) (Def x)).
  assert (ER : step lw (ListReset c) w1 = Ok (with_consumer w1 c obj, [])).
  { cbn [step]. unfold ask, get_cons, at_. unfold consumer_at in C'. rewrite C'. cbn [bind]. unfold put_cons, list_reset_obj, list_cleared, obj, with_consumer. rewrite map_reset, LI. reflexivity. }
  set (w2 := with_consumer w1 c obj) in *.
  assert (C2 : consumer_at w2 c obj) by (eapply upd_at; exact C').
  assert (B : between_lines (blank SS_IDLE None) []) by (split; [reflexivity|cbn; lia]).
  pose proof (list_prefix lw w2 s (now_using st None) tx p c _ [] first Q1 T eq_refl L1 B FB) as E3. cbv zeta in E3.
  change (st_hash (now_using st None)) with (st_hash st) in E3.
  set (sp1 := mkSP SS_FIRST _ _ _ _) in E3. set (w3 := mkW _ _ _ _) in E3.
  assert (E4 : run lw (make_list_ready s p c ++ [ParserSetConsumer p (Some c); OnStation s (RequestEngineList first (Some p))]) w = Ok (w3, t1 ++ EvCfg p CStart :: map (EvTx tx) (ProofsRequest.list_frames (st_hash st) first))).
  { unfold make_list_ready. rewrite <- app_assoc, (run_app _ _ _ _ _ _ E1). cbn [app run]. unfold World.seq at 1. rewrite ER. cbn [bind]. cbn [run] in E3. rewrite E3. reflexivity. }
  assert (SE : sent (t1 ++ EvCfg p CStart :: map (EvTx tx) (ProofsRequest.list_frames (st_hash st) first)) = ProofsRequest.list_frames (st_hash st) first).
  { rewrite sent_app, T1. change (sent (EvCfg p CStart :: ?l)) with (sent l). apply sent_tx. }
  pose proof (SV _ _ (list_wish (st_hash st) first (proj2 Q) FB)) as GA. cbn [good_answer] in GA.
  destruct (answer (ProofsRequest.list_frames (st_hash st) first)) as (hd & ds) eqn:AN. cbn [fst snd] in GA.
  destruct GA as (d & (crc & HF & CK & NE & SZ & DF) & CA & DO & LF & NI & v & CI & VN & VD).
  destruct (doc_lines ds d [] DO CA) as (DL & DA).
  assert (L3 : lib_at w3 p sp1) by (eapply lib_upd; exact L1).
  assert (Q3 : nth_error (w_stations w3) s = Some (now_using st (Some p))) by (eapply upd_at; apply (proj1 Q1)).
  assert (H16 : is_u16 (st_hash (now_using st (Some p)))) by (apply (proj2 Q)).
  destruct (list_stream lw p c (Def false) (repeat si_reset (List.length i)) (Def 0) (Def 0) x (fun d => OnStation s (HandlePacket (mkFrame id d))) (fun d => [EvCfg p (CAdd d)]) (fun w => nth_error (w_stations w) s = Some (now_using st (Some p)))
     hd ds (zlen ds) crc (mkA Between [] [] []) w3 sp1) as (w4 & t4 & E5 & S5 & EE5 & P5 & CC5 & _ & _); try assumption; try reflexivity.
  - intros wa wb Y1 Y2. rewrite Y1. exact Y2.
  - intros. eapply config_deliver; try eassumption. reflexivity.
  - apply sec_fits. cbn. lia.
  - apply nonempty_pos. exact NE.
  - rewrite DL. exact LF.
  - assert (VT : verdict (received ds) crc = true) by (apply verdict_true; exact CK).
    rewrite VT in CC5, P5. rewrite DL in CC5.
    pose proof (ready_kinds lw s p st w w1 t1 S Q P E1) as (K1 & K2 & K3 & K4).
    assert (PC : (c < List.length (w_conss w1))%nat) by (apply nth_error_Some; unfold consumer_at in C'; congruence).
    assert (PP : (p < List.length (w_parsers w1))%nat) by (apply nth_error_Some; unfold lib_at in L1; congruence).
    assert (XP : w_parsers w4 = upd p (LibP (body_sp 0 crc (received ds) (auto_after (mkA Between [] [] []) ds) (Some c) SS_DONE)) (w_parsers w1)) by (rewrite P5; unfold w3; cbn [w_parsers]; unfold w2, with_consumer; cbn [w_parsers]; apply upd_upd).
    set (names := part first 2 (map e_name cat)) in *.
    set (infos := filled (repeat si_reset (List.length i)) (names_in (reports [] d))).
    assert (OB : after_list lw (Def true) (repeat si_reset (List.length i)) (Def 0) (Def 0) (Def x) (reports [] d) = ListC (Def true) infos (Def (zlen cat mod 256)) (Def 0) (Def x)).
    { unfold after_list. rewrite CI. cbn [rev app]. rewrite (decimal_count lw v (zlen cat) LW VN VD) by lia. reflexivity. }
    assert (XC : w_conss w4 = upd c (ListC (Def true) infos (Def (zlen cat mod 256)) (Def 0) (Def x)) (w_conss w1)).
    { rewrite CC5, OB. unfold w3. cbn [w_conss]. unfold w2, with_consumer. cbn [w_conss]. apply upd_upd. }
    assert (C4 : consumer_at w4 c (ListC (Def true) infos (Def (zlen cat mod 256)) (Def 0) (Def x))) by (unfold consumer_at; rewrite XC; eapply upd_at; exact C').
    assert (LN : List.length infos = List.length i).
    { unfold infos. rewrite filled_empty, app_length, map_length, firstn_length, !repeat_length. lia. }
    assert (LP : (List.length names <= 2)%nat) by (unfold names, part; rewrite firstn_length; change (Z.to_nat 2) with 2%nat; lia).
    pose proof (names_small _ LF) as NS. rewrite NI in NS.
    exists w4, infos, (Def 0), (Def x). split; [|split; [|split; [|split; [|split; [|split]]]]].
    + unfold ask_master. rewrite E4. cbn [bind]. rewrite SE, AN. cbn [fst snd]. unfold arriving. rewrite E5. reflexivity.
    + split; [|split].
      * eapply sound_like; [exact S1| | | | | | |].
        -- rewrite P5, upd_len. unfold w3. cbn [w_parsers]. apply upd_len.
        -- rewrite CC5, upd_len. unfold w3. cbn [w_conss]. unfold w2. cbn. apply upd_len.
        -- rewrite EE5. reflexivity.
        -- rewrite S5. unfold w3. cbn [w_stations]. destruct S1 as (S1 & _). apply Forall_upd; [exact S1|]. 
           destruct S as (S & _). rewrite Forall_forall in S1. pose proof (S1 _ (nth_error_In _ _ (proj1 Q1))) as (A & B' & _). split; [exact A|]. split; [exact B'|]. cbn. apply nth_error_Some. unfold lib_at in L1. congruence.
        -- rewrite XP. apply Forall_upd; [apply S1|]. split; [|split; [exact PC|exact Logic.I]]. exists (auto_after (mkA Between [] [] []) ds). split; [|reflexivity]. apply after_fits. apply sec_fits. cbn. lia.
        -- rewrite XC. apply Forall_upd; [apply S1|]. split; [eexists; reflexivity|]. split; [eexists; reflexivity|]. split; [eexists; reflexivity|]. split; [eexists; reflexivity|].
           unfold infos. rewrite filled_empty, NI, firstn_all2 by lia. apply Forall_app. split.
           ++ apply Forall_map. eapply Forall_impl; [|exact NS]. intros nn (A1 & A2). apply named_sound; [exact A1|lia].
           ++ apply Forall_forall. intros y Y. apply repeat_spec in Y. subst y. exact reset_sound.
        -- rewrite EE5. unfold w3. cbn. apply S1.
      * exists (now_using st (Some p)). split; [rewrite S5; exact Q3|exact H16].
      * eexists. unfold lib_at. rewrite P5. eapply upd_at. exact L3.
    + exists (Def true), infos, (Def (zlen cat mod 256)), (Def 0), (Def x). split; [exact C4|lia].
    + rewrite EE5. unfold w3. cbn. exact EN.
    + exact C4.
    + unfold infos. rewrite filled_empty, NI, filter_app, map_app. rewrite firstn_all2 by lia. 
      replace (filter _ (repeat _ _)) with (@nil ShortInfo) by (symmetry; apply filter_resets). cbn [map]. rewrite app_nil_r. apply filter_named. exact NS.
    + split; [|split; [|split]].
      * rewrite S5. unfold w3. cbn [w_stations]. rewrite upd_len. exact K1.
      * rewrite XP, <- K2. eapply upd_map; [exact L1|reflexivity].
      * rewrite XC, <- K3. eapply upd_map; [exact C'|]. cbn. congruence.
      * rewrite EE5. exact K4.
Qed.

Lemma part_skip : forall A (l : list A) first, 0 <= first -> part first 2 l ++ skipn (Z.to_nat (first + 2)) l = skipn (Z.to_nat first) l.
Proof.
  intros A l first F. unfold part. rewrite Z2Nat.inj_add by lia. change (Z.to_nat 2) with 2%nat. set (n := Z.to_nat first). clearbody n.
  replace (n + 2)%nat with (2 + n)%nat by lia. rewrite <- skipn_skipn. apply firstn_skipn.
Qed.
Definition fetched (total first : Z) : Z := Z.max 2 (2 * ((total - first + 1) / 2)).
Lemma part_both : forall A (l : list A) first k, 0 <= first -> 0 <= k -> part first 2 l ++ part (first + 2) k l = part first (2 + k) l.
Proof.
  intros A l first k F K. unfold part. rewrite !Z2Nat.inj_add by lia. change (Z.to_nat 2) with 2%nat. set (n := Z.to_nat first). set (m := Z.to_nat k). clearbody n m.
  replace (n + 2)%nat with (2 + n)%nat by lia. rewrite <- skipn_skipn. set (l' := skipn n l). clearbody l'.
  destruct l' as [|x [|y l']]; cbn; rewrite ?firstn_nil; reflexivity.
Qed.
Lemma fetch_from : forall lw cat answer s p c id, 32 <= lw -> serves cat answer -> config_id id -> zlen cat < 2 ^ 31 ->
  forall fuel first w, 0 <= first < 256 -> zlen cat mod 256 - first <= 2 * Z.of_nat fuel -> (0 < fuel)%nat -> equipped w s p -> has_list w c ->
  exists w', fetch_names lw s p c id answer fuel first w = Ok (part first (fetched (zlen cat mod 256) first) (map e_name cat), w') /\
    equipped w' s p /\ has_list w' c /\ w_engines w' = w_engines w /\ same_objects w w'.
Proof.
  intros lw cat answer s p c id LW SV ID CL. pose proof (Z.mod_pos_bound (zlen cat) 256 ltac:(lia)) as TB. induction fuel as [|fuel IH]; intros first w FB FU F0 EQ HL; [lia|]. cbn [fetch_names].
  destruct (page lw cat answer s p c id first w LW SV ID FB CL EQ HL) as (w1 & i & o & cb & E1 & EQ1 & HL1 & EN1 & C1 & NM & SO1). rewrite E1. cbn [bind].
  unfold q_getEngineInfos, q_getNumEngines, get_cons, at_. unfold consumer_at in C1. rewrite C1. cbn [bind].
  rewrite NM. cbn [mread bind]. set (total := zlen cat mod 256) in *. destruct (first + 2 <? total) eqn:T.
  - apply Z.ltb_lt in T. assert (A1 : 0 <= first + 2 < 256) by lia. assert (A2 : total - (first + 2) <= 2 * Z.of_nat fuel) by lia. assert (A3 : (0 < fuel)%nat) by lia.
    destruct (IH (first + 2) w1 A1 A2 A3 EQ1 HL1) as (w2 & E2 & EQ2 & HL2 & EN2 & SO2).
    exists w2. rewrite E2. cbn [bind]. rewrite part_both by (unfold fetched; lia).
    replace (2 + fetched total (first + 2)) with (fetched total first).
    2:{ unfold fetched. pose proof (Z.div_mod (total - first + 1) 2 ltac:(lia)). pose proof (Z.mod_pos_bound (total - first + 1) 2 ltac:(lia)).
        pose proof (Z.div_mod (total - (first + 2) + 1) 2 ltac:(lia)). pose proof (Z.mod_pos_bound (total - (first + 2) + 1) 2 ltac:(lia)). lia. }
    split; [reflexivity|]. split; [exact EQ2|]. split; [exact HL2|]. split; [congruence|].
    destruct SO1 as (a & b' & c' & d), SO2 as (a' & b'' & c'' & d'). repeat split; congruence.
  - apply Z.ltb_ge in T. exists w1. replace (fetched total first) with 2; [auto|].
    unfold fetched. pose proof (Z.div_mod (total - first + 1) 2 ltac:(lia)). pose proof (Z.mod_pos_bound (total - first + 1) 2 ltac:(lia)). lia.
Qed.
Lemma fetched_enough : forall total, total <= fetched total 0.
Proof. intros. unfold fetched. pose proof (Z.div_mod (total - 0 + 1) 2 ltac:(lia)). pose proof (Z.mod_pos_bound (total - 0 + 1) 2 ltac:(lia)). lia. Qed.
Lemma fetched_most : forall total, 0 <= total -> fetched total 0 <= Z.max 2 (total + 1).
Proof. intros. unfold fetched. pose proof (Z.div_mod (total - 0 + 1) 2 ltac:(lia)). pose proof (Z.mod_pos_bound (total - 0 + 1) 2 ltac:(lia)). lia. Qed.
Lemma part_all : forall A k (l : list A), part 0 k l = l <-> zlen l <= Z.max 0 k.
Proof.
  intros A k l. unfold part. change (skipn (Z.to_nat 0) l) with l. split; intro H.
  - assert (X : List.length (firstn (Z.to_nat k) l) = List.length l) by (rewrite H; reflexivity). rewrite firstn_length in X. unfold zlen. lia.
  - apply firstn_all2. unfold zlen in H. lia.
Qed.
Lemma whole_list : forall lw cat answer s p c id w, 32 <= lw -> serves cat answer -> config_id id -> zlen cat < 2 ^ 31 -> equipped w s p -> has_list w c ->
  exists w', fetch_names lw s p c id answer 128 0 w = Ok (firstn (Z.to_nat (Z.max 2 (2 * ((zlen cat mod 256 + 1) / 2)))) (map e_name cat), w') /\
    equipped w' s p /\ has_list w' c /\ w_engines w' = w_engines w /\ same_objects w w'.
Proof.
  intros lw cat answer s p c id w LW SV ID CL EQ HL. pose proof (Z.mod_pos_bound (zlen cat) 256 ltac:(lia)).
  destruct (fetch_from lw cat answer s p c id LW SV ID CL 128 0 w) as (w' & E & R); try assumption; try lia. exists w'. split; [|exact R]. rewrite E. unfold part, fetched. rewrite Z.sub_0_r. reflexivity.
Qed.
Lemma whole_iff : forall (names : list (list Z)), firstn (Z.to_nat (Z.max 2 (2 * ((zlen names mod 256 + 1) / 2)))) names = names <-> zlen names <= 255.
Proof.
  intros names. pose proof (part_all _ (fetched (zlen names mod 256) 0) names) as P. unfold part, fetched in P. change (skipn (Z.to_nat 0) names) with names in P. rewrite Z.sub_0_r in P. rewrite P. clear P.
  pose proof (Z.mod_pos_bound (zlen names) 256 ltac:(lia)) as B. pose proof (fetched_enough (zlen names mod 256)) as F1. pose proof (fetched_most (zlen names mod 256) ltac:(lia)) as F2. unfold fetched in *. rewrite Z.sub_0_r in *.
  assert (N : 0 <= zlen names) by (unfold zlen; lia). set (k := Z.max 2 _) in *. clearbody k. split; intro H.
  - destruct (Z.le_gt_cases (zlen names) 255) as [|G]; [assumption|]. exfalso. destruct (Z.eq_dec (zlen names) 256) as [Q|Q]; [rewrite Q in *; change (256 mod 256) with 0 in *; lia|].
    pose proof (Z.div_mod (zlen names) 256 ltac:(lia)). lia.
  - rewrite Z.mod_small in F1 by lia. lia.
Qed.

(** ** One engine *)
Definition filed (name : list Z) (x : entry) : Loco :=
  mkLoco (mkSI FULL_DETAILS (firstn 32 name ++ repeat 0 (33 - List.length (firstn 32 name)))) (mkLD (e_uid x) 0 DIR_UNKNOWN (e_addr x) 0) (e_proto x ++ repeat 0 (8 - List.length (e_proto x))).
Lemma one_engine : forall lw cat answer s p c e id name x w, 32 <= lw -> serves cat answer -> config_id id -> nulfree name ->
  find (fun y => same_text (e_name y) (firstn 16 name)) cat = Some x ->
  equipped w s p -> an_engine_consumer w c -> has_engine w e ->
  exists w', fetch_engine lw s p c e id answer name w = Ok (filed name x, w') /\ entry_of (filed name x) = mkEntry (firstn 32 name) (e_uid x) (e_addr x) (e_proto x) /\
    equipped w' s p /\ w_engines w' = upd e (filed name x) (w_engines w) /\ same_objects w w' /\ q_getEngine w' c = Ok (Some e).
Proof.
  intros lw cat answer s p c e id name x w LW SV ID NF FD (S & (st & Q) & P) (e0 & cb & C) (l & EL).
  destruct (made_ready lw w s st p S Q P) as (w1 & t1 & E1 & R & _). pose proof (ready_sends _ _ _ _ _ _ S E1) as T1.
  pose proof (ready_kinds lw s p st w w1 t1 S Q P E1) as (K1 & K2 & K3 & K4).
  destruct R as [S1 Q1 L1 EN C1]. destruct (sound_tx _ _ _ S1 Q1) as (tx & T). destruct (C1 _ _ C) as (x' & C' & M).
  assert (x' = LocoC e0 cb) by (destruct M as [M|(?&?&?&?&?&M&_)]; [exact M|discriminate]). subst x'.
  assert (SC : sound_consumer w (LocoC e0 cb)). { destruct S as (_ & _ & S & _). rewrite Forall_forall in S. exact (S _ (nth_error_In _ _ C)). }
  destruct SC as (_ & (xb & ->)).
  assert (N32 : nulfree (firstn 32 name)) by (apply nulfree_firstn; exact NF).
  assert (L32 : (List.length (firstn 32 name) <= 32)%nat) by (rewrite firstn_length; lia).
  assert (EL1 : engine_at w1 e l) by (unfold engine_at; rewrite EN; exact EL).
  set (fresh := mkLoco (named (firstn 32 name)) ld_reset (repeat 0 8)).
  assert (ER : step lw (OnEngine e (ESetName (name ++ [0]))) w1 = Ok (mkW (w_stations w1) (w_parsers w1) (w_conss w1) (upd e fresh (w_engines w1)), [])).
  { cbn [step]. unfold ask, get_engine, at_. rewrite EL1. cbn [bind eop_apply]. unfold lo_setName. change (si_name (lo_info lo_reset)) with erased_name. rewrite name_copy by exact NF. reflexivity. }
  set (w2 := mkW (w_stations w1) (w_parsers w1) (w_conss w1) (upd e fresh (w_engines w1))) in *.
  assert (EL2 : engine_at w2 e fresh) by (eapply upd_at; exact EL1).
  assert (B : between_lines (blank SS_IDLE None) []) by (split; [reflexivity|cbn; lia]).
  assert (SN : shows_name (si_name (lo_info fresh)) (firstn 32 name)) by (split; [exact N32|]; split; [exact L32|reflexivity]).
  assert (AV : si_avail (lo_info fresh) <> EMPTY) by discriminate.
  pose proof (engine_prefix lw w2 s (now_using st None) tx p c e _ [] (Def xb) e0 fresh (firstn 32 name) Q1 T eq_refl L1 B C' EL2 AV SN) as E3. cbv zeta in E3.
  change (st_hash (now_using st None)) with (st_hash st) in E3.
  set (sp1 := mkSP SS_FIRST _ _ _ _) in E3. set (w3 := mkW _ _ _ _) in E3.
  assert (E4 : run lw (make_ready s p ++ [OnEngine e (ESetName (name ++ [0])); ParserSetConsumer p (Some c); LocoSetEngine c (Some e); OnStation s (RequestEngine (RefEngine e) (Some p))]) w =
               Ok (w3, t1 ++ EvCfg p CStart :: map (EvTx tx) (engine_request (st_hash st) (firstn 32 name)))).
  { rewrite (run_app _ _ _ _ _ _ E1). cbn [run]. unfold World.seq at 1. rewrite ER. cbn [bind]. cbn [run] in E3. rewrite E3. reflexivity. }
  assert (SE : sent (t1 ++ EvCfg p CStart :: map (EvTx tx) (engine_request (st_hash st) (firstn 32 name))) = engine_request (st_hash st) (firstn 32 name)).
  { rewrite sent_app, T1. change (sent (EvCfg p CStart :: ?l)) with (sent l). apply sent_tx. }
  pose proof (SV _ _ (any_wish (st_hash st) name (proj2 Q) NF)) as GA. cbn [good_answer] in GA. rewrite FD in GA.
  destruct (answer (engine_request (st_hash st) (firstn 32 name))) as (hd & ds) eqn:AN. cbn [fst snd] in GA.
  destruct GA as (d & (crc & HF & CK & NE & SZ & DF) & CA & (DO & LF & (tu & VU & NU) & U & (ta & VA & NA) & A & VP & NP & P7)).
  destruct (doc_lines ds d [] DO CA) as (DL & DA).
  assert (L3 : lib_at w3 p sp1) by (eapply lib_upd; exact L1).
  assert (Q3 : nth_error (w_stations w3) s = Some (now_using st (Some p))) by (eapply upd_at; apply (proj1 Q1)).
  assert (H16 : is_u16 (st_hash (now_using st (Some p)))) by (apply (proj2 Q)).
  assert (C3 : consumer_at w3 c (LocoC (Def (Some e)) (Def xb))) by (eapply upd_at; exact C').
  assert (VT : verdict (received ds) crc = true) by (apply verdict_true; exact CK).
  pose proof (described_engine lw fresh _ tu (e_uid x) ta (e_addr x) (e_proto x) LW VU NU U VA NA A VP NP P7) as DE.
  assert (I0 : In 0 (e_proto x ++ repeat 0 (8 - List.length (e_proto x)))) by (apply in_or_app; right; replace (8 - List.length (e_proto x))%nat with (Datatypes.S (7 - List.length (e_proto x))) by lia; left; reflexivity).
  destruct (loco_stream lw p c e xb (fun d => OnStation s (HandlePacket (mkFrame id d))) (fun d => [EvCfg p (CAdd d)]) (fun w => nth_error (w_stations w) s = Some (now_using st (Some p)))
     hd ds (zlen ds) crc (mkA Between [] [] []) w3 sp1 fresh (firstn 32 name)) as (w4 & t4 & E5 & S5 & CC5 & P5 & EE5 & _ & _); try assumption; try reflexivity.
  - intros wa wb Y1 Y2. rewrite Y1. exact Y2.
  - intros. eapply config_deliver; try eassumption. reflexivity.
  - apply sec_fits. cbn. lia.
  - apply nonempty_pos. exact NE.
  - rewrite DL. exact LF.
  - intros _. rewrite DL, DE. exact I0.
  - rewrite VT in EE5, P5. rewrite DL, DE in EE5.
    assert (XE : w_engines w4 = upd e (filed name x) (w_engines w)).
    { rewrite EE5. unfold w3. cbn [w_engines]. unfold w2. cbn [w_engines]. rewrite upd_upd, EN. reflexivity. }
    assert (XP : w_parsers w4 = upd p (LibP (body_sp 0 crc (received ds) (auto_after (mkA Between [] [] []) ds) (Some c) SS_DONE)) (w_parsers w1)) by (rewrite P5; unfold w3; cbn [w_parsers]; unfold w2; cbn [w_parsers]; apply upd_upd).
    assert (XC : w_conss w4 = upd c (LocoC (Def (Some e)) (Def xb)) (w_conss w1)) by (rewrite CC5; reflexivity).
    assert (PC : (c < List.length (w_conss w1))%nat) by (apply nth_error_Some; unfold consumer_at in C'; congruence).
    assert (PP : (p < List.length (w_parsers w1))%nat) by (apply nth_error_Some; unfold lib_at in L1; congruence).
    assert (PE : (e < List.length (w_engines w1))%nat) by (apply nth_error_Some; unfold engine_at in EL1; congruence).
    exists w4. split; [|split; [|split; [|split; [exact XE|split]]]].
    + unfold fetch_engine, ask_master. rewrite E4. cbn [bind]. rewrite SE, AN. cbn [fst snd]. unfold arriving. rewrite E5. cbn [bind]. unfold get_engine, at_.
      assert (G : nth_error (w_engines w4) e = Some (filed name x)) by (rewrite XE; eapply upd_at; exact EL). rewrite G. reflexivity.
    + unfold entry_of, filed, name_of. cbn [lo_info lo_data lo_proto si_name ld_uid ld_addr]. rewrite !until_pad; [reflexivity|exact NP|exact N32].
    + split; [|split].
      * eapply sound_like; [exact S1| | | | | | |].
        -- rewrite XP. apply upd_len.
        -- rewrite XC. apply upd_len.
        -- rewrite XE, EN. apply upd_len.
        -- rewrite S5. unfold w3. cbn [w_stations]. destruct S1 as (S1 & _). apply Forall_upd; [exact S1|].
           rewrite Forall_forall in S1. pose proof (S1 _ (nth_error_In _ _ (proj1 Q1))) as (A' & B' & _). split; [exact A'|]. split; [exact B'|]. exact PP.
        -- rewrite XP. apply Forall_upd; [apply S1|]. split; [|split; [exact PC|exact Logic.I]]. exists (auto_after (mkA Between [] [] []) ds). split; [|reflexivity]. apply after_fits. apply sec_fits. cbn. lia.
        -- rewrite XC. apply Forall_upd; [apply S1|]. split; [|eexists; reflexivity]. eexists. split; [reflexivity|exact PE].
        -- rewrite XE. apply Forall_upd; [rewrite <- EN; apply S1|]. split; [|split; [|exact I0]].
           ++ exists (firstn 32 name). split; [exact N32|]. split; [exact L32|reflexivity].
           ++ unfold filed. cbn [lo_proto]. rewrite app_length, repeat_length. lia.
      * exists (now_using st (Some p)). split; [rewrite S5; exact Q3|exact H16].
      * eexists. unfold lib_at. rewrite P5. eapply upd_at. exact L3.
    + split; [|split; [|split]].
      * rewrite S5. unfold w3. cbn [w_stations]. rewrite upd_len. exact K1.
      * rewrite XP, <- K2. eapply upd_map; [exact L1|reflexivity].
      * rewrite XC, <- K3. eapply upd_map; [exact C'|]. reflexivity.
      * rewrite XE. apply upd_len.
    + unfold q_getEngine, get_cons, at_. assert (Y : nth_error (w_conss w4) c = Some (LocoC (Def (Some e)) (Def xb))) by (rewrite XC; eapply upd_at; exact C'). rewrite Y. reflexivity.
Qed.

(** ** All engines *)
Lemma same_trans : forall a b c, same_objects a b -> same_objects b c -> same_objects a c.
Proof. intros a b c (A & B & C & D) (A' & B' & C' & D'). repeat split; congruence. Qed.
Lemma still_engine_consumer : forall w w' c, same_objects w w' -> an_engine_consumer w c -> an_engine_consumer w' c.
Proof. intros w w' c SO (e & cb & C). destruct (same_kind _ _ _ _ SO C) as ([e1 cb1|? ? ? ? ?|] & C1 & K); try discriminate. exists e1, cb1. exact C1. Qed.
Lemma still_engine : forall w w' e, same_objects w w' -> has_engine w e -> has_engine w' e.
Proof.
  intros w w' e (_ & _ & _ & L) (l & E). unfold has_engine, engine_at in *. destruct (nth_error (w_engines w') e) eqn:X; [eauto|].
  apply nth_error_None in X. assert (e < List.length (w_engines w))%nat by (apply nth_error_Some; congruence). lia.
Qed.
Lemma all_engines : forall lw cat answer s p c e id, 32 <= lw -> serves cat answer -> config_id id -> NoDup (map e_name cat) -> Forall (fun x => name_fits (e_name x)) cat ->
  forall xs w, incl xs cat -> equipped w s p -> an_engine_consumer w c -> has_engine w e ->
  exists w', fetch_engines lw s p c e id answer (map e_name xs) w = Ok (xs, w') /\ equipped w' s p /\ same_objects w w' /\
    w_engines w' = match rev xs with x :: _ => upd e (filed (e_name x) x) (w_engines w) | [] => w_engines w end.
Proof.
  intros lw cat answer s p c e id LW SV ID ND NF. rewrite Forall_forall in NF. assert (SH : forall x, In x cat -> (List.length (e_name x) <= 16)%nat) by (intros y Y; apply NF; exact Y). induction xs as [|x xs IH]; intros w IN EQ EC HE; [exists w; repeat split; auto; apply EQ|].
  assert (IX : In x cat) by (apply IN; left; reflexivity).
  assert (FD : find (fun y => same_text (e_name y) (firstn 16 (e_name x))) cat = Some x).
  { rewrite firstn_all2 by (apply SH; exact IX). clear - IX ND. induction cat as [|y cat IH]; [destruct IX|]. cbn [find]. cbn [map] in ND. inversion ND; subst. unfold same_text at 1. destruct (list_eq_dec Z.eq_dec (e_name y) (e_name x)) as [Q|Q].
    - destruct IX as [->|IX]; [reflexivity|]. rewrite Q in *. destruct H1. apply in_map. exact IX.
    - destruct IX as [->|IX]; [congruence|]. apply IH; assumption. }
  destruct (one_engine lw cat answer s p c e id (e_name x) x w LW SV ID (proj1 (NF _ IX)) FD EQ EC HE) as (w1 & E1 & EO & EQ1 & WE & SO1 & _).
  destruct (IH w1) as (w2 & E2 & EQ2 & SO2 & WE2); [intros y Y; apply IN; right; exact Y|exact EQ1|eapply still_engine_consumer; eassumption|eapply still_engine; eassumption|].
  exists w2. cbn [map fetch_engines]. rewrite E1. cbn [bind]. rewrite E2. cbn [bind]. rewrite EO. pose proof (SH _ IX). rewrite firstn_all2 by lia. split; [destruct x; reflexivity|]. split; [exact EQ2|]. split; [eapply same_trans; eassumption|].
  rewrite WE2, WE. cbn [rev]. destruct (rev xs) as [|y r]; [reflexivity|]. cbn [app]. apply upd_upd.
Qed.
Lemma whole_catalogue : forall lw cat answer s p c c' e id w, 32 <= lw -> serves cat answer -> config_id id -> zlen cat < 256 ->
  NoDup (map e_name cat) -> Forall (fun x => name_fits (e_name x)) cat ->
  equipped w s p -> has_list w c -> an_engine_consumer w c' -> has_engine w e ->
  exists w', fetch_catalogue lw s p c c' e id answer w = Ok (cat, w') /\ equipped w' s p /\ same_objects w w' /\
    w_engines w' = match rev cat with x :: _ => upd e (filed (e_name x) x) (w_engines w) | [] => w_engines w end.
Proof.
  intros lw cat answer s p c c' e id w LW SV ID CL ND NF EQ HL EC HE.
  assert (CL' : zlen cat < 2 ^ 31) by lia. destruct (whole_list lw cat answer s p c id w LW SV ID CL' EQ HL) as (w1 & E1 & EQ1 & HL1 & EN1 & SO1).
  assert (ML : zlen (map e_name cat) = zlen cat) by (unfold zlen; rewrite map_length; reflexivity).
  rewrite <- ML in E1. rewrite (proj2 (whole_iff (map e_name cat))) in E1 by lia.
  destruct (all_engines lw cat answer s p c' e id LW SV ID ND NF cat w1) as (w2 & E2 & EQ2 & SO2 & EN2); [intros y Y; exact Y|exact EQ1|eapply still_engine_consumer; eassumption|eapply still_engine; eassumption|].
  exists w2. unfold fetch_catalogue. rewrite E1. cbn [bind]. rewrite E2. split; [reflexivity|]. split; [exact EQ2|]. split; [eapply same_trans; eassumption|].
  rewrite EN2, EN1. reflexivity.
Qed.

(** ** The statements *)
Lemma names_fetched : forall lw cat answer s p c id w, 32 <= lw -> serves cat answer -> config_id id -> zlen cat < 2 ^ 31 -> equipped w s p -> has_list w c ->
  exists w', fetch_names lw s p c id answer 128 0 w = Ok (firstn (Z.to_nat (Z.max 2 (2 * ((zlen cat mod 256 + 1) / 2)))) (map e_name cat), w') /\
    equipped w' s p /\ has_list w' c /\ w_engines w' = w_engines w.
Proof. intros lw cat answer s p c id w H1 H2 H3 H4 H5 H6. destruct (whole_list lw cat answer s p c id w H1 H2 H3 H4 H5 H6) as (w' & A & B & C & D & _). exists w'. auto. Qed.
Lemma names_complete : forall lw cat answer s p c id w, 32 <= lw -> serves cat answer -> config_id id -> zlen cat < 2 ^ 31 -> equipped w s p -> has_list w c ->
  ((exists w', fetch_names lw s p c id answer 128 0 w = Ok (map e_name cat, w')) <-> zlen cat <= 255).
Proof.
  intros lw cat answer s p c id w H1 H2 H3 H4 H5 H6. destruct (whole_list lw cat answer s p c id w H1 H2 H3 H4 H5 H6) as (w' & A & _). pose proof (whole_iff (map e_name cat)) as W.
  assert (ML : zlen (map e_name cat) = zlen cat) by (unfold zlen; rewrite map_length; reflexivity). rewrite ML in W. rewrite <- W, A. split; [intros (w2 & E); congruence|intros E; exists w'; rewrite E; reflexivity].
Qed.
Lemma engine_fetched : forall lw cat answer s p c e id name x w, 32 <= lw -> serves cat answer -> config_id id -> nulfree name ->
  find (fun y => same_text (e_name y) (firstn 16 name)) cat = Some x ->
  equipped w s p -> an_engine_consumer w c -> has_engine w e ->
  exists l w', fetch_engine lw s p c e id answer name w = Ok (l, w') /\
    entry_of l = mkEntry (firstn 32 name) (e_uid x) (e_addr x) (e_proto x) /\ si_avail (lo_info l) = FULL_DETAILS /\
    equipped w' s p /\ an_engine_consumer w' c /\ w_engines w' = upd e l (w_engines w).
Proof.
  intros lw cat answer s p c e id name x w H1 H2 H3 H4 H5 H6 H7 H8. destruct (one_engine lw cat answer s p c e id name x w H1 H2 H3 H4 H5 H6 H7 H8) as (w' & A & B & C & D & E & _).
  exists (filed name x), w'. split; [exact A|]. split; [exact B|]. split; [reflexivity|]. split; [exact C|]. split; [eapply still_engine_consumer; eassumption|exact D].
Qed.
Lemma find_own : forall cat x, In x cat -> NoDup (map e_name cat) -> find (fun y => same_text (e_name y) (e_name x)) cat = Some x.
Proof.
  intros cat x IX ND. induction cat as [|y cat IH]; [destruct IX|]. cbn [find]. cbn [map] in ND. inversion ND as [|? ? NI ND']; subst. unfold same_text at 1. destruct (list_eq_dec Z.eq_dec (e_name y) (e_name x)) as [Q|Q].
  - destruct IX as [->|IX]; [reflexivity|]. rewrite Q in NI. destruct NI. apply in_map. exact IX.
  - destruct IX as [->|IX]; [congruence|]. apply IH; assumption.
Qed.
Lemma own_entry : forall lw cat answer s p c e id x w, 32 <= lw -> serves cat answer -> config_id id -> In x cat -> NoDup (map e_name cat) -> name_fits (e_name x) ->
  equipped w s p -> an_engine_consumer w c -> has_engine w e ->
  exists l w', fetch_engine lw s p c e id answer (e_name x) w = Ok (l, w') /\ entry_of l = x /\ si_avail (lo_info l) = FULL_DETAILS.
Proof.
  intros lw cat answer s p c e id x w H1 H2 H3 IX ND (NF & L) H6 H7 H8. destruct (engine_fetched lw cat answer s p c e id (e_name x) x w H1 H2 H3 NF) as (l & w' & A & B & C & _); try assumption.
  - rewrite firstn_all2 by exact L. apply find_own; assumption.
  - exists l, w'. split; [exact A|]. split; [|exact C]. rewrite B, firstn_all2 by lia. destruct x; reflexivity.
Qed.
Lemma catalogue_copied : forall lw cat answer s p c c' e id w, 32 <= lw -> serves cat answer -> config_id id -> zlen cat <= 255 ->
  NoDup (map e_name cat) -> Forall (fun x => name_fits (e_name x)) cat ->
  equipped w s p -> has_list w c -> an_engine_consumer w c' -> has_engine w e ->
  exists w', fetch_catalogue lw s p c c' e id answer w = Ok (cat, w') /\ equipped w' s p /\ (forall k, k <> e -> nth_error (w_engines w') k = nth_error (w_engines w) k).
Proof.
  intros lw cat answer s p c c' e id w H1 H2 H3 H4 H5 H6 H7 H8 H9 H10. assert (CL : zlen cat < 256) by lia.
  destruct (whole_catalogue lw cat answer s p c c' e id w H1 H2 H3 CL H5 H6 H7 H8 H9 H10) as (w' & A & B & _ & D). exists w'. split; [exact A|]. split; [exact B|].
  intros k K. rewrite D. destruct (rev cat) as [|x r]; [reflexivity|]. clear - K. revert e k K. induction (w_engines w) as [|y l IH]; intros [|e] [|k] K; cbn; try reflexivity; [congruence|]. apply IH. lia.
Qed.
