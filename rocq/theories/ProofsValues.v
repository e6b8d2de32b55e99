(* ProofsValues.v -- lemmas behind PropsValues.v. *)
From Verif Require Import ZLib SpecValues ProofsBuffer ProofsLoco ProofsCodec ProofsFrames ProofsWorld ProofsStation ProofsPrint ProofsPassive ProofsConsumer.

(** ** Enumerations *)
Lemma byte_codes : Forall byte command_codes /\ Forall byte subcommand_codes.
Proof. split; repeat (apply Forall_cons; [unfold byte; lia|]); apply Forall_nil. Qed.
Lemma nodup_codes : NoDup command_codes /\ NoDup subcommand_codes.
Proof. split; repeat (apply NoDup_cons; [cbn; lia|]); apply NoDup_nil. Qed.
Lemma command_read_back : forall i j top prio cmd resp hash, id_fields_ok top prio cmd hash ->
  (i < List.length commands)%nat -> (j < List.length commands)%nat ->
  (id_getCommand (id_setCommand (id_value top prio cmd resp hash) (nth i commands 0)) = nth j commands 0 <-> i = j).
Proof.
  intros i j top prio cmd resp hash F I J. destruct nodup_codes as (N & _). change command_codes with commands in N. destruct byte_codes as (B & _). change command_codes with commands in B.
  assert (C : byte (nth i commands 0)) by (rewrite Forall_forall in B; apply B; apply nth_In; exact I).
  rewrite id_setCommand_value by assumption. rewrite id_getCommand_value by (unfold id_fields_ok, byte in *; lia).
  split; [|intros ->; reflexivity]. intros E. exact (proj1 (NoDup_nth commands 0) N i j I J E).
Qed.

Lemma subcommand_read_back : forall i j d, payload_ok d ->
  (i < List.length subcommands)%nat -> (j < List.length subcommands)%nat ->
  (sys_getSubcommand (sys_setSubcommand d (nth i subcommands 0)) = nth j subcommands 0 <-> i = j).
Proof.
  intros i j d OK I J. destruct nodup_codes as (_ & N). change subcommand_codes with subcommands in N. destruct byte_codes as (_ & B). change subcommand_codes with subcommands in B.
  assert (C : byte (nth i subcommands 0)) by (rewrite Forall_forall in B; apply B; apply nth_In; exact I).
  nine d OK. unfold sys_setSubcommand, sys_getSubcommand, dset, dget. cbn [dbytes dlc upd nth]. rewrite u8_byte by exact C.
  split; [|intros ->; reflexivity]. intros E. exact (proj1 (NoDup_nth subcommands 0) N i j I J E).
Qed.

(** ** Ranges *)
Lemma ranges : forall r, last_id r = first_id r + room r - 1 /\ 0 <= first_id r /\ last_id r < 65536.
Proof. intros []; vm_compute; intuition congruence. Qed.
Lemma disjoint : forall r q a, within r a -> within q a -> r = q.
Proof.
  intros r q a R Q. unfold within in *. destruct r; destruct q; try reflexivity; exfalso; revert R Q;
    unfold first_id, last_id, kMMEngineFunctionAddrStart, kSX1AddrStart, kMMFunctionAddrStart, kMMEngineAddrStart, kSX1AccessoryAddrStart, kMMAccessoryAddrStart, kDCCAccessoryAddrStart,
      kMFXAddrStart, kSX2AddrStart, kDCCAddrStart, kMMEngineFunctionAddrStop, kSX1AddrStop, kMMFunctionAddrStop, kMMEngineAddrStop, kSX1AccessoryAddrStop, kMMAccessoryAddrStop, kDCCccessoryAddrStop,
      kMFXAddrStop, kSX2AddrStop, kDCCAddrStop; lia.
Qed.
Lemma turnout_lands : forall p r a, turnout_range p = Some r -> within r (turnout_setProtocol a p) /\ turnout_setProtocol a p - first_id r = a mod 1024.
Proof.
  intros p r a H. assert (N : p <> P_UNKNOWN) by (intros ->; discriminate). rewrite (turnout_setProtocol_eq a p N). pose proof (Z.mod_pos_bound a 1024 ltac:(lia)) as B.
  assert (F : first_id r = turnout_base p) by (destruct p; cbn in H; try discriminate; injection H as <-; reflexivity).
  destruct (ranges r) as (L & _). unfold within. rewrite L, F. assert (1024 <= room r) by (destruct r; cbn; lia). lia.
Qed.
Lemma loco_lands : forall p r a, loco_range p = Some r -> within r (loco_setProtocol a p) /\ loco_setProtocol a p - first_id r = a mod 1024.
Proof.
  intros p r a H. assert (N : p <> P_UNKNOWN) by (intros ->; discriminate). rewrite (loco_setProtocol_eq a p N). pose proof (Z.mod_pos_bound a 1024 ltac:(lia)) as B.
  assert (F : first_id r = loco_base p) by (destruct p; cbn in H; try discriminate; injection H as <-; reflexivity).
  destruct (ranges r) as (L & _). unfold within. rewrite L, F. assert (1024 <= room r) by (destruct r; cbn; lia). lia.
Qed.
Lemma ids_identify : forall p q r s a c, turnout_range p = Some r -> turnout_range q = Some s ->
  (turnout_setProtocol a p = turnout_setProtocol c q <-> r = s /\ a mod 1024 = c mod 1024).
Proof.
  intros p q r s a c P Q. destruct (turnout_lands p r a P) as (W1 & E1). destruct (turnout_lands q s c Q) as (W2 & E2). split.
  - intros E. rewrite E in W1, E1. assert (r = s) by exact (disjoint r s _ W1 W2). subst s. split; [reflexivity|lia].
  - intros (<- & E). lia.
Qed.
Lemma loco_ids_identify : forall p q r s a c, loco_range p = Some r -> loco_range q = Some s ->
  (loco_setProtocol a p = loco_setProtocol c q <-> r = s /\ a mod 1024 = c mod 1024).
Proof.
  intros p q r s a c P Q. destruct (loco_lands p r a P) as (W1 & E1). destruct (loco_lands q s c Q) as (W2 & E2). split.
  - intros E. rewrite E in W1, E1. assert (r = s) by exact (disjoint r s _ W1 W2). subst s. split; [reflexivity|lia].
  - intros (<- & E). lia.
Qed.
Lemma kinds_apart : forall p q r s a c, turnout_range p = Some r -> loco_range q = Some s -> turnout_setProtocol a p <> loco_setProtocol c q.
Proof.
  intros p q r s a c P Q E. destruct (turnout_lands p r a P) as (W1 & _). destruct (loco_lands q s c Q) as (W2 & _). rewrite E in W1.
  assert (r = s) by exact (disjoint r s _ W1 W2). subst s. destruct p; destruct q; cbn in P, Q; congruence.
Qed.
Lemma mm2_lands : forall a, 0 <= a < 1024 -> within MMEngine (MM2_loco a).
Proof. intros a A. rewrite (proj1 (mm2_loco_eq a A)). unfold within, first_id, last_id, kMMEngineAddrStart, kMMEngineAddrStop. lia. Qed.

(** ** Engines *)
Definition E (l : Loco) (e : engine) : Prop :=
  si_avail (lo_info l) = e_avail e /\ shows_name (si_name (lo_info l)) (e_name e) /\
  ld_uid (lo_data l) = e_uid e /\ ld_vel (lo_data l) = e_vel e /\ ld_dir (lo_data l) = e_dir e /\ ld_addr (lo_data l) = e_addr e /\
  function_word (lo_data l) /\ (forall f, 0 <= f < 32 -> ld_getFunction (lo_data l) f = Ok (e_fun e f)) /\
  nulfree (e_proto e) /\ lo_proto l = firstn 8 (e_proto e) ++ repeat 0 (8 - List.length (e_proto e)) /\ (List.length (e_proto e) <= 8)%nat.
Lemma memory_split : forall s, In 0 s -> exists r, s = until_nul s ++ 0 :: r /\ nulfree (until_nul s).
Proof.
  induction s as [|c s IH]; intros H; [contradiction|]. cbn [until_nul]. destruct (Z.eqb_spec c 0) as [->|N].
  - exists s. split; [reflexivity|constructor].
  - destruct H as [H|H]; [congruence|]. destruct (IH H) as (r & R & F). exists r. split; [cbn [app]; congruence|]. constructor; assumption.
Qed.
Lemma blank_answers : forall l a n, si_avail (lo_info l) = a -> shows_name (si_name (lo_info l)) n -> lo_data l = lo_data lo_reset -> lo_proto l = lo_proto lo_reset -> E l (blank_engine a n).
Proof.
  intros l a n A N D P. unfold E. rewrite D, P. cbn [lo_reset lo_data lo_proto ld_reset ld_uid ld_vel ld_dir ld_addr blank_engine e_avail e_name e_uid e_vel e_dir e_addr e_fun e_proto].
  split; [exact A|]. split; [exact N|]. repeat (split; [reflexivity|]). split; [unfold function_word; cbn; lia|].
  split; [intros f F; rewrite getFunction_testbit by exact F; cbn [ld_fbits]; rewrite Z.testbit_0_l; reflexivity|]. split; [constructor|]. split; [reflexivity|cbn; lia].
Qed.
Lemma nul_prefix : forall n (s : list Z), nulfree s -> nulfree (firstn n s).
Proof. intros n s H. rewrite <- (firstn_skipn n s) in H. apply Forall_app in H. apply H. Qed.
Lemma engine_call : forall l e o, E l e -> engine_call_ok o -> exists l', eop_apply l o = Ok l' /\ E l' (engine_step e o).
Proof.
  intros l e o H K. pose proof H as (A & N & U & V & D & AD & FW & FN & NP & P & PL).
  assert (P8 : List.length (lo_proto l) = 8%nat) by (rewrite P, app_length, repeat_length, firstn_all2 by exact PL; lia).
  destruct o as [s|s| |a|u|v|d| |a|f on|s]; cbn [eop_apply engine_step engine_call_ok] in *.
  - destruct (memory_split s K) as (r & SP & NF). replace (lo_setName l s) with (lo_setName l (until_nul s ++ 0 :: r)) by (f_equal; symmetry; exact SP). destruct (lo_setName_spec l _ r NF) as (l' & -> & A' & N' & D' & P'). exists l'. split; [reflexivity|]. apply blank_answers; assumption.
  - destruct (memory_split s K) as (r & SP & NF). replace (lo_setNameConditional l s) with (lo_setNameConditional l (until_nul s ++ 0 :: r)) by (f_equal; symmetry; exact SP). destruct (lo_setNameConditional_spec l _ _ r N NF) as (SAME & NEW). rewrite <- A.
    destruct (avail_eqb (si_avail (lo_info l)) EMPTY) eqn:AV.
    + destruct NEW as (l' & E1 & E2); [left; destruct (si_avail (lo_info l)); try discriminate; reflexivity|]. rewrite E1. exists l'. split; [reflexivity|]. cbn [negb andb].
      destruct (lo_setName_spec l _ r NF) as (l'' & E3 & A' & N' & D' & P'). assert (l'' = l') by congruence. subst l''. apply blank_answers; assumption.
    + cbn [negb andb]. destruct (list_eq_dec Z.eq_dec (firstn 32 (until_nul s)) (e_name e)) as [EQ|NE].
      * rewrite SAME by (split; [intros X; rewrite X in AV; discriminate|exact EQ]). exists l. split; [reflexivity|exact H].
      * destruct NEW as (l' & E1 & E2); [right; exact NE|]. rewrite E1. exists l'. split; [reflexivity|].
        destruct (lo_setName_spec l _ r NF) as (l'' & E3 & A' & N' & D' & P'). assert (l'' = l') by congruence. subst l''. apply blank_answers; assumption.
  - eexists. split; [reflexivity|]. apply blank_answers; try reflexivity. split; [constructor|split; [cbn; lia|reflexivity]].
  - eexists. split; [reflexivity|]. unfold E. cbn. repeat (split; [assumption || reflexivity|]). assumption.
  - eexists. split; [reflexivity|]. unfold E. cbn. repeat (split; [assumption || reflexivity|]). assumption.
  - eexists. split; [reflexivity|]. unfold E. cbn. repeat (split; [assumption || reflexivity|]). assumption.
  - eexists. split; [reflexivity|]. unfold E. cbn. repeat (split; [assumption || reflexivity|]). assumption.
  - eexists. split; [reflexivity|]. rewrite change_spec. rewrite <- D. unfold E. cbn. repeat (split; [assumption || reflexivity|]). assumption.
  - eexists. split; [reflexivity|]. unfold E. cbn. repeat (split; [assumption || reflexivity|]). assumption.
  - destruct (setFunction_spec (lo_data l) f on FW K) as (d' & -> & FW' & (S1 & S2 & S3 & S4) & G). cbn [bind]. eexists. split; [reflexivity|]. unfold E, lo_upd_data.
    cbn [lo_info lo_data lo_proto e_avail e_name e_uid e_vel e_dir e_addr e_fun e_proto]. rewrite S1, S2, S3, S4.
    repeat (split; [assumption|]). split; [intros g GG; rewrite G by exact GG; destruct (g =? f); [reflexivity|apply FN; exact GG]|]. repeat (split; [assumption|]). assumption.
  - destruct (memory_split s K) as (r & SP & NF). replace (lo_setProtocolString l s) with (lo_setProtocolString l (until_nul s ++ 0 :: r)) by (f_equal; symmetry; exact SP). destruct (proto_spec l _ r P8 NF) as (l' & -> & I' & D' & P'). exists l'. split; [reflexivity|]. unfold E. rewrite I', D'.
    cbn [e_avail e_name e_uid e_vel e_dir e_addr e_fun e_proto]. repeat (split; [assumption|]). split; [apply nul_prefix; exact NF|]. split.
    + rewrite P', firstn_firstn, Nat.min_id. f_equal. f_equal. rewrite firstn_length. lia.
    + rewrite firstn_length. lia.
Qed.
Lemma E_answers : forall l e, E l e -> answers l e.
Proof.
  intros l e (A & N & U & V & D & AD & FW & FN & NP & P & PL). unfold answers, si_isFree, si_isNameKnown, si_isNameOnlyKnown, lo_isFullDetailsKnown. rewrite A.
  split; [destruct (e_avail e); cbn; intuition congruence|]. split; [destruct (e_avail e); cbn; intuition congruence|]. split; [destruct (e_avail e); cbn; intuition congruence|].
  split; [destruct (e_avail e); cbn; intuition congruence|]. split; [apply shows_name_str; exact N|].
  split; [exact U|]. split; [unfold ld_getUidMasked; rewrite U; change 0xFFFF with (Z.ones 16); rewrite Z.land_ones by lia; reflexivity|]. repeat (split; [assumption|]).
  intros L. rewrite P, firstn_all2 by exact PL. destruct (8 - List.length (e_proto e))%nat as [|k] eqn:K; [lia|]. cbn [repeat]. apply c_str_eq. exact NP.
Qed.
Lemma upd_same_id : forall A n (x : A) l, nth_error l n = Some x -> upd n x l = l.
Proof. intros A n x l. revert n. induction l as [|y l IH]; intros [|n] H; cbn in *; try discriminate; [congruence|rewrite (IH n H); reflexivity]. Qed.
Lemma engine_calls : forall lw k os w l e, engine_at w k l -> E l e -> Forall engine_call_ok os ->
  exists l', run lw (map (OnEngine k) os) w = Ok (mkW (w_stations w) (w_parsers w) (w_conss w) (upd k l' (w_engines w)), []) /\ E l' (fold_left engine_step os e).
Proof.
  intros lw k os. induction os as [|o os IH]; intros w l e L H F.
  - exists l. split; [|exact H]. cbn. unfold skip. rewrite (upd_same_id _ _ _ _ L). destruct w; reflexivity.
  - apply Forall_cons_iff in F. destruct F as (K & F). destruct (engine_call l e o H K) as (l1 & A & H1). cbn [map run fold_left].
    assert (ST : step lw (OnEngine k o) w = Ok (mkW (w_stations w) (w_parsers w) (w_conss w) (upd k l1 (w_engines w)), [])).
    { cbn [step]. unfold ask, get_engine, at_. rewrite L. cbn [bind]. rewrite A. reflexivity. }
    rewrite (seq_ok _ _ _ _ _ ST). destruct (IH (mkW (w_stations w) (w_parsers w) (w_conss w) (upd k l1 (w_engines w))) l1 (engine_step e o)) as (l2 & R & H2).
    + unfold engine_at. cbn [w_engines]. eapply upd_at. exact L.
    + exact H1.
    + exact F.
    + rewrite R. cbn [bind w_stations w_parsers w_conss w_engines app]. exists l2. rewrite upd_twice. auto.
Qed.
Lemma engine_histories : forall lw k os w l, engine_at w k l -> Forall engine_call_ok os ->
  exists l', run lw (map (OnEngine k) (EReset :: os)) w = Ok (mkW (w_stations w) (w_parsers w) (w_conss w) (upd k l' (w_engines w)), []) /\
    answers l' (fold_left engine_step os (blank_engine EMPTY [])).
Proof.
  intros lw k os w l L F. cbn [map run]. assert (ST : step lw (OnEngine k EReset) w = Ok (mkW (w_stations w) (w_parsers w) (w_conss w) (upd k lo_reset (w_engines w)), [])).
  { cbn [step]. unfold ask, get_engine, at_. rewrite L. reflexivity. }
  rewrite (seq_ok _ _ _ _ _ ST). destruct (engine_calls lw k os (mkW (w_stations w) (w_parsers w) (w_conss w) (upd k lo_reset (w_engines w))) lo_reset (blank_engine EMPTY [])) as (l2 & R & H2).
  - unfold engine_at. cbn [w_engines]. eapply upd_at. exact L.
  - apply blank_answers; try reflexivity. split; [constructor|split; [cbn; lia|reflexivity]].
  - exact F.
  - rewrite R. cbn [bind w_stations w_parsers w_conss w_engines app]. rewrite upd_twice. exists l2. split; [reflexivity|]. apply E_answers. exact H2.
Qed.
Lemma named_histories : forall lw k s os w l, engine_at w k l -> In 0 s -> Forall engine_call_ok os ->
  exists l', run lw (map (OnEngine k) (ESetName s :: os)) w = Ok (mkW (w_stations w) (w_parsers w) (w_conss w) (upd k l' (w_engines w)), []) /\
    answers l' (fold_left engine_step os (blank_engine NAME_KNOWN (firstn 32 (until_nul s)))).
Proof.
  intros lw k s os w l L Z F. destruct (memory_split s Z) as (r & SP & NF). destruct (lo_setName_spec l _ r NF) as (l1 & A & A' & N' & D' & P'). rewrite <- SP in A.
  cbn [map run]. assert (ST : step lw (OnEngine k (ESetName s)) w = Ok (mkW (w_stations w) (w_parsers w) (w_conss w) (upd k l1 (w_engines w)), [])).
  { cbn [step]. unfold ask, get_engine, at_. rewrite L. cbn [bind eop_apply]. rewrite A. reflexivity. }
  rewrite (seq_ok _ _ _ _ _ ST). destruct (engine_calls lw k os (mkW (w_stations w) (w_parsers w) (w_conss w) (upd k l1 (w_engines w))) l1 (blank_engine NAME_KNOWN (firstn 32 (until_nul s)))) as (l2 & R & H2).
  - unfold engine_at. cbn [w_engines]. eapply upd_at. exact L.
  - apply blank_answers; assumption.
  - exact F.
  - rewrite R. cbn [bind w_stations w_parsers w_conss w_engines app]. rewrite upd_twice. exists l2. split; [reflexivity|]. apply E_answers. exact H2.
Qed.
