(* ProofsCopy.v -- proofs for C136: a master's catalogue, copied by end callbacks. *)
From Verif Require Import ZLib SpecLate SpecCopy ProofsBuffer ProofsWorld ProofsStation ProofsRequest ProofsLoco ProofsCrc ProofsText ProofsStream ProofsConsumer ProofsSafe ProofsWork ProofsRecover ProofsCatalog ProofsPassive ProofsLate ProofsChain ProofsPages.

(** ** Any callbacks that only act on completion *)
Section Any.
Variables (lw : Z) (react : list event -> code).
Hypothesis LATE : late react.
Hypothesis NONE : forall w a t, incomplete t -> to_do react w a t = Ret.
Lemma any_run : forall n ops rest k w t w1 t1, run lw ops w = Ok (w1, t1) -> incomplete t1 ->
  rexec lw react (S n) (then_do (ops ++ rest) k w t) (mkR w t) = rexec lw react (S n) (then_do rest k w1 (t ++ t1)) (mkR w1 (t ++ t1)).
Proof.
  intros n ops rest k. induction ops as [|o ops IH]; intros w t w1 t1 E F; [inversion E; subst; rewrite app_nil_r; reflexivity|].
  cbn [run] in E. apply seq_inv in E. destruct E as (w2 & t2 & t3 & E1 & E2 & ->). apply Forall_app in F. destruct F as (F1 & F2).
  cbn [app then_do]. rewrite (late_call lw react n o _ w w2 t t2 LATE E1). rewrite (NONE _ _ _ F1). unfold rbind. rewrite ret_exec. cbn [r_w r_t].
  rewrite (IH w2 (t ++ t2) w1 t3 E2 F2), !app_assoc. reflexivity.
Qed.
Lemma any_ops : forall n ops w t w1 t1, run lw ops w = Ok (w1, t1) -> incomplete t1 ->
  rexec lw react (S n) (ops_code ops) (mkR w t) = (Ok tt, mkR w1 (t ++ t1)).
Proof.
  intros n ops. induction ops as [|o ops IH]; intros w t w1 t1 E F; [inversion E; subst; rewrite app_nil_r; reflexivity|].
  cbn [run] in E. apply seq_inv in E. destruct E as (w2 & t2 & t3 & E1 & E2 & ->). apply Forall_app in F. destruct F as (F1 & F2).
  change (ops_code (o :: ops)) with (Call o (fun _ _ => ops_code ops)). rewrite (late_call lw react n o _ w w2 t t2 LATE E1). rewrite (NONE _ _ _ F1). unfold rbind. rewrite ret_exec. cbn [r_w r_t].
  rewrite (IH w2 (t ++ t2) w1 t3 E2 F2), !app_assoc. reflexivity.
Qed.
End Any.

Lemma completions_other : forall a b cb, a <> b -> completions a [EvEndComplete cb b] = 0%nat.
Proof. intros a b cb H. unfold completions. cbn [filter completes]. destruct (Nat.eqb_spec b a); [congruence|reflexivity]. Qed.

(** ** Asking for details of an object that has its name *)
Lemma details_run : forall lw s p ce e name w w3 t3, equipped w s p -> nulfree name -> engine_at w e (by_name name) ->
  run lw (ask_for s p ce (e, name)) w = Ok (w3, t3) -> run lw (ask_details s p ce e) w = Ok (w3, t3).
Proof.
  intros lw s p ce e name w w3 t3 (S & (st & Q) & P) NF EA E. destruct (made_ready lw w s st p S Q P) as (w1 & t1 & E1 & R & _). destruct R as [_ _ _ EN _].
  unfold ask_for in E. unfold ask_details. rewrite (run_app _ _ _ _ _ _ E1). rewrite (run_app _ _ _ _ _ _ E1) in E. cbn [fst snd] in E.
  assert (EL1 : engine_at w1 e (by_name name)) by (unfold engine_at; rewrite EN; exact EA).
  assert (ER : step lw (OnEngine e (ESetName (name ++ [0]))) w1 = Ok (w1, [])).
  { pose proof (named_run lw [(e, name)] w1) as X. cbn [give_names map run fst snd name_all] in X. unfold World.seq in X. unfold engine_at in EL1. rewrite (upd_same_id _ _ _ _ EL1) in X.
    assert (F : Forall (fun x => has_engine w1 (fst x) /\ nulfree (snd x)) [(e, name)]) by (repeat constructor; [exists (by_name name); exact EL1|exact NF]). specialize (X F).
    destruct (step lw (OnEngine e (ESetName (name ++ [0]))) w1) as [[wx tx]|u]; [|discriminate X]. cbn [bind skip] in X. rewrite app_nil_r in X. rewrite X. destruct w1; reflexivity. }
  change (run lw (OnEngine e (ESetName (name ++ [0])) :: ?l) w1) with (World.seq (step lw (OnEngine e (ESetName (name ++ [0])))) (run lw l) w1) in E. unfold World.seq at 1 in E. rewrite ER in E. cbn [bind app] in E.
  destruct (run lw _ w1) as [[wx tx]|u]; [|discriminate E]. cbn [bind app] in E |- *. exact E.
Qed.

(** ** Running with the callbacks *)
Section Run.
Variables (lw : Z) (s p cl ce : nat) (engines : list nat).
Notation react := (copy_step s p cl ce engines).
Lemma copy_late : late react.
Proof. intros h e E. unfold copy_step. rewrite rev_app_distr. cbn [rev app]. destruct e; try reflexivity. discriminate E. Qed.
Lemma copy_none : forall w a t, incomplete t -> to_do react w a t = Ret.
Proof.
  intros w a t F. unfold to_do. destruct (rev t) as [|e r] eqn:R; [reflexivity|]. destruct (told_user w e); [|reflexivity].
  unfold copy_step. rewrite rev_app_distr, R. cbn [app]. assert (IN : In e t) by (apply in_rev; rewrite R; left; reflexivity).
  unfold incomplete in F. rewrite Forall_forall in F. specialize (F e IN). destruct e; try reflexivity. discriminate F.
Qed.
Notation crun := (any_run lw react copy_late copy_none).
Notation cops := (any_ops lw react copy_late copy_none).

Variables (cat : catalogue) (answer : list CanFrame -> Data * list Data) (id : Z).
Hypothesis LW : 32 <= lw.
Hypothesis SV : serves cat answer.
Hypothesis ID : config_id id.
Hypothesis SM : zlen cat <= 255.
Hypothesis DIF : cl <> ce.
Notation names := (map e_name cat).
Definition has_name (w : world) (j : job) : Prop := engine_at w (fst j) (by_name (snd j)).

Lemma copy_chain : forall n js xs j x k rounds T T0 T1 t3 w w3,
  skipn k engines = map fst (j :: js) -> (List.length js < rounds)%nat -> Forall2 (can_be_done cat w) (j :: js) (x :: xs) ->
  NoDup (map fst (j :: js)) -> Forall (has_name w) (j :: js) ->
  equipped w s p -> reports_to_user w ce -> run lw (ask_for s p ce j) w = Ok (w3, t3) -> T = T0 ++ T1 ++ t3 -> sent T1 = [] -> completions ce T = k ->
  exists w' T', rexec lw react (S (S n)) (main_loop s id answer rounds (List.length T0) w3 T) (mkR w3 T) = (Ok tt, mkR w' T') /\
    equipped w' s p /\ same_objects w w' /\ w_engines w' = stored (j :: js) (x :: xs) (w_engines w) /\ completions ce T' = List.length engines /\ completions cl T' = completions cl T.
Proof.
  intros n. induction js as [|j2 js IH]; intros xs j x k rounds T T0 T1 t3 w w3 HJ HR F2 ND HN EQ (e0 & cb & C) E3 HT HS HC;
    (destruct rounds as [|rounds]; [inversion HR|]); apply two_inv in F2; destruct F2 as ((HE & NF & FD) & F3); subst T; destruct j as (e & name); cbn [fst snd] in *;
    destruct (traced lw cat answer s p ce e cb e0 id name x w LW SV ID NF FD EQ C HE) as (w3' & t3' & hd & ds0 & d & wa & ta & w4 & tb & E3' & I3 & NS & AN & EA & IA & EB & IB & SX & EQ4 & WE4 & SO4 & C4);
    rewrite E3 in E3'; injection E3' as <- <-; set (T := T0 ++ T1 ++ t3) in *.
  all: assert (SK : sent (skipn (List.length T0) T) = sent t3) by (unfold T; rewrite skipn_app, skipn_all, Nat.sub_diag; cbn [app skipn]; rewrite sent_app, HS; reflexivity).
  all: cbn [main_loop]; rewrite SK; destruct (sent t3) as [|f fs] eqn:FS; [congruence|]; rewrite AN; cbn [fst snd].
  all: change (hd :: ds0 ++ [d]) with ((hd :: ds0) ++ [d]); unfold arriving in EA |- *; rewrite map_app, (crun (S n) _ _ _ w3 T wa ta EA IA).
  all: cbn [map then_do]; rewrite (late_call lw react (S n) _ _ wa w4 (T ++ ta) _ copy_late EB).
  all: assert (NC : Nat.eqb ce cl = false) by (apply Nat.eqb_neq; congruence).
  all: unfold to_do; rewrite rev_app_distr; cbn [rev app told_user comes_last andb]; unfold copy_step at 2; rewrite !app_assoc, rev_app_distr; cbn [rev app completes]; rewrite NC, Nat.eqb_refl.
  all: assert (CK : completions ce (((T ++ ta) ++ tb) ++ [EvEndComplete cb ce]) = S k) by (rewrite !completions_app, completions_one, (completions_none ce ta IA), (completions_none ce tb IB), HC; lia).
  all: assert (CL : completions cl (((T ++ ta) ++ tb) ++ [EvEndComplete cb ce]) = completions cl T) by (rewrite !completions_app, completions_other, (completions_none cl ta IA), (completions_none cl tb IB) by exact DIF; lia).
  all: rewrite CK; destruct (skip_nth _ _ _ _ _ HJ) as (HX & HK & HL); rewrite HX; cbn [map nth_error].
  all: unfold rbind; replace (((T ++ ta) ++ tb) ++ [EvEndComplete cb ce]) with (T ++ ta ++ tb ++ [EvEndComplete cb ce]) in * by (rewrite !app_assoc; reflexivity).
  - rewrite ret_exec. cbn [r_w r_t]. exists w4. eexists. split; [|split; [exact EQ4|split; [exact SO4|split; [|split; [|exact CL]]]]].
    + destruct rounds as [|r]; cbn [main_loop]; [reflexivity|]. rewrite skipn_app, skipn_all, Nat.sub_diag. cbn [app skipn]. rewrite SX. reflexivity.
    + inversion F3; subst. exact WE4.
    + rewrite HL, CK. cbn [List.length map]. lia.
  - destruct xs as [|x2 xs]; [inversion F3|]. assert (F4 : Forall2 (can_be_done cat w4) (j2 :: js) (x2 :: xs)).
    { clear - F3 SO4. induction F3; constructor; [eapply still_able; eassumption|assumption]. }
    cbn [map fst] in ND. inversion ND as [|? ? NI ND']; subst. inversion HN as [|? ? _ HN']; subst.
    assert (HN4 : Forall (has_name w4) (j2 :: js)).
    { rewrite Forall_forall in HN' |- *. intros y Y. unfold has_name, engine_at. rewrite WE4, upd_other; [apply (HN' y Y)|]. intros X. apply NI. rewrite <- X. apply (in_map fst _ _ Y). }
    pose proof (two_inv _ _ _ _ _ _ _ F4) as ((HE2 & NF2 & FD2) & _). destruct j2 as (e2 & name2). cbn [fst snd] in HE2, NF2, FD2.
    destruct (traced lw cat answer s p ce e2 cb (Def (Some e)) id name2 x2 w4 LW SV ID NF2 FD2 EQ4 C4 HE2) as (w5 & t5 & _ & _ & _ & _ & _ & _ & _ & E5 & I5 & _).
    assert (HN2 : has_name w4 (e2, name2)) by (inversion HN4; assumption).
    cbn [fst]. rewrite (cops n _ w4 _ w5 t5 (details_run _ _ _ _ _ _ _ _ _ EQ4 NF2 HN2 E5) I5). cbn [r_w r_t].
    destruct (IH xs (e2, name2) x2 (S (completions ce T)) rounds ((T ++ ta ++ tb ++ [EvEndComplete cb ce]) ++ t5) T (ta ++ tb ++ [EvEndComplete cb ce]) t5 w4 w5) as (w' & T' & EX & EQ' & SO' & WE' & CC & CCL); try assumption.
    + cbn [List.length] in HR. lia.
    + eexists. eexists. exact C4.
    + rewrite <- !app_assoc. reflexivity.
    + rewrite completions_app, CK, (completions_none ce t5 I5). lia.
    + exists w', T'. split; [exact EX|]. split; [exact EQ'|]. split; [eapply same_trans; eassumption|]. split; [rewrite WE', WE4; reflexivity|]. split; [exact CC|]. rewrite CCL, completions_app, CL, (completions_none cl t5 I5). lia.
Qed.

Notation jobs := (combine engines (map e_name cat)).
Hypothesis NDE : NoDup engines.
Hypothesis LE : List.length engines = List.length cat.
Variable es : list Loco.
Hypothesis NES : Forall (fun j => nth_error es (fst j) = Some (by_name (snd j))) jobs.
Lemma jobs_fst : map fst jobs = engines.
Proof. apply map_fst_combine. rewrite map_length. exact LE. Qed.
Lemma copy_turn : forall n l rounds T0 T1 w4 w5, run lw (give_names l) w4 = Ok (w5, []) -> w_engines w5 = es -> Forall2 (can_be_done cat w5) jobs cat ->
  equipped w5 s p -> reports_to_user w5 ce -> (List.length cat <= rounds)%nat -> sent T1 = [] -> completions ce (T0 ++ T1) = 0%nat ->
  exists w6 t6, rexec lw react (S n) (ops_code (give_names l ++ match engines with e :: _ => ask_details s p ce e | [] => [] end)) (mkR w4 (T0 ++ T1)) = (Ok tt, mkR w6 ((T0 ++ T1) ++ t6)) /\
  exists w' T', rexec lw react (S (S n)) (main_loop s id answer rounds (List.length T0) w6 ((T0 ++ T1) ++ t6)) (mkR w6 ((T0 ++ T1) ++ t6)) = (Ok tt, mkR w' T') /\
    equipped w' s p /\ same_objects w5 w' /\ w_engines w' = stored jobs cat es /\ completions ce T' = List.length engines /\ completions cl T' = completions cl (T0 ++ T1).
Proof.
  intros n l rounds T0 T1 w4 w5 EN WE F2 EQ RU HR ST CE. pose proof jobs_fst as JF. pose proof NES as NS. remember jobs as js0 eqn:EJ. destruct js0 as [|(e & name) js].
  - cbn [map] in JF. assert (MT : match engines with e :: _ => ask_details s p ce e | [] => [] end = []) by (rewrite <- JF; reflexivity). rewrite MT, app_nil_r. exists w5, []. split; [apply (cops n); [exact EN|constructor]|].
    exists w5, ((T0 ++ T1) ++ []). rewrite app_nil_r. split; [|split; [exact EQ|split; [repeat split|split; [exact WE|split; [rewrite CE, <- JF; reflexivity|reflexivity]]]]].
    destruct rounds as [|r]; cbn [main_loop]; [reflexivity|]. rewrite skipn_app, skipn_all, Nat.sub_diag. cbn [app skipn]. rewrite ST. reflexivity.
  - assert (XX : exists x xs, cat = x :: xs /\ can_be_done cat w5 (e, name) x /\ Forall2 (can_be_done cat w5) js xs).
    { assert (G : forall (R : job -> entry -> Prop) c, Forall2 R ((e, name) :: js) c -> exists x xs, c = x :: xs /\ R (e, name) x /\ Forall2 R js xs) by (intros R c0 F; inversion F; subst; eauto). apply G. exact F2. }
    destruct XX as (x & xs & EC & (HE & NF & FD) & F3). cbn [fst snd] in *.
    assert (HN : Forall (has_name w5) ((e, name) :: js)) by (eapply Forall_impl; [|exact NS]; intros y Y; unfold has_name, engine_at; rewrite WE; exact Y). assert (HN1 : has_name w5 (e, name)) by (inversion HN; assumption).
    destruct RU as (e0 & cb & C).
    destruct (traced lw cat answer s p ce e cb e0 id name x w5 LW SV ID NF FD EQ C HE) as (w6 & t6 & _ & _ & _ & _ & _ & _ & _ & E6 & I6 & _).
    cbn [map fst] in JF. assert (MT : match engines with e :: _ => ask_details s p ce e | [] => [] end = ask_details s p ce e) by (rewrite <- JF; reflexivity). rewrite MT. exists w6, t6. split; [apply (cops n); [|exact I6]|].
    + pose proof (details_run _ _ _ _ _ _ _ _ _ EQ NF HN1 E6) as X. cbn [fst] in X. rewrite (run_app _ _ _ _ _ _ EN), X. reflexivity.
    + destruct (copy_chain n js xs (e, name) x 0 rounds ((T0 ++ T1) ++ t6) T0 T1 t6 w5 w6) as (w' & T' & EX & EQ' & SO' & WE' & CC & CCL); try assumption.
      * cbn [skipn map fst]. symmetry. exact JF.
      * assert (LJ : List.length js = List.length xs) by (clear - F3; induction F3; [reflexivity|cbn; congruence]). rewrite EC in HR. cbn [List.length] in HR. lia.
      * rewrite <- EC. exact F2.
      * cbn [map fst]. rewrite JF. exact NDE.
      * exists e0, cb. exact C.
      * rewrite <- app_assoc. reflexivity.
      * rewrite completions_app, CE, (completions_none ce t6 I6). reflexivity.
      * exists w', T'. split; [exact EX|]. split; [exact EQ'|]. split; [exact SO'|]. split; [rewrite WE', WE, <- EC; reflexivity|]. split; [exact CC|]. rewrite CCL, completions_app, (completions_none cl t6 I6). lia.
Qed.
Lemma copy_pages : forall n m k rounds T T0 T1 t3 w w3,
  (List.length cat <= 2 * (k + S m))%nat -> (2 * k <= List.length cat)%nat -> (m + List.length cat < rounds)%nat -> Forall (has_engine w) engines ->
  Forall2 (can_be_done cat w) jobs cat -> name_all (combine (skipn (2 * k) engines) (skipn (2 * k) names)) (w_engines w) = es -> reports_to_user w ce ->
  equipped w s p -> lists_to_user w cl -> run lw (ask_page s p cl (2 * Z.of_nat k)) w = Ok (w3, t3) -> T = T0 ++ T1 ++ t3 -> sent T1 = [] -> completions cl T = k -> completions ce T = 0%nat ->
  exists w' T', rexec lw react (S (S n)) (main_loop s id answer rounds (List.length T0) w3 T) (mkR w3 T) = (Ok tt, mkR w' T') /\
    equipped w' s p /\ same_objects w w' /\ w_engines w' = stored jobs cat es /\
    completions cl T' = Nat.max (S k) ((List.length cat + 1) / 2) /\ completions ce T' = List.length engines.
Proof.
  intros n m. induction m as [|m IH]; intros k rounds T T0 T1 t3 w w3 HM HK HR HE HJ HES RU EQ (co & i0 & n0 & o0 & cb & C & L2) E3 HT HS HC HCE;
    (destruct rounds as [|rounds]; [inversion HR|]); subst T;
    (assert (FB : byte (2 * Z.of_nat k)) by (unfold byte, zlen in *; lia)); (assert (CL : zlen cat < 2 ^ 31) by lia);
    destruct (traced_page lw cat answer s p cl id (2 * Z.of_nat k) w co i0 n0 o0 cb LW SV ID FB CL EQ C L2) as (w3' & t3' & hd & ds0 & d & wa & ta & w4 & tb & i & o & sp & E3' & I3 & NS & AN & EA & IA & EB & IB & SX & EQ4 & WE4 & SO4 & C4 & L4 & NM & NF & LP & SPC & KP);
    rewrite E3 in E3'; injection E3' as <- <-; set (T := T0 ++ T1 ++ t3) in *; rewrite page_part in NM, NF.
  all: assert (SK : sent (skipn (List.length T0) T) = sent t3) by (unfold T; rewrite skipn_app, skipn_all, Nat.sub_diag; cbn [app skipn]; rewrite sent_app, HS; reflexivity).
  all: cbn [main_loop]; rewrite SK; destruct (sent t3) as [|f fs] eqn:FS; [congruence|]; rewrite AN; cbn [fst snd].
  all: change (hd :: ds0 ++ [d]) with ((hd :: ds0) ++ [d]); unfold arriving in EA |- *; rewrite map_app, (crun (S n) _ _ _ w3 T wa ta EA IA).
  all: cbn [map then_do]; rewrite (late_call lw react (S n) _ _ wa w4 (T ++ ta) _ copy_late EB).
  all: unfold to_do; rewrite rev_app_distr; cbn [rev app told_user comes_last andb]; unfold copy_step at 2; rewrite !app_assoc, rev_app_distr; cbn [rev app completes]; rewrite Nat.eqb_refl.
  all: assert (CK : completions cl (((T ++ ta) ++ tb) ++ [EvEndComplete cb cl]) = S k) by (rewrite !completions_app, completions_one, (completions_none cl ta IA), (completions_none cl tb IB), HC; lia); rewrite CK.
  all: assert (CE : completions ce (((T ++ ta) ++ tb) ++ [EvEndComplete cb cl]) = 0%nat) by (rewrite !completions_app, completions_other, (completions_none ce ta IA), (completions_none ce tb IB), HCE by congruence; lia).
  all: unfold rbind at 1; replace (((T ++ ta) ++ tb) ++ [EvEndComplete cb cl]) with (T ++ ta ++ tb ++ [EvEndComplete cb cl]) in * by (rewrite !app_assoc; reflexivity).
  all: assert (EP : step lw (ParserSetConsumer p (Some cl)) w4 = Ok (w4, [])) by
    (cbn [step]; unfold ask, get_lib, get_parser, at_; unfold lib_at in LP; rewrite LP; cbn [bind]; rewrite SPC; unfold put_lib, put_parser; rewrite (upd_same_id _ _ _ _ LP); destruct w4; reflexivity).
  all: rewrite (late_call lw react n _ _ w4 w4 _ [] copy_late EP), (copy_none _ _ _ (Forall_nil _)); unfold rbind at 1; rewrite ret_exec; cbn [r_w r_t]; rewrite app_nil_r.
  all: assert (QI : q_getEngineInfos w4 cl = Ok i) by (unfold q_getEngineInfos, get_cons, at_; unfold consumer_at in C4; rewrite C4; reflexivity).
  all: assert (QN : q_getNumEngines w4 cl = Ok (zlen cat)) by (unfold q_getNumEngines, get_cons, at_; unfold consumer_at in C4; rewrite C4; cbn [bind mread]; rewrite Z.mod_small by (unfold zlen in *; lia); reflexivity).
  all: unfold file_names; rewrite QI, QN, NM; replace (2 * (S k - 1))%nat with (2 * k)%nat by lia; replace (2 * (Z.of_nat (S k) - 1)) with (2 * Z.of_nat k) by lia.
  all: set (l := combine (skipn (2 * k) engines) (firstn 2 (skipn (2 * k) names))).
  all: assert (FN : Forall (fun x => has_engine w4 (fst x) /\ nulfree (snd x)) l) by
    (apply Forall_forall; intros (e & nm) X; pose proof (in_combine_l _ _ _ _ X) as X1; pose proof (in_combine_r _ _ _ _ X) as X2; rewrite Forall_forall in HE, NF; cbn [fst snd]; split;
     [eapply still_engine; [exact SO4|apply HE; rewrite <- (firstn_skipn (2 * k) engines); apply in_or_app; right; exact X1]|apply (NF nm X2)]).
  all: pose proof (named_run lw l w4 FN) as EN; assert (FN2 : Forall (fun x => nulfree (snd x)) l) by (eapply Forall_impl; [|exact FN]; intros a (_ & H); exact H); rewrite WE4 in EN.
  all: assert (EQ5 : equipped (with_engines w4 (name_all l (w_engines w))) s p) by (rewrite <- WE4; apply named_equipped; assumption).
  all: assert (SO5 : same_objects w (with_engines w4 (name_all l (w_engines w)))) by (eapply same_trans; [exact SO4|]; rewrite <- WE4; apply named_same).
  all: set (w5 := with_engines w4 (name_all l (w_engines w))) in *.
  all: pose proof (combine_two _ _ (skipn (2 * k) engines) (skipn (2 * k) names)) as CB; fold l in CB; rewrite !skip_two in CB.
  all: assert (HJ5 : Forall2 (can_be_done cat w5) jobs cat) by (eapply two_impl; [|exact HJ]; intros a b; apply still_able; exact SO5).
  all: assert (RU5 : reports_to_user w5 ce) by (destruct RU as (e0 & cb0 & C0); exists e0, cb0; exact (KP _ _ _ C0)).
  all: destruct (Z.ltb_spec (2 * Z.of_nat k + 2) (zlen cat)) as [LT|GE]; [try (exfalso; unfold zlen in *; lia)|].
  1,3: assert (ES5 : w_engines w5 = es) by (rewrite <- HES, <- CB, (skipn_all2 engines (n := 2 * S k)) by (unfold zlen in *; lia); cbn [combine]; rewrite app_nil_r; reflexivity).
  1,2: assert (RR : (List.length cat <= rounds)%nat) by lia.
  1,2: destruct (copy_turn n l rounds T (ta ++ tb ++ [EvEndComplete cb cl]) w4 w5 EN ES5 HJ5 EQ5 RU5 RR SX CE) as (w6 & t6 & X6 & w' & T' & EX & EQ' & SO' & WE' & CC & CCL).
  1,2: rewrite X6; cbn [r_w r_t]; exists w', T'; (split; [exact EX|]); (split; [exact EQ'|]); (split; [eapply same_trans; eassumption|]); (split; [exact WE'|]); (split; [|exact CC]).
  1,2: rewrite CCL, CK; symmetry; apply Nat.max_l; apply Nat.lt_succ_r; apply Nat.div_lt_upper_bound; unfold zlen in *; lia.
  assert (C5 : consumer_at w5 cl (ListC (Def true) i (Def (zlen cat mod 256)) o (Def (Some cb)))) by exact C4.
  assert (FB2 : byte (2 * Z.of_nat (S k))) by (unfold byte, zlen in *; lia).
  destruct (traced_page lw cat answer s p cl id (2 * Z.of_nat (S k)) w5 _ i _ o cb LW SV ID FB2 CL EQ5 C5 L4) as (w6 & t6 & _ & _ & _ & _ & _ & _ & _ & _ & _ & _ & E6 & I6 & _).
  replace (2 * Z.of_nat k + 2) with (2 * Z.of_nat (S k)) by lia.
  assert (E7 : run lw (give_names l ++ ask_page s p cl (2 * Z.of_nat (S k))) w4 = Ok (w6, t6)) by (rewrite (run_app _ _ _ _ _ _ EN), E6; reflexivity).
  rewrite (cops n _ w4 _ w6 t6 E7 I6). cbn [r_w r_t].
  destruct (IH (S k) rounds ((T ++ ta ++ tb ++ [EvEndComplete cb cl]) ++ t6) T (ta ++ tb ++ [EvEndComplete cb cl]) t6 w5 w6) as (w' & T' & EX & EQ' & SO' & WE' & CC & CCE); try assumption.
  - lia.
  - unfold zlen in LT. lia.
  - lia.
  - eapply Forall_impl; [|exact HE]. intros e H. eapply still_engine; eassumption.
  - rewrite <- HES, <- CB, name_all_app. reflexivity.
  - do 5 eexists. split; [exact C5|exact L4].
  - rewrite <- !app_assoc. reflexivity.
  - rewrite completions_app, CK, (completions_none cl t6 I6). lia.
  - rewrite completions_app, CE, (completions_none ce t6 I6). lia.
  - exists w', T'. split; [exact EX|]. split; [exact EQ'|]. split; [eapply same_trans; eassumption|]. split; [exact WE'|]. split; [|exact CCE]. rewrite CC.
    assert (S (S k) <= (List.length cat + 1) / 2)%nat by (apply Nat.div_le_lower_bound; unfold zlen in LT; lia). lia.
Qed.
End Run.

Lemma copied : forall lw cat answer s p cl ce id engines n rounds w, 32 <= lw -> serves cat answer -> config_id id -> zlen cat <= 255 ->
  NoDup (map e_name cat) -> Forall (fun x => (List.length (e_name x) <= 16)%nat) cat -> equipped w s p -> lists_to_user w cl -> reports_to_user w ce ->
  NoDup engines -> Forall (has_engine w) engines -> List.length engines = List.length cat -> (List.length cat + (List.length cat + 1) / 2 <= rounds)%nat -> (0 < rounds)%nat ->
  exists w' t', rexec lw (copy_step s p cl ce engines) (S (S n)) (names_by_callback s p cl id answer rounds w) (mkR w []) = (Ok tt, mkR w' t') /\
    Forall2 (fun e x => exists l, engine_at w' e l /\ entry_of l = x /\ si_avail (lo_info l) = FULL_DETAILS) engines cat /\
    (forall k, ~ In k engines -> nth_error (w_engines w') k = nth_error (w_engines w) k) /\
    completions cl t' = Nat.max 1 ((List.length cat + 1) / 2) /\ completions ce t' = List.length cat /\ equipped w' s p.
Proof.
  intros lw cat answer s p cl ce id engines n rounds w LW SV ID SM NN N16 EQ LU RU ND HE LE HR R0.
  pose proof (all_names_known cat answer SV SM) as NK.
  assert (LM : List.length engines = List.length (map e_name cat)) by (rewrite map_length; exact LE).
  assert (DIF : cl <> ce). { intros ->. destruct LU as (?&?&?&?&?&A&_). destruct RU as (?&?&B). unfold consumer_at in *. rewrite A in B. discriminate B. }
  assert (LU' := LU). destruct LU' as (co & i & n0 & o & cb & C & L2). assert (FB : byte 0) by (unfold byte; lia). assert (CL : zlen cat < 2 ^ 31) by lia.
  destruct (traced_page lw cat answer s p cl id 0 w co i n0 o cb LW SV ID FB CL EQ C L2) as (w3 & t3 & _ & _ & _ & _ & _ & _ & _ & _ & _ & _ & E3 & I3 & _).
  set (jobs := combine engines (map e_name cat)). set (es := name_all jobs (w_engines w)).
  assert (JF : map fst jobs = engines) by (apply map_fst_combine; exact LM).
  assert (FE : Forall (fun x : nat * list Z => exists y, nth_error (w_engines w) (fst x) = Some y) jobs).
  { apply Forall_forall. intros (e, nm) X. rewrite Forall_forall in HE. apply HE. eapply in_combine_l. exact X. }
  assert (NES : Forall (fun j => nth_error es (fst j) = Some (by_name (snd j))) jobs) by (apply name_all_own; [rewrite JF; exact ND|exact FE]).
  assert (HJ : Forall2 (can_be_done cat w) jobs cat).
  { assert (IN : forall x, In x cat -> find (fun y => same_text (e_name y) (firstn 16 (e_name x))) cat = Some x).
    { intros x X. rewrite Forall_forall in N16. rewrite firstn_all2 by apply (N16 x X). apply find_own; assumption. }
    assert (NU : forall x, In x cat -> nulfree (e_name x)) by (intros x X; rewrite Forall_forall in NK; apply (NK (e_name x)); apply in_map; exact X).
    assert (G : forall l es, incl l cat -> Forall (has_engine w) es -> List.length es = List.length l -> Forall2 (can_be_done cat w) (combine es (map e_name l)) l);
      [|apply G; [intros x X; exact X|exact HE|exact LE]].
    clear - NU IN. induction l as [|x l IH]; intros [|e es] IC HE LE; try discriminate; [constructor|].
    inversion HE; subst. cbn [map combine]. constructor; [|apply IH; [intros y Y; apply IC; right; exact Y|assumption|cbn in LE; congruence]].
    assert (X : In x cat) by (apply IC; left; reflexivity). split; [assumption|]. split; [apply NU; exact X|apply IN; exact X]. }
  set (m := (rounds - List.length cat - 1)%nat).
  assert (HD : (2 * ((List.length cat + 1) / 2) >= List.length cat)%nat).
  { pose proof (Nat.div_mod (List.length cat + 1) 2 ltac:(lia)). pose proof (Nat.mod_upper_bound (List.length cat + 1) 2 ltac:(lia)). lia. }
  assert (HZ : (List.length cat = 0 \/ 1 <= (List.length cat + 1) / 2)%nat) by (destruct (List.length cat); [left; reflexivity|right; apply Nat.div_le_lower_bound; lia]).
  destruct (copy_pages lw s p cl ce engines cat answer id LW SV ID SM DIF ND LE es NES n m 0 rounds t3 [] [] t3 w w3) as (w' & T' & EX & EQ' & SO & WE & CC & CCE); try assumption; try reflexivity; try (unfold m; lia).
  - apply completions_none. exact I3.
  - apply completions_none. exact I3.
  - exists w', T'. split; [|split; [|split; [|split; [exact CC|split; [rewrite CCE; exact LE|exact EQ']]]]].
    + unfold names_by_callback. rewrite <- (app_nil_r (ask_page s p cl 0)). rewrite (any_run lw _ (copy_late s p cl ce engines) (copy_none s p cl ce engines) (S n) _ [] _ w [] w3 t3 E3 I3). cbn [then_do app]. exact EX.
    + assert (FF : Forall2 (fun j (_ : entry) => exists y, nth_error es (fst j) = Some y) jobs cat).
      { eapply two_impl; [|exact HJ]. intros j x (A & _). destruct A as (y & Y). unfold engine_at in Y. assert (L : (fst j < List.length es)%nat) by (unfold es; rewrite name_all_length; apply nth_error_Some; congruence).
        destruct (nth_error es (fst j)) as [z|] eqn:Z; [exists z; reflexivity|]. apply nth_error_None in Z. lia. }
      assert (NJ : NoDup (map fst jobs)) by (rewrite JF; exact ND).
      pose proof (stored_own jobs cat es NJ FF) as SO1. fold jobs in WE. rewrite <- WE in SO1. destruct RU as (e0 & cb0 & C0).
      assert (EC : an_engine_consumer w ce) by (exists e0, (Def (Some cb0)); exact C0).
      assert (G : forall es xs, Forall2 (fun j x => nth_error (w_engines w') (fst j) = Some (filed (snd j) x)) (combine es (map e_name xs)) xs -> Forall2 (can_be_done cat w) (combine es (map e_name xs)) xs ->
        Forall (fun x => (List.length (e_name x) <= 16)%nat) xs -> List.length es = List.length xs ->
        Forall2 (fun e x => exists l, engine_at w' e l /\ entry_of l = x /\ si_avail (lo_info l) = FULL_DETAILS) es xs).
      { clear - LW SV ID EQ EC. induction es as [|e es IH]; intros [|x xs] F1 F2 F3 L; try discriminate; [constructor|]. cbn [map combine] in F1, F2. apply two_inv in F1. apply two_inv in F2. destruct F1 as (A & F1). destruct F2 as ((HE' & NF' & FD') & F2). inversion F3 as [|? ? L16 F3']; subst.
        constructor; [|apply IH; [exact F1|exact F2|exact F3'|cbn in L; congruence]]. exists (filed (e_name x) x). split; [exact A|]. split; [|reflexivity].
        destruct (one_engine lw cat answer s p ce e id (e_name x) x w LW SV ID NF' FD' EQ EC HE') as (_ & _ & EO & _). rewrite EO. rewrite firstn_all2 by lia. destruct x; reflexivity. }
      apply G; assumption.
    + intros k H. fold jobs in WE. rewrite WE. assert (H' : ~ In k (map fst jobs)) by (rewrite JF; exact H). rewrite (stored_other jobs cat es k H'). apply name_all_other. exact H'.
Qed.
