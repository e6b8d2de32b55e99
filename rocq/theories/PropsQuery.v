(* PropsQuery.v -- property theorems about what consumers and engines report: C92-C94.
   Vocabulary: SpecQuery.v. *)
From Verif Require Import ZLib SpecQuery SpecSafe ProofsCrc ProofsText ProofsStream ProofsConsumer ProofsSafe ProofsQuery Demo DemoStream PropsSafe.

(** ** C92 *)
(** The consumers and engines are what the calls and notifications, taken one after the other,
    make of them. *)
Theorem C92_database_is_its_history : forall lw ops w w' t, all_usable w -> shaped w -> Forall frames_ok ops -> run lw ops w = Ok (w', t) ->
  db_of w' = fold_left (after_deed lw) (deeds lw ops w) (db_of w).
Proof. intros lw ops w w' t U S F H. exact (proj2 (history_books lw ops w w' t U S F H)). Qed.
Print Assumptions C92_database_is_its_history.
(** the deeds are the calls and the events of the run *)
Theorem C92_deeds : forall lw ops w w' t, run lw ops w = Ok (w', t) ->
  flat_map (fun d => match d with Called o => [o] | Happened _ => [] end) (deeds lw ops w) = ops /\
  flat_map (fun d => match d with Happened e => [e] | Called _ => [] end) (deeds lw ops w) = t.
Proof. exact deeds_exact. Qed.
Print Assumptions C92_deeds.
(** notifications of one consumer change no other consumer, and only the engine it fills *)
Theorem C92_notification_is_local : forall lw cs es e, 
  (forall c', (match e with EvConsume c _ _ _ | EvStreamComplete c | EvStreamAborted c => c' <> c | _ => True end) ->
     nth_error (fst (after_event lw (cs, es) e)) c' = nth_error cs c') /\
  (forall x, (match e with
              | EvConsume c _ _ _ | EvStreamComplete c => forall cb, nth_error cs c <> Some (LocoC (Def (Some x)) cb)
              | _ => True end) -> nth_error (snd (after_event lw (cs, es) e)) x = nth_error es x).
Proof. exact event_local. Qed.
Print Assumptions C92_notification_is_local.

(** ** C93 *)
(** What a list consumer answers after any history. *)
Theorem C93_list_answers : forall lw ops w w' t c co i n o cb, all_usable w -> shaped w -> Forall frames_ok ops ->
  nth_error (w_conss w) c = Some (ListC co i n o cb) -> run lw ops w = Ok (w', t) ->
  q_isStreamComplete w' c = mread (latest (complete_news c) (deeds lw ops w) co) /\
  q_getStreamOffset w' c = mread (latest (offset_news c) (deeds lw ops w) o) /\
  q_getNumEngines w' c = mread (latest (count_news lw c) (deeds lw ops w) n) /\
  q_getEngineInfos w' c = Ok (let (was_emptied, names) := names_told c (deeds lw ops w) (false, []) in
                              filled (if was_emptied then repeat si_reset (List.length i) else i) names).
Proof.
  intros lw ops w w' t c co i n o cb U S F C H. destruct (list_answers lw ops w w' t c co i n o cb U S F C H) as (A & B & D & E). split; [exact A|]. split; [exact B|]. split; [exact D|].
  rewrite E. unfold table. destruct (names_told c (deeds lw ops w) (false, [])); reflexivity.
Qed.
Print Assumptions C93_list_answers.
(** [latest]: the value of the last deed giving one, or else the first value *)
Theorem C93_latest_means : forall A (news : deed -> option A) ds first x, latest news ds first = x <->
  (exists a d b, ds = a ++ d :: b /\ news d = Some x /\ forall d', In d' b -> news d' = None) \/ (x = first /\ forall d, In d ds -> news d = None).
Proof. exact latest_iff. Qed.
Print Assumptions C93_latest_means.
(** a new list consumer may be asked whether it is complete only after the end of a stream or a
    reset *)
Theorem C93_unset_until_told : forall lw ops w w' t c i n o cb, all_usable w -> shaped w -> Forall frames_ok ops ->
  nth_error (w_conss w) c = Some (ListC Undef i n o cb) -> run lw ops w = Ok (w', t) ->
  (q_isStreamComplete w' c = UB UninitRead <->
   ~ In (EvStreamComplete c) t /\ ~ In (EvStreamAborted c) t /\ ~ In (ListReset c) ops).
Proof. exact unset_iff. Qed.
Print Assumptions C93_unset_until_told.
(** "Complete" is the previous download's answer while the next one is running *)
Lemma twice_valid : forall p c a b n, a_parser demo_good p -> (c < 2)%nat -> (p < 3)%nat -> streamb a (crc_of 0xFFFF (padded a)) = true -> streamb b (crc_of 0xFFFF (padded b)) = true ->
  Forall (valid_op demo_good) (demo_ops p c a ++ OnStation 0 FinishCurrentConfigRequest :: firstn n (demo_ops p c b)).
Proof.
  intros p c a b n P C PP A B. apply Forall_app. split; [apply demo_valid; [cbn; lia|exact P|exact C|exact PP|exact A]|]. constructor; [split; [cbn; lia|exact Logic.I]|].
  apply Forall_forall. intros x X. assert (F : Forall (valid_op demo_good) (demo_ops p c b)) by (apply demo_valid; [cbn; lia|exact P|exact C|exact PP|exact B]).
  rewrite Forall_forall in F. apply F. rewrite <- (firstn_skipn n (demo_ops p c b)). apply in_or_app. left. exact X.
Qed.
Definition list_again : list op := demo_ops 1 1 (show_doc demo_list) ++ OnStation 0 FinishCurrentConfigRequest :: firstn 5 (demo_ops 1 1 (show_doc demo_list)).
Theorem C93_complete_means_not_running_refuted : exists w0 ops w t c p sp, sound w0 /\ Forall (valid_op w0) ops /\ run 64 ops w0 = Ok (w, t) /\
  lib_at w p sp /\ sp_cons sp = Some c /\ q_getStreamState w p = Ok SS_DATA /\ q_isStreamComplete w c = Ok true.
Proof.
  exists demo_good, list_again. do 2 eexists. exists 1%nat, 1%nat. eexists. split; [exact demo_sound|]. split.
  { apply twice_valid; [eexists; reflexivity|lia|lia|vm_compute; reflexivity|vm_compute; reflexivity]. }
  split; [vm_compute; reflexivity|]. split; [reflexivity|]. split; [reflexivity|]. split; vm_compute; reflexivity.
Qed.
Print Assumptions C93_complete_means_not_running_refuted.

(** ** C94 *)
(** getEngine() is the engine last set *)
Theorem C94_engine_answer : forall lw ops w w' t c e cb, all_usable w -> shaped w -> Forall frames_ok ops -> nth_error (w_conss w) c = Some (LocoC e cb) ->
  run lw ops w = Ok (w', t) -> q_getEngine w' c = mread (latest (engine_news c) (deeds lw ops w) e).
Proof. exact engine_answer. Qed.
Print Assumptions C94_engine_answer.
(** isValid() *)
Theorem C94_valid_iff : forall w c, (q_isValid w c = Ok true <-> exists e, fills w c e /\ full w e) /\
  (q_isValid w c = Ok false <-> (exists cb, nth_error (w_conss w) c = Some (LocoC (Def None) cb)) \/ exists e, fills w c e /\ (e < List.length (w_engines w))%nat /\ ~ full w e).
Proof. exact valid_iff. Qed.
Print Assumptions C94_valid_iff.
(** An engine becomes fully known when a download into it is reported complete, and otherwise only
    by the user's calls on the engine itself. *)
Theorem C94_full_after_call : forall lw o w w' t e, all_usable w -> shaped w -> frames_ok o -> step lw o w = Ok (w', t) -> (e < List.length (w_engines w))%nat ->
  (forall x, o <> OnEngine e x) -> (full w' e <-> full w e \/ exists c, In (EvStreamComplete c) t /\ fills w c e).
Proof. exact full_call. Qed.
Print Assumptions C94_full_after_call.
Theorem C94_full_after_setter : forall lw w w' t e x, step lw (OnEngine e x) w = Ok (w', t) ->
  (data_setter x = true -> (full w' e <-> full w e)) /\ (forall a, x = ESetAvailability a -> (full w' e <-> a = FULL_DETAILS)) /\
  (x = EReset \/ (exists n, x = ESetName n) -> ~ full w' e).
Proof. exact full_setter. Qed.
Print Assumptions C94_full_after_setter.
(** how a consumer becomes valid, and how long it stays so *)
Theorem C94_becomes_valid : forall lw o w w' t c, all_usable w -> shaped w -> frames_ok o -> step lw o w = Ok (w', t) -> q_isValid w c = Ok false -> q_isValid w' c = Ok true ->
  (exists e c', fills w c e /\ fills w c' e /\ In (EvStreamComplete c') t) \/
  (exists e, o = LocoSetEngine c (Some e) /\ full w e) \/
  (exists e, fills w c e /\ o = OnEngine e (ESetAvailability FULL_DETAILS)).
Proof. exact valid_becomes. Qed.
Print Assumptions C94_becomes_valid.
Theorem C94_stays_valid : forall lw o w w' t c e, all_usable w -> shaped w -> frames_ok o -> step lw o w = Ok (w', t) -> q_isValid w c = Ok true -> fills w c e ->
  (forall x, o <> LocoSetEngine c x) -> (forall x, o = OnEngine e x -> data_setter x = true) -> q_isValid w' c = Ok true.
Proof. exact valid_stays. Qed.
Print Assumptions C94_stays_valid.
(** "Valid" does not mean that the fields belong together: while an engine is downloaded again it
    stays valid with the new uid and the old address *)
Definition other_doc : doc :=
  [([], ISection (zs "lokomotive")); (nl ++ zs " ", IPair (zs "uid") (zs "0x4009")); (zs " ", IPair (zs "name") (zs "BR 103 113-7")); (zs " ", IPair (zs "adresse") (zs "0x9"))].
Definition engine_again : list op := demo_ops 0 0 (show_doc demo_doc) ++ OnStation 0 FinishCurrentConfigRequest :: firstn 7 (demo_ops 0 0 (show_doc other_doc)).
Theorem C94_valid_means_consistent_refuted : exists w0 ops w t c p e l, sound w0 /\ Forall (valid_op w0) ops /\ run 64 ops w0 = Ok (w, t) /\
  q_getStreamState w p = Ok SS_DATA /\ q_isValid w c = Ok true /\ fills w c e /\ engine_at w e l /\ ld_uid (lo_data l) = 0x4009 /\ ld_addr (lo_data l) = 7.
Proof.
  exists demo_good, engine_again. do 2 eexists. exists 0%nat, 0%nat, 0%nat. eexists. split; [exact demo_sound|]. split.
  { apply twice_valid; [eexists; reflexivity|lia|lia|vm_compute; reflexivity|vm_compute; reflexivity]. }
  split; [vm_compute; reflexivity|]. split; [vm_compute; reflexivity|]. split; [vm_compute; reflexivity|]. split; [eexists; reflexivity|]. split; [reflexivity|]. split; reflexivity.
Qed.
Print Assumptions C94_valid_means_consistent_refuted.

Lemma sound_usable : forall w, sound w -> all_usable w. Proof. intros w S. exact (G_usable w w (sound_G w S)). Qed.
Lemma valid_frames : forall w ops, Forall (valid_op w) ops -> Forall frames_ok ops.
Proof.
  intros w ops F. apply Forall_forall. intros o O. rewrite Forall_forall in F. specialize (F o O). destruct o as [s o|p|p c|p d|p|c cb|c e|c off|c|c|c|e o]; try exact Logic.I; [|destruct F as (_ & F); exact (proj1 F)].
  destruct F as (_ & F). destruct o; try exact Logic.I; exact (proj1 F).
Qed.
(** the histories above meet the hypotheses of C92-C94 *)
Example C92_case : all_usable demo_good /\ shaped demo_good /\ Forall frames_ok list_again /\
  (exists w' t, run 64 list_again demo_good = Ok (w', t)) /\ (exists i n o cb, nth_error (w_conss demo_good) 1 = Some (ListC (Def false) i n o cb)).
Proof.
  split; [exact (sound_usable _ demo_sound)|]. split; [repeat constructor|]. split; [apply valid_frames with (w := demo_good); apply twice_valid; [eexists; reflexivity|lia|lia|vm_compute; reflexivity|vm_compute; reflexivity]|].
  split; [do 2 eexists; vm_compute; reflexivity|]. do 4 eexists. reflexivity.
Qed.
Example C93_case : let ds := deeds 64 list_again demo_good in
  latest (complete_news 1) ds (Def false) = Def true /\ latest (count_news 64 1) ds (Def 0) = Def 3 /\ names_told 1 ds (false, []) = (false, [zs "0"; zs "V200"; zs "BR 18"]).
Proof. cbv zeta. split; [vm_compute; reflexivity|]. split; [vm_compute; reflexivity|]. vm_compute. reflexivity. Qed.
Example C94_case : exists w t w1 t1, run 64 (demo_ops 0 0 (show_doc demo_doc)) demo_good = Ok (w, t) /\ q_isValid demo_good 0 = Ok false /\ q_isValid w 0 = Ok true /\ q_getEngine w 0 = Ok (Some 0%nat) /\
  step 64 (OnEngine 0 (ESetName (lit "V60"))) w = Ok (w1, t1) /\ q_isValid w1 0 = Ok false.
Proof. do 4 eexists. split; [vm_compute; reflexivity|]. split; [reflexivity|]. split; [vm_compute; reflexivity|]. split; [vm_compute; reflexivity|]. split; vm_compute; reflexivity. Qed.
