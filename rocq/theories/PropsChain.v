(* PropsChain.v -- property theorems about a program driven by its end callback: C129.  Vocabulary:
   SpecChain.v; the model of callbacks that call back: Reentry.v. *)
From Verif Require Import ZLib SpecChain ProofsCrc ProofsText ProofsStream ProofsConsumer ProofsSafe ProofsCatalog ProofsChain Demo DemoStream DemoCatalog PropsSafe PropsReentry.

(** ** C129 *)
(** A list of jobs, each an engine object and a name the master knows; an end callback that asks for
    the next job from inside the call that completes the one before; a main loop that only passes on
    what the master answers.  However many jobs there are, two levels of calls suffice, every object
    ends up holding its engine's details, fully known, no other engine is touched, and the end callback
    is told exactly once per job. *)
Theorem C129_jobs_done : forall lw cat answer s p c id jobs xs n rounds w, 32 <= lw -> serves cat answer -> config_id id -> equipped w s p -> reports_to_user w c ->
  Forall2 (can_be_done cat w) jobs xs -> NoDup (map fst jobs) -> (List.length jobs <= rounds)%nat ->
  exists w' t', rexec lw (next_job s p c jobs) (S (S n)) (driven_by_callback s p c id answer jobs rounds w) (mkR w []) = (Ok tt, mkR w' t') /\
    Forall2 (is_done w') jobs xs /\ (forall k, ~ In k (map fst jobs) -> nth_error (w_engines w') k = nth_error (w_engines w) k) /\
    completions c t' = List.length jobs /\ equipped w' s p.
Proof. exact driven. Qed.
Print Assumptions C129_jobs_done.
(** For a catalogue with different names of at most 16 characters and an engine object for each: each
    object ends up with the entry itself. *)
Theorem C129_catalogue_copied : forall lw cat answer s p c id engines n rounds w, 32 <= lw -> serves cat answer -> config_id id -> equipped w s p -> reports_to_user w c ->
  NoDup (map e_name cat) -> Forall (fun x => name_fits (e_name x)) cat -> NoDup engines -> Forall (has_engine w) engines -> List.length engines = List.length cat ->
  (List.length cat <= rounds)%nat ->
  let jobs := combine engines (map e_name cat) in
  exists w' t', rexec lw (next_job s p c jobs) (S (S n)) (driven_by_callback s p c id answer jobs rounds w) (mkR w []) = (Ok tt, mkR w' t') /\
    Forall2 (fun e x => exists l, engine_at w' e l /\ entry_of l = x /\ si_avail (lo_info l) = FULL_DETAILS) engines cat.
Proof. exact driven_catalogue. Qed.
Print Assumptions C129_catalogue_copied.

(** two jobs for the demo objects *)
Definition two_jobs : list job := [(1%nat, zs "ICE 3"); (0%nat, zs "V200")].
Definition two_entries : list entry := [mkEntry (zs "ICE 3") 0xC003 3 (zs "dcc"); nth 1 demo_cat (mkEntry [] 0 0 [])].
Lemma two_possible : Forall2 (can_be_done demo_cat demo_good) two_jobs two_entries.
Proof.
  repeat (constructor; [split; [eexists; reflexivity|split; [apply Forall_forall; intros x X; cbn in X; lia|reflexivity]]|]). constructor.
Qed.
Lemma two_apart : NoDup (map fst two_jobs).
Proof. repeat (constructor; [intros X; cbn in X; repeat destruct X as [X|X]; discriminate X || exact X|]). constructor. Qed.
Lemma demo_reports : reports_to_user demo_good 0. Proof. do 2 eexists. reflexivity. Qed.
(** One level of calls is not enough. *)
Theorem C129_one_level_refuted : exists lw cat answer s p c id jobs xs rounds w s', serves cat answer /\ config_id id /\ equipped w s p /\ reports_to_user w c /\
  Forall2 (can_be_done cat w) jobs xs /\ NoDup (map fst jobs) /\ (List.length jobs <= rounds)%nat /\
  rexec lw (next_job s p c jobs) 1 (driven_by_callback s p c id answer jobs rounds w) (mkR w []) = (UB TooDeep, s').
Proof.
  exists 64, demo_cat, (serve demo_cat), 0%nat, 0%nat, 0%nat, demo_id, two_jobs, two_entries, 2%nat, demo_good. eexists.
  split; [exact demo_served|]. split; [exact demo_id_ok|]. split; [exact demo_equipped|]. split; [exact demo_reports|]. split; [exact two_possible|]. split; [exact two_apart|]. split; [cbn; lia|]. vm_compute. reflexivity.
Qed.
Print Assumptions C129_one_level_refuted.
(** With the same engine object in two jobs the first result is lost. *)
Definition same_object : list job := [(1%nat, zs "ICE 3"); (1%nat, zs "V200")].
Theorem C129_same_object_refuted : exists lw cat answer s p c id jobs xs rounds w w' t', serves cat answer /\ config_id id /\ equipped w s p /\ reports_to_user w c /\
  Forall2 (can_be_done cat w) jobs xs /\ (List.length jobs <= rounds)%nat /\
  rexec lw (next_job s p c jobs) 2 (driven_by_callback s p c id answer jobs rounds w) (mkR w []) = (Ok tt, mkR w' t') /\ ~ Forall2 (is_done w') jobs xs.
Proof.
  exists 64, demo_cat, (serve demo_cat), 0%nat, 0%nat, 0%nat, demo_id, same_object, two_entries, 2%nat, demo_good.
  destruct (rexec 64 (next_job 0 0 0 same_object) 2 (driven_by_callback 0 0 0 demo_id (serve demo_cat) same_object 2 demo_good) (mkR demo_good [])) as (r, (w', t')) eqn:E. exists w', t'.
  assert (R : forall q, rexec 64 (next_job 0 0 0 same_object) 2 (driven_by_callback 0 0 0 demo_id (serve demo_cat) same_object 2 demo_good) (mkR demo_good []) = q ->
     (fst q, option_map entry_of (nth_error (w_engines (r_w (snd q))) 1)) = (Ok tt, nth_error demo_cat 1)) by (intros q <-; vm_compute; reflexivity).
  specialize (R _ E). cbn [fst snd r_w] in R. injection R as -> R.
  split; [exact demo_served|]. split; [exact demo_id_ok|]. split; [exact demo_equipped|]. split; [exact demo_reports|]. split; [|split; [cbn; lia|split; [reflexivity|]]].
  - repeat (constructor; [split; [eexists; reflexivity|split; [apply Forall_forall; intros x X; cbn in X; lia|reflexivity]]|]). constructor.
  - intros F. inversion F as [|? ? ? ? (l & A & B & _) _]; subst. cbn [same_object fst snd] in *. unfold engine_at in A. destruct (w_engines w') as [|? [|? ?]]; try discriminate A. cbn in A. injection A as ->. cbn [option_map] in R. rewrite B in R. discriminate R.
Qed.
Print Assumptions C129_same_object_refuted.
Example C129_case : equipped demo_good 0 0 /\ reports_to_user demo_good 0 /\ config_id demo_id /\ serves demo_cat (serve demo_cat) /\
  Forall2 (can_be_done demo_cat demo_good) two_jobs two_entries /\ NoDup (map fst two_jobs) /\
  exists w' t', rexec 64 (next_job 0 0 0 two_jobs) 2 (driven_by_callback 0 0 0 demo_id (serve demo_cat) two_jobs 2 demo_good) (mkR demo_good []) = (Ok tt, mkR w' t') /\
    map entry_of (w_engines w') = [nth 1 demo_cat (mkEntry [] 0 0 []); mkEntry (zs "ICE 3") 0xC003 3 (zs "dcc")] /\ completions 0 t' = 2%nat.
Proof.
  split; [exact demo_equipped|]. split; [exact demo_reports|]. split; [exact demo_id_ok|]. split; [exact demo_served|]. split; [exact two_possible|]. split; [exact two_apart|].
  eexists. eexists. split; [vm_compute; reflexivity|]. split; vm_compute; reflexivity.
Qed.
