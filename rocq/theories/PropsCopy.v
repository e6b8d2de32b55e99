(* PropsCopy.v -- property theorems about a program that copies a master's catalogue from its end
   callbacks: C136.  Vocabulary: SpecCopy.v, SpecPages.v, SpecChain.v; the model of callbacks that call
   back: Reentry.v. *)
From Verif Require Import ZLib SpecCopy ProofsCrc ProofsText ProofsStream ProofsConsumer ProofsSafe ProofsCatalog ProofsChain ProofsPages ProofsCopy Demo DemoStream DemoCatalog PropsSafe PropsReentry PropsPages.

(** ** C136 *)
(** A program asks for the first page of the list of engines and then only passes on what the master
    answers.  The end callback of its list consumer, from inside the call that completes a page, gives
    the page's names to the next engine objects and asks for the next page, or, after the last one, for
    the details of the first engine object; the end callback of its engine consumer asks for those of the
    next object.  For a master with at most 255 engines with different names of at most 16 characters and
    as many different engine objects, two levels of calls suffice, each object ends up holding the
    master's entry, fully known, no other engine is touched, and the callbacks are told once per page of
    two and once per engine. *)
Theorem C136_catalogue_copied : forall lw cat answer s p cl ce id engines n rounds w, 32 <= lw -> serves cat answer -> config_id id -> zlen cat <= 255 ->
  NoDup (map e_name cat) -> Forall (fun x => (List.length (e_name x) <= 16)%nat) cat -> equipped w s p -> lists_to_user w cl -> reports_to_user w ce ->
  NoDup engines -> Forall (has_engine w) engines -> List.length engines = List.length cat -> (List.length cat + (List.length cat + 1) / 2 <= rounds)%nat -> (0 < rounds)%nat ->
  exists w' t', rexec lw (copy_step s p cl ce engines) (S (S n)) (names_by_callback s p cl id answer rounds w) (mkR w []) = (Ok tt, mkR w' t') /\
    Forall2 (fun e x => exists l, engine_at w' e l /\ entry_of l = x /\ si_avail (lo_info l) = FULL_DETAILS) engines cat /\
    (forall k, ~ In k engines -> nth_error (w_engines w') k = nth_error (w_engines w) k) /\
    completions cl t' = Nat.max 1 ((List.length cat + 1) / 2) /\ completions ce t' = List.length cat /\ equipped w' s p.
Proof. exact copied. Qed.
Print Assumptions C136_catalogue_copied.

Lemma many_reports : forall n, reports_to_user (demo_many n) 0. Proof. intros n. do 2 eexists. reflexivity. Qed.
Lemma demo_names_apart : NoDup (map e_name demo_cat).
Proof. repeat (constructor; [intros X; cbn in X; repeat destruct X as [X|X]; discriminate X || exact X|]). constructor. Qed.
Lemma demo_names_short : Forall (fun x => (List.length (e_name x) <= 16)%nat) demo_cat.
Proof. repeat (constructor; [cbn; lia|]). constructor. Qed.
(** With two engines of the same name both objects get the details of the first. *)
Definition twin_cat : catalogue := [mkEntry (zs "ICE 3") 0xC003 3 (zs "dcc"); mkEntry (zs "ICE 3") 0x4005 5 (zs "mfx")].
Theorem C136_same_names_refuted : exists lw cat answer s p cl ce id engines rounds w w' t', serves cat answer /\ config_id id /\ zlen cat <= 255 /\
  Forall (fun x => (List.length (e_name x) <= 16)%nat) cat /\ equipped w s p /\ lists_to_user w cl /\ reports_to_user w ce /\
  NoDup engines /\ Forall (has_engine w) engines /\ List.length engines = List.length cat /\ (List.length cat + (List.length cat + 1) / 2 <= rounds)%nat /\
  rexec lw (copy_step s p cl ce engines) 2 (names_by_callback s p cl id answer rounds w) (mkR w []) = (Ok tt, mkR w' t') /\
  map entry_of (w_engines w') = [mkEntry (zs "ICE 3") 0xC003 3 (zs "dcc"); mkEntry (zs "ICE 3") 0xC003 3 (zs "dcc")] /\ map entry_of (w_engines w') <> cat.
Proof.
  exists 64, twin_cat, (serve twin_cat), 0%nat, 0%nat, 1%nat, 0%nat, demo_id, [0%nat; 1%nat], 3%nat, (demo_many 0).
  destruct (rexec 64 (copy_step 0 0 1 0 [0%nat; 1%nat]) 2 (names_by_callback 0 0 1 demo_id (serve twin_cat) 3 (demo_many 0)) (mkR (demo_many 0) [])) as (r, (w', t')) eqn:E. exists w', t'.
  assert (R : forall q, rexec 64 (copy_step 0 0 1 0 [0%nat; 1%nat]) 2 (names_by_callback 0 0 1 demo_id (serve twin_cat) 3 (demo_many 0)) (mkR (demo_many 0) []) = q ->
     (fst q, map entry_of (w_engines (r_w (snd q)))) = (Ok tt, [mkEntry (zs "ICE 3") 0xC003 3 (zs "dcc"); mkEntry (zs "ICE 3") 0xC003 3 (zs "dcc")])) by (intros q <-; vm_compute; reflexivity).
  specialize (R _ E). cbn [fst snd r_w r_t] in R. injection R as -> R.
  split; [apply serve_serves; [apply entry_b; vm_compute; reflexivity|reflexivity]|]. split; [exact demo_id_ok|]. split; [cbn; lia|]. split; [repeat constructor; cbn; lia|].
  split; [apply many_equipped|]. split; [apply many_lists|]. split; [apply many_reports|]. split; [repeat (constructor; [intros X; cbn in X; repeat destruct X as [X|X]; discriminate X || exact X|]); constructor|].
  split; [apply many_engines; repeat constructor|]. split; [reflexivity|]. split; [cbn; lia|]. split; [reflexivity|]. split; [exact R|]. rewrite R. discriminate.
Qed.
Print Assumptions C136_same_names_refuted.
Example C136_case : equipped (demo_many 3) 0 0 /\ lists_to_user (demo_many 3) 1 /\ reports_to_user (demo_many 3) 0 /\ config_id demo_id /\ serves demo_cat (serve demo_cat) /\
  NoDup (map e_name demo_cat) /\ Forall (fun x => (List.length (e_name x) <= 16)%nat) demo_cat /\ NoDup five /\ Forall (has_engine (demo_many 3)) five /\ List.length five = List.length demo_cat /\
  exists w' t', rexec 64 (copy_step 0 0 1 0 five) 2 (names_by_callback 0 0 1 demo_id (serve demo_cat) 8 (demo_many 3)) (mkR (demo_many 3) []) = (Ok tt, mkR w' t') /\
    map (fun e => option_map entry_of (nth_error (w_engines w') e)) five = map Some demo_cat /\ completions 1 t' = 3%nat /\ completions 0 t' = 5%nat.
Proof.
  split; [apply many_equipped|]. split; [apply many_lists|]. split; [apply many_reports|]. split; [exact demo_id_ok|]. split; [exact demo_served|]. split; [exact demo_names_apart|]. split; [exact demo_names_short|].
  split; [exact five_apart|]. split; [apply many_engines; repeat constructor|]. split; [reflexivity|].
  eexists. eexists. split; [vm_compute; reflexivity|]. split; [vm_compute; reflexivity|]. split; vm_compute; reflexivity.
Qed.
