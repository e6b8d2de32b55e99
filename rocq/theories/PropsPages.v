(* PropsPages.v -- property theorems about a program that reads a master's list from its end callback:
   C134.  Vocabulary: SpecPages.v, SpecChain.v; the model of callbacks that call back: Reentry.v. *)
From Verif Require Import ZLib SpecPages ProofsCrc ProofsText ProofsStream ProofsConsumer ProofsSafe ProofsCatalog ProofsChain ProofsPages Demo DemoStream DemoCatalog PropsSafe PropsReentry.

(** ** C134 *)
(** A program asks for the first page of the list of engines; its end callback, from inside the call
    that completes a page, gives the page's names to its next engine objects and asks for the next page;
    the main loop only passes on what the master answers.  For a list of at most 255 names and as many
    different engine objects, two levels of calls suffice, each object ends up with its name and is known
    by name only, no other engine is touched, and the end callback is told once per page of two. *)
Theorem C134_all_named : forall lw cat answer s p c id engines n rounds w, 32 <= lw -> serves cat answer -> config_id id -> zlen cat <= 255 -> equipped w s p -> lists_to_user w c ->
  NoDup engines -> Forall (has_engine w) engines -> List.length engines = List.length cat -> (List.length cat <= 2 * rounds)%nat -> (0 < rounds)%nat ->
  exists w' t', rexec lw (next_page s p c engines) (S (S n)) (names_by_callback s p c id answer rounds w) (mkR w []) = (Ok tt, mkR w' t') /\
    Forall2 (only_named w') engines (map e_name cat) /\ (forall k, ~ In k engines -> nth_error (w_engines w') k = nth_error (w_engines w) k) /\
    completions c t' = Nat.max 1 ((List.length cat + 1) / 2) /\ equipped w' s p.
Proof. exact all_named. Qed.
Print Assumptions C134_all_named.

(** the demo objects with more engines *)
Definition demo_many (n : nat) : world := mkW (w_stations demo_good) (w_parsers demo_good) (w_conss demo_good) (w_engines demo_good ++ repeat lo_reset n).
Lemma many_equipped : forall n, equipped (demo_many n) 0 0.
Proof.
  intros n. destruct demo_equipped as ((S1 & S2 & S3 & S4) & (st & Q) & P). split; [|split; [exists st; exact Q|exact P]].
  split; [exact S1|]. split; [exact S2|]. split.
  - eapply Forall_impl; [|exact S3]. intros [e cb|co i m o cb|]; [|auto|auto]. intros ((e' & -> & A) & B). split; [|exact B]. exists e'. split; [reflexivity|]. destruct e' as [e'|]; [|exact Logic.I].
    unfold points in *. cbn [w_engines demo_many]. rewrite app_length. lia.
  - apply Forall_app. split; [exact S4|]. apply Forall_forall. intros x X. apply repeat_spec in X. subst x. split; [|split; [reflexivity|left; reflexivity]].
    exists []. split; [constructor|]. split; [cbn; lia|reflexivity].
Qed.
Lemma many_lists : forall n, lists_to_user (demo_many n) 1. Proof. intros n. do 5 eexists. split; [reflexivity|cbn; lia]. Qed.
Lemma many_engines : forall n l, Forall (fun e => (e < 2 + n)%nat) l -> Forall (has_engine (demo_many n)) l.
Proof.
  intros n l F. eapply Forall_impl; [|exact F]. intros e E. unfold has_engine, engine_at. destruct (nth_error (w_engines (demo_many n)) e) as [x|] eqn:X; [exists x; reflexivity|].
  apply nth_error_None in X. assert (L : List.length (w_engines (demo_many n)) = (2 + n)%nat) by (unfold demo_many; cbn [w_engines]; rewrite app_length, repeat_length; reflexivity). rewrite L in X. cbv beta in E. lia.
Qed.
Definition five : list nat := [4; 0; 3; 1; 2]%nat.
Lemma five_apart : NoDup five.
Proof. repeat (constructor; [intros X; cbn in X; repeat destruct X as [X|X]; discriminate X || exact X|]). constructor. Qed.
(** One level of calls is not enough. *)
Theorem C134_one_level_refuted : exists lw cat answer s p c id engines rounds w s', serves cat answer /\ config_id id /\ zlen cat <= 255 /\ equipped w s p /\ lists_to_user w c /\
  NoDup engines /\ Forall (has_engine w) engines /\ List.length engines = List.length cat /\ (List.length cat <= 2 * rounds)%nat /\
  rexec lw (next_page s p c engines) 1 (names_by_callback s p c id answer rounds w) (mkR w []) = (UB TooDeep, s').
Proof.
  exists 64, demo_cat, (serve demo_cat), 0%nat, 0%nat, 1%nat, demo_id, five, 3%nat, (demo_many 3). eexists.
  split; [exact demo_served|]. split; [exact demo_id_ok|]. split; [cbn; lia|]. split; [apply many_equipped|]. split; [apply many_lists|]. split; [exact five_apart|].
  split; [apply many_engines; repeat constructor|]. split; [reflexivity|]. split; [cbn; lia|]. vm_compute. reflexivity.
Qed.
Print Assumptions C134_one_level_refuted.
(** With 256 engines the program stops after the first page: the number of engines reads 0. *)
Theorem C134_more_than_255_refuted : exists lw cat answer s p c id engines rounds w w' t', serves cat answer /\ config_id id /\ zlen cat = 256 /\ equipped w s p /\ lists_to_user w c /\
  NoDup engines /\ Forall (has_engine w) engines /\ List.length engines = List.length cat /\ (List.length cat <= 2 * rounds)%nat /\
  rexec lw (next_page s p c engines) 2 (names_by_callback s p c id answer rounds w) (mkR w []) = (Ok tt, mkR w' t') /\ completions c t' = 1%nat /\
  (forall k, (2 <= k)%nat -> nth_error (w_engines w') k = nth_error (w_engines w) k).
Proof.
  exists 64, long_cat, (serve long_cat), 0%nat, 0%nat, 1%nat, demo_id, (seq 0 256), 128%nat, (demo_many 254).
  destruct (rexec 64 (next_page 0 0 1 (seq 0 256)) 2 (names_by_callback 0 0 1 demo_id (serve long_cat) 128 (demo_many 254)) (mkR (demo_many 254) [])) as (r, (w', t')) eqn:E. exists w', t'.
  assert (R : forall q, rexec 64 (next_page 0 0 1 (seq 0 256)) 2 (names_by_callback 0 0 1 demo_id (serve long_cat) 128 (demo_many 254)) (mkR (demo_many 254) []) = q ->
     (fst q, completions 1 (r_t (snd q)), skipn 2 (w_engines (r_w (snd q)))) = (Ok tt, 1%nat, repeat lo_reset 254)) by (intros q <-; vm_compute; reflexivity).
  specialize (R _ E). cbn [fst snd r_w r_t] in R. injection R as -> R1 R2.
  split; [apply serve_serves; [apply entry_b; vm_compute; reflexivity|reflexivity]|]. split; [exact demo_id_ok|]. split; [reflexivity|]. split; [apply many_equipped|]. split; [apply many_lists|]. split; [apply seq_NoDup|].
  split; [apply many_engines; apply Forall_forall; intros x X; apply in_seq in X; lia|]. split; [reflexivity|]. split; [vm_compute; lia|]. split; [reflexivity|]. split; [exact R1|].
  intros k K. destruct k as [|[|k]]; try lia. destruct (w_engines w') as [|a [|b l]]; try discriminate R2. cbn [skipn] in R2. subst l. reflexivity.
Qed.
Print Assumptions C134_more_than_255_refuted.
Example C134_case : equipped (demo_many 3) 0 0 /\ lists_to_user (demo_many 3) 1 /\ config_id demo_id /\ serves demo_cat (serve demo_cat) /\ NoDup five /\ Forall (has_engine (demo_many 3)) five /\
  exists w' t', rexec 64 (next_page 0 0 1 five) 2 (names_by_callback 0 0 1 demo_id (serve demo_cat) 3 (demo_many 3)) (mkR (demo_many 3) []) = (Ok tt, mkR w' t') /\
    map (fun l => name_of (lo_info l)) (w_engines w') = map zs ["V200"; "BR 18"; "E 94"; "ICE 3"; "BR 103 113-7"]%string /\ completions 1 t' = 3%nat.
Proof.
  split; [apply many_equipped|]. split; [apply many_lists|]. split; [exact demo_id_ok|]. split; [exact demo_served|]. split; [exact five_apart|]. split; [apply many_engines; repeat constructor|].
  eexists. eexists. split; [vm_compute; reflexivity|]. split; vm_compute; reflexivity.
Qed.
