(* DemoRetry.v -- a master whose answers tolerate losses, and one whose answers do not (C105-C107). *)
From Verif Require Import ZLib SpecRetry ProofsRetry Demo DemoStream DemoCatalog PropsSafe.

(** all that can be left of some frames *)
Fixpoint rests (l : list Data) : list (list Data) := match l with [] => [[]] | x :: r => let s := rests r in map (cons x) s ++ s end.
Lemma rests_self : forall l, In l (rests l).
Proof. induction l as [|x l IH]; [left; reflexivity|]. cbn. apply in_or_app. left. apply in_map. exact IH. Qed.
Lemma pass_rests : forall m l, In (pass m l) (rests l).
Proof.
  induction m as [|b m IH]; intros l; [replace (pass [] l) with l by (destruct l; reflexivity); apply rests_self|]. destruct l as [|x l]; [left; reflexivity|]. cbn. apply in_or_app. destruct b; [left; apply in_map; apply IH|right; apply IH].
Qed.
Definition fits_in (smax : nat) (r : report) : bool :=
  let '(s, k, v) := r in Nat.leb (List.length s) smax && Nat.leb (List.length k) 11 && Nat.ltb (List.length v) 26.
Definition tolerant (smax : nat) (ds : list Data) : bool := forallb (fun l => forallb (fits_in smax) (lines_seen l)) (rests ds).
Lemma tolerant_ok : forall smax ds m, tolerant smax ds = true -> Forall (fun r => fits_in smax r = true) (lines_seen (pass m ds)).
Proof. intros smax ds m H. unfold tolerant in H. rewrite forallb_forall in H. specialize (H _ (pass_rests m ds)). rewrite forallb_forall in H. apply Forall_forall. exact H. Qed.
Lemma tolerant_list : forall ds m, tolerant 10 ds = true -> Forall list_line_fits (lines_seen (pass m ds)).
Proof.
  intros ds m H. eapply Forall_impl; [|apply (tolerant_ok 10 ds m H)]. intros ((s & k) & v) R. unfold fits_in in R. rewrite !andb_true_iff, !Nat.leb_le, Nat.ltb_lt in R. destruct R as ((R1 & R2) & R3).
  split; [split; [lia|split; assumption]|exact R1].
Qed.
Lemma tolerant_engine : forall ds m, tolerant 11 ds = true -> Forall line_fits (lines_seen (pass m ds)).
Proof.
  intros ds m H. eapply Forall_impl; [|apply (tolerant_ok 11 ds m H)]. intros ((s & k) & v) R. unfold fits_in in R. rewrite !andb_true_iff, !Nat.leb_le, Nat.ltb_lt in R. destruct R as ((R1 & R2) & R3).
  split; [exact R1|split; assumption].
Qed.

Definition small_cat : catalogue := tl demo_cat.
Definition list_page (n : nat) : list Data := body (show_doc (list_doc (firstn 2 (skipn n (map e_name small_cat))) 4)).
Lemma small_pages : forallb (fun n => tolerant 10 (list_page n)) [0; 1; 2; 3; 4]%nat = true. Proof. vm_compute. reflexivity. Qed.
Lemma small_engines : forallb (fun x => tolerant 11 (body (show_doc (engine_doc x)))) small_cat = true. Proof. vm_compute. reflexivity. Qed.
Lemma small_served : serves small_cat (serve small_cat).
Proof. apply serve_serves; [apply entry_b; vm_compute; reflexivity|reflexivity]. Qed.
Lemma small_tolerant : loss_tolerant small_cat (serve small_cat).
Proof.
  split.
  - intros fs first m R. unfold serve. rewrite R. cbn [snd]. apply tolerant_list.
    assert (E : exists n, In n [0; 1; 2; 3; 4]%nat /\ part first 2 (map e_name small_cat) = firstn 2 (skipn n (map e_name small_cat))).
    { unfold part. change (Z.to_nat 2) with 2%nat. destruct (Z.to_nat first) as [|[|[|[|n]]]]; [exists 0%nat|exists 1%nat|exists 2%nat|exists 3%nat|exists 4%nat]; (split; [cbn; tauto|]); try reflexivity.
      rewrite !skipn_all2 by (cbn; lia). reflexivity. }
    destruct E as (n & N & ->). pose proof small_pages as P. rewrite forallb_forall in P. exact (P n N).
  - intros fs name x m R F. unfold serve. rewrite R, F. cbn [snd]. apply tolerant_engine. pose proof small_engines as P. rewrite forallb_forall in P. apply P. apply (find_some _ _ F).
Qed.

(** ** a proper master whose answers do not tolerate losses *)
Lemma fatal_loss : exists cat answer s p c c' e id tries w, serves cat answer /\ config_id id /\ zlen cat <= 255 /\
  NoDup (map e_name cat) /\ Forall (fun x => name_fits (e_name x)) cat /\ equipped w s p /\ has_list w c /\ an_engine_consumer w c' /\ has_engine w e /\
  get_catalogue 32 s p c c' e id answer tries w = UB OutOfBounds.
Proof.
  exists demo_cat, (serve demo_cat), 0%nat, 0%nat, 1%nat, 0%nat, 1%nat, demo_id, [[true; true; false; false; false; false; false; true; true]], demo_good.
  split; [exact demo_served|]. split; [exact demo_id_ok|]. split; [vm_compute; discriminate|].
  split; [repeat (constructor; [intros X; cbn in X; repeat destruct X as [X|X]; discriminate X || exact X|]); constructor|].
  split; [repeat (constructor; [split; [apply Forall_forall; intros x X; cbn in X; lia|cbn; lia]|]); constructor|].
  split; [exact demo_equipped|]. split; [exact demo_has_list|]. split; [exact demo_engine_consumer|]. split; [exact demo_has_engine|]. vm_compute. reflexivity.
Qed.
