(* ProofsMovedParser.v -- proofs for C137. *)
From Verif Require Import ZLib SpecMovedParser ProofsText ProofsShared ProofsSharedText ProofsMoved.

(** ** Cells *)
Lemma set_here_length : forall cs x p, List.length (set_here cs x p) = List.length cs.
Proof. intros. unfold set_here. destruct (nth_error cs x); [apply upd_length|reflexivity]. Qed.
Lemma set_here_nth : forall cs x p k, nth_error (set_here cs x p) k =
  if Nat.eqb k x then option_map (fun c => mkCell (c_alive c) (c_stands c) (Some p)) (nth_error cs k) else nth_error cs k.
Proof.
  intros cs x p k. unfold set_here. destruct (Nat.eqb_spec k x) as [->|N].
  - destruct (nth_error cs x) as [c|] eqn:E; [exact (upd_hit _ _ _ _ _ E)|exact E].
  - destruct (nth_error cs x) as [c|]; [exact (upd_miss _ _ _ _ _ N)|reflexivity].
Qed.
Lemma set_here_stands : forall cs x p k, stands (set_here cs x p) k = stands cs k.
Proof. intros. unfold stands. rewrite set_here_nth. destruct (Nat.eqb k x); [|reflexivity]. destruct (nth_error cs k); reflexivity. Qed.
Lemma set_here_alive : forall cs x p k, alive (set_here cs x p) k = alive cs k.
Proof. intros. unfold alive. rewrite set_here_nth. destruct (Nat.eqb k x); [|reflexivity]. destruct (nth_error cs k); reflexivity. Qed.
Lemma set_here_other : forall cs x p k, k <> x -> here (set_here cs x p) k = here cs k.
Proof. intros cs x p k N. unfold here. rewrite set_here_nth. destruct (Nat.eqb_spec k x); [congruence|reflexivity]. Qed.
Lemma set_here_same : forall cs x p q, here cs x = Some q -> here (set_here cs x p) x = Some p.
Proof. intros cs x p q H. unfold here in *. rewrite set_here_nth, Nat.eqb_refl. destruct (nth_error cs x); [reflexivity|discriminate]. Qed.

Lemma moved_length : forall cs j, List.length (moved_from cs j) = List.length cs.
Proof. intros. unfold moved_from. destruct (nth_error cs j); [apply upd_length|reflexivity]. Qed.
Lemma moved_nth : forall cs j k, nth_error (moved_from cs j) k =
  if Nat.eqb k j then option_map (fun c => mkCell (c_alive c) None (c_here c)) (nth_error cs k) else nth_error cs k.
Proof.
  intros cs j k. unfold moved_from. destruct (Nat.eqb_spec k j) as [->|N].
  - destruct (nth_error cs j) as [c|] eqn:E; [exact (upd_hit _ _ _ _ _ E)|exact E].
  - destruct (nth_error cs j) as [c|]; [exact (upd_miss _ _ _ _ _ N)|reflexivity].
Qed.
Lemma moved_stands : forall cs j k, stands (moved_from cs j) k = if Nat.eqb k j then None else stands cs k.
Proof. intros. unfold stands. rewrite moved_nth. destruct (Nat.eqb k j); [|reflexivity]. destruct (nth_error cs k); reflexivity. Qed.
Lemma moved_alive : forall cs j k, alive (moved_from cs j) k = alive cs k.
Proof. intros. unfold alive. rewrite moved_nth. destruct (Nat.eqb k j); [|reflexivity]. destruct (nth_error cs k); reflexivity. Qed.
Lemma moved_here : forall cs j k, here (moved_from cs j) k = here cs k.
Proof. intros. unfold here. rewrite moved_nth. destruct (Nat.eqb k j); [|reflexivity]. destruct (nth_error cs k); reflexivity. Qed.

Lemma only_own_spec : forall cs i k, only_own cs i = true -> stands cs k = Some i -> k = i.
Proof.
  intros cs i k H S. unfold only_own in H. rewrite forallb_forall in H.
  assert (L : (k < List.length cs)%nat) by (unfold stands in S; apply nth_error_Some; destruct (nth_error cs k); congruence).
  specialize (H k). rewrite in_seq in H. specialize (H (conj (Nat.le_0_l _) L)). rewrite S, Nat.eqb_refl in H.
  cbn [negb] in H. rewrite orb_false_r in H. apply Nat.eqb_eq in H. exact H.
Qed.
Lemma the_parser_inv : forall cs i x p, the_parser cs i = Some (x, p) -> alive cs i = true /\ stands cs i = Some x /\ here cs x = Some p.
Proof.
  intros cs i x p H. unfold the_parser in H. destruct (alive cs i); [|discriminate]. destruct (stands cs i) as [y|]; [|discriminate].
  destruct (here cs y) eqn:E; [|discriminate]. injection H as -> ->. auto.
Qed.

(** ** Parsers in memory *)
Definition at_home (h : heap) (r : nat) (t : HP) (tp : TP) : Prop :=
  arrays t = [r; S r; S (S r); S (S (S r))] /\ well_placed h t /\ parser_at h t = tp.
Lemma in_four : forall r j, In j [r; S r; S (S r); S (S (S r))] <-> (r <= j < r + 4)%nat.
Proof. intros r j. cbn [In]. lia. Qed.
Lemma at_home_ext : forall h h' r t tp, at_home h r t tp -> (forall j, (r <= j < r + 4)%nat -> nth_error h' j = nth_error h j) -> at_home h' r t tp.
Proof.
  intros h h' r t tp (A & (ND & P) & T) E.
  assert (S1 : forall s, In (array_of s) (arrays t) -> nth_error h' (fst (sb_ptr s)) = nth_error h (fst (sb_ptr s))).
  { intros s I. rewrite A in I. apply in_four in I. exact (E _ I). }
  assert (S2 : forall s, In (array_of s) (arrays t) -> placed h s -> placed h' s).
  { intros s I (L & C & m & N & B). split; [exact L|]. split; [exact C|]. exists m. split; [|exact B]. rewrite S1; assumption. }
  assert (S3 : forall s, In (array_of s) (arrays t) -> shown h' s = shown h s).
  { intros s I. unfold shown. f_equal. f_equal. pose proof (S1 s I) as Q.
    destruct (nth_error h (fst (sb_ptr s))) as [m|] eqn:N.
    - rewrite (nth_error_nth _ _ [] Q), (nth_error_nth _ _ [] N). reflexivity.
    - apply nth_error_None in Q. apply nth_error_None in N. rewrite !nth_overflow by assumption. reflexivity. }
  unfold arrays in S2, S3. cbn [map] in S2, S3.
  split; [exact A|]. split.
  - split; [exact ND|]. inversion P as [|? ? P1 Q1]; subst. inversion Q1 as [|? ? P2 Q2]; subst. inversion Q2 as [|? ? P3 Q3]; subst. inversion Q3 as [|? ? P4 Q4]; subst.
    repeat constructor; (apply S2; [cbn; tauto|assumption]).
  - rewrite <- T. unfold parser_at. rewrite !S3 by (cbn; tauto). reflexivity.
Qed.
Lemma at_home_in : forall h r t tp, at_home h r t tp -> (r + 4 <= List.length h)%nat.
Proof.
  intros h r t tp (A & (_ & P) & _). inversion P as [|? ? P1 Q1]; subst. inversion Q1 as [|? ? P2 Q2]; subst. inversion Q2 as [|? ? P3 Q3]; subst. inversion Q3 as [|? ? P4 Q4]; subst.
  destruct P4 as (_ & _ & m & N & _). unfold arrays in A. cbn [map] in A. unfold array_of in A. injection A as _ _ _ A4. rewrite A4 in N.
  assert (nth_error h (S (S (S r))) <> None) by congruence. apply nth_error_Some in H. lia.
Qed.
Lemma fresh_home : forall h, at_home (h ++ new_arrays) (List.length h) (fresh_parser (List.length h)) (parser astart None).
Proof.
  intros h.
  assert (N : forall k m, nth_error new_arrays k = Some m -> nth_error (h ++ new_arrays) (k + List.length h) = Some m).
  { intros k m E. rewrite nth_error_app2 by lia. replace (k + List.length h - List.length h)%nat with k by lia. exact E. }
  pose proof (N 0%nat _ eq_refl) as N0. pose proof (N 1%nat _ eq_refl) as N1. pose proof (N 2%nat _ eq_refl) as N2. pose proof (N 3%nat _ eq_refl) as N3.
  cbn [plus] in N0, N1, N2, N3.
  split; [reflexivity|]. split.
  - split.
    + unfold arrays, array_of, fresh_parser. cbn [map hp_buf hp_sec hp_key hp_val sb_ptr fst]. repeat constructor; cbn; lia.
    + repeat constructor; cbn [sb_len sb_cap sb_ptr fst snd fresh_parser hp_buf hp_sec hp_key hp_val]; try lia; (eexists; split; [eassumption|vm_compute; split; discriminate]).
  - unfold parser_at, shown, fresh_parser. cbn [sb_len sb_cap sb_ptr fst snd hp_buf hp_sec hp_key hp_val hp_state hp_cons].
    rewrite (nth_error_nth _ _ [] N0), (nth_error_nth _ _ [] N1), (nth_error_nth _ _ [] N2), (nth_error_nth _ _ [] N3). reflexivity.
Qed.

(** ** put_raw *)
Lemma put_raw_length : forall h r l, List.length (put_raw h r l) = List.length h.
Proof. intros. unfold put_raw. rewrite !upd_length. reflexivity. Qed.
Lemma put_raw_other : forall h r l j, ~ (r <= j < r + 4)%nat -> nth_error (put_raw h r l) j = nth_error h j.
Proof. intros h r l j N. unfold put_raw. rewrite !upd_miss by lia. reflexivity. Qed.

(** ** The invariant *)
Record Inv (h : heap) (os : list pobj) (cs : list cell) : Prop := {
  i_len : List.length os = List.length cs;
  i_alive : forall k p, nth_error os k = Some p -> po_alive p = alive cs k;
  i_in : forall k p, nth_error os k = Some p -> (po_raw p + 4 <= List.length h)%nat;
  i_apart : forall k k' p p', k <> k' -> nth_error os k = Some p -> nth_error os k' = Some p' -> (po_raw p + 4 <= po_raw p' \/ po_raw p' + 4 <= po_raw p)%nat;
  i_inj : forall k k' x, stands cs k = Some x -> stands cs k' = Some x -> k = k';
  i_home : forall k x, stands cs k = Some x -> exists p q a c, nth_error os k = Some p /\ nth_error os x = Some q /\ here cs x = Some (a, c) /\ fits a /\
             at_home h (po_raw q) (po_tp p) (parser a c) }.

Lemma nth_nil : forall A k (x : A), nth_error [] k = Some x -> False.
Proof. intros A [|k] x H; discriminate. Qed.
Lemma inv_empty : Inv [] [] [].
Proof.
  constructor; [reflexivity| | | | |]; try (intros; exfalso; eapply nth_nil; eassumption);
    unfold stands; intros k; replace (nth_error (@nil cell) k) with (@None cell) by (destruct k; reflexivity); discriminate.
Qed.
Lemma inv_living : forall h os cs i, Inv h os cs -> alive cs i = true -> exists p, nth_error os i = Some p /\ living os i = Ok p /\ po_alive p = true.
Proof.
  intros h os cs i I A. destruct (nth_error os i) as [p|] eqn:E.
  - exists p. split; [reflexivity|]. pose proof (i_alive _ _ _ I _ _ E) as Q. rewrite A in Q. split; [|exact Q]. unfold living. rewrite E, Q. reflexivity.
  - exfalso. apply nth_error_None in E. rewrite (i_len _ _ _ I) in E. unfold alive in A. apply nth_error_None in E. rewrite E in A. discriminate.
Qed.
(** one parser changes, in its own arrays *)
Lemma inv_use : forall h os cs i x p q a c h' t' a' c', Inv h os cs -> stands cs i = Some x -> alive cs i = true -> nth_error os i = Some p -> nth_error os x = Some q ->
  here cs x = Some (a, c) -> fits a' -> at_home h' (po_raw q) t' (parser a' c') -> (List.length h <= List.length h')%nat ->
  (forall j, (j < List.length h)%nat -> ~ (po_raw q <= j < po_raw q + 4)%nat -> nth_error h' j = nth_error h j) ->
  Inv h' (upd i (mkPobj true (po_raw p) t') os) (set_here cs x (a', c')).
Proof.
  intros h os cs i x p q a c h' t' a' c' I ST AL EP EQ HX F' AH LE FR.
  assert (NI : forall k y, nth_error (upd i (mkPobj true (po_raw p) t') os) k = Some y ->
    exists z, nth_error os k = Some z /\ po_raw y = po_raw z /\ po_alive y = alive cs k).
  { intros k y E. destruct (Nat.eq_dec k i) as [->|N].
    - rewrite (upd_hit _ _ _ _ _ EP) in E. injection E as <-. exists p. split; [exact EP|]. split; [reflexivity|]. symmetry. exact AL.
    - rewrite (upd_miss _ _ _ _ _ N) in E. exists y. split; [exact E|]. split; [reflexivity|]. exact (i_alive _ _ _ I _ _ E). }
  constructor.
  - rewrite upd_length, set_here_length. exact (i_len _ _ _ I).
  - intros k y E. destruct (NI k y E) as (z & _ & _ & A). rewrite set_here_alive. exact A.
  - intros k y E. destruct (NI k y E) as (z & Z & R & _). rewrite R. pose proof (i_in _ _ _ I _ _ Z). lia.
  - intros k k' y y' N E E'. destruct (NI k y E) as (z & Z & R & _). destruct (NI k' y' E') as (z' & Z' & R' & _). rewrite R, R'. exact (i_apart _ _ _ I _ _ _ _ N Z Z').
  - intros k k' w. rewrite !set_here_stands. apply (i_inj _ _ _ I).
  - intros k w. rewrite set_here_stands. intros S. destruct (i_home _ _ _ I _ _ S) as (pk & qw & b & d & K1 & K2 & K3 & K4 & K5).
    assert (QW : exists qw', nth_error (upd i (mkPobj true (po_raw p) t') os) w = Some qw' /\ po_raw qw' = po_raw qw).
    { destruct (Nat.eq_dec w i) as [->|N]; [|exists qw; rewrite (upd_miss _ _ _ _ _ N); auto]. rewrite K2 in EP. injection EP as ->.
      exists (mkPobj true (po_raw p) t'). split; [exact (upd_hit _ _ _ _ _ K2)|reflexivity]. }
    destruct QW as (qw' & W1 & W2).
    destruct (Nat.eq_dec k i) as [->|N].
    + rewrite ST in S. injection S as <-. rewrite EQ in K2. injection K2 as <-.
      exists (mkPobj true (po_raw p) t'), qw', a', c'. split; [exact (upd_hit _ _ _ _ _ EP)|]. split; [exact W1|]. split; [exact (set_here_same _ _ _ _ HX)|]. split; [exact F'|].
      cbn [po_tp]. rewrite W2. exact AH.
    + assert (NX : w <> x) by (intros ->; apply N; exact (i_inj _ _ _ I _ _ _ S ST)).
      exists pk, qw', b, d. split; [rewrite (upd_miss _ _ _ _ _ N); exact K1|]. split; [exact W1|]. split; [rewrite set_here_other by exact NX; exact K3|]. split; [exact K4|].
      rewrite W2. apply (at_home_ext h); [exact K5|]. intros j J. apply FR.
      * pose proof (i_in _ _ _ I _ _ K2). lia.
      * pose proof (i_apart _ _ _ I _ _ _ _ NX K2 EQ). lia.
Qed.

Lemma nth_error_snoc : forall A (l : list A) x k y, nth_error (l ++ [x]) k = Some y -> nth_error l k = Some y \/ k = List.length l /\ y = x.
Proof.
  intros A l x k y H. destruct (Nat.lt_ge_cases k (List.length l)) as [L|L].
  - left. rewrite nth_error_app1 in H by exact L. exact H.
  - right. rewrite nth_error_app2 in H by exact L. destruct (k - List.length l)%nat as [|n] eqn:E; [|destruct n; discriminate].
    injection H as <-. split; [lia|reflexivity].
Qed.
Lemma nth_error_end : forall A (l : list A) x, nth_error (l ++ [x]) (List.length l) = Some x.
Proof. intros. rewrite nth_error_app2 by lia. rewrite Nat.sub_diag. reflexivity. Qed.
Lemma nth_error_keep : forall A (l m : list A) k y, nth_error l k = Some y -> nth_error (l ++ m) k = Some y.
Proof. intros A l m k y H. rewrite nth_error_app1; [exact H|]. apply nth_error_Some. congruence. Qed.

Lemma snoc_stands : forall cs c k, stands (cs ++ [c]) k = if Nat.eqb k (List.length cs) then c_stands c else stands cs k.
Proof.
  intros cs c k. unfold stands. destruct (Nat.eqb_spec k (List.length cs)) as [->|N]; [rewrite nth_error_end; reflexivity|].
  destruct (Nat.lt_ge_cases k (List.length cs)) as [L|L]; [rewrite nth_error_app1 by exact L; reflexivity|].
  replace (nth_error (cs ++ [c]) k) with (@None cell) by (symmetry; apply nth_error_None; rewrite app_length; cbn; lia).
  replace (nth_error cs k) with (@None cell) by (symmetry; apply nth_error_None; lia). reflexivity.
Qed.
Lemma snoc_here : forall cs c k, here (cs ++ [c]) k = if Nat.eqb k (List.length cs) then c_here c else here cs k.
Proof.
  intros cs c k. unfold here. destruct (Nat.eqb_spec k (List.length cs)) as [->|N]; [rewrite nth_error_end; reflexivity|].
  destruct (Nat.lt_ge_cases k (List.length cs)) as [L|L]; [rewrite nth_error_app1 by exact L; reflexivity|].
  replace (nth_error (cs ++ [c]) k) with (@None cell) by (symmetry; apply nth_error_None; rewrite app_length; cbn; lia).
  replace (nth_error cs k) with (@None cell) by (symmetry; apply nth_error_None; lia). reflexivity.
Qed.
Lemma snoc_alive : forall cs c k, alive (cs ++ [c]) k = if Nat.eqb k (List.length cs) then c_alive c else alive cs k.
Proof.
  intros cs c k. unfold alive. destruct (Nat.eqb_spec k (List.length cs)) as [->|N]; [rewrite nth_error_end; reflexivity|].
  destruct (Nat.lt_ge_cases k (List.length cs)) as [L|L]; [rewrite nth_error_app1 by exact L; reflexivity|].
  replace (nth_error (cs ++ [c]) k) with (@None cell) by (symmetry; apply nth_error_None; rewrite app_length; cbn; lia).
  replace (nth_error cs k) with (@None cell) by (symmetry; apply nth_error_None; lia). reflexivity.
Qed.
Lemma stands_in : forall cs k x, stands cs k = Some x -> (k < List.length cs)%nat.
Proof. intros cs k x H. unfold stands in H. apply nth_error_Some. destruct (nth_error cs k); congruence. Qed.

(** a further object, with four further arrays *)
Lemma inv_snoc : forall h os cs l t c, Inv h os cs -> List.length l = 4%nat -> c_alive c = true ->
  (forall x, c_stands c = Some x -> (forall k, stands cs k <> Some x) /\ exists q a d, nth_error (os ++ [mkPobj true (List.length h) t]) x = Some q /\
     here (cs ++ [c]) x = Some (a, d) /\ fits a /\ at_home (h ++ l) (po_raw q) t (parser a d)) ->
  Inv (h ++ l) (os ++ [mkPobj true (List.length h) t]) (cs ++ [c]).
Proof.
  intros h os cs l t c I L4 AC HC. pose proof (i_len _ _ _ I) as LN. constructor.
  - rewrite !app_length. cbn. lia.
  - intros k p E. rewrite snoc_alive. apply nth_error_snoc in E. destruct E as [E|(-> & ->)].
    + assert (k < List.length os)%nat by (apply nth_error_Some; congruence). destruct (Nat.eqb_spec k (List.length cs)); [lia|]. exact (i_alive _ _ _ I _ _ E).
    + rewrite LN, Nat.eqb_refl. symmetry. exact AC.
  - intros k p E. rewrite app_length, L4. apply nth_error_snoc in E. destruct E as [E|(-> & ->)]; [pose proof (i_in _ _ _ I _ _ E); lia|cbn [po_raw]; lia].
  - intros k k' p p' N E E'. apply nth_error_snoc in E. apply nth_error_snoc in E'.
    destruct E as [E|(-> & ->)], E' as [E'|(-> & ->)]; [exact (i_apart _ _ _ I _ _ _ _ N E E')| | |congruence]; cbn [po_raw].
    + left. exact (i_in _ _ _ I _ _ E).
    + right. exact (i_in _ _ _ I _ _ E').
  - intros k k' x. rewrite !snoc_stands. destruct (Nat.eqb_spec k (List.length cs)), (Nat.eqb_spec k' (List.length cs)); intros S S'; try congruence.
    + exfalso. exact (proj1 (HC _ S) _ S').
    + exfalso. exact (proj1 (HC _ S') _ S).
    + exact (i_inj _ _ _ I _ _ _ S S').
  - intros k x. rewrite snoc_stands. destruct (Nat.eqb_spec k (List.length cs)) as [->|N]; intros S.
    + destruct (HC _ S) as (_ & q & a & d & Q & H & F & A). exists (mkPobj true (List.length h) t), q, a, d.
      split; [rewrite <- LN; apply nth_error_end|]. auto.
    + destruct (i_home _ _ _ I _ _ S) as (p & q & a & d & P & Q & H & F & A). exists p, q, a, d.
      split; [apply nth_error_keep; exact P|]. split; [apply nth_error_keep; exact Q|].
      assert (x < List.length os)%nat by (apply nth_error_Some; congruence).
      split; [rewrite snoc_here; destruct (Nat.eqb_spec x (List.length cs)); [lia|exact H]|]. split; [exact F|].
      apply (at_home_ext h); [exact A|]. intros j J. apply nth_error_app1. pose proof (i_in _ _ _ I _ _ Q). lia.
Qed.
(** an object stops standing for its parser *)
Lemma inv_moved : forall h os cs j, Inv h os cs -> Inv h os (moved_from cs j).
Proof.
  intros h os cs j I. constructor.
  - rewrite moved_length. exact (i_len _ _ _ I).
  - intros k p E. rewrite moved_alive. exact (i_alive _ _ _ I _ _ E).
  - exact (i_in _ _ _ I).
  - exact (i_apart _ _ _ I).
  - intros k k' x. rewrite !moved_stands. destruct (Nat.eqb k j); [discriminate|]. destruct (Nat.eqb k' j); [discriminate|]. apply (i_inj _ _ _ I).
  - intros k x. rewrite moved_stands. destruct (Nat.eqb k j); [discriminate|]. intros S. destruct (i_home _ _ _ I _ _ S) as (p & q & a & c & K). exists p, q, a, c. rewrite moved_here. exact K.
Qed.
(** object i is overwritten, or ends: no other object stands for the parser constructed in it *)
Lemma inv_over : forall h os cs i p l b t s, Inv h os cs -> nth_error os i = Some p -> (forall k, stands cs k = Some i -> k = i) ->
  (forall x, s = Some x -> x <> i /\ (forall k, k <> i -> stands cs k <> Some x) /\ exists q a c, nth_error os x = Some q /\ here cs x = Some (a, c) /\ fits a /\ at_home h (po_raw q) t (parser a c)) ->
  Inv (put_raw h (po_raw p) l) (upd i (mkPobj b (po_raw p) t) os) (upd i (mkCell b s None) cs).
Proof.
  intros h os cs i p l b t s I EP ON HS. pose proof (i_len _ _ _ I) as LN.
  assert (EC : exists c0, nth_error cs i = Some c0).
  { destruct (nth_error cs i) eqn:E; [eauto|]. apply nth_error_None in E. rewrite <- LN in E. apply nth_error_None in E. congruence. }
  destruct EC as (c0 & EC).
  assert (NI : forall k y, nth_error (upd i (mkPobj b (po_raw p) t) os) k = Some y -> exists z, nth_error os k = Some z /\ po_raw y = po_raw z).
  { intros k y E. destruct (Nat.eq_dec k i) as [->|N].
    - rewrite (upd_hit _ _ _ _ _ EP) in E. injection E as <-. exists p. auto.
    - rewrite (upd_miss _ _ _ _ _ N) in E. exists y. auto. }
  assert (ST : forall k, stands (upd i (mkCell b s None) cs) k = if Nat.eqb k i then s else stands cs k).
  { intros k. unfold stands. destruct (Nat.eqb_spec k i) as [->|N]; [rewrite (upd_hit _ _ _ _ _ EC)|rewrite (upd_miss _ _ _ _ _ N)]; reflexivity. }
  assert (HE : forall k, k <> i -> here (upd i (mkCell b s None) cs) k = here cs k) by (intros k N; unfold here; rewrite (upd_miss _ _ _ _ _ N); reflexivity).
  constructor.
  - rewrite !upd_length. exact LN.
  - intros k y E. unfold alive. destruct (Nat.eq_dec k i) as [->|N].
    + rewrite (upd_hit _ _ _ _ _ EP) in E. injection E as <-. rewrite (upd_hit _ _ _ _ _ EC). reflexivity.
    + rewrite (upd_miss _ _ _ _ _ N) in E. rewrite (upd_miss _ _ _ _ _ N). exact (i_alive _ _ _ I _ _ E).
  - intros k y E. rewrite put_raw_length. destruct (NI _ _ E) as (z & Z & ->). exact (i_in _ _ _ I _ _ Z).
  - intros k k' y y' N E E'. destruct (NI _ _ E) as (z & Z & ->). destruct (NI _ _ E') as (z' & Z' & ->). exact (i_apart _ _ _ I _ _ _ _ N Z Z').
  - intros k k' x. rewrite !ST. destruct (Nat.eqb_spec k i), (Nat.eqb_spec k' i); intros S S'; try congruence.
    + exfalso. exact (proj1 (proj2 (HS _ S)) _ n S').
    + exfalso. exact (proj1 (proj2 (HS _ S')) _ n S).
    + exact (i_inj _ _ _ I _ _ _ S S').
  - assert (HO : forall x q t0 tp, x <> i -> nth_error os x = Some q -> at_home h (po_raw q) t0 tp -> at_home (put_raw h (po_raw p) l) (po_raw q) t0 tp).
    { intros x q t0 tp N Q A. apply (at_home_ext h); [exact A|]. intros j J. apply put_raw_other. pose proof (i_apart _ _ _ I _ _ _ _ N Q EP). lia. }
    intros k x. rewrite ST. destruct (Nat.eqb_spec k i) as [->|N]; intros S.
    + destruct (HS _ S) as (NX & _ & q & a & c & Q & H & F & A). exists (mkPobj b (po_raw p) t), q, a, c.
      split; [exact (upd_hit _ _ _ _ _ EP)|]. split; [rewrite (upd_miss _ _ _ _ _ NX); exact Q|]. split; [rewrite (HE _ NX); exact H|]. split; [exact F|]. exact (HO _ _ _ _ NX Q A).
    + assert (NX : x <> i) by (intros ->; exact (N (ON _ S))).
      destruct (i_home _ _ _ I _ _ S) as (p1 & q & a & c & P & Q & H & F & A). exists p1, q, a, c.
      split; [rewrite (upd_miss _ _ _ _ _ N); exact P|]. split; [rewrite (upd_miss _ _ _ _ _ NX); exact Q|]. split; [rewrite (HE _ NX); exact H|]. split; [exact F|]. exact (HO _ _ _ _ NX Q A).
Qed.

(** ** Steps *)
Lemma plain_holds : forall bs, zlen bs <= 255 -> SpecBuffer.holds (mkBuf bs (zlen bs) (zlen bs)) bs.
Proof.
  intros bs L. unfold SpecBuffer.holds. cbn [blen bcap mem]. pose proof (zlen_nonneg _ bs). repeat split; try lia.
  unfold zlen. rewrite Nat2Z.id. symmetry. apply firstn_all.
Qed.
Lemma p_step_sim : forall o h os cs cs' e, Inv h os cs -> ideal_pstep o cs = Some (cs', e) ->
  exists h' os', p_step o (h, os) = Ok (h', os', e) /\ Inv h' os' cs'.
Proof.
  intros o h os cs cs' e I H. pose proof (i_len _ _ _ I) as LN. destruct o as [|i c'|i bs|i|j|i j|i]; cbn [ideal_pstep p_step] in *.
  - injection H as <- <-. do 2 eexists. split; [reflexivity|]. apply inv_snoc; [exact I|reflexivity|reflexivity|].
    intros x E. cbn [c_stands] in E. injection E as <-. split.
    + intros k S. destruct (i_home _ _ _ I _ _ S) as (p & q & a & c & _ & Q & _). assert (List.length cs < List.length os)%nat by (apply nth_error_Some; congruence). lia.
    + exists (mkPobj true (List.length h) (fresh_parser (List.length h))), astart, None.
      split; [rewrite <- LN; apply nth_error_end|]. split; [rewrite snoc_here, Nat.eqb_refl; reflexivity|]. split; [unfold fits, astart; cbn; lia|apply fresh_home].
  - destruct (the_parser cs i) as [[x [a c]]|] eqn:T; [|discriminate]. injection H as <- <-. destruct (the_parser_inv _ _ _ _ T) as (AL & ST & HX).
    destruct (i_home _ _ _ I _ _ ST) as (p & q & a0 & c0 & P & Q & H0 & F & A). rewrite HX in H0. injection H0 as <- <-.
    destruct (inv_living _ _ _ _ I AL) as (p' & P' & LV & _). rewrite P in P'. injection P' as <-. rewrite LV. cbn [bind]. do 2 eexists. split; [reflexivity|].
    eapply inv_use; try eassumption; [|lia|reflexivity]. destruct A as (A1 & A2 & A3). split; [exact A1|]. split; [exact A2|].
    unfold parser_at in *. cbn [hp_state hp_cons hp_buf hp_sec hp_key hp_val]. unfold parser in *. congruence.
  - destruct (the_parser cs i) as [[x [a c]]|] eqn:T; [|discriminate]. destruct (255 <? zlen bs) eqn:LB; [discriminate|]. apply Z.ltb_ge in LB. injection H as <- <-.
    destruct (the_parser_inv _ _ _ _ T) as (AL & ST & HX).
    destruct (i_home _ _ _ I _ _ ST) as (p & q & a0 & c0 & P & Q & H0 & F & A). rewrite HX in H0. injection H0 as <- <-.
    destruct (inv_living _ _ _ _ I AL) as (p' & P' & LV & _). rewrite P in P'. injection P' as <-. rewrite LV. cbn [bind].
    pose proof (i_in _ _ _ I _ _ Q) as QI.
    assert (A' : at_home (h ++ [bs]) (po_raw q) (po_tp p) (parser a c)) by (apply (at_home_ext h); [exact A|]; intros j J; apply nth_error_app1; lia).
    destruct A' as (A1 & A2 & A3). set (s := mkS (List.length h, 0) (zlen bs) (zlen bs)).
    assert (SH : shown (h ++ [bs]) s = mkBuf bs (zlen bs) (zlen bs)).
    { unfold shown, s. cbn [sb_ptr sb_len sb_cap fst snd]. rewrite (nth_error_nth _ _ [] (nth_error_end _ h bs)). reflexivity. }
    assert (PS : placed (h ++ [bs]) s).
    { unfold placed, s. cbn [sb_ptr sb_len sb_cap fst snd]. pose proof (zlen_nonneg _ bs). split; [lia|]. split; [lia|]. exists bs. split; [apply nth_error_end|lia]. }
    assert (NI : ~ In (array_of s) (arrays (po_tp p))) by (rewrite A1; intros IN; apply in_four in IN; unfold array_of, s in IN; cbn [sb_ptr fst] in IN; lia).
    destruct (addText_shared _ _ s (parser (fst (aadd a bs)) c) (told c (snd (aadd a bs))) A2 PS NI) as (h' & t' & R & B1 & B2 & B3 & B4).
    { rewrite A3, SH. apply addText_spec; [exact F|apply plain_holds; exact LB]. }
    rewrite R. cbn [bind]. do 2 eexists. split; [reflexivity|].
    assert (LH : (List.length h < List.length h')%nat).
    { apply nth_error_Some. rewrite B4 by exact NI. rewrite nth_error_end. discriminate. }
    assert (FN : forall j, (j < List.length h)%nat -> nth_error (firstn (List.length h) h') j = nth_error h' j).
    { intros j J. rewrite <- (firstn_skipn (List.length h) h') at 2. symmetry. apply nth_error_app1. rewrite firstn_length. lia. }
    eapply inv_use; try eassumption.
    + apply aadd_fits. exact F.
    + apply (at_home_ext h'); [split; [congruence|]; split; [exact B2|exact B1]|]. intros j J. apply FN. lia.
    + rewrite firstn_length. lia.
    + intros j J N. rewrite FN by exact J. rewrite B4; [apply nth_error_app1; exact J|]. rewrite A1. intros IN. apply in_four in IN. exact (N IN).
  - destruct (the_parser cs i) as [[x [a c]]|] eqn:T; [|discriminate]. injection H as <- <-. destruct (the_parser_inv _ _ _ _ T) as (AL & ST & HX).
    destruct (i_home _ _ _ I _ _ ST) as (p & q & a0 & c0 & P & Q & H0 & F & A). rewrite HX in H0. injection H0 as <- <-.
    destruct (inv_living _ _ _ _ I AL) as (p' & P' & LV & _). rewrite P in P'. injection P' as <-. rewrite LV. cbn [bind].
    destruct A as (A1 & A2 & A3). destruct (reset_shared h (po_tp p) tp_new A2) as (h' & t' & R & B1 & B2 & B3 & B4).
    { rewrite A3. apply (reset_spec a c). exact F. }
    rewrite R. cbn [bind]. do 2 eexists. split; [reflexivity|].
    assert (AH : at_home h' (po_raw q) t' (parser astart None)) by (split; [congruence|]; split; [exact B2|exact B1]).
    eapply inv_use; try eassumption.
    + unfold fits, astart; cbn; lia.
    + destruct (Nat.le_gt_cases (List.length h) (List.length h')) as [L|L]; [exact L|]. exfalso.
      pose proof (at_home_in _ _ _ _ AH) as AI.
      assert (N : nth_error h' (List.length h') = nth_error h (List.length h')) by (apply B4; rewrite A1; intros IN; apply in_four in IN; lia).
      apply nth_error_Some in L. rewrite <- N in L. apply nth_error_Some in L. lia.
    + intros k _ N. apply B4. rewrite A1. intros IN. apply in_four in IN. exact (N IN).
  - destruct (the_parser cs j) as [[x [a c]]|] eqn:T; [|discriminate]. injection H as <- <-. destruct (the_parser_inv _ _ _ _ T) as (AL & ST & HX).
    destruct (i_home _ _ _ I _ _ ST) as (p & q & a0 & c0 & P & Q & H0 & F & A). rewrite HX in H0. injection H0 as <- <-.
    destruct (inv_living _ _ _ _ I AL) as (p' & P' & LV & _). rewrite P in P'. injection P' as <-. rewrite LV. cbn [bind]. do 2 eexists. split; [reflexivity|].
    apply inv_snoc; [apply inv_moved; exact I|reflexivity|reflexivity|]. cbn [c_stands]. intros y E. injection E as <-. split.
    + intros k. rewrite moved_stands. destruct (Nat.eqb_spec k j); [discriminate|]. intros S. exact (n (i_inj _ _ _ I _ _ _ S ST)).
    + exists q, a, c. split; [apply nth_error_keep; exact Q|]. assert (x < List.length os)%nat by (apply nth_error_Some; congruence).
      split; [rewrite snoc_here, moved_length, moved_here; destruct (Nat.eqb_spec x (List.length cs)); [lia|exact HX]|]. split; [exact F|].
      apply (at_home_ext h); [exact A|]. intros k K. apply nth_error_app1. pose proof (i_in _ _ _ I _ _ Q). lia.
  - destruct (alive cs i && negb (Nat.eqb i j) && only_own cs i) eqn:G; [|discriminate]. apply andb_true_iff in G. destruct G as (G & ON). apply andb_true_iff in G. destruct G as (AI & NE).
    apply negb_true_iff, Nat.eqb_neq in NE.
    destruct (the_parser cs j) as [[x [a c]]|] eqn:T; [|discriminate]. injection H as <- <-. destruct (the_parser_inv _ _ _ _ T) as (AL & ST & HX).
    destruct (i_home _ _ _ I _ _ ST) as (p & q & a0 & c0 & P & Q & H0 & F & A). rewrite HX in H0. injection H0 as <- <-.
    destruct (inv_living _ _ _ _ I AL) as (p' & P' & LV & _). rewrite P in P'. injection P' as <-.
    destruct (inv_living _ _ _ _ I AI) as (pi & PI & LI & _). rewrite LI, LV. cbn [bind]. do 2 eexists. split; [reflexivity|].
    apply inv_over; [apply inv_moved; exact I|exact PI| |].
    + intros k. rewrite moved_stands. destruct (Nat.eqb k j); [discriminate|]. intros S. exact (only_own_spec _ _ _ ON S).
    + intros y E. injection E as <-. split; [intros ->; exact (NE (eq_sym (only_own_spec _ _ _ ON ST)))|]. split.
      * intros k _. rewrite moved_stands. destruct (Nat.eqb_spec k j); [discriminate|]. intros S. exact (n (i_inj _ _ _ I _ _ _ S ST)).
      * exists q, a, c. rewrite moved_here. auto.
  - destruct (alive cs i && only_own cs i) eqn:G; [|discriminate]. apply andb_true_iff in G. destruct G as (AI & ON). injection H as <- <-.
    destruct (inv_living _ _ _ _ I AI) as (pi & PI & LI & _). rewrite LI. cbn [bind]. do 2 eexists. split; [reflexivity|].
    apply inv_over; [exact I|exact PI| |discriminate]. intros k S. exact (only_own_spec _ _ _ ON S).
Qed.
Lemma p_run_sim : forall l h os cs cs' es, Inv h os cs -> ideal_prun l cs = Some (cs', es) ->
  exists h' os', p_run l (h, os) = Ok (h', os', es) /\ Inv h' os' cs'.
Proof.
  induction l as [|o l IH]; intros h os cs cs' es I H; cbn [ideal_prun p_run] in *.
  - injection H as <- <-. exists h, os. auto.
  - destruct (ideal_pstep o cs) as [[cs1 e]|] eqn:E; [|discriminate]. destruct (ideal_prun l cs1) as [[cs2 es2]|] eqn:R; [|discriminate]. injection H as <- <-.
    destruct (p_step_sim _ _ _ _ _ _ I E) as (h1 & os1 & S & I1). destruct (IH _ _ _ _ _ I1 R) as (h2 & os2 & S2 & I2).
    exists h2, os2. rewrite S. cbn [bind]. rewrite S2. cbn [bind]. auto.
Qed.
Lemma moved_parsers : forall l cs es, ideal_prun l [] = Some (cs, es) ->
  exists h os, p_run l ([], []) = Ok (h, os, es) /\
    forall i x a c, the_parser cs i = Some (x, (a, c)) -> exists p, nth_error os i = Some p /\ parser_at h (po_tp p) = parser a c.
Proof.
  intros l cs es H. destruct (p_run_sim _ _ _ _ _ _ inv_empty H) as (h & os & R & I). exists h, os. split; [exact R|].
  intros i x a c T. destruct (the_parser_inv _ _ _ _ T) as (_ & ST & HX). destruct (i_home _ _ _ I _ _ ST) as (p & q & a0 & c0 & P & _ & H0 & _ & (_ & _ & A)).
  rewrite HX in H0. injection H0 as <- <-. exists p. auto.
Qed.

(** ** Use after the end of the object moved from *)
Definition undefined {A} (r : res A) : Prop := exists u, r = UB u.
Lemma undef_bind : forall A B (r : res A) (f : A -> res B), undefined r -> undefined (bind r f).
Proof. intros A B r f (u & ->). exists u. reflexivity. Qed.
Definition ended (h : heap) (s : sbuf) : Prop := nth_error h (fst (sb_ptr s)) = Some [].
Lemma ended_see : forall h s, ended h s -> undefined (see h s) \/ see h s = Ok (mkBuf [] (sb_len s) (sb_cap s)).
Proof.
  intros h s E. unfold see, h_from. rewrite E. destruct ((0 <=? snd (sb_ptr s)) && (snd (sb_ptr s) <=? zlen (@nil Z))) eqn:G; [right|left; eexists; reflexivity].
  cbn [bind]. apply andb_true_iff in G. destruct G as (G1 & G2). apply Z.leb_le in G1, G2. change (zlen (@nil Z)) with 0 in G2. replace (snd (sb_ptr s)) with 0 by lia. reflexivity.
Qed.
Lemma ended_berase : forall l c, 0 < c -> undefined (berase (mkBuf [] l c)).
Proof.
  intros l c C. unfold berase, wr. cbn [mem bcap]. unfold zlen at 1. rewrite repeat_length. rewrite Z2Nat.id by lia. cbn [List.length].
  destruct (Z.leb_spec (0 + c) (zlen (@nil Z))) as [L|L]; [change (zlen (@nil Z)) with 0 in L; lia|]. rewrite andb_false_r. eexists. reflexivity.
Qed.
Lemma ended_erase : forall h s, ended h s -> 0 < sb_cap s -> undefined (s_erase h s).
Proof.
  intros h s E C. unfold s_erase, on_seen0. destruct (ended_see h s E) as [U|U]; [apply undef_bind; exact U|]. rewrite U. cbn [bind].
  apply undef_bind. apply ended_berase. exact C.
Qed.
Lemma ended_set : forall h s l, ended h s -> 0 < sb_cap s -> undefined (s_set_lit l h s).
Proof.
  intros h s l E C. unfold s_set_lit, on_seen0. destruct (ended_see h s E) as [U|U]; [apply undef_bind; exact U|]. rewrite U. cbn [bind].
  apply undef_bind. unfold bset. apply undef_bind. apply ended_berase. exact C.
Qed.
Lemma ended_push : forall h s o b, ended h s -> see h o = Ok b -> 0 < u8 (sb_cap s - sb_len s) -> 0 < blen b -> blen b <= zlen (mem b) -> 0 <= sb_len s -> undefined (s_push h s o).
Proof.
  intros h s o b E O R B M L. unfold s_push. destruct (ended_see h s E) as [U|U]; [apply undef_bind; exact U|]. rewrite U, O. cbn [bind].
  destruct (overlap _ _ _ _); [eexists; reflexivity|]. apply undef_bind. unfold bpush, bcap_rem. cbn [mem blen bcap].
  set (n := if u8 (sb_cap s - sb_len s) <? blen b then u8 (sb_cap s - sb_len s) else blen b).
  assert (N : 0 < n <= blen b) by (unfold n; destruct (Z.ltb_spec (u8 (sb_cap s - sb_len s)) (blen b)); lia).
  unfold rd_blk. replace ((0 <=? 0) && (0 <=? n) && (0 + n <=? zlen (mem b))) with true by (symmetry; rewrite !andb_true_iff, !Z.leb_le; lia). cbn [bind].
  apply undef_bind. unfold wr. set (bs := firstn _ _).
  assert (LB : zlen bs = n).
  { unfold bs, zlen. change (skipn (Z.to_nat 0) (mem b)) with (mem b). rewrite firstn_length. unfold zlen in M. lia. }
  rewrite LB. destruct (Z.leb_spec (sb_len s + n) (zlen (@nil Z))) as [Q|Q]; [change (zlen (@nil Z)) with 0 in Q; lia|]. rewrite andb_false_r. eexists. reflexivity.
Qed.
Lemma ended_report : forall h t, ended h (hp_sec t) -> 0 < sb_cap (hp_sec t) -> undefined (h_reportParseError h t).
Proof. intros h t E C. unfold h_reportParseError. cbv zeta. apply undef_bind. apply ended_set; [exact E|exact C]. Qed.
Lemma ended_loop : forall f h t s bs, ended h (hp_buf t) -> ended h (hp_sec t) -> 0 < sb_cap (hp_sec t) -> 0 <= sb_len (hp_buf t) ->
  see h s = Ok (mkBuf bs (zlen bs) (zlen bs)) -> sb_len s = zlen bs -> sb_cap s = zlen bs -> bs <> [] -> zlen bs <= 255 -> undefined (h_addLoop (S f) h t (Theirs s) 0).
Proof.
  intros f h t s bs EB ES CS LB SE LS CA NE L.
  assert (P : 0 < zlen bs) by (destruct bs; [congruence|unfold zlen; cbn [List.length]; lia]).
  cbn [h_addLoop iget]. rewrite LS. rewrite (proj2 (Z.ltb_lt 0 (zlen bs)) P).
  destruct (u8 (sb_cap (hp_buf t) - sb_len (hp_buf t)) =? 0) eqn:Z0; cbn [orb]; [apply ended_report; assumption|].
  destruct (match hp_state t with ERROR => true | _ => false end); [apply ended_report; assumption|].
  unfold s_sub1, s_sub. rewrite SE. cbn [bind]. unfold bsub. cbn [mem blen bcap].
  assert (G : (0 >? zlen bs) = false) by (rewrite Z.gtb_ltb; apply Z.ltb_ge; lia).
  rewrite G, LS.
  replace (zlen bs >? zlen bs) with false by (rewrite Z.gtb_ltb; symmetry; apply Z.ltb_irrefl).
  replace (zlen bs <? 0) with false by (symmetry; apply Z.ltb_ge; lia). cbn [bind blen bcap]. rewrite CA, G.
  assert (U : u8 (zlen bs - 0) = zlen bs) by (rewrite Z.sub_0_r; apply Z.mod_small; lia). rewrite U.
  apply undef_bind. eapply (ended_push h (hp_buf t) _ (mkBuf bs (zlen bs) (zlen bs))).
  - exact EB.
  - destruct s as [[sp so] sl sc]. cbn [sb_ptr sb_len sb_cap fst snd] in *. unfold see in *. cbn [sb_ptr sb_len sb_cap fst snd] in *. rewrite Z.add_0_r.
    destruct (h_from h (sp, so)); [|discriminate]. cbn [bind] in *. congruence.
  - apply Z.eqb_neq in Z0. assert (0 <= u8 (sb_cap (hp_buf t) - sb_len (hp_buf t)) < 256) by (apply Z.mod_pos_bound; lia). lia.
  - exact P.
  - cbn [blen mem]. lia.
  - exact LB.
Qed.
Lemma ended_text : forall h t s bs, ended h (hp_buf t) -> ended h (hp_sec t) -> 0 < sb_cap (hp_sec t) -> 0 <= sb_len (hp_buf t) ->
  see h s = Ok (mkBuf bs (zlen bs) (zlen bs)) -> sb_len s = zlen bs -> sb_cap s = zlen bs -> bs <> [] -> zlen bs <= 255 -> undefined (h_addText h t (Theirs s)).
Proof.
  intros. unfold h_addText. destruct (_ || _); [apply ended_report; assumption|]. apply (ended_loop 255 h t s bs); assumption.
Qed.
Lemma put_raw_hit : forall h r j, (r + 4 <= List.length h)%nat -> (r <= j < r + 4)%nat -> nth_error (put_raw h r [[]; []; []; []]) j = Some [].
Proof.
  intros h r j L J. unfold put_raw. cbn [nth].
  assert (SO : forall k, (k < List.length h)%nat -> exists y, nth_error h k = Some y).
  { intros k K. destruct (nth_error h k) eqn:E; [eauto|]. apply nth_error_None in E. lia. }
  assert (C : (j = r \/ j = S r \/ j = S (S r) \/ j = S (S (S r)))%nat) by lia. destruct (SO j ltac:(lia)) as (y & Y).
  destruct C as [->|[->|[->| ->]]].
  - apply (upd_hit _ _ _ y). rewrite !upd_miss by lia. exact Y.
  - rewrite upd_miss by lia. apply (upd_hit _ _ _ y). rewrite !upd_miss by lia. exact Y.
  - rewrite !upd_miss by lia. apply (upd_hit _ _ _ y). rewrite !upd_miss by lia. exact Y.
  - rewrite !upd_miss by lia. apply (upd_hit _ _ _ y). exact Y.
Qed.
Lemma use_after_end : forall l cs es h os i x a c, ideal_prun l [] = Some (cs, es) -> p_run l ([], []) = Ok (h, os, es) ->
  the_parser cs i = Some (x, (a, c)) -> x <> i -> alive cs x = true ->
  (forall bs, bs <> [] -> zlen bs <= 255 -> exists u, p_run [PEnd x; PText i bs] (h, os) = UB u) /\ exists u, p_run [PEnd x; PReset i] (h, os) = UB u.
Proof.
  intros l cs es h os i x a c H R T NX AX. destruct (p_run_sim _ _ _ _ _ _ inv_empty H) as (h0 & os0 & R0 & I). pose proof (eq_trans (eq_sym R) R0) as RR. injection RR as <- <-.
  destruct (the_parser_inv _ _ _ _ T) as (AL & ST & HX). destruct (i_home _ _ _ I _ _ ST) as (p & q & a0 & c0 & P & Q & H0 & F & (A1 & A2 & A3)).
  rewrite HX in H0. injection H0 as <- <-.
  destruct (inv_living _ _ _ _ I AL) as (p' & P' & LV & PA). rewrite P in P'. injection P' as <-.
  destruct (inv_living _ _ _ _ I AX) as (q' & Q' & LQ & QA). rewrite Q in Q'. injection Q' as <-.
  pose proof (i_in _ _ _ I _ _ Q) as QI.
  set (h1 := put_raw h (po_raw q) [[]; []; []; []]). set (os1 := upd x (mkPobj false (po_raw q) (po_tp q)) os).
  assert (E1 : p_step (PEnd x) (h, os) = Ok (h1, os1, [])) by (cbn [p_step]; rewrite LQ; reflexivity).
  assert (L1 : living os1 i = Ok p) by (unfold living, os1; rewrite upd_miss by congruence; rewrite P, PA; reflexivity).
  assert (D : forall s, In (array_of s) (arrays (po_tp p)) -> ended h1 s).
  { intros s IN. rewrite A1 in IN. apply in_four in IN. exact (put_raw_hit _ _ _ QI IN). }
  assert (DB : ended h1 (hp_buf (po_tp p))) by (apply D; cbn; tauto). assert (DS : ended h1 (hp_sec (po_tp p))) by (apply D; cbn; tauto).
  assert (LBUF : 0 <= sb_len (hp_buf (po_tp p))) by (destruct A2 as (_ & PL); exact (proj1 (Forall_inv PL))).
  unfold parser_at, parser, shown, zb in A3. injection A3 as _ _ _ B2 B3 _ S2 S3 _ _ _ _ _ _.
  split.
  - intros bs NE LB.
    assert (U : undefined (p_step (PText i bs) (h1, os1))).
    { cbn [p_step]. rewrite L1. cbn [bind]. apply undef_bind.
      assert (LH : (po_raw q + 4 <= List.length h1)%nat) by (unfold h1; rewrite put_raw_length; exact QI).
      assert (KE : forall s, ended h1 s -> ended (h1 ++ [bs]) s) by (intros s E; apply nth_error_keep; exact E).
      apply (ended_text _ _ _ bs); auto; try (cbn [sb_len sb_cap]; reflexivity); try lia.
      unfold see, h_from. cbn [sb_ptr sb_len sb_cap fst snd]. rewrite nth_error_end. pose proof (zlen_nonneg _ bs).
      replace ((0 <=? 0) && (0 <=? zlen bs)) with true by (symmetry; rewrite andb_true_iff, !Z.leb_le; lia). reflexivity. }
    destruct U as (u & U). exists u. cbn [p_run]. rewrite E1. cbn [bind]. rewrite U. reflexivity.
  - assert (U : undefined (p_step (PReset i) (h1, os1))).
    { cbn [p_step]. rewrite L1. cbn [bind]. apply undef_bind. unfold h_reset. apply undef_bind. apply ended_erase; [exact DB|lia]. }
    destruct U as (u & U). exists u. cbn [p_run]. rewrite E1. cbn [bind]. rewrite U. reflexivity.
Qed.
