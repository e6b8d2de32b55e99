(* ProofsShared.v -- lemmas behind PropsShared.v *)
From Verif Require Import ZLib SpecShared ProofsBuffer ProofsMeddle.

(** ** One buffer in memory *)
Lemma zlen_nat : forall A (l : list A), Z.to_nat (zlen l) = List.length l. Proof. intros. unfold zlen. lia. Qed.
Lemma nth_error_ext : forall A (l m : list A), (forall i, nth_error l i = nth_error m i) -> l = m.
Proof.
  induction l as [|x l IH]; intros [|y m] H; [reflexivity|specialize (H O); discriminate|specialize (H O); discriminate|]. pose proof (H O) as H0. injection H0 as ->. f_equal. apply IH. intros i. exact (H (S i)).
Qed.
Lemma nth_error_firstn_lt : forall A n i (l : list A), (i < n)%nat -> nth_error (firstn n l) i = nth_error l i.
Proof. induction n as [|n IH]; intros i l H; [lia|]. destruct l as [|x l]; [reflexivity|]. destruct i as [|i]; [reflexivity|]. cbn. apply IH. lia. Qed.
Lemma nth_error_skipn : forall A n i (l : list A), nth_error (skipn n l) i = nth_error l (n + i).
Proof. induction n as [|n IH]; intros i l; [reflexivity|]. destruct l as [|x l]; [cbn; destruct i; reflexivity|]. cbn. apply IH. Qed.
Lemma within_split : forall h s, within h s -> exists pre c p e, nth_error h (fst (sb_ptr s)) = Some (pre ++ c ++ p ++ e) /\
  s = mkS (fst (sb_ptr s), zlen pre) (zlen c) (zlen c + zlen p) /\ Bok c p.
Proof.
  intros h [[k o] l cap] (H1 & H2 & H3 & m & N & H4). cbn [sb_ptr sb_len sb_cap fst snd] in *.
  exists (firstn (Z.to_nat o) m), (firstn (Z.to_nat l) (skipn (Z.to_nat o) m)), (firstn (Z.to_nat (cap - l)) (skipn (Z.to_nat (o + l)) m)), (skipn (Z.to_nat (o + cap)) m).
  unfold zlen in *. unfold Bok, zlen. rewrite !firstn_length, !skipn_length.
  assert (E : m = firstn (Z.to_nat o) m ++ firstn (Z.to_nat l) (skipn (Z.to_nat o) m) ++ firstn (Z.to_nat (cap - l)) (skipn (Z.to_nat (o + l)) m) ++ skipn (Z.to_nat (o + cap)) m).
  { rewrite <- (firstn_skipn (Z.to_nat o) m) at 1. f_equal. rewrite <- (firstn_skipn (Z.to_nat l) (skipn (Z.to_nat o) m)) at 1. f_equal.
    rewrite skipn_skipn. replace (Z.to_nat l + Z.to_nat o)%nat with (Z.to_nat (o + l)) by lia.
    rewrite <- (firstn_skipn (Z.to_nat (cap - l)) (skipn (Z.to_nat (o + l)) m)) at 1. f_equal. rewrite skipn_skipn. f_equal. lia. }
  split; [rewrite N; f_equal; exact E|]. split; [|lia]. f_equal; [f_equal|..]; lia.
Qed.

(** the shape of a buffer: array k, bytes before, content, padding, bytes behind *)
Definition at_place (h : heap) (s : sbuf) (k : nat) (pre c p e : list Z) : Prop :=
  nth_error h k = Some (pre ++ c ++ p ++ e) /\ s = mkS (k, zlen pre) (zlen c) (zlen c + zlen p) /\ Bok c p.
Lemma within_place : forall h s, within h s -> exists k pre c p e, at_place h s k pre c p e.
Proof. intros h s H. destruct (within_split h s H) as (pre & c & p & e & N & E & K). exists (fst (sb_ptr s)), pre, c, p, e. split; [exact N|]. split; [exact E|exact K]. Qed.
Lemma place_within : forall h s k pre c p e, at_place h s k pre c p e -> within h s.
Proof.
  intros h s k pre c p e (N & -> & K). unfold Bok in K. pose proof (zlen_nonneg _ c). pose proof (zlen_nonneg _ p). pose proof (zlen_nonneg _ pre). pose proof (zlen_nonneg _ e).
  unfold within. cbn [sb_ptr sb_len sb_cap fst snd]. repeat split; try lia. eexists. split; [exact N|]. rewrite !zlen_app. lia.
Qed.
Lemma place_see : forall h s k pre c p e, at_place h s k pre c p e -> see h s = Ok (B c p e).
Proof.
  intros h s k pre c p e (N & -> & K). unfold see, h_from. cbn [sb_ptr sb_len sb_cap fst snd]. rewrite N. pose proof (zlen_nonneg _ pre). pose proof (zlen_nonneg _ (c ++ p ++ e)).
  rewrite zlen_app. replace (_ && _) with true by lia. cbn [bind]. rewrite zlen_nat, skipn_app_exact. reflexivity.
Qed.
Lemma place_window : forall h s k pre c p e, at_place h s k pre c p e -> window h s = c ++ p.
Proof.
  intros h s k pre c p e (N & -> & K). unfold window. cbn [sb_ptr sb_len sb_cap fst snd]. rewrite (nth_error_nth _ _ _ N). rewrite zlen_nat, skipn_app_exact.
  rewrite <- zlen_app, zlen_nat, app_assoc, firstn_app_exact. reflexivity.
Qed.
Lemma place_content : forall h s k pre c p e, at_place h s k pre c p e -> content_of h s = c.
Proof. intros h s k pre c p e H. unfold content_of. rewrite (place_window _ _ _ _ _ _ _ H). destruct H as (_ & -> & _). cbn [sb_len]. unfold zlen. rewrite Nat2Z.id. apply firstn_app_exact. Qed.

(** ** Writing *)
(** h' is h with other bytes in the window of s only *)
Definition only_in (s : sbuf) (h h' : heap) : Prop :=
  (forall p, ~ covers s p -> byte_at h' p = byte_at h p) /\ map (@List.length Z) h' = map (@List.length Z) h.
Lemma place_store : forall h s k pre c p e c' p', at_place h s k pre c p e -> List.length (c' ++ p') = List.length (c ++ p) ->
  exists h' s', store h s (B c' p' e) = (h', s') /\ at_place h' s' k pre c' p' e /\ only_in s h h' /\ sb_ptr s' = sb_ptr s /\ sb_cap s' = sb_cap s.
Proof.
  intros h s k pre c p e c' p' (N & -> & K) L. rewrite !app_length in L.
  assert (Z1 : zlen c' + zlen p' = zlen c + zlen p) by (unfold zlen; lia).
  unfold store, h_put. cbn [sb_ptr fst snd B mem blen bcap]. rewrite N. rewrite zlen_nat, firstn_app_exact.
  eexists. eexists. split; [reflexivity|]. split; [|split; [|split; [reflexivity|cbn [sb_cap]; exact Z1]]].
  - split; [apply (nth_error_upd_same _ _ _ _ _ N)|]. split; [f_equal; lia|]. unfold Bok in *. lia.
  - split.
    + intros (k' & o) NC. unfold covers in NC. cbn [sb_ptr sb_cap fst snd] in NC. unfold byte_at. cbn [fst snd].
      destruct (Nat.eq_dec k k') as [<- | D]; [|rewrite nth_error_upd_other by exact D; reflexivity].
      rewrite (nth_error_upd_same _ _ _ _ _ N), N. destruct (0 <=? o) eqn:O; [|reflexivity].
      assert (C : o < zlen pre \/ zlen pre + (zlen c + zlen p) <= o) by lia. unfold zlen in *. destruct C as [C|C].
      * rewrite !nth_error_app1 by lia. reflexivity.
      * rewrite !app_assoc. rewrite (nth_error_app2 ((pre ++ c') ++ p')), (nth_error_app2 ((pre ++ c) ++ p)) by (rewrite !app_length; lia). f_equal. rewrite !app_length. lia.
    + apply (map_upd_same _ _ _ _ _ _ _ N). rewrite !app_length. lia.
Qed.

Lemma only_refl : forall s h, only_in s h h. Proof. intros s h. split; [reflexivity|reflexivity]. Qed.
Lemma lengths_at : forall (h h' : heap) k, map (@List.length Z) h' = map (@List.length Z) h -> List.length (nth k h' []) = List.length (nth k h []) /\ (nth_error h' k = None <-> nth_error h k = None).
Proof.
  intros h h' k E. assert (L : List.length h' = List.length h) by (rewrite <- (map_length (@List.length Z) h'), <- (map_length (@List.length Z) h), E; reflexivity).
  split; [|rewrite !nth_error_None, L; reflexivity]. change (List.length (nth k h' [])) with ((fun l => List.length l) (nth k h' (@nil Z))).
  rewrite <- (map_nth (@List.length Z)), <- (map_nth (@List.length Z)), E. reflexivity.
Qed.
(** a buffer none of whose bytes changes *)
Lemma window_same : forall h h' t, map (@List.length Z) h' = map (@List.length Z) h -> (forall p, covers t p -> byte_at h' p = byte_at h p) -> within h t -> window h' t = window h t /\ within h' t.
Proof.
  intros h h' t L Same W. destruct (within_place h t W) as (k & pre & c & p & e & P). pose proof (place_window _ _ _ _ _ _ _ P) as Wd. destruct P as (N & -> & K).
  destruct (lengths_at h h' k L) as (Lk & Nk). rewrite (nth_error_nth _ _ _ N) in Lk. destruct (nth_error h' k) as [m|] eqn:N'; [|exfalso; rewrite (proj1 Nk eq_refl) in N; discriminate].
  rewrite (nth_error_nth _ _ _ N') in Lk. rewrite !app_length in Lk. split.
  - rewrite Wd. unfold window. cbn [sb_ptr sb_cap fst snd]. rewrite (nth_error_nth _ _ _ N'). unfold covers, byte_at in Same. cbn [sb_ptr sb_cap fst snd] in Same.
    apply nth_error_ext. intros i. unfold zlen in *.
    destruct (Nat.lt_ge_cases i (List.length c + List.length p)) as [I|I].
    + specialize (Same (k, Z.of_nat (List.length pre) + Z.of_nat i) ltac:(cbn; lia)). cbn [fst snd] in Same. rewrite N, N' in Same. replace (0 <=? _) with true in Same by lia.
      rewrite nth_error_firstn_lt by lia. rewrite nth_error_skipn. replace (Z.to_nat (Z.of_nat (List.length pre)) + i)%nat with (Z.to_nat (Z.of_nat (List.length pre) + Z.of_nat i)) by lia.
      rewrite Same. rewrite nth_error_app2 by lia. rewrite app_assoc, nth_error_app1 by (rewrite app_length; lia). f_equal. lia.
    + rewrite (proj2 (nth_error_None _ _)), (proj2 (nth_error_None (c ++ p) _)); [reflexivity|rewrite app_length; lia|rewrite firstn_length; lia].
  - unfold within. cbn [sb_ptr sb_len sb_cap fst snd]. unfold Bok, zlen in *. repeat split; try lia. exists m. split; [exact N'|]. unfold zlen. lia.
Qed.

(** ** Several buffers *)
Definition crop (h : heap) (s : sbuf) : bufm := mkBuf (window h s) (sb_len s) (sb_cap s).
Lemma place_crop : forall h s k pre c p e, at_place h s k pre c p e -> crop h s = B c p [].
Proof. intros h s k pre c p e H. unfold crop. rewrite (place_window _ _ _ _ _ _ _ H). destruct H as (_ & -> & _). unfold B. cbn [sb_len sb_cap]. rewrite app_nil_r. reflexivity. Qed.
(** buffers keep their places, and bytes outside all of them keep their values *)
Definition same_places (ss ss' : list sbuf) : Prop := map sb_ptr ss' = map sb_ptr ss /\ map sb_cap ss' = map sb_cap ss.
Definition frame (ss : list sbuf) (h h' : heap) : Prop :=
  (forall p, Forall (fun s => ~ covers s p) ss -> byte_at h' p = byte_at h p) /\ map (@List.length Z) h' = map (@List.length Z) h.
Lemma places_refl : forall ss, same_places ss ss. Proof. split; reflexivity. Qed.
Lemma places_trans : forall a b c, same_places a b -> same_places b c -> same_places a c. Proof. intros a b c (H1 & H2) (K1 & K2). split; congruence. Qed.
Lemma frame_refl : forall ss h, frame ss h h. Proof. split; reflexivity. Qed.
Lemma places_covers : forall ss ss' p, same_places ss ss' -> Forall (fun s => ~ covers s p) ss -> Forall (fun s => ~ covers s p) ss'.
Proof.
  induction ss as [|s ss IH]; intros [|s' ss'] p (H1 & H2) F; [constructor|discriminate|discriminate|]. cbn in H1, H2. injection H1 as P1 H1. injection H2 as P2 H2. inversion F as [|? ? F1 F2]; subst.
  constructor; [|apply IH; [split; assumption|exact F2]]. unfold covers in *. rewrite P1, P2. exact F1.
Qed.
Lemma frame_trans : forall ss ss' a b c, same_places ss ss' -> frame ss a b -> frame ss' b c -> frame ss a c.
Proof. intros ss ss' a b c S (H1 & H2) (K1 & K2). split; [|congruence]. intros p F. rewrite K1 by (eapply places_covers; eassumption). apply H1. exact F. Qed.
Lemma covers_eq : forall s t p, sb_ptr s = sb_ptr t -> sb_cap s = sb_cap t -> covers s p -> covers t p.
Proof. intros s t p H1 H2. unfold covers. rewrite H1, H2. auto. Qed.

Lemma map_upd : forall A C (f : A -> C) l i x, map f (upd i x l) = upd i (f x) (map f l).
Proof. induction l as [|y l IH]; intros [|i] x; cbn; [reflexivity|reflexivity|reflexivity|]. rewrite IH. reflexivity. Qed.
Lemma nth_error_upd : forall A i j (x : A) l, nth_error (upd i x l) j = if Nat.eqb i j then (match nth_error l j with Some _ => Some x | None => None end) else nth_error l j.
Proof.
  intros A i j x l. destruct (Nat.eqb i j) eqn:E; [apply Nat.eqb_eq in E; subst j|apply Nat.eqb_neq in E; apply nth_error_upd_other; exact E].
  destruct (nth_error l i) as [y|] eqn:N; [apply (nth_error_upd_same _ _ _ _ _ N)|]. apply nth_error_None. rewrite upd_length. apply nth_error_None. exact N.
Qed.

Lemma replaced : forall h ss i s k pre c p e c' p', arranged h ss -> nth_error ss i = Some s -> at_place h s k pre c p e -> List.length (c' ++ p') = List.length (c ++ p) ->
  exists h' s', store h s (B c' p' e) = (h', s') /\ arranged h' (upd i s' ss) /\ map (crop h') (upd i s' ss) = upd i (B c' p' []) (map (crop h) ss) /\
    same_places ss (upd i s' ss) /\ frame ss h h' /\ at_place h' s' k pre c' p' e.
Proof.
  intros h ss i s k pre c p e c' p' (W & A) N P L. destruct (place_store h s k pre c p e c' p' P L) as (h' & s' & E & P' & (F & FL) & Pp & Pc).
  assert (SP : same_places ss (upd i s' ss)) by (split; eapply map_upd_same; eassumption).
  assert (Other : forall j t, j <> i -> nth_error ss j = Some t -> window h' t = window h t /\ within h' t).
  { intros j t D Nt. apply window_same; [exact FL| |apply (proj1 (Forall_forall _ _) W); eapply nth_error_In; exact Nt].
    intros q C. apply F. intros Cs. exact (A i j s t (fun X => D (eq_sym X)) N Nt q Cs C). }
  exists h', s'. split; [exact E|]. split; [split|].
  - apply Forall_forall. intros t T. destruct (In_nth_error _ _ T) as (j & Nj). rewrite nth_error_upd in Nj. destruct (Nat.eqb i j) eqn:Ej.
    + destruct (nth_error ss j); [|discriminate]. injection Nj as <-. exact (place_within _ _ _ _ _ _ _ P').
    + apply Nat.eqb_neq in Ej. exact (proj2 (Other j t (fun X => Ej (eq_sym X)) Nj)).
  - intros j j' t t' D Nj Nj' q Ct Ct'.
    assert (G : forall j t, nth_error (upd i s' ss) j = Some t -> exists u, nth_error ss j = Some u /\ sb_ptr t = sb_ptr u /\ sb_cap t = sb_cap u).
    { intros j0 t0 N0. rewrite nth_error_upd in N0. destruct (Nat.eqb i j0) eqn:Ej; [|eauto]. apply Nat.eqb_eq in Ej. subst j0. rewrite N in N0. injection N0 as <-. eauto. }
    destruct (G _ _ Nj) as (u & Nu & U1 & U2). destruct (G _ _ Nj') as (u' & Nu' & U1' & U2').
    exact (A j j' u u' D Nu Nu' q (covers_eq _ _ _ U1 U2 Ct) (covers_eq _ _ _ U1' U2' Ct')).
  - split; [|split; [exact SP|split; [split; [|exact FL]|exact P']]].
    + apply nth_error_ext. intros j. rewrite map_upd, !nth_error_upd, !nth_error_map. destruct (Nat.eqb i j) eqn:Ej.
      * apply Nat.eqb_eq in Ej. subst j. rewrite N. cbn [option_map]. rewrite (place_crop _ _ _ _ _ _ _ P'). reflexivity.
      * apply Nat.eqb_neq in Ej. destruct (nth_error ss j) as [t|] eqn:Nt; [|reflexivity]. cbn [option_map]. unfold crop. rewrite (proj1 (Other j t (fun X => Ej (eq_sym X)) Nt)). reflexivity.
    + intros q Q. apply F. exact (proj1 (Forall_forall _ _) Q s (nth_error_In _ _ N)).
Qed.

Lemma at_index : forall h ss i s, arranged h ss -> nth_error ss i = Some s -> exists k pre c p e, at_place h s k pre c p e /\ nth_error (map (crop h) ss) i = Some (B c p []).
Proof.
  intros h ss i s (W & _) N. destruct (within_place h s) as (k & pre & c & p & e & P); [apply (proj1 (Forall_forall _ _) W); eapply nth_error_In; exact N|].
  exists k, pre, c, p, e. split; [exact P|]. rewrite nth_error_map, N. cbn. rewrite (place_crop _ _ _ _ _ _ _ P). reflexivity.
Qed.

Lemma push_places : forall h s o k pre c p e k' pre' c' p' e', at_place h s k pre c p e -> at_place h o k' pre' c' p' e' ->
  let n := Z.min (zlen p) (zlen c') in
  s_push h s o = if overlap (k, zlen pre + zlen c) n (k', zlen pre') n then UB Overlap
                 else Ok (store h s (B (c ++ firstn (List.length p) c') (skipn (List.length c') p) e), n).
Proof.
  intros h s o k pre c p e k' pre' c' p' e' H H' n. unfold s_push. rewrite (place_see _ _ _ _ _ _ _ H), (place_see _ _ _ _ _ _ _ H'). cbn [bind].
  destruct H as (N & -> & K). destruct H' as (N' & -> & K'). pose proof (zlen_nonneg _ c). pose proof (zlen_nonneg _ p). pose proof (zlen_nonneg _ c').
  assert (E : (if bcap_rem (B c p e) <? blen (B c' p' e') then bcap_rem (B c p e) else blen (B c' p' e')) = n).
  { unfold bcap_rem. cbn [B blen bcap]. unfold Bok in K. replace (zlen c + zlen p - zlen c) with (zlen p) by lia. replace (u8 (zlen p)) with (zlen p) by (symmetry; apply Z.mod_small; lia).
    subst n. destruct (zlen p <? zlen c') eqn:X; lia. }
  rewrite E. cbn [sb_ptr sb_len fst snd]. rewrite bpush_B by assumption. reflexivity.
Qed.
Lemma overlap_true : forall p n q n', overlap p n q n' = true <-> fst p = fst q /\ 0 < n /\ 0 < n' /\ snd p < snd q + n' /\ snd q < snd p + n.
Proof. intros. unfold overlap. rewrite !andb_true_iff, Nat.eqb_eq. lia. Qed.
Lemma apart_no_overlap : forall s o, apart s o -> forall n a b, 0 <= a -> a + n <= sb_cap s -> 0 <= b -> b + n <= sb_cap o ->
  overlap (fst (sb_ptr s), snd (sb_ptr s) + a) n (fst (sb_ptr o), snd (sb_ptr o) + b) n = false.
Proof.
  intros s o A n a b H1 H2 H3 H4. destruct (overlap _ _ _ _) eqn:E; [|reflexivity]. exfalso. apply overlap_true in E. cbn [fst snd] in E. destruct E as (E & N & _ & E1 & E2).
  apply (A (fst (sb_ptr s), Z.max (snd (sb_ptr s) + a) (snd (sb_ptr o) + b))); unfold covers; cbn [fst snd]; (split; [congruence|lia]).
Qed.

Lemma len_upd_ : forall A (l : list A) n x, List.length (upd n x l) = List.length l. Proof. intros. apply upd_length. Qed.
(** pushing the content of one buffer onto another, or onto itself *)
Lemma push_sim : forall h ss i j s t k pre c p e k' pre' c' p' e', arranged h ss -> nth_error ss i = Some s -> nth_error ss j = Some t ->
  at_place h s k pre c p e -> at_place h t k' pre' c' p' e' ->
  s_push h s t = Ok (store h s (B (c ++ firstn (List.length p) c') (skipn (List.length c') p) e), Z.min (zlen p) (zlen c')).
Proof.
  intros h ss i j s t k pre c p e k' pre' c' p' e' A N N' H H'. rewrite (push_places _ _ _ _ _ _ _ _ _ _ _ _ _ H H'). cbv zeta.
  replace (overlap _ _ _ _) with false; [reflexivity|]. symmetry. pose proof (zlen_nonneg _ c). pose proof (zlen_nonneg _ p). pose proof (zlen_nonneg _ c'). pose proof (zlen_nonneg _ p').
  destruct (Nat.eq_dec i j) as [<- | D].
  - rewrite N in N'. injection N' as <-.
    assert (Ep : (k, zlen pre) = (k', zlen pre')) by (destruct H as (_ & -> & _); destruct H' as (_ & E & _); exact (f_equal sb_ptr E)).
    assert (El : zlen c = zlen c') by (destruct H as (_ & -> & _); destruct H' as (_ & E & _); exact (f_equal sb_len E)).
    injection Ep as <- Ep. destruct (overlap _ _ _ _) eqn:O; [|reflexivity]. apply overlap_true in O. cbn [fst snd] in O. lia.
  - pose proof (apart_no_overlap s t (proj2 A i j s t D N N') (Z.min (zlen p) (zlen c')) (zlen c) 0) as X. destruct H as (_ & -> & _). destruct H' as (_ & -> & _).
    cbn [sb_ptr sb_cap fst snd] in X. rewrite Z.add_0_r in X. apply X; lia.
Qed.

Definition pad_of (b : bufm) : list Z := firstn (Z.to_nat (bcap b - blen b)) (skipn (Z.to_nat (blen b)) (mem b)).
Lemma pad_of_B : forall c p e, pad_of (B c p e) = p.
Proof. intros. unfold pad_of, B; cbn [mem blen bcap]. replace (zlen c + zlen p - zlen c) with (zlen p) by lia. rewrite !zlen_nat, skipn_app_exact, firstn_app_exact. reflexivity. Qed.
Definition sim_ok (h : heap) (ss : list sbuf) (h' : heap) (ss' : list sbuf) (bs' : list bufm) : Prop :=
  map (crop h') ss' = bs' /\ arranged h' ss' /\ same_places ss ss' /\ frame ss h h'.
Lemma store_pair : forall h s b h' s', store h s b = (h', s') -> forall A (x : A), (store h s b, x) = (h', s', x). Proof. intros h s b h' s' ->. reflexivity. Qed.

Lemma plain_sim : forall o h ss qs qs' n, arranged h ss -> image (map (crop h) ss) qs -> ideal_step o qs = Some (qs', n) ->
  exists h' ss' bs', plain_step o (h, ss) = Ok (h', ss', n) /\ code_step o (map (crop h) ss) = Ok (bs', n) /\ sim_ok h ss h' ss' bs'.
Proof.
  intros o h ss qs qs' n A H E. destruct (code_step_sim o _ qs qs' n H E) as (bs' & C & _).
  cut (exists h' ss', plain_step o (h, ss) = Ok (h', ss', n) /\ sim_ok h ss h' ss' bs'); [intros (h' & ss' & S1 & S2); exists h', ss', bs'; split; [exact S1|split; [exact C|exact S2]]|].
  assert (IX : forall i q, nth_error qs i = Some q -> exists s, nth_error ss i = Some s).
  { intros i q Q. destruct (nth_error_F2 _ _ _ _ _ _ _ H Q) as (b & Eb & _). rewrite nth_error_map in Eb. destruct (nth_error ss i) as [s|]; [eauto|discriminate]. }
  destruct o; cbn [ideal_step] in E; cbn [code_step] in C; cbn [plain_step].
  - destruct (nth_error qs i) as [q|] eqn:Eq; [|discriminate]. destruct (nth_error qs j) as [r|] eqn:Er; [|discriminate]. destruct (IX i q Eq) as (s & Ns). destruct (IX j r Er) as (t & Nt).
    destruct (at_index h ss i s A Ns) as (k & pre & c & p & e & P & X). destruct (at_index h ss j t A Nt) as (k' & pre' & c' & p' & e' & P' & X').
    unfold bat in *. unfold sat. rewrite Ns, Nt. rewrite X, X' in *. cbn [bind] in *.
    rewrite bpush_B in * by (apply P || apply P'). cbn [bind] in *. injection C as <- En.
    rewrite (push_sim h ss i j s t _ _ _ _ _ _ _ _ _ _ A Ns Nt P P'). cbn [bind].
    destruct (replaced h ss i s k pre c p e (c ++ firstn (List.length p) c') (skipn (List.length c') p) A Ns P) as (h' & s' & Es & A' & M & SP & F & _); [rewrite !app_length, firstn_length, skipn_length; lia|].
    rewrite Es. rewrite En. exists h', (upd i s' ss). split; [reflexivity|]. split; [exact M|split; [exact A'|split; assumption]].
  - destruct (nth_error qs i) as [q|] eqn:Eq; [|discriminate]. destruct (IX i q Eq) as (s & Ns). destruct (at_index h ss i s A Ns) as (k & pre & c' & p & e & P & X).
    unfold bat in *. unfold sat, s_push_char, on_seen. rewrite Ns. rewrite X in *. cbn [bind] in *. rewrite (place_see _ _ _ _ _ _ _ P). cbn [bind].
    rewrite bpush_char_B in * by apply P. destruct p as [|y p]; cbn [bind] in *; injection C as <- <-.
    + destruct (replaced h ss i s k pre c' [] e c' [] A Ns P eq_refl) as (h' & s' & Es & A' & M & SP & F & _). rewrite Es. exists h', (upd i s' ss). split; [reflexivity|]. split; [exact M|split; [exact A'|split; assumption]].
    + destruct (replaced h ss i s k pre c' (y :: p) e (c' ++ [c]) p A Ns P) as (h' & s' & Es & A' & M & SP & F & _); [rewrite !app_length; cbn; lia|]. rewrite Es. exists h', (upd i s' ss). split; [reflexivity|]. split; [exact M|split; [exact A'|split; assumption]].
  - destruct (nth_error qs i) as [q|] eqn:Eq; [|discriminate]. destruct ((0 <=? n0) && (n0 <=? 255)) eqn:En; [|discriminate]. destruct (IX i q Eq) as (s & Ns). destruct (at_index h ss i s A Ns) as (k & pre & c' & p & e & P & X).
    unfold bat in *. unfold sat, s_pop, on_seen0. rewrite Ns. rewrite X in *. cbn [bind] in *. rewrite (place_see _ _ _ _ _ _ _ P). cbn [bind].
    rewrite bpop_B in * by (apply P || lia). cbn [bind] in *. injection C as <- <-.
    destruct (replaced h ss i s k pre c' p e (skipn (Z.to_nat n0) c') (repeat 0 (Nat.min (Z.to_nat n0) (List.length c') + List.length p)) A Ns P) as (h' & s' & Es & A' & M & SP & F & _); [rewrite !app_length, repeat_length, skipn_length; lia|].
    rewrite Es. exists h', (upd i s' ss). split; [reflexivity|]. split; [exact M|split; [exact A'|split; assumption]].
  - destruct (nth_error qs i) as [q|] eqn:Eq; [|discriminate]. destruct (IX i q Eq) as (s & Ns). destruct (at_index h ss i s A Ns) as (k & pre & c' & p & e & P & X).
    unfold bat in *. unfold sat, s_erase, on_seen0. rewrite Ns. rewrite X in *. cbn [bind] in *. rewrite (place_see _ _ _ _ _ _ _ P). cbn [bind].
    rewrite berase_B in *. cbn [bind] in *. injection C as <- <-.
    destruct (replaced h ss i s k pre c' p e [] (repeat 0 (List.length c' + List.length p)) A Ns P) as (h' & s' & Es & A' & M & SP & F & _); [rewrite !app_length, repeat_length; cbn; lia|].
    rewrite Es. exists h', (upd i s' ss). split; [reflexivity|]. split; [exact M|split; [exact A'|split; assumption]].
  - destruct (nth_error qs i) as [q|] eqn:Eq; [|discriminate]. destruct ((1 <=? q_cap q) && _) eqn:En; [|discriminate]. destruct (IX i q Eq) as (st & Ns). destruct (at_index h ss i st A Ns) as (k & pre & c' & p & e & P & X).
    apply andb_true_iff in En. destruct En as (En & Es0). assert (Hs : nulfree s) by (apply Forall_forall; intros x I; rewrite forallb_forall in Es0; specialize (Es0 x I); lia).
    destruct (nth_error_F2 _ _ _ _ _ _ _ H Eq) as (b & Eb & (Rc & _)). rewrite X in Eb. injection Eb as <-. cbn [B bcap] in Rc.
    unfold bat in *. unfold sat, s_set_lit, on_seen0. rewrite Ns. rewrite X in *. cbn [bind] in *. rewrite (place_see _ _ _ _ _ _ _ P). cbn [bind].
    rewrite bset_B in * by (apply P || assumption || lia). cbn [bind] in *. injection C as <- <-.
    destruct (replaced h ss i st k pre c' p e (firstn (Z.to_nat (zlen c' + zlen p - 1)) s) (repeat 0 (List.length c' + List.length p - Nat.min (List.length c' + List.length p - 1) (List.length s))) A Ns P) as (h' & s' & Es & A' & M & SP & F & _).
    { rewrite !app_length, repeat_length, firstn_length. unfold zlen in *. lia. }
    rewrite Es. exists h', (upd i s' ss). split; [reflexivity|]. split; [exact M|split; [exact A'|split; assumption]].
  - destruct (nth_error qs i) as [q|] eqn:Eq; [|discriminate]. destruct (nth_error qs j) as [r|] eqn:Er; [|discriminate]. destruct (IX i q Eq) as (s & Ns). destruct (IX j r Er) as (t & Nt).
    destruct (at_index h ss i s A Ns) as (k & pre & c & p & e & P & X). destruct (at_index h ss j t A Nt) as (k' & pre' & c' & p' & e' & P' & X').
    pose proof (zlen_nonneg _ c). pose proof (zlen_nonneg _ p). pose proof (zlen_nonneg _ c'). pose proof (zlen_nonneg _ p').
    unfold bat in *. unfold sat. rewrite Ns, Nt. rewrite X, X' in *. cbn [bind] in *.
    rewrite (push_sim h ss i j s t _ _ _ _ _ _ _ _ _ _ A Ns Nt P P'). cbn [bind].
    destruct (replaced h ss i s k pre c p e (c ++ firstn (List.length p) c') (skipn (List.length c') p) A Ns P) as (h1 & s1 & Es & A1 & M1 & SP1 & F1 & P1); [rewrite !app_length, firstn_length, skipn_length; lia|].
    rewrite Es. unfold s_pop, on_seen0. destruct (Nat.eqb i j) eqn:Eij.
    + apply Nat.eqb_eq in Eij. subst j. rewrite Ns in Nt. injection Nt as <-. rewrite (nth_error_upd_same _ _ _ _ _ Ns). cbn [bind]. rewrite X in X'. pose proof (f_equal (fun o => match o with Some b => (firstn (Z.to_nat (blen b)) (mem b), pad_of b) | None => ([], []) end) X') as Y.
      cbn [B mem blen] in Y. rewrite !zlen_nat, !firstn_app_exact in Y. injection Y as <- Yp.
      rewrite (place_see _ _ _ _ _ _ _ P1). cbn [bind]. rewrite bpush_B in * by apply P. cbn [bind] in *. rewrite bpop_B in * by first [lia | apply bpush_ok; apply P]. cbn [bind] in *. injection C as <- En. rewrite En.
      destruct (replaced h1 (upd i s1 ss) i s1 k pre _ _ e (skipn (Z.to_nat n) (c ++ firstn (List.length p) c)) (repeat 0 (Nat.min (Z.to_nat n) (List.length (c ++ firstn (List.length p) c)) + List.length (skipn (List.length c) p))) A1 (nth_error_upd_same _ _ _ _ _ Ns) P1) as (h2 & s2 & Es2 & A2 & M2 & SP2 & F2 & _).
      { rewrite !app_length, repeat_length, skipn_length. rewrite !app_length. lia. }
      rewrite Es2. exists h2, (upd i s2 (upd i s1 ss)). split; [reflexivity|]. split; [rewrite M2, M1, upd_upd; reflexivity|]. split; [exact A2|]. split; [eapply places_trans; eassumption|eapply frame_trans; eassumption].
    + apply Nat.eqb_neq in Eij. rewrite nth_error_upd_other by exact Eij. rewrite Nt. cbn [bind].
      assert (Nt1 : nth_error (upd i s1 ss) j = Some t) by (rewrite nth_error_upd_other by exact Eij; exact Nt).
      destruct (at_index h1 _ j t A1 Nt1) as (k2 & pre2 & c2 & p2 & e2 & P2 & X2). rewrite M1, nth_error_upd_other, X' in X2 by exact Eij. 
      pose proof (f_equal (fun o => match o with Some b => (firstn (Z.to_nat (blen b)) (mem b), pad_of b) | None => ([], []) end) X2) as Y.
      cbn [B mem blen] in Y. rewrite !zlen_nat, !firstn_app_exact in Y. rewrite !pad_of_B in Y. injection Y as <- <-.
      rewrite (place_see _ _ _ _ _ _ _ P2). cbn [bind]. unfold bmove in *. rewrite bpush_B in * by (apply P || apply P'). cbn [bind] in *. rewrite bpop_B in * by (apply P' || lia). cbn [bind] in *. injection C as <- En. rewrite En.
      destruct (replaced h1 (upd i s1 ss) j t k2 pre2 c' p' e2 (skipn (Z.to_nat n) c') (repeat 0 (Nat.min (Z.to_nat n) (List.length c') + List.length p')) A1 Nt1 P2) as (h2 & s2 & Es2 & A2 & M2 & SP2 & F2 & _).
      { rewrite !app_length, repeat_length, skipn_length. lia. }
      rewrite Es2. exists h2, (upd j s2 (upd i s1 ss)). split; [reflexivity|]. split; [rewrite M2, M1; reflexivity|]. split; [exact A2|]. split; [eapply places_trans; eassumption|eapply frame_trans; eassumption].
  - destruct (nth_error qs i) as [q|] eqn:Eq; [|discriminate]. destruct (q_items q) as [|y ys] eqn:Ei; [discriminate|]. destruct (0 <=? k) eqn:Ek; [|discriminate]. destruct (IX i q Eq) as (s & Ns). destruct (at_index h ss i s A Ns) as (k0 & pre & c' & p & e & P & X).
    destruct (nth_error_F2 _ _ _ _ _ _ _ H Eq) as (b & Eb & (_ & (_ & _ & _ & Rc))). rewrite X in Eb. injection Eb as <-. cbn [B mem blen] in Rc. rewrite zlen_nat, firstn_app_exact in Rc. rewrite Ei in Rc.
    assert (NE : c' <> []) by congruence.
    unfold bat in *. unfold sat, s_put, on_seen0. rewrite Ns. rewrite X in *. cbn [bind] in *. rewrite (place_see _ _ _ _ _ _ _ P). cbn [bind].
    rewrite bput_B in * by (apply P || exact NE || lia). cbn [bind] in *. injection C as <- <-.
    destruct (replaced h ss i s k0 pre c' p e (upd (Z.to_nat (Z.min k (zlen c' - 1))) c c') p A Ns P) as (h' & s' & Es & A' & M & SP & F & _); [rewrite !app_length, upd_length; lia|].
    rewrite Es. exists h', (upd i s' ss). split; [reflexivity|]. split; [exact M|split; [exact A'|split; assumption]].
Qed.

(** ** Histories *)
Lemma crop_represents : forall h s q, within h s -> (stands_for h s q <-> represents (crop h s) q).
Proof.
  intros h s q W. destruct (within_place h s W) as (k & pre & c & p & e & P). unfold stands_for. rewrite (place_content _ _ _ _ _ _ _ P), (place_crop _ _ _ _ _ _ _ P).
  destruct P as (_ & -> & K). cbn [sb_cap]. split.
  - intros (H1 & H2). split; [exact H1|]. rewrite <- H2. apply B_holds. exact K.
  - intros (H1 & (_ & _ & _ & H2)). split; [exact H1|]. cbn [B blen mem] in H2. rewrite zlen_nat, firstn_app_exact in H2. congruence.
Qed.
Lemma crop_zeroed : forall h s q, within h s -> stands_for h s q -> (window h s = filled_up q <-> zeroed (crop h s)).
Proof.
  intros h s q W (H1 & H2). destruct (within_place h s W) as (k & pre & c & p & e & P). rewrite (place_window _ _ _ _ _ _ _ P), (place_crop _ _ _ _ _ _ _ P). rewrite (place_content _ _ _ _ _ _ _ P) in H2.
  destruct P as (_ & -> & K). cbn [sb_cap] in H1. rewrite zeroed_B. unfold filled_up. rewrite <- H1, <- H2. unfold zlen.
  replace (Z.to_nat (Z.of_nat (List.length c) + Z.of_nat (List.length p)) - List.length c)%nat with (List.length p) by lia. split.
  - intros E. apply app_inv_head in E. rewrite E. apply zeros.
  - intros Zp. f_equal. apply all_zero. exact Zp.
Qed.
Lemma F2_map : forall A C D (f : A -> C) (R : C -> D -> Prop) l m, Forall2 R (map f l) m <-> Forall2 (fun x y => R (f x) y) l m.
Proof. intros A C D f R. induction l as [|x l IH]; intros m; split; intros H; inversion H; subst; constructor; auto; apply IH; assumption. Qed.
Lemma F2_impl : forall A C (R Q : A -> C -> Prop) l m, Forall2 R l m -> (forall x y, In x l -> R x y -> Q x y) -> Forall2 Q l m.
Proof. intros A C R Q l m H. induction H; intros I; constructor; [apply I; [left; reflexivity|assumption]|]. apply IHForall2. intros. apply I; [right; assumption|assumption]. Qed.
Lemma F2_and : forall A C (R Q : A -> C -> Prop) l m, Forall2 R l m -> Forall2 Q l m -> Forall2 (fun x y => R x y /\ Q x y) l m.
Proof. intros A C R Q l m H. induction H; intros K; inversion K; subst; constructor; auto. Qed.
Lemma image_stands : forall h ss qs, arranged h ss -> (image (map (crop h) ss) qs <-> Forall2 (stands_for h) ss qs).
Proof.
  intros h ss qs (W & _). unfold image. rewrite F2_map. rewrite Forall_forall in W. split; intros H; (eapply F2_impl; [exact H|]); intros s q I; cbv beta; apply (crop_represents h s q (W s I)).
Qed.
Lemma image_cleanly : forall h ss qs, arranged h ss -> (image (map (crop h) ss) qs /\ Forall zeroed (map (crop h) ss) <-> Forall2 (cleanly h) ss qs).
Proof.
  intros h ss qs A. rewrite (image_stands h ss qs A). destruct A as (W & _). rewrite Forall_forall in W. split.
  - intros (H & Zs). eapply F2_impl; [exact H|]. intros s q I R. split; [exact R|]. apply (crop_zeroed h s q (W s I) R). rewrite Forall_forall in Zs. apply Zs. apply in_map. exact I.
  - intros H. split; [eapply F2_impl; [exact H|]; intros s q I (R & _); exact R|]. induction H as [|s q ss qs (R & C) H IH]; [constructor|]. constructor; [apply (crop_zeroed h s q); [apply W; left; reflexivity|exact R|exact C]|].
    apply IH. intros x X. apply W. right. exact X.
Qed.

Lemma plain_run : forall l h ss qs qs' ns, arranged h ss -> Forall2 (stands_for h) ss qs -> ideal_run l qs = Some (qs', ns) ->
  exists h' ss', shared_run (map Plain l) (h, ss) = Ok (h', ss', ns) /\ Forall2 (stands_for h') ss' qs' /\ arranged h' ss' /\ map sb_ptr ss' = map sb_ptr ss /\
    forall p, Forall (fun s => ~ covers s p) ss -> byte_at h' p = byte_at h p.
Proof.
  cut (forall l h ss qs qs' ns, arranged h ss -> image (map (crop h) ss) qs -> ideal_run l qs = Some (qs', ns) ->
    exists h' ss', shared_run (map Plain l) (h, ss) = Ok (h', ss', ns) /\ image (map (crop h') ss') qs' /\ arranged h' ss' /\ same_places ss ss' /\ frame ss h h').
  { intros Cut l h ss qs qs' ns A H E. destruct (Cut l h ss qs qs' ns A (proj2 (image_stands h ss qs A) H) E) as (h' & ss' & R & I & A' & (SP & _) & (F & _)).
    exists h', ss'. split; [exact R|]. split; [apply image_stands; assumption|]. split; [exact A'|]. split; [exact SP|exact F]. }
  induction l as [|o l IH]; intros h ss qs qs' ns A H E; cbn [ideal_run] in E; cbn [map shared_run].
  - injection E as <- <-. exists h, ss. split; [reflexivity|]. split; [exact H|]. split; [exact A|]. split; [apply places_refl|apply frame_refl].
  - destruct (ideal_step o qs) as [[qs1 n]|] eqn:E1; [|discriminate]. destruct (ideal_run l qs1) as [[qs2 ns2]|] eqn:E2; [|discriminate]. injection E as <- <-.
    destruct (plain_sim o h ss qs qs1 n A H E1) as (h1 & ss1 & bs1 & S1 & C1 & (M1 & A1 & SP1 & F1)). destruct (code_step_sim o _ qs qs1 n H E1) as (bs1' & C1' & I1 & _). rewrite C1 in C1'. injection C1' as <-. rewrite <- M1 in I1.
    destruct (IH h1 ss1 qs1 qs2 ns2 A1 I1 E2) as (h2 & ss2 & S2 & I2 & A2 & SP2 & F2). exists h2, ss2. cbn [shared_step]. rewrite S1. cbn [bind]. rewrite S2. cbn [bind].
    split; [reflexivity|]. split; [exact I2|]. split; [exact A2|]. split; [eapply places_trans; eassumption|eapply frame_trans; eassumption].
Qed.

(** ** Parts *)
Lemma sub_view : forall h s a e, within h s -> 0 <= a -> 0 <= e ->
  let a' := Z.min a (sb_cap s) in
  exists v, s_sub h s a e = Ok v /\ v = mkS (fst (sb_ptr s), snd (sb_ptr s) + a') (Z.max 0 (Z.min e (sb_cap s) - a')) (sb_cap s - a') /\ within h v /\
    window h v = skipn (Z.to_nat a') (window h s) /\ content_of h v = between a' (Z.min e (sb_cap s)) (window h s).
Proof.
  intros h s a e W Ha He a'. destruct (within_place h s W) as (k & pre & c & p & x & P). unfold s_sub. rewrite (place_see _ _ _ _ _ _ _ P). cbn [bind].
  rewrite (bsub_spec (B c p x) c a e (B_holds c p x (proj2 (proj2 P))) Ha He). cbv zeta. cbn [bind]. pose proof (place_window _ _ _ _ _ _ _ P) as Wd.
  destruct W as (W1 & W2 & W3 & m & W4 & W5).
  assert (Eq : (if a >? sb_cap s then sb_cap s else a) = a') by (subst a'; destruct (a >? sb_cap s) eqn:X; lia). rewrite Eq.
  assert (Cap : bcap (B c p x) = sb_cap s) by (destruct P as (_ & -> & _); reflexivity). cbn [blen bcap]. rewrite Cap. fold a'.
  eexists. split; [reflexivity|]. split; [reflexivity|]. assert (A' : 0 <= a' <= sb_cap s) by (subst a'; lia).
  assert (Wv : window h (mkS (fst (sb_ptr s), snd (sb_ptr s) + a') (Z.max 0 (Z.min e (sb_cap s) - a')) (sb_cap s - a')) = skipn (Z.to_nat a') (window h s)).
  { unfold window. cbn [sb_ptr sb_cap fst snd]. rewrite skipn_firstn_comm, skipn_skipn. f_equal; [lia|]. f_equal. lia. }
  split; [|split; [exact Wv|]].
  - unfold within. cbn [sb_ptr sb_len sb_cap fst snd]. repeat split; try lia. exists m. split; [exact W4|lia].
  - unfold content_of. rewrite Wv. cbn [sb_len]. unfold between. f_equal. lia.
Qed.

(** buffer s pushes a part of buffer t *)
Lemma push_part : forall h ss i j s t q r a e, arranged h ss -> nth_error ss i = Some s -> nth_error ss j = Some t -> cleanly h s q -> cleanly h t r -> 0 <= a -> 0 <= e ->
  let x := fit q (part_of r a e) in
  exists v, s_sub h t a e = Ok v /\ 
    if Nat.eqb i j && collides q (Z.min a (q_cap q)) x then s_push h s v = UB Overlap
    else exists h' s', s_push h s v = Ok (h', s', zlen x) /\ arranged h' (upd i s' ss) /\ map (crop h') (upd i s' ss) = upd i (crop h' s') (map (crop h) ss) /\
      same_places ss (upd i s' ss) /\ frame ss h h' /\ cleanly h' s' (with_items q (q_items q ++ x)).
Proof.
  intros h ss i j s t q r a e A Ns Nt ((Cs & Is) & Ws) ((Ct & It) & Wt) Ha He x.
  pose proof (proj1 (Forall_forall _ _) (proj1 A) s (nth_error_In _ _ Ns)) as Win. pose proof (proj1 (Forall_forall _ _) (proj1 A) t (nth_error_In _ _ Nt)) as Wint.
  destruct (sub_view h t a e Wint Ha He) as (v & Sv & Ev & Wv & _ & Cv). exists v. split; [exact Sv|]. rewrite Ct, Wt in Cv. change (content_of h v = part_of r a e) in Cv.
  destruct (at_index h ss i s A Ns) as (k & pre & c & p & b & P & _). destruct (within_place h v Wv) as (k' & pre' & c' & p' & b' & P').
  rewrite (push_places _ _ _ _ _ _ _ _ _ _ _ _ _ P P'). cbv zeta. rewrite (place_content _ _ _ _ _ _ _ P') in Cv. rewrite (place_content _ _ _ _ _ _ _ P) in Is.
  pose proof (zlen_nonneg _ c). pose proof (zlen_nonneg _ p). pose proof (zlen_nonneg _ c'). pose proof (zlen_nonneg _ p').
  assert (Cap : q_cap q = zlen c + zlen p) by (rewrite <- Cs; destruct P as (_ & -> & _); reflexivity).
  assert (X : x = firstn (List.length p) c') by (subst x; rewrite <- Cv; apply fit_pad; rewrite <- Is; exact Cap).
  assert (Lx : zlen x = Z.min (zlen p) (zlen c')) by (rewrite X; unfold zlen; rewrite firstn_length; lia). rewrite <- Lx.
  assert (Pv : sb_ptr v = (k', zlen pre')) by (destruct P' as (_ & -> & _); reflexivity). assert (Lv : sb_len v = zlen c') by (destruct P' as (_ & -> & _); reflexivity).
  assert (Ps : sb_ptr s = (k, zlen pre)) by (destruct P as (_ & -> & _); reflexivity).
  assert (O : overlap (k, zlen pre + zlen c) (zlen x) (k', zlen pre') (zlen x) = Nat.eqb i j && collides q (Z.min a (q_cap q)) x).
  { destruct (Nat.eqb i j) eqn:Eij.
    - apply Nat.eqb_eq in Eij. subst j. rewrite Ns in Nt. injection Nt as <-. rewrite Ev in Pv. cbn [sb_ptr] in Pv. rewrite Ps in Pv. cbn [fst snd] in Pv. injection Pv as <- Pv.
      unfold overlap, collides. cbn [fst snd]. rewrite Nat.eqb_refl, <- Pv, <- Cs, <- Is. cbn [andb]. lia.
    - apply Nat.eqb_neq in Eij. cbn [andb]. pose proof (apart_no_overlap s t (proj2 A i j s t Eij Ns Nt) (zlen x) (zlen c) (Z.min a (sb_cap t))) as NO. rewrite Ps in NO. cbn [fst snd] in NO.
      assert (Sc : sb_cap s = zlen c + zlen p) by (destruct P as (_ & -> & _); reflexivity).
      rewrite Ev in Pv, Lv. cbn [sb_ptr sb_len] in Pv, Lv. rewrite <- Pv. destruct Wint as (Wi & _). apply NO; lia. }
  rewrite O. destruct (Nat.eqb i j && collides q (Z.min a (q_cap q)) x); [reflexivity|].
  destruct (replaced h ss i s k pre c p b (c ++ firstn (List.length p) c') (skipn (List.length c') p) A Ns P) as (h' & s' & Es & A' & M & SP & F & P2); [rewrite !app_length, firstn_length, skipn_length; lia|].
  rewrite Es. exists h', s'. split; [reflexivity|]. split; [exact A'|]. split; [rewrite (place_crop _ _ _ _ _ _ _ P2); exact M|]. split; [exact SP|]. split; [exact F|].
  assert (St : stands_for h' s' (with_items q (q_items q ++ x))).
  { split; [|rewrite (place_content _ _ _ _ _ _ _ P2), <- Is, X; reflexivity]. cbn [with_items q_cap]. rewrite Cap. destruct P2 as (_ & -> & _). cbn [sb_cap]. unfold zlen. rewrite !app_length, firstn_length, skipn_length. lia. }
  split; [exact St|]. apply (crop_zeroed h' s' _ (place_within _ _ _ _ _ _ _ P2) St). rewrite (place_crop _ _ _ _ _ _ _ P2), zeroed_B. apply Forall_tail.
  apply (proj1 (crop_zeroed h s q Win (conj Cs (eq_trans (place_content _ _ _ _ _ _ _ P) Is)))) in Ws. rewrite (place_crop _ _ _ _ _ _ _ P), zeroed_B in Ws. exact Ws.
Qed.

Lemma upd_F2' : forall A C (R Q : A -> C -> Prop) l m i x y, Forall2 R l m -> nth_error m i <> None -> (forall j u w, j <> i -> nth_error l j = Some u -> nth_error m j = Some w -> R u w -> Q u w) -> Q x y -> Forall2 Q (upd i x l) (upd i y m).
Proof.
  intros A C R Q l m i x y H. revert i. induction H as [|u w l m Ruw H IH]; intros i N I K; [destruct i; constructor|]. destruct i as [|i]; cbn.
  - constructor; [exact K|]. clear IH. assert (G : forall j u0 w0, nth_error l j = Some u0 -> nth_error m j = Some w0 -> R u0 w0 -> Q u0 w0) by (intros j u0 w0; exact (I (Datatypes.S j) u0 w0 (Nat.neq_succ_0 j))). clear I N. 
    induction H as [|u0 w0 l m R0 H IH]; constructor; [apply (G O); [reflexivity|reflexivity|exact R0]|]. apply IH. intros j. exact (G (S j)).
  - constructor; [apply (I O); [lia|reflexivity|reflexivity|exact Ruw]|]. apply IH; [exact N| |exact K]. intros j u0 w0 D. apply (I (S j)). lia.
Qed.
Lemma shop_step : forall o h ss qs qs' n, arranged h ss -> Forall2 (cleanly h) ss qs -> ideal_shop o qs = Some (qs', n) ->
  exists h' ss', shared_step o (h, ss) = Ok (h', ss', n) /\ Forall2 (cleanly h') ss' qs' /\ arranged h' ss' /\ same_places ss ss' /\ frame ss h h'.
Proof.
  intros o h ss qs qs' n A H E. destruct o as [o|i j a e|i p|i a e]; cbn [ideal_shop] in E; cbn [shared_step]; try discriminate.
  - destruct (proj2 (image_cleanly h ss qs A) H) as (I & Zs). destruct (plain_sim o h ss qs qs' n A I E) as (h1 & ss1 & bs1 & S1 & C1 & (M1 & A1 & SP1 & F1)).
    destruct (code_step_sim o _ qs qs' n I E) as (bs1' & C1' & I1 & _). rewrite C1 in C1'. injection C1' as <-. destruct (code_step_tidy o _ qs qs' n I E) as (bs1' & C1' & T1). rewrite C1 in C1'. injection C1' as <-.
    exists h1, ss1. split; [exact S1|]. split; [|split; [exact A1|split; assumption]]. apply image_cleanly; [exact A1|]. rewrite M1. split; [exact I1|].
    clear - T1 Zs. revert Zs. induction T1; intros Zs; constructor; inversion Zs; subst; auto.
  - destruct (nth_error qs i) as [q|] eqn:Eq; [|discriminate]. destruct (nth_error qs j) as [r|] eqn:Er; [|discriminate].
    destruct (nth_error_F2 _ _ _ _ _ _ _ H Eq) as (s & Ns & Cs). destruct (nth_error_F2 _ _ _ _ _ _ _ H Er) as (t & Nt & Ct).
    destruct ((a <? 0) || (e <? 0)) eqn:Ae; [discriminate|]. cbn [orb] in E.
    destruct (push_part h ss i j s t q r a e A Ns Nt Cs Ct ltac:(lia) ltac:(lia)) as (v & Sv & Rest). destruct (Nat.eqb i j && _); [discriminate|]. injection E as <- <-.
    destruct Rest as (h' & s' & Sp & A' & M & SP & F & C'). unfold sat. rewrite Ns, Nt. cbn [bind]. rewrite Sv. cbn [bind]. rewrite Sp. cbn [bind].
    exists h', (upd i s' ss). split; [reflexivity|]. split; [|split; [exact A'|split; assumption]].
    eapply upd_F2'; [exact H|congruence| |exact C']. intros j0 u w D Nu _ ((U1 & U2) & U3).
    pose proof (f_equal (fun l => nth_error l j0) M) as Mj. cbv beta in Mj. rewrite nth_error_upd_other, !nth_error_map, nth_error_upd_other, Nu in Mj by congruence. cbn [option_map] in Mj. injection Mj as Mj.
    unfold cleanly, stands_for, content_of in *. rewrite Mj. split; [split; assumption|exact U3].
Qed.
Lemma shop_run : forall l h ss qs qs' ns, arranged h ss -> Forall2 (cleanly h) ss qs -> ideal_shops l qs = Some (qs', ns) ->
  exists h' ss', shared_run l (h, ss) = Ok (h', ss', ns) /\ Forall2 (cleanly h') ss' qs' /\ arranged h' ss' /\ same_places ss ss' /\ frame ss h h'.
Proof.
  induction l as [|o l IH]; intros h ss qs qs' ns A H E; cbn [ideal_shops] in E; cbn [shared_run].
  - injection E as <- <-. exists h, ss. split; [reflexivity|]. split; [exact H|]. split; [exact A|]. split; [apply places_refl|apply frame_refl].
  - destruct (ideal_shop o qs) as [[qs1 n]|] eqn:E1; [|discriminate]. destruct (ideal_shops l qs1) as [[qs2 ns2]|] eqn:E2; [|discriminate]. injection E as <- <-.
    destruct (shop_step o h ss qs qs1 n A H E1) as (h1 & ss1 & S1 & C1 & A1 & SP1 & F1). destruct (IH h1 ss1 qs1 qs2 ns2 A1 C1 E2) as (h2 & ss2 & S2 & C2 & A2 & SP2 & F2).
    exists h2, ss2. rewrite S1. cbn [bind]. rewrite S2. cbn [bind]. split; [reflexivity|]. split; [exact C2|]. split; [exact A2|]. split; [eapply places_trans; eassumption|eapply frame_trans; eassumption].
Qed.

(** views show what their owner holds now *)
Lemma views_follow : forall l h ss qs qs' ns i s a e v, arranged h ss -> Forall2 (cleanly h) ss qs -> ideal_shops l qs = Some (qs', ns) ->
  nth_error ss i = Some s -> 0 <= a -> 0 <= e -> s_sub h s a e = Ok v ->
  exists h' ss' q', shared_run l (h, ss) = Ok (h', ss', ns) /\ nth_error qs' i = Some q' /\ content_of h' v = part_of q' a e.
Proof.
  intros l h ss qs qs' ns i s a e v A H E Ns Ha He Sv. destruct (shop_run l h ss qs qs' ns A H E) as (h' & ss' & R & C & A' & (SP & SC) & F).
  pose proof (proj1 (Forall_forall _ _) (proj1 A) s (nth_error_In _ _ Ns)) as Win. destruct (sub_view h s a e Win Ha He) as (v' & Sv' & Ev & _). rewrite Sv in Sv'. injection Sv' as <-.
  pose proof (f_equal (fun x => nth_error x i) SP) as SPi. pose proof (f_equal (fun x => nth_error x i) SC) as SCi. cbv beta in SPi, SCi. rewrite !nth_error_map, Ns in SPi, SCi.
  destruct (nth_error ss' i) as [s'|] eqn:Ns'; [|discriminate]. cbn [option_map] in SPi, SCi. injection SPi as SPi. injection SCi as SCi.
  assert (Q : exists q', nth_error qs' i = Some q' /\ cleanly h' s' q').
  { clear - C Ns'. revert i Ns'. induction C; intros [|i] N; try discriminate; cbn in *; [injection N as <-; eauto|eauto]. }
  destruct Q as (q' & Nq & ((Cq & Iq) & Wq)). exists h', ss', q'. split; [exact R|]. split; [exact Nq|].
  pose proof (proj1 (Forall_forall _ _) (proj1 A') s' (nth_error_In _ _ Ns')) as Win'. destruct (sub_view h' s' a e Win' Ha He) as (v2 & _ & Ev2 & _ & _ & Cv). rewrite SPi, SCi in Ev2. rewrite <- Ev in Ev2. subst v2.
  rewrite Cv, Wq. unfold part_of. rewrite <- Cq. reflexivity.
Qed.
Lemma own_part : forall h s q a e v, within h s -> cleanly h s q -> 0 <= a -> 0 <= e -> s_sub h s a e = Ok v ->
  let x := fit q (part_of q a e) in
  (collides q (Z.min a (q_cap q)) x = true -> s_push h s v = UB Overlap) /\
  (collides q (Z.min a (q_cap q)) x = false -> exists h' s', s_push h s v = Ok (h', s', zlen x) /\ cleanly h' s' (with_items q (q_items q ++ x))).
Proof.
  intros h s q a e v W C Ha He Sv x.
  assert (A : arranged h [s]).
  { split; [constructor; [exact W|constructor]|]. intros i j u w D Nu Nw. destruct i as [|[|?]], j as [|[|?]]; cbn in *; try discriminate; congruence. }
  destruct (push_part h [s] O O s s q q a e A eq_refl eq_refl C C Ha He) as (v' & Sv' & R). rewrite Sv in Sv'. injection Sv' as <-. fold x in R. cbn [Nat.eqb andb] in R.
  split; intros X; rewrite X in R; [exact R|]. destruct R as (h' & s' & Sp & _ & _ & _ & _ & C'). exists h', s'. split; [exact Sp|exact C'].
Qed.
(** parts of the content never collide *)
Lemma content_part : forall q a e, 0 <= a -> e <= zlen (q_items q) -> zlen (q_items q) <= q_cap q -> collides q (Z.min a (q_cap q)) (fit q (part_of q a e)) = false.
Proof.
  intros q a e Ha He Hq. unfold collides. set (x := fit q (part_of q a e)).
  assert (L : zlen x <= Z.max 0 (e - a)). { subst x. unfold fit, part_of, between, zlen. rewrite !firstn_length. unfold zlen in *. lia. }
  pose proof (zlen_nonneg _ x). destruct (0 <? zlen x) eqn:X; cbn [andb]; [|reflexivity]. lia.
Qed.

(** ** Writing through a view *)
Lemma win_split : forall (pre x : list Z) o k, (o <= List.length pre)%nat -> firstn (List.length pre - o + k) (skipn o (pre ++ x)) = skipn o pre ++ firstn k x.
Proof. intros pre x o k Ho. rewrite skipn_app. replace (o - List.length pre)%nat with O by lia. cbn [skipn]. rewrite firstn_app, skipn_length, firstn_all2 by (rewrite skipn_length; lia). f_equal. f_equal. lia. Qed.
Lemma through_view : forall h s a e v k pre c p b c' p', within h s -> 0 <= a -> 0 <= e -> s_sub h s a e = Ok v -> at_place h v k pre c p b -> List.length (c' ++ p') = List.length (c ++ p) ->
  exists h' v', store h v (B c' p' b) = (h', v') /\ window h' s = firstn (Z.to_nat (Z.min a (sb_cap s))) (window h s) ++ c' ++ p' /\ within h' s.
Proof.
  intros h s a e v k pre c p b c' p' W Ha He Sv P L. destruct (sub_view h s a e W Ha He) as (v0 & Sv0 & Ev & _). rewrite Sv in Sv0. injection Sv0 as <-.
  destruct (place_store h v k pre c p b c' p' P L) as (h' & v' & E & P' & (_ & FL) & _). exists h', v'. split; [exact E|].
  destruct W as (W1 & W2 & W3 & m & W4 & W5). destruct P as (N & Ev2 & K). rewrite Ev in Ev2. injection Ev2 as Ek Ep Ec1 Ec2. destruct P' as (N' & _ & _).
  assert (Nk : nth_error h (fst (sb_ptr s)) = nth_error h k) by (rewrite Ek; reflexivity). rewrite N in Nk. rewrite W4 in Nk. injection Nk as ->.
  assert (A' : 0 <= Z.min a (sb_cap s)) by lia. set (a' := Z.min a (sb_cap s)) in *. rewrite app_length, app_length in L. unfold zlen in *. rewrite !app_length in W5. split.
  - unfold window. rewrite Ek. rewrite (nth_error_nth _ _ _ N), (nth_error_nth _ _ _ N'). rewrite firstn_firstn.
    replace (Nat.min (Z.to_nat a') (Z.to_nat (sb_cap s))) with (List.length pre - Z.to_nat (snd (sb_ptr s)) + 0)%nat by lia.
    replace (Z.to_nat (sb_cap s)) with (List.length pre - Z.to_nat (snd (sb_ptr s)) + List.length (c' ++ p'))%nat by (rewrite app_length; lia).
    rewrite !win_split by lia. cbn [firstn]. rewrite app_nil_r. f_equal. rewrite app_assoc, firstn_app, Nat.sub_diag, firstn_all. cbn [firstn]. rewrite app_nil_r. reflexivity.
  - unfold within. repeat split; try lia. eexists. rewrite Ek. split; [exact N'|]. unfold zlen. rewrite !app_length. lia.
Qed.
Lemma view_place : forall h s a e v, within h s -> 0 <= a -> 0 <= e -> s_sub h s a e = Ok v ->
  let a' := Z.min a (sb_cap s) in
  exists k pre c p b, at_place h v k pre c p b /\ window h s = firstn (Z.to_nat a') (window h s) ++ c ++ p /\ c = between a' (Z.min e (sb_cap s)) (window h s) /\
    zlen c = Z.max 0 (Z.min e (sb_cap s) - a') /\ zlen c + zlen p = sb_cap s - a' /\ 0 <= a' <= sb_cap s /\ zlen (window h s) = sb_cap s.
Proof.
  intros h s a e v W Ha He Sv a'. destruct (sub_view h s a e W Ha He) as (v0 & Sv0 & Ev & Wv & Wi & Cv). rewrite Sv in Sv0. injection Sv0 as <-. fold a' in Ev, Wi, Cv.
  destruct (within_place h v Wv) as (k & pre & c & p & b & P). exists k, pre, c, p, b. split; [exact P|]. rewrite (place_window _ _ _ _ _ _ _ P) in Wi. rewrite (place_content _ _ _ _ _ _ _ P) in Cv.
  destruct P as (_ & Es & _). rewrite Ev in Es. injection Es as _ _ El Ec. split; [rewrite Wi; symmetry; apply firstn_skipn|]. split; [exact Cv|]. split; [symmetry; exact El|]. split; [lia|].
  destruct W as (W1 & W2 & W3 & m & W4 & W5). split; [subst a'; lia|]. unfold window. rewrite (nth_error_nth _ _ _ W4). unfold zlen in *. rewrite firstn_length, skipn_length. lia.
Qed.
Lemma view_erase : forall h s a e v, within h s -> 0 <= a -> 0 <= e -> s_sub h s a e = Ok v ->
  exists h' v', s_erase h v = Ok (h', v') /\ window h' s = firstn (Z.to_nat (Z.min a (sb_cap s))) (window h s) ++ repeat 0 (Z.to_nat (sb_cap s - Z.min a (sb_cap s))).
Proof.
  intros h s a e v W Ha He Sv. destruct (view_place h s a e v W Ha He Sv) as (k & pre & c & p & b & P & _ & _ & _ & Lp & _).
  destruct (through_view h s a e v k pre c p b [] (repeat 0 (List.length c + List.length p)) W Ha He Sv P) as (h' & v' & Es & Ew & _); [rewrite !app_length, repeat_length; cbn; lia|].
  exists h', v'. unfold s_erase, on_seen0. rewrite (place_see _ _ _ _ _ _ _ P). cbn [bind]. rewrite berase_B. cbn [bind]. rewrite Es. split; [reflexivity|]. rewrite Ew. f_equal. cbn [app]. f_equal. unfold zlen in Lp. lia.
Qed.
Lemma view_put : forall h s a e v k x, within h s -> 0 <= a -> 0 <= e -> s_sub h s a e = Ok v -> 0 <= k -> Z.min a (sb_cap s) < Z.min e (sb_cap s) ->
  exists h' v', s_put k x h v = Ok (h', v') /\ window h' s = upd (Z.to_nat (Z.min (Z.min a (sb_cap s) + k) (Z.min e (sb_cap s) - 1))) x (window h s).
Proof.
  intros h s a e v i x W Ha He Sv Hi Hae. destruct (view_place h s a e v W Ha He Sv) as (k & pre & c & p & b & P & Ws & _ & Lc & Lp & A' & Lw). set (a' := Z.min a (sb_cap s)) in *.
  destruct (through_view h s a e v k pre c p b (upd (Z.to_nat (Z.min i (zlen c - 1))) x c) p W Ha He Sv P) as (h' & v' & Es & Ew & _); [rewrite !app_length, upd_length; lia|].
  exists h', v'. unfold s_put, on_seen0. rewrite (place_see _ _ _ _ _ _ _ P). cbn [bind]. rewrite bput_B; [|apply P|intros ->; unfold zlen in Lc; cbn in Lc; lia|exact Hi]. cbn [bind]. rewrite Es. split; [reflexivity|]. rewrite Ew. fold a'.
  rewrite Ws at 2. replace (Z.to_nat (Z.min (a' + i) (Z.min e (sb_cap s) - 1))) with (Z.to_nat a' + Z.to_nat (Z.min i (zlen c - 1)))%nat by lia.
  assert (L : List.length (firstn (Z.to_nat a') (window h s)) = Z.to_nat a') by (rewrite firstn_length; unfold zlen in Lw; lia). rewrite <- L at 2.
  rewrite <- (upd_app _ _ x c p) by (unfold zlen in *; lia). clear. induction (firstn (Z.to_nat a') (window h s)) as [|y l IH]; [reflexivity|]. cbn [List.length Nat.add app upd]. f_equal. exact IH.
Qed.
Lemma view_pop : forall h s a e v n, within h s -> 0 <= a -> 0 <= e -> s_sub h s a e = Ok v -> 0 <= n ->
  let a' := Z.min a (sb_cap s) in let x := skipn (Z.to_nat n) (between a' (Z.min e (sb_cap s)) (window h s)) in
  exists h' v', s_pop n h v = Ok (h', v') /\ window h' s = firstn (Z.to_nat a') (window h s) ++ x ++ repeat 0 (Z.to_nat (sb_cap s - a') - List.length x).
Proof.
  intros h s a e v n W Ha He Sv Hn a' x. destruct (view_place h s a e v W Ha He Sv) as (k & pre & c & p & b & P & Ws & Ec & Lc & Lp & A' & Lw).
  fold a' in Ws, Ec, Lc, Lp, A'. subst x. rewrite <- Ec.
  destruct (through_view h s a e v k pre c p b (skipn (Z.to_nat n) c) (repeat 0 (Nat.min (Z.to_nat n) (List.length c) + List.length p)) W Ha He Sv P) as (h' & v' & Es & Ew & _); [rewrite !app_length, repeat_length, skipn_length; lia|].
  exists h', v'. unfold s_pop, on_seen0. rewrite (place_see _ _ _ _ _ _ _ P). cbn [bind]. rewrite bpop_B by first [apply P | exact Hn]. cbn [bind]. rewrite Es. split; [reflexivity|]. rewrite Ew. fold a'. do 2 f_equal. f_equal. rewrite skipn_length. unfold zlen in *. lia.
Qed.
Lemma view_push : forall h s a e v o, within h s -> 0 <= a -> 0 <= e -> s_sub h s a e = Ok v -> within h o -> apart s o ->
  let a' := Z.min a (sb_cap s) in let e' := Z.max a' (Z.min e (sb_cap s)) in let x := firstn (Z.to_nat (sb_cap s - e')) (content_of h o) in
  exists h' v', s_push h v o = Ok (h', v', zlen x) /\ window h' s = firstn (Z.to_nat e') (window h s) ++ x ++ skipn (Z.to_nat (e' + zlen x)) (window h s).
Proof.
  intros h s a e v o W Ha He Sv Wo Ap a' e' x. destruct (view_place h s a e v W Ha He Sv) as (k & pre & c & p & b & P & Ws & Ec & Lc & Lp & A' & Lw).
  fold a' in Ws, Ec, Lc, Lp, A'. destruct (within_place h o Wo) as (k' & pre' & c' & p' & b' & P').
  pose proof (zlen_nonneg _ c). pose proof (zlen_nonneg _ p). pose proof (zlen_nonneg _ c'). pose proof (zlen_nonneg _ p').
  assert (X : x = firstn (List.length p) c') by (subst x; rewrite (place_content _ _ _ _ _ _ _ P'); f_equal; unfold zlen in *; lia).
  assert (Lx : zlen x = Z.min (zlen p) (zlen c')) by (rewrite X; unfold zlen; rewrite firstn_length; lia).
  rewrite (push_places _ _ _ _ _ _ _ _ _ _ _ _ _ P P'). cbv zeta. rewrite <- Lx.
  assert (Ap' : apart v o).
  { intros q Q1 Q2. apply (Ap q); [|exact Q2]. destruct (sub_view h s a e W Ha He) as (v0 & Sv0 & Ev & _). rewrite Sv in Sv0. injection Sv0 as <-. rewrite Ev in Q1. unfold covers in *. cbn [sb_ptr sb_cap fst snd] in Q1. fold a' in Q1. lia. }
  assert (NO : overlap (k, zlen pre + zlen c) (zlen x) (k', zlen pre') (zlen x) = false).
  { pose proof (apart_no_overlap v o Ap' (zlen x) (zlen c) 0) as N. destruct P as (_ & Ev & _). destruct P' as (_ & Eo & _). rewrite Ev, Eo in N. cbn [sb_ptr sb_cap fst snd] in N. rewrite Z.add_0_r in N. apply N; lia. }
  rewrite NO. destruct (through_view h s a e v k pre c p b (c ++ firstn (List.length p) c') (skipn (List.length c') p) W Ha He Sv P) as (h' & v' & Es & Ew & _); [rewrite !app_length, firstn_length, skipn_length; lia|].
  rewrite Es. exists h', v'. split; [reflexivity|]. rewrite Ew. fold a'. rewrite <- X.
  assert (L : List.length (firstn (Z.to_nat a') (window h s)) = Z.to_nat a') by (rewrite firstn_length; unfold zlen in Lw; lia).
  rewrite <- !app_assoc. rewrite (app_assoc (firstn _ _) c). f_equal.
  - rewrite Ws at 2. rewrite app_assoc. replace (Z.to_nat e') with (List.length (firstn (Z.to_nat a') (window h s) ++ c)) by (rewrite app_length; unfold zlen in *; lia). rewrite firstn_app_exact. reflexivity.
  - f_equal. rewrite Ws at 1. rewrite app_assoc. replace (Z.to_nat (e' + zlen x)) with (List.length x + List.length (firstn (Z.to_nat a') (window h s) ++ c))%nat by (rewrite app_length; unfold zlen in *; lia).
    rewrite <- skipn_skipn. rewrite skipn_app_exact. rewrite X, firstn_length. destruct (Nat.le_ge_cases (List.length p) (List.length c')) as [D|D].
    + rewrite Nat.min_l by exact D. rewrite !skipn_all2 by lia. reflexivity.
    + rewrite Nat.min_r by exact D. reflexivity.
Qed.

(** ** set() with a pointer *)
Lemma spelled_from : forall h p l, spelled h p l -> l <> [] -> exists r, h_from h p = Ok (l ++ r).
Proof.
  intros h [k o] l S N. destruct l as [|x l]; [contradiction|]. pose proof (S O x eq_refl) as S0. unfold spelled, byte_at in *. cbn [fst snd] in *. unfold h_from. cbn [fst snd].
  destruct (nth_error h k) as [m|] eqn:Em; [|discriminate]. destruct (0 <=? o + Z.of_nat 0) eqn:O0; [|discriminate].
  assert (L : (Z.to_nat (o + Z.of_nat 0) < List.length m)%nat) by (apply nth_error_Some; rewrite S0; discriminate).
  replace ((0 <=? o) && (o <=? zlen m)) with true by (unfold zlen; lia). exists (skipn (List.length (x :: l)) (skipn (Z.to_nat o) m)). f_equal.
  rewrite <- (firstn_skipn (List.length (x :: l)) (skipn (Z.to_nat o) m)) at 1. f_equal. apply nth_error_ext. intros i.
  destruct (Nat.lt_ge_cases i (List.length (x :: l))) as [D|D].
  - rewrite nth_error_firstn_lt by exact D. rewrite nth_error_skipn. destruct (nth_error (x :: l) i) as [y|] eqn:Ey; [|apply nth_error_None in Ey; lia].
    specialize (S i y Ey). destruct (0 <=? o + Z.of_nat i) eqn:Oi; [|discriminate]. rewrite <- S. f_equal. lia.
  - rewrite (proj2 (nth_error_None (x :: l) i) D). apply nth_error_None. rewrite firstn_length. lia.
Qed.
Lemma str_read_eq : forall t r n, nulfree t -> str_read (t ++ 0 :: r) n = Z.min (Z.of_nat n) (zlen t + 1).
Proof.
  induction t as [|x t IH]; intros r n H; destruct n as [|n]; cbn [app str_read]; unfold zlen in *; cbn [List.length] in *; try lia; [change (0 =? 0) with true; cbv iota; lia|].
  inversion H as [|? ? Hx Ht]; subst. replace (x =? 0) with false by lia. rewrite IH by exact Ht. lia.
Qed.
Lemma set_core : forall h s k pre c p b q t, at_place h s k pre c p b -> 1 <= sb_cap s -> nulfree t ->
  (forall h1 s1, at_place h1 s1 k pre [] (repeat 0 (List.length c + List.length p)) b -> only_in s h h1 -> exists r, h_from h1 q = Ok (t ++ 0 :: r)) ->
  let n := sb_cap s - 1 in
  if overlap (sb_ptr s) n q (Z.min n (zlen t + 1)) then s_set h s q = UB Overlap
  else exists h' s', s_set h s q = Ok (h', s') /\ at_place h' s' k pre (firstn (Z.to_nat n) t) (repeat 0 (List.length c + List.length p - Nat.min (List.length c + List.length p - 1) (List.length t))) b /\
    only_in s h h' /\ sb_ptr s' = sb_ptr s /\ sb_cap s' = sb_cap s.
Proof.
  intros h s k pre c p b q t P C1 Ht Hq n. pose proof (place_within _ _ _ _ _ _ _ P) as ((W1 & W1') & W2 & _).
  assert (Cap : sb_cap s = zlen c + zlen p) by (destruct P as (_ & -> & _); reflexivity).
  set (N := (List.length c + List.length p)%nat) in *. assert (NC : sb_cap s = Z.of_nat N) by (rewrite Cap; unfold zlen; lia).
  destruct (place_store h s k pre c p b [] (repeat 0 N) P) as (h1 & s1 & E1 & P1 & O1 & Pt1 & Cp1); [rewrite app_length, repeat_length, app_length; reflexivity|].
  destruct (Hq h1 s1 P1 O1) as (r & Hr). unfold s_set, s_erase, on_seen0. rewrite (place_see _ _ _ _ _ _ _ P). cbn [bind]. rewrite berase_B. fold N. cbn [bind]. rewrite E1. cbv beta iota zeta.
  rewrite (place_see _ _ _ _ _ _ _ P1). cbn [bind]. rewrite Hr. cbn [bind]. rewrite Cp1. unfold to_size_t, u32. rewrite Z.mod_small by lia. fold n.
  assert (LM : zlen (mem (B [] (repeat 0 N) b)) = sb_cap s + zlen b) by (cbn [B mem app]; rewrite zlen_app, zlen_repeat; lia).
  rewrite LM. pose proof (zlen_nonneg _ b). replace (_ <? n) with false by lia. rewrite str_read_eq by exact Ht. rewrite Z2Nat.id by lia. rewrite Pt1.
  destruct (overlap (sb_ptr s) n q (Z.min n (zlen t + 1))); [reflexivity|].
  assert (K1 : Bok [] (repeat 0 N)) by apply P1.
  pose proof (bset_B [] (repeat 0 N) b t r K1 Ht) as BS. unfold zlen at 1 in BS. cbn [List.length] in BS. rewrite zlen_repeat in BS. specialize (BS ltac:(lia)).
  unfold bset in BS. rewrite berase_B in BS. cbn [bind List.length Nat.add] in BS. rewrite repeat_length in BS.
  change (bcap (B [] (repeat 0 N) b)) with (zlen (@nil Z) + zlen (repeat 0 N)) in BS. rewrite zlen_repeat in BS. change (zlen (@nil Z)) with 0 in BS. unfold to_size_t, u32 in BS. rewrite Z.mod_small in BS by lia.
  replace (0 + Z.of_nat N - 1) with n in BS by lia.
  destruct (c_strncpy (mem (B [] (repeat 0 N) b)) (t ++ 0 :: r) n) as [m|]; [|discriminate]. cbn [bind] in BS |- *. destruct (c_strlen m) as [l|]; [|discriminate]. cbn [bind] in BS |- *.
  replace (0 + Z.of_nat N) with (sb_cap s) in BS by lia. injection BS as Em Eu Ec.
  assert (Eb : mkBuf m (u8 l) (sb_cap s) = B (firstn (Z.to_nat n) t) (repeat 0 (N - Nat.min (N - 1) (List.length t))) b) by (unfold B; f_equal; [exact Em|exact Eu|exact Ec]).
  rewrite Eb. destruct (place_store h1 s1 k pre [] (repeat 0 N) b (firstn (Z.to_nat n) t) (repeat 0 (N - Nat.min (N - 1) (List.length t))) P1) as (h2 & s2 & E2 & P2 & O2 & Pt2 & Cp2); [rewrite !app_length, !repeat_length, firstn_length; cbn [List.length]; lia|].
  rewrite E2. exists h2, s2. split; [reflexivity|]. split; [exact P2|]. split; [|split; congruence]. destruct O1 as (O1a & O1b), O2 as (O2a & O2b). split; [|congruence].
  intros x X. rewrite O2a; [apply O1a; exact X|]. intros Y. apply X. revert Y. apply covers_eq; congruence.
Qed.
Lemma set_elsewhere : forall h s p str, within h s -> 1 <= sb_cap s -> string_at h p str -> (forall i, 0 <= i <= zlen str -> ~ covers s (fst p, snd p + i)) ->
  exists h' s', s_set h s p = Ok (h', s') /\ cleanly h' s' (mkQ (sb_cap s) (firstn (Z.to_nat (sb_cap s - 1)) str)) /\ (forall x, ~ covers s x -> byte_at h' x = byte_at h x).
Proof.
  intros h s p str W C1 (Hs & Sp) Out. destruct (within_place h s W) as (k & pre & c & pd & b & P).
  assert (Fr : forall h1, only_in s h h1 -> exists r, h_from h1 p = Ok (str ++ 0 :: r)).
  { intros h1 (O1 & _). destruct (spelled_from h1 p (str ++ [0])) as (r & R); [|destruct str; discriminate|exists r; rewrite R, <- app_assoc; reflexivity].
    intros i x Ei. rewrite O1; [exact (Sp i x Ei)|]. apply Out. assert (Li : (i < List.length (str ++ [0%Z]))%nat) by (apply nth_error_Some; rewrite Ei; discriminate). rewrite app_length in Li. cbn in Li. unfold zlen. lia. }
  pose proof (set_core h s k pre c pd b p str P C1 Hs (fun h1 _ _ O1 => Fr h1 O1)) as SC. cbv zeta in SC.
  assert (NO : overlap (sb_ptr s) (sb_cap s - 1) p (Z.min (sb_cap s - 1) (zlen str + 1)) = false).
  { destruct (overlap _ _ _ _) eqn:E; [|reflexivity]. exfalso. apply overlap_true in E. destruct E as (E & E1 & E2 & E3 & E4).
    apply (Out (Z.max 0 (snd (sb_ptr s) - snd p))); [lia|]. unfold covers. cbn [fst snd]. split; [symmetry; exact E|lia]. }
  rewrite NO in SC. destruct SC as (h' & s' & Es & P' & O' & _ & Cp'). exists h', s'. split; [exact Es|]. split; [|apply O'].
  assert (Cap : sb_cap s = zlen c + zlen pd) by (destruct P as (_ & -> & _); reflexivity).
  split; [split; [exact Cp'|apply (place_content _ _ _ _ _ _ _ P')]|]. rewrite (place_window _ _ _ _ _ _ _ P'). unfold filled_up. cbn [q_items q_cap]. f_equal. f_equal. rewrite firstn_length. unfold zlen in *. lia.
Qed.
Lemma zeros_from : forall h s k pre n b j, at_place h s k pre [] (repeat 0 n) b -> (j < n)%nat -> h_from h (k, zlen pre + Z.of_nat j) = Ok (0 :: repeat 0 (n - j - 1) ++ b).
Proof.
  intros h s k pre n b j (N & _) J. unfold h_from. cbn [fst snd]. rewrite N. cbn [app]. rewrite !zlen_app, zlen_repeat. pose proof (zlen_nonneg _ pre). pose proof (zlen_nonneg _ b). replace (_ && _) with true by lia. f_equal.
  replace (Z.to_nat (zlen pre + Z.of_nat j)) with (j + List.length pre)%nat by (unfold zlen; lia). rewrite <- skipn_skipn, skipn_app_exact. replace n with (j + S (n - j - 1))%nat at 1 by lia. rewrite <- repeat_0_app, <- app_assoc.
  rewrite <- (repeat_length 0 j) at 1. rewrite skipn_app_exact. reflexivity.
Qed.
Lemma set_inside : forall h s p, within h s -> covers s p ->
  (snd p < snd (sb_ptr s) + sb_cap s - 1 -> s_set h s p = UB Overlap) /\
  (snd p = snd (sb_ptr s) + sb_cap s - 1 -> exists h' s', s_set h s p = Ok (h', s') /\ cleanly h' s' (mkQ (sb_cap s) [])).
Proof.
  intros h s [k0 o] W (E & C). cbn [fst snd] in *. destruct (within_place h s W) as (k & pre & c & pd & b & P).
  assert (Cap : sb_cap s = zlen c + zlen pd) by (destruct P as (_ & -> & _); reflexivity). assert (Pt : sb_ptr s = (k, zlen pre)) by (destruct P as (_ & -> & _); reflexivity). rewrite Pt in *. cbn [fst snd] in *. subst k0.
  pose proof (set_core h s k pre c pd b (k, o) [] P ltac:(lia) ltac:(constructor)) as SC. cbv zeta in SC.
  assert (Fr : forall h1 s1, at_place h1 s1 k pre [] (repeat 0 (List.length c + List.length pd)) b -> only_in s h h1 -> exists r, h_from h1 (k, o) = Ok ([] ++ 0 :: r)).
  { intros h1 s1 P1 _. pose proof (zeros_from h1 s1 k pre _ b (Z.to_nat (o - zlen pre)) P1) as F. replace (zlen pre + Z.of_nat (Z.to_nat (o - zlen pre))) with o in F by lia. eexists. apply F. unfold zlen in *. lia. }
  specialize (SC Fr). rewrite Pt in SC. change (zlen (@nil Z)) with 0 in SC. unfold overlap in SC. cbn [fst snd] in SC. rewrite Nat.eqb_refl in SC. split; intros D.
  - replace (_ && _) with true in SC by lia. exact SC.
  - replace (_ && _) with false in SC by lia. destruct SC as (h' & s' & Es & P' & O' & _ & Cp'). exists h', s'. split; [exact Es|]. rewrite firstn_nil in P'.
    split; [split; [exact Cp'|apply (place_content _ _ _ _ _ _ _ P')]|]. rewrite (place_window _ _ _ _ _ _ _ P'). unfold filled_up. cbn [q_items q_cap app List.length]. f_equal. unfold zlen in *. lia.
Qed.
Lemma set_into : forall h s p str, within h s -> 1 <= sb_cap s -> nulfree str -> str <> [] -> spelled h p str -> fst p = fst (sb_ptr s) -> snd p + zlen str = snd (sb_ptr s) ->
  (zlen str < sb_cap s - 1 -> s_set h s p = UB Overlap) /\
  (sb_cap s - 1 <= zlen str -> exists h' s', s_set h s p = Ok (h', s') /\ cleanly h' s' (mkQ (sb_cap s) (firstn (Z.to_nat (sb_cap s - 1)) str))).
Proof.
  intros h s [k0 o] str W C1 Hs Ne Sp E D. cbn [fst snd] in *. destruct (within_place h s W) as (k & pre & c & pd & b & P).
  assert (Cap : sb_cap s = zlen c + zlen pd) by (destruct P as (_ & -> & _); reflexivity). assert (Pt : sb_ptr s = (k, zlen pre)) by (destruct P as (_ & -> & _); reflexivity). rewrite Pt in *. cbn [fst snd] in *. subst k0.
  pose proof (set_core h s k pre c pd b (k, o) str P C1 Hs) as SC. cbv zeta in SC.
  assert (Fr : forall h1 s1, at_place h1 s1 k pre [] (repeat 0 (List.length c + List.length pd)) b -> only_in s h h1 -> exists r, h_from h1 (k, o) = Ok (str ++ 0 :: r)).
  { intros h1 s1 P1 (O1 & _). destruct (spelled_from h1 (k, o) (str ++ [0])) as (r & R); [|destruct str; discriminate|exists r; rewrite R, <- app_assoc; reflexivity].
    intros i x Ei. cbn [fst snd]. destruct (Nat.lt_ge_cases i (List.length str)) as [L|L].
    - rewrite nth_error_app1 in Ei by exact L. rewrite O1; [exact (Sp i x Ei)|]. unfold covers. rewrite Pt. cbn [fst snd]. unfold zlen in *. lia.
    - assert (Li : (i < List.length (str ++ [0%Z]))%nat) by (apply nth_error_Some; rewrite Ei; discriminate). rewrite app_length in Li. cbn in Li. assert (i = List.length str) as -> by lia. rewrite nth_error_app2, Nat.sub_diag in Ei by lia. cbn in Ei. injection Ei as <-.
      replace (o + Z.of_nat (List.length str)) with (zlen pre) by (unfold zlen in *; lia).
      unfold byte_at. cbn [fst snd]. rewrite (proj1 P1). pose proof (zlen_nonneg _ pre). replace (0 <=? zlen pre) with true by lia. rewrite zlen_nat, nth_error_app2, Nat.sub_diag by lia. cbn [app].
      destruct (List.length c + List.length pd)%nat eqn:Z0; [unfold zlen in *; lia|reflexivity]. }
  specialize (SC Fr). rewrite Pt in SC. unfold overlap in SC. cbn [fst snd] in SC. rewrite Nat.eqb_refl in SC. pose proof (zlen_nonneg _ str). assert (0 < zlen str) by (destruct str; [contradiction|unfold zlen; cbn; lia]). split; intros X.
  - replace (_ && _) with true in SC by lia. exact SC.
  - replace (_ && _) with false in SC by lia. destruct SC as (h' & s' & Es & P' & O' & _ & Cp'). exists h', s'. split; [exact Es|].
    split; [split; [exact Cp'|apply (place_content _ _ _ _ _ _ _ P')]|]. rewrite (place_window _ _ _ _ _ _ _ P'). unfold filled_up. cbn [q_items q_cap]. f_equal. f_equal. rewrite firstn_length. unfold zlen in *. lia.
Qed.
