(* ZLib.v -- arithmetic lemmas about the bit operations of the model (no model content). *)
From Coq Require Export ZifyBool ZifyNat.
From Verif Require Export CBase.
Ltac Zify.zify_post_hook ::= Z.div_mod_to_equations.

Lemma testbit_split : forall hi lo k n, 0 <= k -> 0 <= lo < 2 ^ k -> 0 <= n ->
  Z.testbit (hi * 2 ^ k + lo) n = if n <? k then Z.testbit lo n else Z.testbit hi (n - k).
Proof.
  intros hi lo k n Hk Hlo Hn.
  destruct (n <? k) eqn:E.
  - apply Z.ltb_lt in E.
    rewrite <- (Z.mod_pow2_bits_low _ k n) by lia.
    rewrite Z.add_comm, Z_mod_plus_full.
    rewrite Z.mod_small by lia. reflexivity.
  - apply Z.ltb_ge in E.
    replace n with ((n - k) + k) at 1 by lia.
    rewrite <- Z.div_pow2_bits by lia.
    rewrite Z.div_add_l by lia. rewrite (Z.div_small lo) by lia. rewrite Z.add_0_r. reflexivity.
Qed.

Lemma land_range : forall a b k, 0 <= k -> 0 <= a < 2 ^ k -> 0 <= b -> 0 <= Z.land a b < 2 ^ k.
Proof.
  intros a b k Hk Ha Hb. assert (0 <= Z.land a b) by (apply Z.land_nonneg; lia).
  split; [lia|].
  destruct (Z.eq_dec (Z.land a b) 0) as [->|N]; [lia|].
  apply Z.log2_lt_pow2; [lia|].
  pose proof (Z.log2_land a b). 
  destruct (Z.eq_dec a 0) as [->|]; [rewrite Z.land_0_l in N; lia|].
  assert (Z.log2 a < k) by (apply Z.log2_lt_pow2; lia). lia.
Qed.

Lemma lor_range : forall a b k, 0 <= k -> 0 <= a < 2 ^ k -> 0 <= b < 2 ^ k -> 0 <= Z.lor a b < 2 ^ k.
Proof.
  intros a b k Hk Ha Hb. assert (0 <= Z.lor a b) by (apply Z.lor_nonneg; lia).
  split; [lia|].
  destruct (Z.eq_dec (Z.lor a b) 0) as [->|N]; [lia|].
  apply Z.log2_lt_pow2; [lia|]. rewrite Z.log2_lor by lia.
  apply Z.max_lub_lt.
  - destruct (Z.eq_dec a 0) as [->|]; [|apply Z.log2_lt_pow2; lia].
    destruct (Z.eq_dec k 0) as [->|]; [|cbn; lia].
    assert (b = 0) by lia. subst; cbn in N; lia.
  - destruct (Z.eq_dec b 0) as [->|]; [|apply Z.log2_lt_pow2; lia].
    destruct (Z.eq_dec k 0) as [->|]; [|cbn; lia].
    assert (a = 0) by lia. subst; cbn in N; lia.
Qed.

Lemma lxor_range : forall a b k, 0 <= k -> 0 <= a < 2 ^ k -> 0 <= b < 2 ^ k -> 0 <= Z.lxor a b < 2 ^ k.
Proof.
  intros a b k Hk Ha Hb. assert (0 <= Z.lxor a b) by (apply Z.lxor_nonneg; lia).
  split; [lia|].
  destruct (Z.eq_dec (Z.lxor a b) 0) as [->|N]; [lia|].
  apply Z.log2_lt_pow2; [lia|].
  pose proof (Z.log2_lxor a b ltac:(lia) ltac:(lia)) as L.
  assert (forall c, 0 <= c < 2 ^ k -> 0 < k -> Z.log2 c < k) as G.
  { intros c Hc Hk'. destruct (Z.eq_dec c 0) as [->|]; [cbn; lia|apply Z.log2_lt_pow2; lia]. }
  destruct (Z.eq_dec k 0) as [->|].
  - assert (a = 0) by lia. assert (b = 0) by lia. subst; cbn in N; lia.
  - pose proof (G a Ha ltac:(lia)). pose proof (G b Hb ltac:(lia)). lia.
Qed.

Section Split.
  Variables (k hi lo mhi mlo : Z).
  Hypothesis (Hk : 0 <= k) (Hlo : 0 <= lo < 2 ^ k) (Hmlo : 0 <= mlo < 2 ^ k).

  Lemma land_split : Z.land (hi * 2 ^ k + lo) (mhi * 2 ^ k + mlo) = Z.land hi mhi * 2 ^ k + Z.land lo mlo.
  Proof.
    pose proof (land_range lo mlo k Hk Hlo ltac:(lia)) as R.
    apply Z.bits_inj'. intros n Hn.
    rewrite Z.land_spec, !testbit_split by lia.
    destruct (n <? k); rewrite Z.land_spec; reflexivity.
  Qed.
  Lemma lor_split : Z.lor (hi * 2 ^ k + lo) (mhi * 2 ^ k + mlo) = Z.lor hi mhi * 2 ^ k + Z.lor lo mlo.
  Proof.
    pose proof (lor_range lo mlo k Hk Hlo Hmlo) as R.
    apply Z.bits_inj'. intros n Hn.
    rewrite Z.lor_spec, !testbit_split by lia.
    destruct (n <? k); rewrite Z.lor_spec; reflexivity.
  Qed.
  Lemma lxor_split : Z.lxor (hi * 2 ^ k + lo) (mhi * 2 ^ k + mlo) = Z.lxor hi mhi * 2 ^ k + Z.lxor lo mlo.
  Proof.
    pose proof (lxor_range lo mlo k Hk Hlo Hmlo) as R.
    apply Z.bits_inj'. intros n Hn.
    rewrite Z.lxor_spec, !testbit_split by lia.
    destruct (n <? k); rewrite Z.lxor_spec; reflexivity.
  Qed.
End Split.

Lemma lor_add : forall hi lo k, 0 <= k -> 0 <= lo < 2 ^ k -> Z.lor (hi * 2 ^ k) lo = hi * 2 ^ k + lo.
Proof.
  intros hi lo k Hk Hlo.
  rewrite <- (Z.add_0_r (hi * 2 ^ k)) at 1.
  rewrite <- (Z.add_0_l lo) at 1. change 0 with (0 * 2 ^ k) at 2.
  rewrite lor_split by lia. rewrite Z.lor_0_r, Z.lor_0_l. reflexivity.
Qed.

Lemma lor_add' : forall hi lo k, 0 <= k -> 0 <= lo < 2 ^ k -> Z.lor lo (hi * 2 ^ k) = hi * 2 ^ k + lo.
Proof. intros. rewrite Z.lor_comm. apply lor_add; assumption. Qed.

Lemma land_mask : forall x k, 0 <= k -> Z.land x (2 ^ k - 1) = x mod 2 ^ k.
Proof. intros. rewrite <- Z.land_ones by lia. rewrite Z.ones_equiv. reflexivity. Qed.

(** masks of high bits: keep bits k .. *)
Lemma land_himask : forall x k m, 0 <= k -> 0 <= m ->
  Z.land x ((2 ^ m - 1) * 2 ^ k) = ((x / 2 ^ k) mod 2 ^ m) * 2 ^ k.
Proof.
  intros x k m Hk Hm.
  rewrite (Z.div_mod x (2 ^ k)) at 1 by lia.
  rewrite (Z.mul_comm (2 ^ k)).
  rewrite <- (Z.add_0_r ((2 ^ m - 1) * 2 ^ k)).
  rewrite land_split; [|lia|apply Z.mod_pos_bound; lia|lia].
  rewrite Z.land_0_r, land_mask by lia. lia.
Qed.

Lemma shl : forall x k, 0 <= k -> Z.shiftl x k = x * 2 ^ k.
Proof. intros; apply Z.shiftl_mul_pow2; lia. Qed.
Lemma shr : forall x k, 0 <= k -> Z.shiftr x k = x / 2 ^ k.
Proof. intros; apply Z.shiftr_div_pow2; lia. Qed.

(** four bytes, big-endian *)
Lemma be32 : forall a b c d, 0 <= a < 256 -> 0 <= b < 256 -> 0 <= c < 256 -> 0 <= d < 256 ->
  Z.lor (Z.lor (Z.lor (Z.shiftl a 24) (Z.shiftl b 16)) (Z.shiftl c 8)) d
  = a * 16777216 + b * 65536 + c * 256 + d.
Proof.
  intros. rewrite !shl by lia.
  replace (a * 2 ^ 24) with (a * 2 ^ 8 * 2 ^ 16) by lia.
  assert (E1 : Z.lor (a * 2 ^ 8 * 2 ^ 16) (b * 2 ^ 16) = (a * 2 ^ 8 + b) * 2 ^ 16).
  { rewrite <- (Z.add_0_r (a * 2 ^ 8 * 2 ^ 16)), <- (Z.add_0_r (b * 2 ^ 16)).
    rewrite lor_split by lia. rewrite lor_add by lia. rewrite Z.lor_0_r. lia. }
  rewrite E1. rewrite lor_add by lia.
  replace ((a * 2 ^ 8 + b) * 2 ^ 16 + c * 2 ^ 8) with (((a * 2 ^ 8 + b) * 2 ^ 8 + c) * 2 ^ 8) by lia.
  rewrite lor_add by lia. lia.
Qed.

Lemma be32' : forall a b c d, 0 <= a < 256 -> 0 <= b < 256 -> 0 <= c < 256 -> 0 <= d < 256 ->
  Z.lor (Z.lor (Z.lor d (Z.shiftl c 8)) (Z.shiftl b 16)) (Z.shiftl a 24)
  = a * 16777216 + b * 65536 + c * 256 + d.
Proof.
  intros. rewrite <- be32 by lia.
  rewrite (Z.lor_comm _ (Z.shiftl a 24)), (Z.lor_comm _ (Z.shiftl b 16)), (Z.lor_comm d).
  rewrite !Z.lor_assoc. reflexivity.
Qed.

Lemma be16 : forall a b, 0 <= a < 256 -> 0 <= b < 256 -> Z.lor (Z.shiftl a 8) b = a * 256 + b.
Proof. intros. rewrite shl by lia. rewrite lor_add by lia. reflexivity. Qed.

(** generic list facts used everywhere *)
Lemma zlen_nonneg : forall A (l : list A), 0 <= zlen l.
Proof. intros; unfold zlen; lia. Qed.
Lemma zlen_app : forall A (a b : list A), zlen (a ++ b) = zlen a + zlen b.
Proof. intros; unfold zlen; rewrite app_length; lia. Qed.
Lemma zlen_repeat : forall A (x : A) n, zlen (repeat x n) = Z.of_nat n.
Proof. intros; unfold zlen; rewrite repeat_length; lia. Qed.
Lemma upd_length : forall A n (v : A) l, List.length (upd n v l) = List.length l.
Proof. induction n; destruct l; cbn; auto. Qed.
Lemma nth_upd_same : forall A n (v d : A) l, (n < List.length l)%nat -> nth n (upd n v l) d = v.
Proof. induction n; destruct l; cbn; intros; try lia; auto. apply IHn; lia. Qed.
Lemma nth_upd_other : forall A n m (v d : A) l, n <> m -> nth m (upd n v l) d = nth m l d.
Proof. induction n; destruct l, m; cbn; intros; try congruence; auto. Qed.
Lemma nth_error_upd_same : forall A n (v : A) l x, nth_error l n = Some x -> nth_error (upd n v l) n = Some v.
Proof. induction n; destruct l; cbn; intros; try discriminate; eauto. Qed.
Lemma nth_error_upd_other : forall A n m (v : A) l, n <> m -> nth_error (upd n v l) m = nth_error l m.
Proof. induction n; destruct l, m; cbn; intros; try congruence; auto. Qed.
Lemma upd_same_id : forall A n (l : list A) x, nth_error l n = Some x -> upd n x l = l.
Proof. induction n; destruct l; cbn; intros; try congruence. f_equal; eauto. Qed.
Lemma upd_upd : forall A n (v v' : A) l, upd n v (upd n v' l) = upd n v l.
Proof. induction n; destruct l; cbn; intros; f_equal; auto. Qed.

(** destruct a list of known length *)
Ltac explode l H :=
  repeat (destruct l as [|? l]; [cbn in H; try discriminate H; try lia | cbn in H]);
  try (cbn in H; try discriminate H; try lia).
Lemma skipn_skipn : forall A m n (l : list A), skipn m (skipn n l) = skipn (m + n) l.
Proof. induction n; intros; [rewrite Nat.add_0_r; reflexivity|]. rewrite Nat.add_succ_r. destruct l; cbn [skipn]; [destruct m; reflexivity|apply IHn]. Qed.
