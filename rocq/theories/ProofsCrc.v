(* ProofsCrc.v -- lemmas behind PropsCrc.v *)
From Verif Require Import ZLib SpecCrc.

(** binary induction *)
Lemma zbin_ind (P : Z -> Prop) : P 0 -> (forall a x, 0 <= a -> P a -> P (2 * a + Z.b2z x)) -> forall a, 0 <= a -> P a.
Proof.
  intros H0 HS a Ha. destruct a as [|p|p]; [assumption| |lia].
  induction p.
  - change (Zpos p~1) with (2 * Zpos p + Z.b2z true). apply HS; [lia|apply IHp; lia].
  - replace (Zpos p~0) with (2 * Zpos p + Z.b2z false) by (cbn [Z.b2z]; lia). apply HS; [lia|apply IHp; lia].
  - change 1 with (2 * 0 + Z.b2z true). apply HS; [lia|assumption].
Qed.

Lemma shl1 : forall a, Z.shiftl a 1 = 2 * a.
Proof. intros. rewrite shl by lia. lia. Qed.

Lemma b2z_range : forall x, 0 <= Z.b2z x < 2.
Proof. destruct x; cbn; lia. Qed.

Lemma lxor_step : forall a b x y, Z.lxor (2 * a + Z.b2z x) (2 * b + Z.b2z y) = 2 * Z.lxor a b + Z.b2z (xorb x y).
Proof.
  intros. pose proof (b2z_range x). pose proof (b2z_range y).
  replace (2 * a) with (a * 2 ^ 1) by lia. replace (2 * b) with (b * 2 ^ 1) by lia.
  rewrite lxor_split by lia. destruct x, y; cbn [Z.b2z xorb Z.lxor Pos.lxor]; try lia; f_equal; try lia.
Qed.

Lemma clmul_step : forall a x c, 0 <= a -> clmul (2 * a + Z.b2z x) c = Z.lxor (if x then c else 0) (2 * clmul a c).
Proof.
  intros a x c H. destruct a as [|p|p]; [| |lia].
  - destruct x; cbn; [rewrite Z.lxor_0_r|]; reflexivity.
  - destruct x; cbn [Z.b2z].
    + change (2 * Zpos p + 1) with (Zpos p~1). cbn [clmul clmul_pos]. rewrite shl1. reflexivity.
    + replace (2 * Zpos p + 0) with (Zpos p~0) by lia. cbn [clmul clmul_pos]. rewrite shl1, Z.lxor_0_l. reflexivity.
Qed.

Lemma lxor_nn : forall a b, 0 <= a -> 0 <= b -> 0 <= Z.lxor a b.
Proof. intros. apply Z.lxor_nonneg. lia. Qed.

Lemma clmul_nonneg : forall c, 0 <= c -> forall a, 0 <= a -> 0 <= clmul a c.
Proof.
  intros c Hc. apply zbin_ind; [cbn; lia|]. intros a x Ha IH. rewrite clmul_step by lia. apply lxor_nn; destruct x; lia.
Qed.

Lemma double_lxor : forall a b, 2 * Z.lxor a b = Z.lxor (2 * a) (2 * b).
Proof. intros. rewrite <- !shl1. apply Z.shiftl_lxor. Qed.

Lemma decomp : forall b, 0 <= b -> exists b' y, 0 <= b' /\ b = 2 * b' + Z.b2z y.
Proof.
  intros b Hb. exists (Z.div2 b), (Z.odd b). split; [rewrite Z.div2_div; lia|apply Z.div2_odd].
Qed.

Lemma clmul_lxor_l : forall c, 0 <= c -> forall a, 0 <= a -> forall b, 0 <= b ->
  clmul (Z.lxor a b) c = Z.lxor (clmul a c) (clmul b c).
Proof.
  intros c Hc. apply (zbin_ind (fun a => forall b, 0 <= b -> clmul (Z.lxor a b) c = Z.lxor (clmul a c) (clmul b c))).
  - intros b Hb. rewrite Z.lxor_0_l. cbn [clmul]. rewrite Z.lxor_0_l. reflexivity.
  - intros a x Ha IH b Hb. destruct (decomp b Hb) as (b' & y & Hb' & ->).
    rewrite lxor_step, !clmul_step by (try apply lxor_nn; lia). rewrite IH by lia. rewrite double_lxor.
    generalize (2 * clmul a c) (2 * clmul b' c). intros u v.
    apply Z.bits_inj'. intros n Hn. rewrite !Z.lxor_spec. destruct x, y; cbn [xorb]; rewrite ?Z.bits_0;
    destruct (Z.testbit c n), (Z.testbit u n), (Z.testbit v n); reflexivity.
Qed.

Lemma clmul_double_l : forall a c, 0 <= a -> clmul (2 * a) c = 2 * clmul a c.
Proof. intros. replace (2 * a) with (2 * a + Z.b2z false) by (cbn; lia). rewrite clmul_step by lia. apply Z.lxor_0_l. Qed.

Lemma clmul_pow : forall k c, 0 <= k -> clmul (2 ^ k) c = Z.shiftl c k.
Proof.
  intros k c Hk. revert k Hk. apply natlike_ind; [rewrite Z.shiftl_0_r; reflexivity|].
  intros k Hk IH. rewrite Z.pow_succ_r by lia. rewrite clmul_double_l by lia. rewrite IH.
  rewrite !shl by lia. rewrite Z.pow_succ_r by lia. ring.
Qed.

Definition mult (x : Z) : Prop := exists q, 0 <= q /\ x = clmul q ccitt.

Lemma ccitt_nn : 0 <= ccitt. Proof. discriminate. Qed.
#[export] Hint Resolve ccitt_nn : core.

Lemma mult_0 : mult 0. Proof. exists 0. split; [lia|reflexivity]. Qed.
Lemma mult_lxor : forall a b, mult a -> mult b -> mult (Z.lxor a b).
Proof.
  intros a b (p & Hp & ->) (q & Hq & ->). exists (Z.lxor p q). split; [apply lxor_nn; lia|].
  rewrite clmul_lxor_l; auto.
Qed.
Lemma mult_double : forall a, mult a -> mult (2 * a).
Proof. intros a (q & Hq & ->). exists (2 * q). split; [lia|]. rewrite clmul_double_l; auto. Qed.
Lemma mult_shl : forall a k, 0 <= k -> mult a -> mult (Z.shiftl a k).
Proof.
  intros a k Hk M. revert k Hk. apply natlike_ind; [rewrite Z.shiftl_0_r; assumption|]. intros k Hk IH.
  replace (Z.shiftl a (Z.succ k)) with (2 * Z.shiftl a k); [apply mult_double; assumption|].
  rewrite !shl by lia. rewrite Z.pow_succ_r by lia. ring.
Qed.
Lemma mult_g : mult ccitt. Proof. exists 1. split; [lia|reflexivity]. Qed.
Lemma mult_nn : forall a, mult a -> 0 <= a.
Proof. intros a (q & Hq & ->). apply clmul_nonneg; auto. Qed.

(** degree: a non-zero multiple has degree at least 16 *)
Lemma clmul_log2 : forall a, 0 < a -> Z.log2 (clmul a ccitt) = Z.log2 a + 16 /\ 0 < clmul a ccitt.
Proof.
  intros a Ha. assert (K : 0 <= a) by lia. revert a K Ha.
  apply (zbin_ind (fun a => 0 < a -> Z.log2 (clmul a ccitt) = Z.log2 a + 16 /\ 0 < clmul a ccitt)); [lia|].
  intros a x Ha IH Hp. rewrite clmul_step by lia.
  destruct (Z.eq_dec a 0) as [->|N].
  - destruct x; [|cbn in Hp; lia]. cbn. lia.
  - destruct (IH ltac:(lia)) as (L & P).
    assert (La : Z.log2 (2 * a + Z.b2z x) = Z.log2 a + 1).
    { destruct x; cbn [Z.b2z]; [rewrite Z.log2_succ_double by lia|rewrite Z.add_0_r, Z.log2_double by lia]; lia. }
    assert (Ld : Z.log2 (2 * clmul a ccitt) = Z.log2 a + 17) by (rewrite Z.log2_double by lia; lia).
    pose proof (Z.log2_nonneg a).
    destruct x; [|rewrite Z.lxor_0_l; lia].
    assert (T : Z.testbit (Z.lxor ccitt (2 * clmul a ccitt)) (Z.log2 a + 17) = true).
    { rewrite Z.lxor_spec. rewrite Z.bits_above_log2; [|auto|change (Z.log2 ccitt) with 16; lia].
      rewrite xorb_false_l. rewrite <- Ld. apply Z.bit_log2. lia. }
    assert (NN : 0 <= Z.lxor ccitt (2 * clmul a ccitt)) by (apply lxor_nn; auto; lia).
    assert (Z.lxor ccitt (2 * clmul a ccitt) <> 0) by (intros E; rewrite E, Z.bits_0 in T; discriminate).
    split; [|lia]. apply Z.le_antisymm.
    + rewrite La. pose proof (Z.log2_lxor ccitt (2 * clmul a ccitt) ltac:(auto) ltac:(lia)) as Q.
      change (Z.log2 ccitt) with 16 in Q. lia.
    + rewrite La. destruct (Z.le_gt_cases (Z.log2 a + 1 + 16) (Z.log2 (Z.lxor ccitt (2 * clmul a ccitt)))); [assumption|].
      rewrite Z.bits_above_log2 in T by lia. discriminate.
Qed.

Lemma mult_small : forall a, mult a -> a < 2 ^ 16 -> a = 0.
Proof.
  intros a (q & Hq & ->) H. destruct (Z.eq_dec q 0) as [->|N]; [reflexivity|].
  destruct (clmul_log2 q ltac:(lia)) as (L & P). exfalso.
  assert (Z.log2 (clmul q ccitt) < 16) by (apply Z.log2_lt_pow2; lia). pose proof (Z.log2_nonneg q). lia.
Qed.

(** x is invertible modulo the polynomial *)
Lemma mult_halve : forall a, mult (2 * a) -> mult a.
Proof.
  intros a (q & Hq & E). destruct (decomp q Hq) as (q' & x & Hq' & ->). rewrite clmul_step in E by lia.
  destruct x.
  - exfalso. assert (T : Z.testbit (2 * a) 0 = true).
    { rewrite E, Z.lxor_spec. rewrite Z.testbit_even_0. reflexivity. }
    rewrite Z.testbit_even_0 in T. discriminate.
  - rewrite Z.lxor_0_l in E. exists q'. split; [lia|]. lia.
Qed.
Lemma mult_unshl : forall a k, 0 <= k -> mult (Z.shiftl a k) -> mult a.
Proof.
  intros a k Hk. revert k Hk. apply (natlike_ind (fun k => mult (Z.shiftl a k) -> mult a)); [rewrite Z.shiftl_0_r; auto|].
  intros k Hk IH M. apply IH. apply mult_halve.
  replace (2 * Z.shiftl a k) with (Z.shiftl a (Z.succ k)); [assumption|].
  rewrite !shl by lia. rewrite Z.pow_succ_r by lia. ring.
Qed.
Lemma mult_shl_iff : forall a k, 0 <= k -> (mult (Z.shiftl a k) <-> mult a).
Proof. intros; split; [apply mult_unshl|apply mult_shl]; assumption. Qed.

(** the loop *)
Notation cong a b := (mult (Z.lxor a b)).
Lemma lx4 : forall a b c d, Z.lxor (Z.lxor a b) (Z.lxor c d) = Z.lxor (Z.lxor a c) (Z.lxor b d).
Proof. intros. apply Z.bits_inj'. intros n _. rewrite !Z.lxor_spec. destruct (Z.testbit a n), (Z.testbit b n), (Z.testbit c n), (Z.testbit d n); reflexivity. Qed.
Lemma cong_refl : forall a, cong a a. Proof. intros. rewrite Z.lxor_nilpotent. apply mult_0. Qed.
Lemma cong_trans : forall a b c, cong a b -> cong b c -> cong a c.
Proof. intros a b c H K. replace (Z.lxor a c) with (Z.lxor (Z.lxor a b) (Z.lxor b c)); [apply mult_lxor; assumption|].
  rewrite Z.lxor_assoc, <- (Z.lxor_assoc b b), Z.lxor_nilpotent, Z.lxor_0_l. reflexivity. Qed.
Lemma cong_sym : forall a b, cong a b -> cong b a. Proof. intros a b. rewrite Z.lxor_comm. auto. Qed.
Lemma cong_lxor : forall a b c d, cong a b -> cong c d -> cong (Z.lxor a c) (Z.lxor b d).
Proof. intros a b c d H K. rewrite lx4. apply mult_lxor; assumption. Qed.
Lemma cong_shl : forall a b k, 0 <= k -> cong a b -> cong (Z.shiftl a k) (Z.shiftl b k).
Proof. intros. rewrite <- Z.shiftl_lxor. apply mult_shl; assumption. Qed.

Lemma bit15 : forall a, 0 <= a < 65536 -> negb (Z.land a 0x8000 =? 0) = (32768 <=? a).
Proof.
  intros a H. destruct (32768 <=? a) eqn:E; change 0x8000 with ((2 ^ 1 - 1) * 2 ^ 15); rewrite land_himask by lia.
  - replace (a / 2 ^ 15) with 1 by lia. reflexivity.
  - replace (a / 2 ^ 15) with 0 by lia. reflexivity.
Qed.

Lemma crc_bit_eq : forall a, 0 <= a < 65536 ->
  crc_bit a = Z.lxor (Z.shiftl a 1) (if 32768 <=? a then ccitt else 0) /\ 0 <= crc_bit a < 65536.
Proof.
  intros a H. unfold crc_bit. rewrite bit15 by assumption. rewrite shl1. unfold u16.
  destruct (32768 <=? a) eqn:E.
  - assert (Q : (2 * a) mod 65536 = 2 * a - 65536) by lia. rewrite Q. split.
    + replace (2 * a) with (1 * 2 ^ 16 + (2 * a - 65536)) at 2 by lia.
      change ccitt with (1 * 2 ^ 16 + 0x1021). rewrite lxor_split by lia.
      rewrite Z.lxor_nilpotent, Z.mul_0_l, Z.add_0_l. reflexivity.
    + apply (lxor_range _ _ 16); unfold crc_polynomial; lia.
  - assert (Q : (2 * a) mod 65536 = 2 * a) by lia. rewrite Q, Z.lxor_0_r. lia.
Qed.
Lemma crc_bit_cong : forall a, 0 <= a < 65536 -> cong (crc_bit a) (Z.shiftl a 1) /\ 0 <= crc_bit a < 65536.
Proof.
  intros a H. destruct (crc_bit_eq a H) as (-> & R). split; [|assumption].
  rewrite (Z.lxor_comm (Z.shiftl a 1)), Z.lxor_assoc, Z.lxor_nilpotent, Z.lxor_0_r.
  destruct (32768 <=? a); [apply mult_g|apply mult_0].
Qed.
Lemma crc_bits_cong : forall n a, 0 <= a < 65536 ->
  cong (iter n crc_bit a) (Z.shiftl a (Z.of_nat n)) /\ 0 <= iter n crc_bit a < 65536.
Proof.
  induction n; intros a H.
  - cbn [iter]. rewrite Z.shiftl_0_r. split; [apply cong_refl|assumption].
  - cbn [iter]. destruct (crc_bit_cong a H) as (C & R). destruct (IHn _ R) as (C2 & R2). split; [|assumption].
    eapply cong_trans; [exact C2|]. replace (Z.of_nat (S n)) with (1 + Z.of_nat n) by lia.
    rewrite <- Z.shiftl_shiftl by lia. apply cong_shl; [lia|assumption].
Qed.
Lemma crc_update_cong : forall a b, 0 <= a < 65536 -> byte b ->
  cong (crc_update a b) (Z.lxor (Z.shiftl a 8) (Z.shiftl b 16)) /\ 0 <= crc_update a b < 65536.
Proof.
  intros a b Ha Hb. unfold byte in Hb. unfold crc_update.
  assert (U : u16 (Z.shiftl b 8) = Z.shiftl b 8) by (rewrite shl by lia; unfold u16; apply Z.mod_small; lia). rewrite U.
  assert (R : 0 <= Z.lxor a (Z.shiftl b 8) < 65536) by (apply (lxor_range _ _ 16); rewrite ?shl; lia).
  destruct (crc_bits_cong 8 _ R) as (C & R2). split; [|assumption].
  change (Z.of_nat 8) with 8 in C. rewrite Z.shiftl_lxor, Z.shiftl_shiftl in C by lia. exact C.
Qed.

Definition crc_of (a : Z) (bs : list Z) := fold_left crc_update bs a.
Lemma crc_feed_eq : forall bs a r, crc_feed (mkCrc (Def a) r) bs = Ok (mkCrc (Def (crc_of a bs)) r).
Proof. induction bs; intros; [reflexivity|]. cbn [crc_feed crc_updateCrc crc_acc crc_ref mread bind]. apply IHbs. Qed.
Lemma crc_feed_app : forall bs1 bs2 c, crc_feed c (bs1 ++ bs2) = (c' <- crc_feed c bs1 ;; crc_feed c' bs2).
Proof. induction bs1; intros; [reflexivity|]. cbn [crc_feed app]. destruct (crc_updateCrc c a); [apply IHbs1|reflexivity]. Qed.

Lemma crc_of_cong : forall bs, Forall byte bs -> forall a, 0 <= a < 65536 ->
  cong (crc_of a bs) (Z.lxor (Z.shiftl (message bs) 16) (Z.shiftl a (8 * zlen bs))) /\ 0 <= crc_of a bs < 65536.
Proof.
  intros bs H. induction bs as [|b bs IH] using rev_ind; intros a Ha.
  - cbn [crc_of fold_left]. change (message []) with 0. change (8 * zlen (@nil Z)) with 0.
    rewrite Z.shiftl_0_l, Z.shiftl_0_r, Z.lxor_0_l. split; [apply cong_refl|assumption].
  - apply Forall_app in H. destruct H as (H & Hb). inversion Hb; subst. destruct (IH H a Ha) as (C & R).
    unfold crc_of in *. rewrite fold_left_app. cbn [fold_left].
    destruct (crc_update_cong _ b R H2) as (C2 & R2). split; [|assumption].
    eapply cong_trans; [exact C2|].
    assert (E : message (bs ++ [b]) = Z.lxor (Z.shiftl (message bs) 8) b).
    { unfold message. rewrite fold_left_app. cbn [fold_left]. unfold byte in H2. rewrite shl by lia.
      pose proof (lxor_split 8 (fold_left (fun m b => m * 256 + b) bs 0) 0 0 b ltac:(lia) ltac:(lia) ltac:(lia)) as X.
      rewrite Z.mul_0_l, Z.add_0_l, Z.add_0_r, Z.lxor_0_r, Z.lxor_0_l in X. rewrite X. lia. }
    rewrite E. rewrite zlen_app. change (zlen [b]) with 1.
    replace (8 * (zlen bs + 1)) with (8 * zlen bs + 8) by lia. pose proof (zlen_nonneg _ bs).
    assert (Q : Z.lxor (Z.shiftl (Z.lxor (Z.shiftl (message bs) 8) b) 16) (Z.shiftl a (8 * zlen bs + 8)) =
                Z.lxor (Z.shiftl (Z.lxor (Z.shiftl (message bs) 16) (Z.shiftl a (8 * zlen bs))) 8) (Z.shiftl b 16)).
    { rewrite !Z.shiftl_lxor, !Z.shiftl_shiftl by lia. replace (8 + 16) with (16 + 8) by lia.
      rewrite !Z.lxor_assoc. f_equal. apply Z.lxor_comm. }
    rewrite Q. apply cong_lxor; [|apply cong_refl]. apply cong_shl; [lia|assumption].
Qed.

Lemma checksum_exists : forall bs, checksum_is bs (crc_of 0xFFFF bs).
Proof. intros bs. unfold checksum_is, crc_reset. rewrite crc_feed_eq. eexists. split; reflexivity. Qed.
Lemma checksum_fun : forall bs r, checksum_is bs r <-> r = crc_of 0xFFFF bs.
Proof.
  intros bs r. unfold checksum_is, crc_reset. rewrite crc_feed_eq. split.
  - intros (c & E & K). inversion E; subst. cbn [crc_acc] in K. inversion K. reflexivity.
  - intros ->. eexists. split; reflexivity.
Qed.

Lemma lxor_small : forall a b, 0 <= a < 65536 -> 0 <= b < 65536 -> cong a b -> a = b.
Proof.
  intros a b Ha Hb C. apply Z.lxor_eq. apply mult_small; [assumption|]. apply (lxor_range _ _ 16); lia.
Qed.

Lemma checksum_spec : forall bs r, Forall byte bs ->
  (checksum_is bs r <-> is_u16 r /\ pcong (Z.lxor (Z.shiftl (message bs) 16) (Z.shiftl 0xFFFF (8 * zlen bs))) r).
Proof.
  intros bs r H. rewrite checksum_fun. unfold is_u16.
  destruct (crc_of_cong bs H 0xFFFF ltac:(lia)) as (C & R). split.
  - intros ->. split; [lia|]. apply cong_sym. exact C.
  - intros (Hr & C2). apply lxor_small; [lia|assumption|]. apply cong_sym. eapply cong_trans; [exact C|]. exact C2.
Qed.

Lemma checksum_total : forall bs, Forall byte bs -> exists r, checksum_is bs r /\ is_u16 r.
Proof.
  intros bs H. exists (crc_of 0xFFFF bs). split; [apply checksum_exists|].
  destruct (crc_of_cong bs H 0xFFFF ltac:(lia)) as (_ & R). exact R.
Qed.

Lemma be_nonneg : forall bs, Forall byte bs -> 0 <= message bs.
Proof.
  intros bs H. induction bs as [|b bs IH] using rev_ind; [unfold message; cbn; lia|].
  apply Forall_app in H. destruct H as (H & Hb). inversion Hb; subst. unfold byte in *. unfold message in *. rewrite fold_left_app. cbn [fold_left].
  specialize (IH H). lia.
Qed.

(** two strings have the same checksum exactly when their difference is a multiple *)
Lemma same_checksum : forall bs bs' r r', Forall byte bs -> Forall byte bs' -> zlen bs = zlen bs' ->
  checksum_is bs r -> checksum_is bs' r' -> (r = r' <-> mult (difference bs bs')).
Proof.
  intros bs bs' r r' H H' L -> % checksum_fun -> % checksum_fun. unfold difference.
  destruct (crc_of_cong bs H 0xFFFF ltac:(lia)) as (C & R). destruct (crc_of_cong bs' H' 0xFFFF ltac:(lia)) as (C' & R').
  rewrite <- (mult_shl_iff _ 16) by lia. rewrite Z.shiftl_lxor. rewrite <- L in C'.
  remember (Z.shiftl (message bs) 16) as m. remember (Z.shiftl (message bs') 16) as m'. remember (Z.shiftl 0xFFFF (8 * zlen bs)) as k.
  assert (E : Z.lxor (Z.lxor m k) (Z.lxor m' k) = Z.lxor m m') by (rewrite lx4, Z.lxor_nilpotent, Z.lxor_0_r; reflexivity).
  split.
  - intros Q. rewrite <- E. eapply cong_trans; [apply cong_sym; exact C|]. rewrite Q. exact C'.
  - intros Q. rewrite <- E in Q. apply lxor_small; [assumption|assumption|].
    eapply cong_trans; [exact C|]. eapply cong_trans; [exact Q|]. apply cong_sym. exact C'.
Qed.

(** bursts *)
Lemma burst : forall bs bs' r r' e k, Forall byte bs -> Forall byte bs' -> zlen bs = zlen bs' ->
  checksum_is bs r -> checksum_is bs' r' ->
  0 <= k -> 0 < e < 2 ^ 16 -> difference bs bs' = Z.shiftl e k -> r <> r'.
Proof.
  intros bs bs' r r' e k H H' L C C' Hk He D E. apply (same_checksum bs bs' r r' H H' L C C') in E.
  rewrite D in E. apply mult_unshl in E; [|assumption]. apply mult_small in E; lia.
Qed.

(** parity *)
Lemma ones_step : forall a x, 0 <= a -> ones (2 * a + Z.b2z x) = Z.b2z x + ones a.
Proof.
  intros a x H. destruct a as [|p|p]; [destruct x; reflexivity| |lia].
  destruct x; cbn [Z.b2z].
  - change (2 * Zpos p + 1) with (Zpos p~1). reflexivity.
  - replace (2 * Zpos p + 0) with (Zpos p~0) by lia. reflexivity.
Qed.
Lemma odd_ones_lxor : forall a, 0 <= a -> forall b, 0 <= b ->
  Z.odd (ones (Z.lxor a b)) = xorb (Z.odd (ones a)) (Z.odd (ones b)).
Proof.
  apply (zbin_ind (fun a => forall b, 0 <= b -> Z.odd (ones (Z.lxor a b)) = xorb (Z.odd (ones a)) (Z.odd (ones b)))).
  - intros b Hb. rewrite Z.lxor_0_l. cbn [ones Z.odd]. rewrite xorb_false_l. reflexivity.
  - intros a x Ha IH b Hb. destruct (decomp b Hb) as (b' & y & Hb' & ->).
    rewrite lxor_step, !ones_step by (try apply lxor_nn; lia). rewrite !Z.odd_add. rewrite IH by lia.
    destruct x, y, (Z.odd (ones a)), (Z.odd (ones b')); reflexivity.
Qed.
Lemma ones_double : forall a, 0 <= a -> ones (2 * a) = ones a.
Proof. intros. replace (2 * a) with (2 * a + Z.b2z false) by (cbn; lia). rewrite ones_step by lia. reflexivity. Qed.
Lemma mult_even : forall a, mult a -> Z.odd (ones a) = false.
Proof.
  intros a (q & Hq & ->). revert q Hq. apply zbin_ind; [reflexivity|]. intros q x Hq IH. rewrite clmul_step by lia.
  pose proof (clmul_nonneg ccitt ccitt_nn q Hq). rewrite odd_ones_lxor by (destruct x; auto; lia).
  rewrite ones_double, IH by lia. destruct x; reflexivity.
Qed.
Lemma odd_errors : forall bs bs' r r', Forall byte bs -> Forall byte bs' -> zlen bs = zlen bs' ->
  checksum_is bs r -> checksum_is bs' r' -> Z.odd (ones (difference bs bs')) = true -> r <> r'.
Proof.
  intros bs bs' r r' H H' L C C' D E. apply (same_checksum bs bs' r r' H H' L C C') in E.
  apply mult_even in E. congruence.
Qed.

(** the order of x *)
Fixpoint never_one (n : nat) (a : Z) : bool :=
  match n with O => true | S n' => negb (a =? 1) && never_one n' (crc_bit a) end.
Lemma never_one_spec : forall n a, never_one n a = true -> forall k, (k < n)%nat -> iter k crc_bit a <> 1.
Proof.
  induction n; intros a H k Hk; [lia|]. cbn [never_one] in H. apply andb_prop in H. destruct H as (H1 & H2).
  destruct k; cbn [iter]; [lia|]. apply IHn; [assumption|lia].
Qed.
Lemma iter_add : forall A n m (f : A -> A) x, iter (n + m) f x = iter m f (iter n f x).
Proof. induction n; intros; [reflexivity|]. cbn [iter Nat.add]. apply IHn. Qed.

Definition period : nat := Z.to_nat 32767.
Lemma sweep : never_one (Z.to_nat 32766) (crc_bit 1) = true.
Proof. vm_compute. reflexivity. Qed.
Lemma cycle : iter period crc_bit 1 = 1.
Proof. vm_compute. reflexivity. Qed.

Lemma order_pos : forall d, 0 <= d -> (mult (Z.lxor 1 (2 ^ d)) <-> (32767 | d)).
Proof.
  intros d Hd.
  assert (SP : forall d, 0 <= d -> (mult (Z.lxor 1 (2 ^ d)) <-> iter (Z.to_nat d) crc_bit 1 = 1)).
  { clear. intros d Hd. destruct (crc_bits_cong (Z.to_nat d) 1 ltac:(lia)) as (C & R).
    rewrite Z2Nat.id in C by lia. rewrite shl, Z.mul_1_l in C by lia. split.
    - intros M. apply lxor_small; [assumption|lia|]. eapply cong_trans; [exact C|]. apply cong_sym. assumption.
    - intros E. rewrite E in C. assumption. }
  rewrite (SP d Hd).
  assert (P : forall q, iter (q * period) crc_bit 1 = 1).
  { induction q; [reflexivity|]. cbn [Nat.mul]. rewrite iter_add, cycle. assumption. }
  assert (E : Z.to_nat d = (Z.to_nat (d / 32767) * period + Z.to_nat (d mod 32767))%nat).
  { unfold period. rewrite <- Z2Nat.inj_mul by lia. rewrite <- Z2Nat.inj_add by lia. f_equal. lia. }
  rewrite E, iter_add, P. rewrite <- Z.mod_divide by lia.
  split.
  - intros K. destruct (Z.eq_dec (d mod 32767) 0) as [|N]; [assumption|exfalso].
    assert (B : 0 < d mod 32767 < 32767) by lia. revert K.
    replace (Z.to_nat (d mod 32767)) with (S (Z.to_nat (d mod 32767 - 1))) by lia. cbn [iter].
    apply (never_one_spec _ _ sweep). lia.
  - intros ->. reflexivity.
Qed.

Lemma double_error : forall bs bs' r r' i j, Forall byte bs -> Forall byte bs' -> zlen bs = zlen bs' ->
  checksum_is bs r -> checksum_is bs' r' -> 0 <= i < j ->
  difference bs bs' = Z.lxor (2 ^ i) (2 ^ j) -> (r = r' <-> (32767 | j - i)).
Proof.
  intros bs bs' r r' i j H H' L C C' Hij D. rewrite (same_checksum bs bs' r r' H H' L C C'). rewrite D.
  rewrite <- order_pos by lia. rewrite <- (mult_shl_iff (Z.lxor 1 _) i) by lia. rewrite Z.shiftl_lxor.
  rewrite !shl by lia. rewrite Z.mul_1_l, <- Z.pow_add_r by lia. replace (j - i + i) with j by lia. reflexivity.
Qed.

Lemma valid_spec : forall bs ref, Forall byte bs -> exists r, checksum_is bs r /\
  (c <- crc_feed crc_reset bs ;; crc_isValid (crc_loadReference c ref)) = Ok (r =? ref).
Proof.
  intros bs ref H. exists (crc_of 0xFFFF bs). split; [apply checksum_exists|]. unfold crc_reset. rewrite crc_feed_eq. reflexivity.
Qed.
