(* ProofsChannel.v -- lemmas behind PropsChannel.v *)
From Verif Require Import ZLib SpecChannel ProofsCrc ProofsStation ProofsStream.

(** ** polynomials *)
Lemma clmul_0_r : forall a, 0 <= a -> clmul a 0 = 0.
Proof. apply zbin_ind; [reflexivity|]. intros a x Ha IH. rewrite clmul_step by lia. rewrite IH. destruct x; reflexivity. Qed.
Lemma clmul_lxor_r : forall c d a, 0 <= a -> clmul a (Z.lxor c d) = Z.lxor (clmul a c) (clmul a d).
Proof.
  intros c d. apply zbin_ind; [reflexivity|]. intros a x Ha IH. rewrite !clmul_step by lia. rewrite IH, double_lxor.
  generalize (2 * clmul a c) (2 * clmul a d). intros u v. apply Z.bits_inj'. intros n Hn. rewrite !Z.lxor_spec.
  destruct x; rewrite ?Z.lxor_spec, ?Z.bits_0; destruct (Z.testbit c n), (Z.testbit d n), (Z.testbit u n), (Z.testbit v n); reflexivity.
Qed.
Lemma clmul_double_r : forall c a, 0 <= a -> clmul a (2 * c) = 2 * clmul a c.
Proof.
  intros c. apply zbin_ind; [reflexivity|]. intros a x Ha IH. rewrite !clmul_step by lia. rewrite IH.
  rewrite double_lxor. destruct x; reflexivity.
Qed.
Lemma clmul_1_r : forall a, 0 <= a -> clmul a 1 = a.
Proof.
  apply zbin_ind; [reflexivity|]. intros a x Ha IH. rewrite clmul_step by lia. rewrite IH.
  replace (2 * a) with (2 * a + Z.b2z false) at 1 by (cbn; lia).
  replace (if x then 1 else 0) with (2 * 0 + Z.b2z x) by (destruct x; reflexivity). rewrite lxor_step, Z.lxor_0_l. destruct x; reflexivity.
Qed.
Lemma clmul_pow_r : forall k a, 0 <= k -> 0 <= a -> clmul a (2 ^ k) = Z.shiftl a k.
Proof.
  intros k a Hk Ha. revert k Hk. apply natlike_ind; [rewrite Z.shiftl_0_r; apply clmul_1_r; exact Ha|].
  intros k Hk IH. rewrite Z.pow_succ_r by lia. rewrite clmul_double_r by lia. rewrite IH.
  rewrite !shl by lia. rewrite Z.pow_succ_r by lia. ring.
Qed.

Lemma multiple_lxor : forall g a b, 0 <= g -> multiple_of g a -> multiple_of g b -> multiple_of g (Z.lxor a b).
Proof.
  intros g a b Hg (p & Hp & ->) (q & Hq & ->). exists (Z.lxor p q). split; [apply lxor_nn; lia|]. rewrite clmul_lxor_l; auto.
Qed.
Lemma multiple_shl : forall g a k, 0 <= k -> multiple_of g a -> multiple_of g (Z.shiftl a k).
Proof.
  intros g a k Hk M. revert k Hk. apply natlike_ind; [rewrite Z.shiftl_0_r; assumption|]. intros k Hk (q & Hq & E).
  exists (2 * q). split; [lia|]. rewrite clmul_double_l by lia. rewrite <- E. rewrite !shl by lia. rewrite Z.pow_succ_r by lia. ring.
Qed.

(** multiplication by x^k + 1 *)
Definition tw (k E : Z) : Z := Z.lxor E (Z.shiftl E k).
Lemma tw_nn : forall k E, 0 <= k -> 0 <= E -> 0 <= tw k E.
Proof. intros. apply lxor_nn; [assumption|]. apply Z.shiftl_nonneg. assumption. Qed.
Lemma tw_twice : forall k E, 0 <= k -> tw (2 * k) E = tw k (tw k E).
Proof.
  intros k E Hk. unfold tw. rewrite Z.shiftl_lxor, Z.shiftl_shiftl by lia. replace (k + k) with (2 * k) by lia.
  apply Z.bits_inj'. intros n _. rewrite !Z.lxor_spec. generalize (Z.testbit (Z.shiftl E k) n). intros x.
  destruct (Z.testbit E n), x, (Z.testbit (Z.shiftl E (2 * k)) n); reflexivity.
Qed.
Lemma tw_inj : forall E F, 0 <= E -> 0 <= F -> tw 1 E = tw 1 F -> E = F.
Proof.
  intros E F HE HF H. unfold tw in H. rewrite !shl1 in H. apply Z.lxor_eq.
  assert (D : Z.lxor (Z.lxor E F) (2 * Z.lxor E F) = 0).
  { rewrite double_lxor, lx4. rewrite H. apply Z.lxor_nilpotent. }
  apply Z.lxor_eq in D. pose proof (lxor_nn E F HE HF). lia.
Qed.

Notation cof := ccitt_cofactor.
Lemma cof_nn : 0 <= cof. Proof. discriminate. Qed.
Lemma ccitt_factors : ccitt = tw 1 cof. Proof. reflexivity. Qed.
(** E = Q*E + R*(x+1)*E for Q = (x+1)*R + 1 *)
Lemma cof_tw1 : forall E, 0 <= E -> (multiple_of cof (tw 1 E) <-> multiple_of cof E).
Proof.
  intros E HE. split.
  - intros M.
    assert (R : E = Z.lxor (clmul E cof) (Z.lxor (Z.shiftl (tw 1 E) 14) (Z.lxor (Z.shiftl (tw 1 E) 12) (Z.lxor (Z.shiftl (tw 1 E) 3) (Z.shiftl (tw 1 E) 1))))).
    { replace cof with (Z.lxor (2 ^ 15) (Z.lxor (2 ^ 14) (Z.lxor (2 ^ 13) (Z.lxor (2 ^ 12) (Z.lxor (2 ^ 4) (Z.lxor (2 ^ 3) (Z.lxor (2 ^ 2) (Z.lxor (2 ^ 1) (2 ^ 0))))))))) by reflexivity.
      rewrite !clmul_lxor_r, !clmul_pow_r by lia. unfold tw. rewrite !Z.shiftl_lxor, !Z.shiftl_shiftl by lia. rewrite Z.shiftl_0_r.
      apply Z.bits_inj'. intros n _. rewrite !Z.lxor_spec. change (1 + 14) with 15. change (1 + 12) with 13. change (1 + 3) with 4. change (1 + 1) with 2.
      destruct (Z.testbit E n), (Z.testbit (Z.shiftl E 15) n), (Z.testbit (Z.shiftl E 14) n), (Z.testbit (Z.shiftl E 13) n), (Z.testbit (Z.shiftl E 12) n),
        (Z.testbit (Z.shiftl E 4) n), (Z.testbit (Z.shiftl E 3) n), (Z.testbit (Z.shiftl E 2) n), (Z.testbit (Z.shiftl E 1) n); reflexivity. }
    rewrite R. apply multiple_lxor; [exact cof_nn|exists E; auto|].
    repeat apply multiple_lxor; try exact cof_nn; apply multiple_shl; try lia; exact M.
  - intros M. apply multiple_lxor; [exact cof_nn|exact M|apply multiple_shl; [lia|exact M]].
Qed.
Lemma cof_double : forall k, 0 <= k -> (forall E, 0 <= E -> (multiple_of cof (tw k E) <-> multiple_of cof E)) ->
  forall E, 0 <= E -> (multiple_of cof (tw (2 * k) E) <-> multiple_of cof E).
Proof. intros k Hk IH E HE. rewrite tw_twice by lia. rewrite IH by (apply tw_nn; lia). apply IH. exact HE. Qed.
(** the polynomial divides (x+1)*E iff its cofactor divides E *)
Lemma ccitt_tw1 : forall E, 0 <= E -> (mult (tw 1 E) <-> multiple_of cof E).
Proof.
  intros E HE. split.
  - intros (q & Hq & H). exists q. split; [exact Hq|]. rewrite ccitt_factors in H. unfold tw at 2 in H.
    rewrite clmul_lxor_r in H by lia. rewrite !shl1, clmul_double_r in H by lia. rewrite <- shl1 in H. fold (tw 1 (clmul q cof)) in H.
    apply tw_inj in H; [exact H|exact HE|apply clmul_nonneg; [exact cof_nn|exact Hq]].
  - intros (q & Hq & ->). exists q. split; [exact Hq|]. rewrite ccitt_factors. unfold tw. rewrite clmul_lxor_r by lia. rewrite !shl1, clmul_double_r by lia. reflexivity.
Qed.
Lemma ccitt_tw64 : forall E, 0 <= E -> (mult (tw 64 E) <-> multiple_of cof E).
Proof.
  intros E HE.
  pose proof cof_tw1 as C1. pose proof (cof_double 1 ltac:(lia) C1) as C2. pose proof (cof_double 2 ltac:(lia) C2) as C4. pose proof (cof_double 4 ltac:(lia) C4) as C8.
  pose proof (cof_double 8 ltac:(lia) C8) as C16. pose proof (cof_double 16 ltac:(lia) C16) as C32. cbn [Z.mul Pos.mul] in *.
  change 64 with (2 * 32). rewrite tw_twice by lia.
  assert (K : forall F, 0 <= F -> (mult (tw 32 F) <-> multiple_of cof F)); [|rewrite K by (apply tw_nn; lia); apply C32; exact HE].
  assert (K2 : forall F, 0 <= F -> (mult (tw 2 F) <-> multiple_of cof F)) by (intros F HF; change 2 with (2 * 1); rewrite tw_twice by lia; rewrite ccitt_tw1 by (apply tw_nn; lia); apply C1; exact HF).
  assert (K4 : forall F, 0 <= F -> (mult (tw 4 F) <-> multiple_of cof F)) by (intros F HF; change 4 with (2 * 2); rewrite tw_twice by lia; rewrite K2 by (apply tw_nn; lia); apply C2; exact HF).
  assert (K8 : forall F, 0 <= F -> (mult (tw 8 F) <-> multiple_of cof F)) by (intros F HF; change 8 with (2 * 4); rewrite tw_twice by lia; rewrite K4 by (apply tw_nn; lia); apply C4; exact HF).
  assert (K16 : forall F, 0 <= F -> (mult (tw 16 F) <-> multiple_of cof F)) by (intros F HF; change 16 with (2 * 8); rewrite tw_twice by lia; rewrite K8 by (apply tw_nn; lia); apply C8; exact HF).
  intros F HF; change 32 with (2 * 16); rewrite tw_twice by lia; rewrite K16 by (apply tw_nn; lia); apply C16; exact HF.
Qed.

(** ** messages *)
Lemma message_from : forall bs m, fold_left (fun m b => m * 256 + b) bs m = m * 2 ^ (8 * zlen bs) + message bs.
Proof.
  unfold message. induction bs as [|x bs IH]; intros m; [unfold zlen; cbn; lia|]. cbn [fold_left]. rewrite IH, (IH (0 * 256 + x)).
  replace (8 * zlen (x :: bs)) with (8 + 8 * zlen bs) by (unfold zlen; cbn [List.length]; lia).
  rewrite Z.pow_add_r by (unfold zlen; lia). ring.
Qed.
Lemma message_app : forall x y, message (x ++ y) = message x * 2 ^ (8 * zlen y) + message y.
Proof. intros. unfold message at 1. rewrite fold_left_app. apply message_from. Qed.
Lemma message_bound : forall bs, Forall byte bs -> 0 <= message bs < 2 ^ (8 * zlen bs).
Proof.
  intros bs H. induction bs as [|x bs IH] using rev_ind; [unfold message, zlen; cbn; lia|].
  apply Forall_app in H. destruct H as (H & Hx). inversion Hx; subst. specialize (IH H). rewrite message_app. unfold byte in *.
  replace (message [x]) with x by reflexivity. unfold zlen. rewrite app_length. cbn [List.length].
  replace (8 * Z.of_nat (List.length bs + 1)) with (8 * zlen bs + 8) by (unfold zlen; lia). rewrite Z.pow_add_r by (unfold zlen; lia).
  change (8 * Z.of_nat 1) with 8. change (2 ^ 8) with 256. nia.
Qed.
Lemma message_app_x : forall x y, Forall byte x -> Forall byte y -> message (x ++ y) = Z.lxor (Z.shiftl (message x) (8 * zlen y)) (message y).
Proof.
  intros x y Hx Hy. pose proof (message_bound x Hx). pose proof (message_bound y Hy). assert (0 <= 8 * zlen y) by (unfold zlen; lia).
  rewrite message_app. rewrite shl by lia.
  replace (message y) with (0 * 2 ^ (8 * zlen y) + message y) at 2 by lia.
  replace (message x * 2 ^ (8 * zlen y)) with (message x * 2 ^ (8 * zlen y) + 0) at 2 by lia.
  rewrite lxor_split by lia. rewrite Z.lxor_0_r, Z.lxor_0_l. reflexivity.
Qed.
Lemma shl_add : forall a n m, 0 <= n -> 0 <= m -> Z.shiftl (Z.shiftl a n) m = Z.shiftl a (n + m).
Proof. intros. apply Z.shiftl_shiftl; lia. Qed.
(** swapping two blocks of eight bytes *)
Lemma swap_difference : forall a y z b, Forall byte a -> Forall byte y -> Forall byte z -> Forall byte b -> zlen y = 8 -> zlen z = 8 ->
  difference (a ++ y ++ z ++ b) (a ++ z ++ y ++ b) = Z.shiftl (tw 64 (difference y z)) (8 * zlen b).
Proof.
  intros a y z b Ha Hy Hz Hb Ly Lz. unfold difference. assert (L : forall u v : list Z, zlen (u ++ v) = zlen u + zlen v) by (intros; unfold zlen; rewrite app_length; lia).
  assert (0 <= zlen b) by (unfold zlen; lia).
  rewrite !message_app_x by (repeat (apply Forall_app; split); assumption). rewrite !L, Ly, Lz. unfold tw.
  replace (8 * (8 + zlen b)) with (64 + 8 * zlen b) by lia. rewrite <- !(shl_add _ 64) by lia. rewrite !Z.shiftl_lxor.
  apply Z.bits_inj'. intros n _. rewrite !Z.lxor_spec.
  generalize (Z.testbit (Z.shiftl (Z.shiftl (message y) 64) (8 * zlen b)) n) (Z.testbit (Z.shiftl (Z.shiftl (message z) 64) (8 * zlen b)) n).
  intros p q. destruct p, q, (Z.testbit (Z.shiftl (message a) (8 * (8 + (8 + zlen b)))) n), (Z.testbit (Z.shiftl (message y) (8 * zlen b)) n),
    (Z.testbit (Z.shiftl (message z) (8 * zlen b)) n), (Z.testbit (message b) n); reflexivity.
Qed.
Lemma difference_nn : forall a b, Forall byte a -> Forall byte b -> 0 <= difference a b.
Proof. intros a b Ha Hb. apply lxor_nn; apply be_nonneg; assumption. Qed.

(** ** streams *)
Lemma content_len : forall d, data_frame d -> zlen (content d) = 8.
Proof. intros d ((_ & H & _) & _). unfold zlen, content. rewrite firstn_length, H. reflexivity. Qed.

(** n frames against the header of another stream of n frames *)
Lemma same_length_outcome : forall lw p c hd ds ds2 w sp w' t, stream_of hd ds -> lib_at w p sp -> usable sp -> Forall data_frame ds2 -> zlen ds <= zlen ds2 ->
  run lw (download p c hd ds2) w = Ok (w', t) ->
  outcome_is (mult (difference (received ds) (received (firstn (List.length ds) ds2)))) c t.
Proof.
  intros lw p c hd ds ds2 w sp w' t (n & crc & H & N1 & N2 & ZL & F & V) L U F2 ZL2 E.
  destruct (download_ends _ _ _ _ _ _ _ _ _ _ _ L U H N1 N2 F2 E) as (sp' & _ & _ & _ & _ & A & B).
  assert (K : Z.to_nat n = List.length ds) by (unfold zlen in ZL; lia). rewrite K in A, B.
  assert (F3 : Forall data_frame (firstn (List.length ds) ds2)) by (apply Forall_firstn; exact F2).
  assert (Q : zlen (received ds) = zlen (received (firstn (List.length ds) ds2))).
  { rewrite !received_len by assumption. unfold zlen in *. rewrite firstn_length. lia. }
  pose proof (received_bytes _ F) as B1. pose proof (received_bytes _ F3) as B2.
  destruct (checksum_total _ B2) as (r & R & _). pose proof (same_checksum _ _ _ _ B1 B2 Q V R) as I.
  split; intros G.
  - apply A; [lia|]. apply I in G. rewrite G. exact R.
  - apply B; [lia|]. intros C. apply G. apply I. apply checksum_fun in C. apply checksum_fun in R. congruence.
Qed.
Lemma swapped : forall lw p c hd xs y z zs w sp w' t, stream_of hd (xs ++ y :: z :: zs) -> lib_at w p sp -> usable sp ->
  run lw (download p c hd (xs ++ z :: y :: zs)) w = Ok (w', t) ->
  outcome_is (multiple_of ccitt_cofactor (difference (content y) (content z))) c t.
Proof.
  intros lw p c hd xs y z zs w sp w' t S L U E. pose proof S as S'. destruct S' as (n & crc & _ & _ & _ & _ & F & _).
  apply Forall_app in F. destruct F as (Fx & F). apply Forall_cons_iff in F. destruct F as (Fy & F). apply Forall_cons_iff in F. destruct F as (Fz & Fs).
  assert (F2 : Forall data_frame (xs ++ z :: y :: zs)) by (apply Forall_app; split; [exact Fx|constructor; [exact Fz|constructor; [exact Fy|exact Fs]]]).
  assert (LL : List.length (xs ++ y :: z :: zs) = List.length (xs ++ z :: y :: zs)) by (rewrite !app_length; reflexivity).
  assert (D : difference (received (xs ++ y :: z :: zs)) (received (xs ++ z :: y :: zs)) = Z.shiftl (tw 64 (difference (content y) (content z))) (8 * zlen (received zs))).
  { rewrite !received_app. cbn [received flat_map]. fold (received zs). apply swap_difference.
    - apply received_bytes. exact Fx.
    - apply content_bytes. apply Fy.
    - apply content_bytes. apply Fz.
    - apply received_bytes. exact Fs.
    - apply content_len. exact Fy.
    - apply content_len. exact Fz. }
  pose proof (same_length_outcome lw p c hd _ _ w sp w' t S L U F2 ltac:(unfold zlen; lia) E) as (A & B).
  rewrite LL, firstn_all, D in A, B.
  assert (I : mult (Z.shiftl (tw 64 (difference (content y) (content z))) (8 * zlen (received zs))) <-> multiple_of cof (difference (content y) (content z))).
  { rewrite mult_shl_iff by (unfold zlen; lia). apply ccitt_tw64. apply difference_nn; apply content_bytes; [apply Fy|apply Fz]. }
  split; intros G; [apply A, I, G|apply B; intros M; apply G, I, M].
Qed.

(** a small difference is not a multiple of the cofactor *)
Lemma cof_small : forall e k, 0 <= k -> 0 < e < 2 ^ 15 -> ~ multiple_of cof (Z.shiftl e k).
Proof.
  intros e k Hk He M. assert (HE : 0 <= Z.shiftl e k) by (apply Z.shiftl_nonneg; lia). apply ccitt_tw1 in M; [|exact HE].
  replace (tw 1 (Z.shiftl e k)) with (Z.shiftl (tw 1 e) k) in M.
  - apply mult_unshl in M; [|exact Hk]. apply mult_small in M.
    + unfold tw in M. rewrite shl1 in M. apply Z.lxor_eq in M. lia.
    + unfold tw. rewrite shl1. apply Z.log2_lt_cancel. change (Z.log2 (2 ^ 16)) with 16. pose proof (Z.log2_lxor e (2 * e) ltac:(lia) ltac:(lia)) as Q.
      rewrite Z.log2_double in Q by lia. assert (Z.log2 e < 15) by (apply Z.log2_lt_pow2; lia). lia.
  - unfold tw. rewrite Z.shiftl_lxor, !Z.shiftl_shiftl by lia. f_equal. f_equal. lia.
Qed.

Lemma run_app_ok : forall lw a b w w' t, run lw (a ++ b) w = Ok (w', t) -> exists w1 t1 t2, run lw a w = Ok (w1, t1) /\ run lw b w1 = Ok (w', t2) /\ t = t1 ++ t2.
Proof.
  intros lw a. induction a as [|o a IH]; intros b w w' t H; cbn [app run] in *.
  - exists w, [], t. auto.
  - apply seq_inv in H. destruct H as (w1 & t1 & t2 & H1 & H2 & ->). destruct (IH _ _ _ _ H2) as (w2 & t3 & t4 & H3 & H4 & ->).
    exists w2, (t1 ++ t3), t4. split; [unfold World.seq; rewrite H1; cbn [bind]; rewrite H3; reflexivity|]. split; [exact H4|apply app_assoc].
Qed.

Lemma left_out_shorter : forall A (s l : list A), left_out s l -> (List.length s < List.length l)%nat.
Proof. intros A s l H. induction H; cbn [List.length]; lia. Qed.
Lemma left_out_Forall : forall A (P : A -> Prop) s l, left_out s l -> Forall P l -> Forall P s.
Proof. intros A P s l H. induction H; intros F; apply Forall_cons_iff in F; destruct F as (F1 & F2); auto. Qed.

Lemma lost : forall lw p c hd ds arrived w sp w' t, stream_of hd ds -> left_out arrived ds -> lib_at w p sp -> usable sp ->
  run lw (download p c hd arrived) w = Ok (w', t) ->
  exists sp', lib_at w' p sp' /\ usable sp' /\ sp_cons sp' = Some c /\ ends t = [] /\ sp_state sp' = SS_DATA.
Proof.
  intros lw p c hd ds arr w sp w' t (n & crc & H & N1 & N2 & ZL & F & V) LO L U E.
  destruct (download_ends _ _ _ _ _ _ _ _ _ _ _ L U H N1 N2 (left_out_Forall _ _ _ _ LO F) E) as (sp' & A & B & C & D & _).
  destruct D as (D1 & D2); [apply left_out_shorter in LO; unfold zlen in *; lia|]. exists sp'. auto.
Qed.
Lemma lost_then : forall lw p c hd ds arrived x rest w sp w' t, stream_of hd ds -> left_out arrived ds -> lib_at w p sp -> usable sp -> dlc x <> 8 ->
  run lw (download p c hd arrived ++ arriving_at p (x :: rest)) w = Ok (w', t) ->
  lib_at w' p (mkSP SS_IDLE 0 tp_new crc_reset None) /\ ends t = [EvStreamAborted c].
Proof.
  intros lw p c hd ds arr x rest w sp w' t S LO L U X E. apply run_app_ok in E. destruct E as (w1 & t1 & t2 & E1 & E2 & ->).
  destruct (lost _ _ _ _ _ _ _ _ _ _ S LO L U E1) as (sp1 & L1 & U1 & C1 & N1 & D1).
  destruct (bad_frame _ _ _ _ _ _ _ _ L1 U1 (or_intror (conj D1 X)) E2) as (A & B). rewrite C1 in B. rewrite ends_app, N1, B. split; [exact A|reflexivity].
Qed.
Lemma lost_header : forall lw p c ds w sp w' t, ds <> [] -> Forall data_frame ds -> lib_at w p sp -> usable sp ->
  run lw (ParserSetConsumer p (Some c) :: ParserStartStream p :: arriving_at p ds) w = Ok (w', t) ->
  lib_at w' p (mkSP SS_IDLE 0 tp_new crc_reset None) /\ ends t = [EvStreamAborted c].
Proof.
  intros lw p c [|d ds] w sp w' t NE F L (a & Fa & T) E; [congruence|].
  destruct (download_start _ _ _ _ _ _ _ _ _ _ L Fa T E) as (sp1 & (R1 & R2 & R3 & R4) & E1). cbn [m_cons m_auto m_ph] in *.
  apply Forall_cons_iff in F. destruct F as ((_ & D) & _).
  assert (W : waits sp1 d) by (left; split; [apply R4|lia]).
  assert (U1 : usable sp1) by (eexists; rewrite R1; split; [exact R3|exact R2]).
  destruct (bad_frame _ _ _ _ _ _ _ _ (lib_with _ _ _ sp1 L) U1 W E1) as (A & B). rewrite R1 in B. auto.
Qed.
Lemma doubled : forall lw p c hd xs y zs w sp w' t, stream_of hd (xs ++ y :: zs) -> lib_at w p sp -> usable sp ->
  run lw (download p c hd (xs ++ y :: y :: zs)) w = Ok (w', t) ->
  outcome_is (mult (difference (received (xs ++ y :: zs)) (received (firstn (List.length (xs ++ y :: zs)) (xs ++ y :: y :: zs))))) c t /\
  (zs = [] -> ends t = [EvStreamComplete c]).
Proof.
  intros lw p c hd xs y zs w sp w' t S L U E. pose proof S as S'. destruct S' as (n & crc & _ & _ & _ & _ & F & _).
  assert (F2 : Forall data_frame (xs ++ y :: y :: zs)).
  { apply Forall_app in F. destruct F as (Fx & F). apply Forall_cons_iff in F. destruct F as (Fy & Fs). apply Forall_app. split; [exact Fx|]. constructor; [exact Fy|]. constructor; [exact Fy|exact Fs]. }
  pose proof (same_length_outcome lw p c hd _ _ w sp w' t S L U F2 ltac:(unfold zlen; rewrite !app_length; cbn [List.length]; lia) E) as O.
  split; [exact O|]. intros ->. destruct O as (O & _). apply O.
  replace (xs ++ [y; y]) with ((xs ++ [y]) ++ [y]) by (rewrite <- app_assoc; reflexivity). rewrite firstn_app, firstn_all, Nat.sub_diag. cbn [firstn]. rewrite app_nil_r.
  unfold difference. rewrite Z.lxor_nilpotent. apply mult_0.
Qed.
