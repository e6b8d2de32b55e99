(* ProofsBuffer.v -- lemmas behind PropsBuffer.v *)
From Verif Require Import ZLib SpecBuffer.

(** a buffer with content c, padding p up to the capacity, and e behind it *)
Definition B (c p e : list Z) : bufm := mkBuf (c ++ p ++ e) (zlen c) (zlen c + zlen p).
Definition Bok (c p : list Z) : Prop := zlen c + zlen p <= 255.

Lemma holds_B : forall b c, holds b c -> exists p, b = B c p (beyond b) /\ Bok c p.
Proof.
  intros [m n cap] c (H1 & H2 & H3 & ->). cbn [mem blen bcap] in *. unfold zlen in H3.
  exists (firstn (Z.to_nat cap - Z.to_nat n) (skipn (Z.to_nat n) m)).
  unfold B, Bok, beyond; cbn [mem bcap].
  assert (L1 : List.length (firstn (Z.to_nat n) m) = Z.to_nat n) by (rewrite firstn_length; lia).
  assert (L2 : List.length (firstn (Z.to_nat cap - Z.to_nat n) (skipn (Z.to_nat n) m)) = (Z.to_nat cap - Z.to_nat n)%nat)
    by (rewrite firstn_length, skipn_length; lia).
  unfold zlen. rewrite L1, L2. split; [|lia].
  f_equal; try lia.
  rewrite <- (firstn_skipn (Z.to_nat n) m) at 1. f_equal.
  rewrite <- (firstn_skipn (Z.to_nat cap - Z.to_nat n) (skipn (Z.to_nat n) m)) at 1. f_equal.
  rewrite skipn_skipn. f_equal. lia.
Qed.

Lemma firstn_app_exact : forall A (a b : list A), firstn (List.length a) (a ++ b) = a.
Proof. intros. rewrite firstn_app, Nat.sub_diag, firstn_all. cbn. apply app_nil_r. Qed.
Lemma skipn_app_exact : forall A (a b : list A), skipn (List.length a) (a ++ b) = b.
Proof. intros. rewrite skipn_app, Nat.sub_diag, skipn_all. reflexivity. Qed.

Lemma B_holds : forall c p e, Bok c p -> holds (B c p e) c.
Proof.
  intros c p e H. unfold Bok in H. unfold holds, B; cbn [mem blen bcap].
  rewrite !zlen_app. pose proof (zlen_nonneg _ c). pose proof (zlen_nonneg _ p). pose proof (zlen_nonneg _ e).
  repeat split; try lia. unfold zlen. rewrite Nat2Z.id, firstn_app_exact. reflexivity.
Qed.
Lemma B_beyond : forall c p e, beyond (B c p e) = e.
Proof.
  intros. unfold beyond, B; cbn [mem bcap]. rewrite <- zlen_app, app_assoc. unfold zlen.
  rewrite Nat2Z.id. apply skipn_app_exact.
Qed.

Lemma wr_mid : forall a x b y off, off = zlen a -> List.length x = List.length y ->
  wr (a ++ x ++ b) off y = Ok (a ++ y ++ b).
Proof.
  intros a x b y off -> L. unfold wr. rewrite !zlen_app.
  pose proof (zlen_nonneg _ a). pose proof (zlen_nonneg _ b).
  assert (zlen x = zlen y) by (unfold zlen; lia).
  replace (_ && _) with true by lia.
  unfold zlen. rewrite Nat2Z.id, firstn_app_exact.
  rewrite <- L, <- app_length, (app_assoc a x b), skipn_app_exact. reflexivity.
Qed.

Lemma wr_fail : forall m off y, zlen m < off + zlen y -> wr m off y = UB OutOfBounds.
Proof. intros. unfold wr. replace (_ && _) with false by lia. reflexivity. Qed.

Lemma rd_blk_app : forall a b n, 0 <= n <= zlen a -> rd_blk (a ++ b) 0 n = Ok (firstn (Z.to_nat n) a).
Proof.
  intros. unfold rd_blk. rewrite zlen_app. pose proof (zlen_nonneg _ b).
  replace (_ && _ && _) with true by lia. cbn [Z.to_nat skipn].
  rewrite firstn_app. unfold zlen in *. replace (Z.to_nat n - List.length a)%nat with 0%nat by lia.
  cbn [firstn]. rewrite app_nil_r. reflexivity.
Qed.

Lemma min_len : forall A (l : list A) n, List.length (firstn n l) = Nat.min n (List.length l).
Proof. intros; apply firstn_length. Qed.

Lemma firstn_min : forall A (l : list A) n, firstn (Nat.min n (List.length l)) l = firstn n l.
Proof.
  intros. destruct (Nat.le_ge_cases n (List.length l)).
  - rewrite Nat.min_l by lia. reflexivity.
  - rewrite Nat.min_r, firstn_all, firstn_all2 by lia. reflexivity.
Qed.

Lemma bpush_B : forall c p e c' p' e', Bok c p -> Bok c' p' ->
  bpush (B c p e) (B c' p' e') =
  Ok (B (c ++ firstn (List.length p) c') (skipn (List.length c') p) e, Z.min (zlen p) (zlen c')).
Proof.
  intros c p e c' p' e' H H'. unfold Bok in *.
  pose proof (zlen_nonneg _ c). pose proof (zlen_nonneg _ p). pose proof (zlen_nonneg _ c'). pose proof (zlen_nonneg _ p').
  unfold bpush, bcap_rem, B; cbn [mem blen bcap].
  replace (zlen c + zlen p - zlen c) with (zlen p) by lia.
  assert (U : u8 (zlen p) = zlen p) by (unfold u8; apply Z.mod_small; lia). rewrite !U.
  replace (if zlen p <? zlen c' then zlen p else zlen c') with (Z.min (zlen p) (zlen c'))
    by (destruct (zlen p <? zlen c') eqn:?; lia).
  rewrite rd_blk_app by lia. cbn [bind].
  replace (Z.to_nat (Z.min (zlen p) (zlen c'))) with (Nat.min (List.length p) (List.length c')) by (unfold zlen; lia).
  rewrite firstn_min.
  rewrite <- (firstn_skipn (List.length c') p) at 1. rewrite <- (app_assoc _ _ e).
  rewrite wr_mid; [|reflexivity|rewrite !min_len; lia]. cbn [bind].
  assert (E1 : zlen (c ++ firstn (List.length p) c') = zlen c + Z.min (zlen p) (zlen c'))
    by (rewrite zlen_app; unfold zlen; rewrite min_len; lia).
  assert (E2 : zlen (skipn (List.length c') p) = zlen p - Z.min (zlen p) (zlen c'))
    by (unfold zlen; rewrite skipn_length; lia).
  rewrite E1, E2. unfold u8. rewrite Z.mod_small by lia.
  f_equal. f_equal. f_equal; [|lia]. rewrite <- !app_assoc. reflexivity.
Qed.

Lemma bpush_ok : forall c p c', Bok c p -> Bok (c ++ firstn (List.length p) c') (skipn (List.length c') p).
Proof. unfold Bok. intros. rewrite zlen_app. unfold zlen in *. rewrite min_len, skipn_length. lia. Qed.

Lemma bpush_char_B : forall c p e x, Bok c p ->
  bpush_char (B c p e) x =
  match p with
  | [] => Ok (B c [] e, 0)
  | _ :: p' => Ok (B (c ++ [x]) p' e, 1)
  end.
Proof.
  intros c p e x H. unfold Bok in H. pose proof (zlen_nonneg _ c).
  unfold bpush_char, B; cbn [mem blen bcap]. destruct p as [|y p].
  - change (zlen (@nil Z)) with 0. rewrite Z.add_0_r, Z.ltb_irrefl. reflexivity.
  - replace (zlen (y :: p)) with (1 + zlen p) in * by (unfold zlen; cbn [List.length]; lia).
    pose proof (zlen_nonneg _ p).
    replace (zlen c <? zlen c + (1 + zlen p)) with true by lia.
    change ((y :: p) ++ e) with ([y] ++ p ++ e). rewrite wr_mid by reflexivity. cbn [bind].
    unfold u8. rewrite Z.mod_small by lia. rewrite zlen_app. change (zlen [x]) with 1.
    f_equal. f_equal. f_equal; [|lia]. rewrite <- !app_assoc. reflexivity.
Qed.

Lemma berase_B : forall c p e, berase (B c p e) = Ok (B [] (repeat 0 (List.length c + List.length p)) e).
Proof.
  intros. unfold berase, B; cbn [mem blen bcap].
  assert (E : Z.to_nat (zlen c + zlen p) = (List.length c + List.length p)%nat) by (unfold zlen; lia).
  rewrite E, app_assoc.
  change ((c ++ p) ++ e) with ([] ++ (c ++ p) ++ e). rewrite wr_mid; [|reflexivity|rewrite app_length, repeat_length; lia].
  cbn [bind]. rewrite zlen_repeat. change (zlen (@nil Z)) with 0. cbn [app]. f_equal. f_equal. unfold zlen. lia.
Qed.

Lemma repeat_0_app : forall n m, repeat 0 n ++ repeat 0 m = repeat 0 (n + m).
Proof. intros. symmetry. apply repeat_app. Qed.

Lemma bpop_B : forall c p e n, Bok c p -> 0 <= n ->
  bpop_front (B c p e) n =
  Ok (B (skipn (Z.to_nat n) c) (repeat 0 (Nat.min (Z.to_nat n) (List.length c) + List.length p)) e).
Proof.
  intros c p e n H Hn. unfold Bok in H. pose proof (zlen_nonneg _ c). pose proof (zlen_nonneg _ p).
  unfold bpop_front. change (blen (B c p e)) with (zlen c). change (bcap (B c p e)) with (zlen c + zlen p).
  change (mem (B c p e)) with (c ++ p ++ e).
  destruct (n >=? zlen c) eqn:E.
  - rewrite berase_B. rewrite skipn_all2 by (unfold zlen in E; lia). rewrite Nat.min_r by (unfold zlen in E; lia). reflexivity.
  - assert (E1 : n < zlen c) by lia. cbv zeta.
    assert (Z0 : u8 (zlen c - n) = zlen c - n) by (unfold u8; apply Z.mod_small; lia). rewrite !Z0.
    set (k := Z.to_nat n). assert (Hk : n = Z.of_nat k) by (subst k; lia).
    assert (Hkc : (k < List.length c)%nat) by (unfold zlen in E1; lia).
    rewrite <- (firstn_skipn k c) at 1.
    assert (R : rd_blk ((firstn k c ++ skipn k c) ++ p ++ e) n (zlen c - n) = Ok (skipn k c)).
    { unfold rd_blk. rewrite !zlen_app. pose proof (zlen_nonneg _ e).
      assert (zlen (firstn k c) = n) by (unfold zlen; rewrite min_len; lia).
      assert (zlen (skipn k c) = zlen c - n) by (unfold zlen; rewrite skipn_length; lia).
      replace (_ && _ && _) with true by lia.
      rewrite <- app_assoc. replace (Z.to_nat n) with (List.length (firstn k c)) by (rewrite min_len; lia).
      rewrite skipn_app_exact. replace (Z.to_nat (zlen c - n)) with (List.length (skipn k c)) by (rewrite skipn_length; unfold zlen; lia).
      rewrite firstn_app_exact. reflexivity. }
    rewrite R. cbn [bind].
    assert (Ls : List.length (skipn k c) = (List.length c - k)%nat) by apply skipn_length.
    rewrite <- (firstn_skipn (List.length (skipn k c)) c) at 1.
    rewrite <- app_assoc.
    change (wr (?x) 0 ?y) with (wr ([] ++ x) 0 y).
    rewrite (wr_mid []) by (try reflexivity; rewrite min_len; lia). cbn [bind app].
    rewrite (app_assoc (skipn (List.length (skipn k c)) c) p e).
    assert (Z1 : u8 (zlen c + zlen p - (zlen c - n)) = n + zlen p) by (unfold u8; rewrite Z.mod_small; lia).
    rewrite Z1.
    rewrite wr_mid; [|unfold zlen; lia|].
    2:{ rewrite app_length, repeat_length, skipn_length. unfold zlen; lia. }
    cbn [bind].
    assert (Z2 : Z.to_nat (n + zlen p) = (Nat.min k (List.length c) + List.length p)%nat) by (unfold zlen; lia).
    rewrite Z2. unfold B. rewrite zlen_repeat. f_equal. f_equal; unfold zlen; rewrite ?Ls; lia.
Qed.

Lemma bpop_ok : forall c p n, Bok c p ->
  Bok (skipn n c) (repeat 0 (Nat.min n (List.length c) + List.length p)).
Proof. unfold Bok. intros. rewrite zlen_repeat. unfold zlen in *. rewrite skipn_length. lia. Qed.

Lemma strncpy_bytes_eq : forall s r n, nulfree s ->
  strncpy_bytes (s ++ 0 :: r) n = Ok (firstn n s ++ repeat 0 (n - List.length s)).
Proof.
  induction s as [|x s IH]; intros r n H.
  - cbn [app]. destruct n; [reflexivity|]. cbn [strncpy_bytes]. rewrite Z.eqb_refl. cbn. reflexivity.
  - inversion H; subst. destruct n; [reflexivity|]. cbn [strncpy_bytes app].
    replace (x =? 0) with false by lia. rewrite IH by assumption. reflexivity.
Qed.

Lemma c_strlen_eq : forall s r, nulfree s -> c_strlen (s ++ 0 :: r) = Ok (zlen s).
Proof.
  induction s as [|x s IH]; intros r H; [reflexivity|].
  inversion H; subst. cbn [c_strlen app]. replace (x =? 0) with false by lia.
  rewrite IH by assumption. cbn [bind]. f_equal. unfold zlen. cbn [List.length]. lia.
Qed.
Lemma c_strlen_none : forall s, nulfree s -> c_strlen s = UB OutOfBounds.
Proof.
  induction s as [|x s IH]; intros H; [reflexivity|].
  inversion H; subst. cbn [c_strlen]. replace (x =? 0) with false by lia. rewrite IH by assumption. reflexivity.
Qed.
Lemma c_str_eq : forall s r, nulfree s -> c_str (s ++ 0 :: r) = Ok s.
Proof.
  induction s as [|x s IH]; intros r H; [reflexivity|].
  inversion H; subst. cbn [c_str app]. replace (x =? 0) with false by lia. rewrite IH by assumption. reflexivity.
Qed.
Lemma c_str_none : forall s, nulfree s -> c_str s = UB OutOfBounds.
Proof.
  induction s as [|x s IH]; intros H; [reflexivity|].
  inversion H; subst. cbn [c_str]. replace (x =? 0) with false by lia. rewrite IH by assumption. reflexivity.
Qed.

Lemma nulfree_firstn : forall n s, nulfree s -> nulfree (firstn n s).
Proof.
  unfold nulfree. intros n s H. rewrite <- (firstn_skipn n s) in H. apply Forall_app in H. tauto.
Qed.
Lemma nulfree_skipn : forall n s, nulfree s -> nulfree (skipn n s).
Proof.
  unfold nulfree. intros n s H. rewrite <- (firstn_skipn n s) in H. apply Forall_app in H. tauto.
Qed.

(** strncpy into an array that has room: the first n bytes are the prefix and NULs *)
Lemma c_strncpy_eq : forall dst s r n, nulfree s -> 0 <= n <= zlen dst ->
  c_strncpy dst (s ++ 0 :: r) n =
  Ok ((firstn (Z.to_nat n) s ++ repeat 0 (Z.to_nat n - List.length s)) ++ skipn (Z.to_nat n) dst).
Proof.
  intros dst s r n H Hn. unfold c_strncpy. replace (zlen dst <? n) with false by lia.
  rewrite strncpy_bytes_eq by assumption. cbn [bind].
  rewrite <- (firstn_skipn (Z.to_nat n) dst) at 1.
  change (wr ?x 0 ?y) with (wr ([] ++ x) 0 y).
  rewrite (wr_mid []); [reflexivity|reflexivity|].
  rewrite app_length, repeat_length, !min_len. unfold zlen in *. lia.
Qed.

Lemma bset_B : forall c p e s r, Bok c p -> nulfree s -> 1 <= zlen c + zlen p ->
  bset (B c p e) (s ++ 0 :: r) =
  Ok (B (firstn (Z.to_nat (zlen c + zlen p - 1)) s)
        (repeat 0 (List.length c + List.length p - Nat.min (List.length c + List.length p - 1) (List.length s))) e).
Proof.
  intros c p e s r H Hs H1. unfold Bok in H. unfold bset. rewrite berase_B. cbn [bind].
  change (bcap (B c p e)) with (zlen c + zlen p).
  unfold to_size_t, u32. rewrite Z.mod_small by lia.
  set (N := (List.length c + List.length p)%nat). set (n := zlen c + zlen p - 1).
  assert (Hn : n = Z.of_nat N - 1) by (subst n N; unfold zlen; lia).
  unfold B; cbn [mem app].
  rewrite c_strncpy_eq; [|assumption|rewrite zlen_app, zlen_repeat; pose proof (zlen_nonneg _ e); lia].
  cbn [bind].
  assert (ES : skipn (Z.to_nat n) (repeat 0 N ++ e) = 0 :: e).
  { replace N with (Z.to_nat n + 1)%nat at 1 by lia. rewrite <- repeat_0_app, <- app_assoc.
    rewrite <- (repeat_length 0 (Z.to_nat n)) at 1. rewrite skipn_app_exact. reflexivity. }
  rewrite ES.
  assert (EM : (firstn (Z.to_nat n) s ++ repeat 0 (Z.to_nat n - List.length s)) ++ 0 :: e
       = firstn (Z.to_nat n) s ++ repeat 0 (N - Nat.min (N - 1) (List.length s)) ++ e).
  { rewrite <- app_assoc. f_equal. change (0 :: e) with ([0] ++ e). rewrite app_assoc. f_equal.
    change [0] with (repeat 0 1). rewrite repeat_0_app. f_equal. lia. }
  rewrite EM.
  replace (N - Nat.min (N - 1) (List.length s))%nat with (S (N - 1 - List.length s)) by lia.
  cbn [repeat app]. rewrite c_strlen_eq by (apply nulfree_firstn; assumption). cbn [bind].
  assert (L : zlen (firstn (Z.to_nat n) s) = Z.min n (zlen s)) by (unfold zlen; rewrite min_len; lia).
  pose proof (zlen_nonneg _ s).
  change (0 :: repeat 0 (N - 1 - List.length s)) with (repeat 0 (S (N - 1 - List.length s))). rewrite zlen_repeat.
  rewrite L. unfold u8. rewrite Z.mod_small by lia. f_equal. f_equal. unfold zlen in *. lia.
Qed.

Lemma bset_zero : forall b s, bcap b = 0 -> zlen (mem b) < 4294967295 -> bset b s = UB OutOfBounds.
Proof.
  intros [m n cap] s E L. cbn [bcap mem] in *. subst cap. unfold bset, berase. cbn [mem bcap Z.to_nat repeat].
  unfold wr at 1. change (zlen (@nil Z)) with 0. pose proof (zlen_nonneg _ m).
  replace (_ && _) with true by lia. cbn [bind mem bcap firstn app List.length skipn Nat.add Z.to_nat].
  unfold c_strncpy, to_size_t, u32. change ((0 - 1) mod 4294967296) with 4294967295.
  replace (zlen m <? 4294967295) with true by lia. reflexivity.
Qed.

Lemma upd_app : forall A k (x : A) a b, (k < List.length a)%nat -> upd k x (a ++ b) = upd k x a ++ b.
Proof. induction k; destruct a; cbn; intros; try lia; [reflexivity|]. f_equal. apply IHk. lia. Qed.

Lemma upd_split : forall A k (x : A) l, (k < List.length l)%nat ->
  upd k x l = firstn k l ++ [x] ++ skipn (k + 1) l.
Proof. induction k; destruct l; cbn; intros; try lia; [reflexivity|]. f_equal. apply IHk. lia. Qed.

Lemma limitIndex_B : forall c p e i, Bok c p -> c <> [] -> 0 <= i -> limitIndex (B c p e) i = Z.min i (zlen c - 1).
Proof.
  intros c p e i H N Hi. unfold Bok in H. unfold limitIndex; cbn [blen B].
  assert (1 <= zlen c) by (destruct c; [congruence|unfold zlen; cbn [List.length]; lia]).
  pose proof (zlen_nonneg _ p).
  unfold u8. destruct (i >=? zlen c) eqn:E; [rewrite Z.mod_small by lia|]; lia.
Qed.

Lemma bput_B : forall c p e i x, Bok c p -> c <> [] -> 0 <= i ->
  bput (B c p e) i x = Ok (B (upd (Z.to_nat (Z.min i (zlen c - 1))) x c) p e).
Proof.
  intros c p e i x H N Hi. unfold bput. rewrite limitIndex_B by assumption.
  assert (1 <= zlen c) by (destruct c; [congruence|unfold zlen; cbn [List.length]; lia]).
  set (k := Z.min i (zlen c - 1)). assert (Hk : 0 <= k < zlen c) by lia.
  unfold wr. change (zlen [x]) with 1. cbn [mem B blen bcap]. rewrite !zlen_app.
  pose proof (zlen_nonneg _ p). pose proof (zlen_nonneg _ e).
  replace (_ && _) with true by lia. cbn [bind]. change (List.length [x]) with 1%nat.
  rewrite <- upd_split by (rewrite !app_length; unfold zlen in Hk; lia).
  rewrite upd_app by (unfold zlen in Hk; lia).
  unfold B. f_equal. unfold zlen. rewrite upd_length. reflexivity.
Qed.

Lemma bget_B : forall c p e i, Bok c p -> c <> [] -> 0 <= i ->
  bget (B c p e) i = Ok (nth (Z.to_nat (Z.min i (zlen c - 1))) c 0).
Proof.
  intros c p e i H N Hi. unfold bget. rewrite limitIndex_B by assumption.
  assert (1 <= zlen c) by (destruct c; [congruence|unfold zlen; cbn [List.length]; lia]).
  set (k := Z.min i (zlen c - 1)). assert (Hk : 0 <= k < zlen c) by lia.
  unfold rd; cbn [mem B]. rewrite !zlen_app. pose proof (zlen_nonneg _ p). pose proof (zlen_nonneg _ e).
  replace (_ && _) with true by lia. f_equal. apply app_nth1. unfold zlen in Hk; lia.
Qed.

Lemma bget_empty : forall b i, blen b = 0 -> 0 <= i ->
  bget b i = if zlen (mem b) <=? 255 then UB OutOfBounds else Ok (nth 255 (mem b) 0).
Proof.
  intros b i E Hi. unfold bget, limitIndex. rewrite E. replace (i >=? 0) with true by lia.
  change (u8 (0 - 1)) with 255. unfold rd. destruct (zlen (mem b) <=? 255) eqn:L.
  - replace (_ && _) with false by lia. reflexivity.
  - replace (_ && _) with true by lia. reflexivity.
Qed.
Lemma bput_empty : forall b i x, blen b = 0 -> 0 <= i -> zlen (mem b) <= 255 -> bput b i x = UB OutOfBounds.
Proof.
  intros b i x E Hi L. unfold bput, limitIndex. rewrite E. replace (i >=? 0) with true by lia.
  change (u8 (0 - 1)) with 255. rewrite wr_fail; [reflexivity|]. change (zlen [x]) with 1. lia.
Qed.

(** searching *)
Lemma bfind_loop_spec : forall (hit : Z -> bool) c rest n i, 0 <= i -> Z.of_nat n = zlen c - i ->
  exists k, bfind_loop (c ++ rest) hit i n = Ok k /\
    ((k = npos /\ none_from (fun x => hit x = true) c i) \/ first_from (fun x => hit x = true) c i k).
Proof.
  intros hit c rest. induction n as [|n IH]; intros i Hi Hn.
  - exists npos. split; [reflexivity|]. left. split; [reflexivity|]. intros j Hj. lia.
  - cbn [bfind_loop]. unfold rd. rewrite zlen_app. pose proof (zlen_nonneg _ rest).
    replace (_ && _) with true by lia. cbn [bind].
    rewrite app_nth1 by (unfold zlen in *; lia).
    destruct (hit (nth (Z.to_nat i) c 0)) eqn:E.
    + exists i. split; [reflexivity|]. right. repeat split; try lia; assumption.
    + destruct (IH (i + 1)) as (k & Ek & Hk); [lia|lia|]. exists k. split; [exact Ek|].
      destruct Hk as [[-> Hk]|(Hk1 & Hk2 & Hk3)].
      * left. split; [reflexivity|]. intros j Hj. destruct (Z.eq_dec j i) as [->|]; [congruence|]. apply Hk. lia.
      * right. repeat split; try lia; try assumption. intros j Hj.
        destruct (Z.eq_dec j i) as [->|]; [congruence|]. apply Hk3. lia.
Qed.

Lemma bfind_char_spec : forall b c x off, holds b c -> 0 <= off ->
  exists k, bfind_char b x off = Ok k /\
    ((k = npos /\ none_from (fun y => y = x) c off) \/ first_from (fun y => y = x) c off k).
Proof.
  intros b c x off H Ho. destruct (holds_B b c H) as (p & -> & _). unfold bfind_char. cbn [blen mem B].
  destruct (off >=? zlen c) eqn:E.
  - exists npos. split; [reflexivity|]. left. split; [reflexivity|]. intros j Hj. lia.
  - destruct (bfind_loop_spec (fun y => y =? x) c (p ++ beyond b) (Z.to_nat (zlen c - off)) off Ho) as (k & Ek & Hk); [lia|].
    exists k. split; [exact Ek|]. unfold none_from, first_from in *.
    destruct Hk as [[-> Hk]|(Hk1 & Hk2 & Hk3)]; [left|right].
    + split; [reflexivity|]. intros j Hj Q. apply (Hk j Hj). lia.
    + repeat split; try lia; try (intros j Hj Q; apply (Hk3 j Hj); lia).
Qed.

Lemma existsb_In : forall x l, existsb (fun y => x =? y) l = true <-> In x l.
Proof.
  intros. rewrite existsb_exists. split; [intros (y & I & E)|intros I; exists x; split; [assumption|lia]].
  assert (x = y) by lia. subst; assumption.
Qed.

Lemma bfind_chars_spec : forall b c s r off, holds b c -> nulfree s -> zlen s <= 255 -> 0 <= off ->
  exists k, bfind_chars b (s ++ 0 :: r) off = Ok k /\
    ((k = npos /\ none_from (fun y => In y s) c off) \/ first_from (fun y => In y s) c off k).
Proof.
  intros b c s r off H Hs Hl Ho. destruct (holds_B b c H) as (p & -> & _). unfold bfind_chars. cbn [blen mem B].
  destruct (off >=? zlen c) eqn:E.
  - exists npos. split; [reflexivity|]. left. split; [reflexivity|]. intros j Hj. lia.
  - rewrite c_strlen_eq by assumption. cbn [bind].
    assert (Z.to_nat (u8 (zlen s)) = List.length s) as -> by (unfold u8, zlen in *; rewrite Z.mod_small by lia; lia).
    rewrite firstn_app_exact.
    destruct (bfind_loop_spec (fun c => existsb (fun x => c =? x) s) c (p ++ beyond b) (Z.to_nat (zlen c - off)) off Ho) as (k & Ek & Hk); [lia|].
    exists k. split; [exact Ek|]. unfold none_from, first_from in *.
    destruct Hk as [[-> Hk]|(Hk1 & Hk2 & Hk3)]; [left|right].
    + split; [reflexivity|]. intros j Hj Q. apply (Hk j Hj). apply existsb_In; assumption.
    + rewrite existsb_In in Hk2. repeat split; try lia; try assumption.
      intros j Hj Q. apply (Hk3 j Hj). apply existsb_In; assumption.
Qed.

Lemma npos_not_found : forall b c P off k, holds b c -> first_from P c off k -> k <> npos.
Proof.
  intros b c P off k H (H1 & _). destruct (holds_B b c H) as (p & _ & Hp). unfold Bok, npos in *.
  pose proof (zlen_nonneg _ p). lia.
Qed.

(** sub-buffers *)
Lemma bsub_spec : forall b c s e, holds b c -> 0 <= s -> 0 <= e ->
  let s' := Z.min s (bcap b) in
  bsub b s e = Ok (mkBuf (skipn (Z.to_nat s') (mem b)) (Z.max 0 (Z.min e (bcap b) - s')) (bcap b - s')).
Proof.
  intros b c s e H Hs He s'. destruct H as (H1 & H2 & H3 & _). unfold bsub.
  replace (if s >? bcap b then bcap b else s) with s' by (subst s'; destruct (s >? bcap b) eqn:?; lia).
  replace (if e >? bcap b then bcap b else e) with (Z.min e (bcap b)) by (destruct (e >? bcap b) eqn:?; lia).
  assert (0 <= s' <= bcap b) by (subst s'; lia).
  replace (zlen (mem b) <? s') with false by lia.
  unfold u8. f_equal. f_equal; [|rewrite Z.mod_small; lia].
  destruct (Z.min e (bcap b) <? s') eqn:E; rewrite Z.mod_small; lia.
Qed.

(** ** simulation of the ideal queue *)
Definition image (bs : list bufm) (qs : list queue) : Prop := Forall2 represents bs qs.

Lemma nth_error_F2 : forall A C (R : A -> C -> Prop) l m i y, Forall2 R l m -> nth_error m i = Some y ->
  exists x, nth_error l i = Some x /\ R x y.
Proof.
  intros A C R l m i y H. revert i. induction H; intros i E; destruct i; try discriminate; cbn in *.
  - injection E as <-. eauto.
  - eauto.
Qed.
Lemma upd_F2 : forall A C (R : A -> C -> Prop) l m i x y, Forall2 R l m -> R x y -> Forall2 R (upd i x l) (upd i y m).
Proof. intros A C R l m i x y H. revert i. induction H; intros i Rxy; destruct i; cbn; constructor; auto. Qed.

Lemma represents_B : forall b q, represents b q ->
  exists p, b = B (q_items q) p (beyond b) /\ Bok (q_items q) p /\ q_cap q = zlen (q_items q) + zlen p.
Proof.
  intros b q (E & H). destruct (holds_B _ _ H) as (p & Eb & Hp). exists p. repeat split; auto.
  rewrite <- E, Eb. reflexivity.
Qed.
Lemma B_represents : forall q c p e, Bok c p -> q_cap q = zlen c + zlen p -> represents (B c p e) (with_items q c).
Proof. intros. split; [cbn; congruence|]. apply B_holds; assumption. Qed.

Lemma fit_pad : forall q (p x : list Z), q_cap q = zlen (q_items q) + zlen p -> fit q x = firstn (List.length p) x.
Proof. intros. unfold fit. rewrite H. f_equal. unfold zlen. lia. Qed.

Lemma map_upd_same : forall A C (f : A -> C) l i x y, nth_error l i = Some x -> f y = f x -> map f (upd i y l) = map f l.
Proof. induction l; intros i x y E H; destruct i; cbn in *; try discriminate; f_equal; [congruence|eauto]. Qed.

Lemma code_step_sim : forall o bs qs qs' n, image bs qs -> ideal_step o qs = Some (qs', n) ->
  exists bs', code_step o bs = Ok (bs', n) /\ image bs' qs' /\ map beyond bs' = map beyond bs.
Proof.
  intros o bs qs qs' n H E. destruct o; cbn [ideal_step code_step] in *.
  - destruct (nth_error qs i) as [q|] eqn:Eq; [|discriminate]. destruct (nth_error qs j) as [r|] eqn:Er; [|discriminate].
    injection E as <- <-.
    destruct (nth_error_F2 _ _ _ _ _ _ _ H Eq) as (b & Eb & Rb). destruct (nth_error_F2 _ _ _ _ _ _ _ H Er) as (b' & Eb' & Rb').
    unfold bat. rewrite Eb, Eb'. cbn [bind].
    destruct (represents_B _ _ Rb) as (p & -> & Hp & Hc). destruct (represents_B _ _ Rb') as (p' & -> & Hp' & Hc').
    rewrite bpush_B by assumption. cbn [bind]. rewrite (fit_pad q p) by assumption.
    eexists. split; [f_equal; f_equal; unfold zlen; rewrite min_len; lia|]. split.
    + apply upd_F2; [assumption|]. apply B_represents; [apply bpush_ok; assumption|].
      rewrite Hc, zlen_app. unfold zlen. rewrite min_len, skipn_length. lia.
    + eapply map_upd_same; [exact Eb|]. rewrite !B_beyond. reflexivity.
  - destruct (nth_error qs i) as [q|] eqn:Eq; [|discriminate]. injection E as <- <-.
    destruct (nth_error_F2 _ _ _ _ _ _ _ H Eq) as (b & Eb & Rb). unfold bat. rewrite Eb. cbn [bind].
    destruct (represents_B _ _ Rb) as (p & -> & Hp & Hc).
    rewrite bpush_char_B by assumption. rewrite (fit_pad q p) by assumption.
    destruct p as [|y p]; cbn [bind List.length firstn app].
    + eexists. split; [reflexivity|]. rewrite app_nil_r. split.
      * apply upd_F2; [assumption|]. apply B_represents; assumption.
      * eapply map_upd_same; [exact Eb|]. rewrite !B_beyond. reflexivity.
    + rewrite firstn_nil. eexists. split; [reflexivity|]. split.
      * apply upd_F2; [assumption|].
        assert (X : zlen (q_items q ++ [c]) + zlen p = zlen (q_items q) + zlen (y :: p)) by (rewrite zlen_app; unfold zlen; cbn [List.length]; lia).
        apply B_represents; [unfold Bok in *; lia|lia].
      * eapply map_upd_same; [exact Eb|]. rewrite !B_beyond. reflexivity.
  - destruct (nth_error qs i) as [q|] eqn:Eq; [|discriminate].
    destruct ((0 <=? n0) && (n0 <=? 255)) eqn:En; [|discriminate]. injection E as <- <-.
    destruct (nth_error_F2 _ _ _ _ _ _ _ H Eq) as (b & Eb & Rb). unfold bat. rewrite Eb. cbn [bind].
    destruct (represents_B _ _ Rb) as (p & -> & Hp & Hc).
    rewrite bpop_B by (assumption || lia). cbn [bind]. eexists. split; [reflexivity|]. split.
    + apply upd_F2; [assumption|]. apply B_represents; [apply bpop_ok; assumption|].
      rewrite zlen_repeat. unfold zlen in *. rewrite skipn_length. lia.
    + eapply map_upd_same; [exact Eb|]. rewrite !B_beyond. reflexivity.
  - destruct (nth_error qs i) as [q|] eqn:Eq; [|discriminate]. injection E as <- <-.
    destruct (nth_error_F2 _ _ _ _ _ _ _ H Eq) as (b & Eb & Rb). unfold bat. rewrite Eb. cbn [bind].
    destruct (represents_B _ _ Rb) as (p & -> & Hp & Hc).
    rewrite berase_B. cbn [bind]. eexists. split; [reflexivity|]. split.
    + apply upd_F2; [assumption|]. unfold Bok in *.
      assert (X : zlen (@nil Z) + zlen (repeat 0 (List.length (q_items q) + List.length p)) = zlen (q_items q) + zlen p)
        by (rewrite zlen_repeat; unfold zlen; cbn [List.length]; lia).
      apply B_represents; [unfold Bok; lia|lia].
    + eapply map_upd_same; [exact Eb|]. rewrite !B_beyond. reflexivity.
  - destruct (nth_error qs i) as [q|] eqn:Eq; [|discriminate].
    destruct ((1 <=? q_cap q) && _) eqn:En; [|discriminate]. injection E as <- <-.
    apply andb_true_iff in En. destruct En as (En & Es).
    assert (Hs : nulfree s).
    { apply Forall_forall. intros x I. rewrite forallb_forall in Es. specialize (Es x I). lia. }
    destruct (nth_error_F2 _ _ _ _ _ _ _ H Eq) as (b & Eb & Rb). unfold bat. rewrite Eb. cbn [bind].
    destruct (represents_B _ _ Rb) as (p & -> & Hp & Hc).
    rewrite bset_B by (assumption || lia). cbn [bind]. rewrite Hc. eexists. split; [reflexivity|]. split.
    + apply upd_F2; [assumption|].
      assert (X : zlen (firstn (Z.to_nat (zlen (q_items q) + zlen p - 1)) s) +
         zlen (repeat 0 (List.length (q_items q) + List.length p - Nat.min (List.length (q_items q) + List.length p - 1) (List.length s)))
         = zlen (q_items q) + zlen p).
      { rewrite zlen_repeat. unfold zlen. rewrite min_len. unfold zlen in *. lia. }
      apply B_represents; [unfold Bok in *; lia|lia].
    + eapply map_upd_same; [exact Eb|]. rewrite !B_beyond. reflexivity.
  - destruct (nth_error qs i) as [q|] eqn:Eq; [|discriminate]. destruct (nth_error qs j) as [r|] eqn:Er; [|discriminate].
    destruct (nth_error_F2 _ _ _ _ _ _ _ H Eq) as (b & Eb & Rb). destruct (nth_error_F2 _ _ _ _ _ _ _ H Er) as (b' & Eb' & Rb').
    unfold bat. rewrite Eb, Eb'. cbn [bind].
    destruct (represents_B _ _ Rb) as (p & -> & Hp & Hc). destruct (represents_B _ _ Rb') as (p' & Eb'' & Hp' & Hc').
    rewrite (fit_pad q p) in E by assumption.
    destruct (Nat.eqb i j) eqn:Eij.
    + apply Nat.eqb_eq in Eij. subst j. rewrite Eq in Er. injection Er as ->.
      rewrite (nth_error_upd_same _ _ _ _ _ Eq) in E. cbn [q_items with_items] in E. injection E as <- <-.
      rewrite bpush_B by assumption. cbn [bind].
      rewrite bpop_B; [|apply bpush_ok; assumption|pose proof (zlen_nonneg _ p); pose proof (zlen_nonneg _ (q_items r)); lia].
      cbn [bind]. rewrite !upd_upd.
      assert (L : Z.to_nat (Z.min (zlen p) (zlen (q_items r))) = List.length (firstn (List.length p) (q_items r)))
        by (rewrite min_len; unfold zlen; lia).
      rewrite L.
      eexists. split; [f_equal; f_equal; unfold zlen; rewrite min_len; lia|]. split.
      * apply upd_F2; [assumption|].
        pose proof (bpop_ok _ _ (List.length (firstn (List.length p) (q_items r))) (bpush_ok _ _ (q_items r) Hp)) as K.
        apply (B_represents (with_items r _)); [exact K|]. cbn [q_cap with_items]. rewrite Hc.
        rewrite zlen_repeat. unfold zlen. rewrite !skipn_length, !app_length, !min_len. lia.
      * eapply map_upd_same; [exact Eb|]. rewrite !B_beyond. reflexivity.
    + apply Nat.eqb_neq in Eij. rewrite nth_error_upd_other in E by assumption. rewrite Er in E.
      injection E as <- <-. rewrite Eb''. unfold bmove. rewrite bpush_B by assumption. cbn [bind].
      rewrite bpop_B; [|assumption|pose proof (zlen_nonneg _ p); pose proof (zlen_nonneg _ (q_items r)); lia]. cbn [bind].
      assert (L : Z.to_nat (Z.min (zlen p) (zlen (q_items r))) = List.length (firstn (List.length p) (q_items r)))
        by (rewrite min_len; unfold zlen; lia).
      rewrite L.
      eexists. split; [f_equal; f_equal; unfold zlen; rewrite min_len; lia|]. split.
      * apply upd_F2; [apply upd_F2; [assumption|]|].
        -- apply B_represents; [apply bpush_ok; assumption|].
           rewrite Hc, zlen_app. unfold zlen. rewrite min_len, skipn_length. lia.
        -- apply B_represents; [apply bpop_ok; assumption|].
           rewrite Hc', zlen_repeat. unfold zlen. rewrite skipn_length. lia.
      * erewrite (map_upd_same _ _ beyond (upd i _ _)); [|rewrite nth_error_upd_other; [exact Eb'|assumption]|].
        2:{ rewrite B_beyond. reflexivity. }
        eapply map_upd_same; [exact Eb|]. rewrite !B_beyond. reflexivity.
  - destruct (nth_error qs i) as [q|] eqn:Eq; [|discriminate].
    destruct (q_items q) as [|y ys] eqn:Ei; [discriminate|]. rewrite <- Ei in E.
    destruct (0 <=? k) eqn:Ek; [|discriminate]. injection E as <- <-.
    destruct (nth_error_F2 _ _ _ _ _ _ _ H Eq) as (b & Eb & Rb). unfold bat. rewrite Eb. cbn [bind].
    destruct (represents_B _ _ Rb) as (p & -> & Hp & Hc).
    rewrite bput_B by (assumption || lia || congruence). cbn [bind]. eexists. split; [reflexivity|]. split.
    + apply upd_F2; [assumption|].
      apply B_represents; unfold Bok, zlen in *; rewrite upd_length; lia.
    + eapply map_upd_same; [exact Eb|]. rewrite !B_beyond. reflexivity.
Qed.

Lemma code_run_sim : forall l bs qs qs' ns, image bs qs -> ideal_run l qs = Some (qs', ns) ->
  exists bs', code_run l bs = Ok (bs', ns) /\ image bs' qs' /\ map beyond bs' = map beyond bs.
Proof.
  induction l as [|o l IH]; intros bs qs qs' ns H E; cbn [ideal_run code_run] in *.
  - injection E as <- <-. eauto.
  - destruct (ideal_step o qs) as [[qs1 n]|] eqn:E1; [|discriminate].
    destruct (ideal_run l qs1) as [[qs2 ns2]|] eqn:E2; [|discriminate]. injection E as <- <-.
    destruct (code_step_sim _ _ _ _ _ H E1) as (bs1 & C1 & I1 & M1).
    destruct (IH _ _ _ _ I1 E2) as (bs2 & C2 & I2 & M2).
    exists bs2. rewrite C1. cbn [bind]. rewrite C2. cbn [bind]. repeat split; auto. congruence.
Qed.

Lemma bmove_conserves : forall b o c d, holds b c -> holds o d ->
  exists b' o' n, bmove b o = Ok (b', o', n) /\ n = Z.min (bcap b - zlen c) (zlen d) /\
    holds b' (c ++ firstn (Z.to_nat n) d) /\ holds o' (skipn (Z.to_nat n) d) /\
    bcap b' = bcap b /\ bcap o' = bcap o /\ beyond b' = beyond b /\ beyond o' = beyond o.
Proof.
  intros b o c d Hb Ho. destruct (holds_B _ _ Hb) as (p & Eb & Hp). destruct (holds_B _ _ Ho) as (p' & Eo & Hp').
  pose proof (zlen_nonneg _ p). pose proof (zlen_nonneg _ d).
  rewrite Eb, Eo. unfold bmove. rewrite bpush_B by assumption. cbn [bind]. rewrite bpop_B by (assumption || lia). cbn [bind].
  do 3 eexists. split; [reflexivity|]. cbn [bcap B].
  assert (F : firstn (Z.to_nat (Z.min (zlen p) (zlen d))) d = firstn (List.length p) d).
  { rewrite <- (firstn_min _ d (List.length p)). f_equal. unfold zlen; lia. }
  rewrite F. split; [lia|]. rewrite !B_beyond.
  split; [apply B_holds, bpush_ok; assumption|]. split; [apply B_holds, bpop_ok; assumption|].
  split; [|split; [|split; reflexivity]].
  - rewrite zlen_app. unfold zlen. rewrite min_len, skipn_length. lia.
  - rewrite zlen_repeat. unfold zlen. rewrite skipn_length. lia.
Qed.

Lemma find_char_iff : forall b c x off, holds b c -> 0 <= off ->
  exists k, bfind_char b x off = Ok k /\
    (k = 255 <-> none_from (fun y => y = x) c off) /\ (k <> 255 <-> first_from (fun y => y = x) c off k).
Proof.
  intros b c x off H Ho. destruct (bfind_char_spec b c x off H Ho) as (k & E & Hk). exists k. split; [exact E|].
  destruct Hk as [[-> N]|F].
  - split; split; intros X; try tauto; try congruence. exfalso. exact (npos_not_found _ _ _ _ _ H X eq_refl).
  - pose proof (npos_not_found _ _ _ _ _ H F) as K. unfold npos in K. split; split; intros X; try tauto; try congruence.
    destruct F as (F1 & F2 & _). exfalso. exact (X k F1 F2).
Qed.
Lemma find_chars_iff : forall b c s r off, holds b c -> nulfree s -> zlen s <= 255 -> 0 <= off ->
  exists k, bfind_chars b (s ++ 0 :: r) off = Ok k /\
    (k = 255 <-> none_from (fun y => In y s) c off) /\ (k <> 255 <-> first_from (fun y => In y s) c off k).
Proof.
  intros b c s r off H Hs Hl Ho. destruct (bfind_chars_spec b c s r off H Hs Hl Ho) as (k & E & Hk). exists k. split; [exact E|].
  destruct Hk as [[-> N]|F].
  - split; split; intros X; try tauto; try congruence. exfalso. exact (npos_not_found _ _ _ _ _ H X eq_refl).
  - pose proof (npos_not_found _ _ _ _ _ H F) as K. unfold npos in K. split; split; intros X; try tauto; try congruence.
    destruct F as (F1 & F2 & _). exfalso. exact (X k F1 F2).
Qed.

Lemma find_chars_256 : forall b c s r off, holds b c -> nulfree s -> zlen s = 256 -> 0 <= off ->
  bfind_chars b (s ++ 0 :: r) off = Ok 255.
Proof.
  intros b c s r off H Hs Hl Ho. destruct (holds_B _ _ H) as (p & -> & _). unfold bfind_chars. cbn [blen mem B]. destruct (off >=? zlen c) eqn:E; [reflexivity|].
  rewrite c_strlen_eq by assumption. cbn [bind]. rewrite Hl. change (Z.to_nat (u8 256)) with 0%nat. cbn [firstn].
  destruct (bfind_loop_spec (fun _ => existsb (fun _ : Z => true) []) c (p ++ beyond b) (Z.to_nat (zlen c - off)) off Ho) as (k & Ek & Hk); [lia|].
  cbn [existsb] in *. rewrite Ek. f_equal. destruct Hk as [[-> _]|(_ & X & _)]; [reflexivity|discriminate].
Qed.

Lemma bsub_window : forall b c s e, holds b c -> 0 <= s <= e -> e <= blen b ->
  exists v, bsub b s e = Ok v /\ holds v (firstn (Z.to_nat (e - s)) (skipn (Z.to_nat s) c)) /\ bcap v = bcap b - s.
Proof.
  intros b c s e H Hs He. pose proof H as (H1 & H2 & H3 & H4).
  rewrite (bsub_spec b c s e H) by lia. eexists. split; [reflexivity|].
  rewrite !Z.min_l, Z.max_r by lia. cbn [bcap]. split; [|reflexivity].
  unfold holds; cbn [mem blen bcap]. repeat split; try lia.
  - unfold zlen in *. rewrite skipn_length. lia.
  - rewrite H4. rewrite skipn_firstn_comm, firstn_firstn. f_equal. lia.
Qed.

Lemma bset_spec : forall b c s r, holds b c -> nulfree s -> 1 <= bcap b ->
  exists b', bset b (s ++ 0 :: r) = Ok b' /\ bcap b' = bcap b /\ beyond b' = beyond b /\
    holds b' (firstn (Z.to_nat (bcap b - 1)) s) /\
    c_str (mem b') = Ok (firstn (Z.to_nat (bcap b - 1)) s).
Proof.
  intros b c s r H Hs H1. destruct (holds_B _ _ H) as (p & Eb & Hp). rewrite Eb in *. clear Eb. cbn [bcap B] in H1.
  set (e := beyond b) in *. clearbody e. clear b.
  rewrite bset_B by assumption. eexists. split; [reflexivity|]. cbn [bcap B]. rewrite !B_beyond.
  set (n := (List.length c + List.length p - Nat.min (List.length c + List.length p - 1) (List.length s))%nat).
  assert (L : zlen (firstn (Z.to_nat (zlen c + zlen p - 1)) s) + zlen (repeat 0 n) = zlen c + zlen p).
  { rewrite zlen_repeat. subst n. unfold zlen in *. rewrite min_len. lia. }
  split; [exact L|]. split; [reflexivity|]. split.
  - apply B_holds. unfold Bok in *. lia.
  - cbn [mem B]. destruct n eqn:En; [exfalso; subst n; unfold zlen in *; lia|]. cbn [repeat app].
    apply c_str_eq. apply nulfree_firstn. assumption.
Qed.

Lemma bget_spec : forall b c i, holds b c -> c <> [] -> 0 <= i ->
  bget b i = Ok (nth (Z.to_nat (Z.min i (zlen c - 1))) c 0).
Proof. intros b c i H N Hi. destruct (holds_B _ _ H) as (p & -> & Hp). apply bget_B; assumption. Qed.
Lemma bput_spec : forall b c i x, holds b c -> c <> [] -> 0 <= i ->
  exists b', bput b i x = Ok b' /\ holds b' (upd (Z.to_nat (Z.min i (zlen c - 1))) x c) /\
    bcap b' = bcap b /\ beyond b' = beyond b.
Proof.
  intros b c i x H N Hi. destruct (holds_B _ _ H) as (p & -> & Hp). rewrite bput_B by assumption.
  eexists. split; [reflexivity|]. rewrite !B_beyond.
  split; [apply B_holds; unfold Bok, zlen in *; rewrite upd_length; assumption|].
  split; [cbn [B bcap]; unfold zlen; rewrite upd_length; reflexivity|reflexivity].
Qed.
Lemma empty_access : forall b i x, blen b = 0 -> 0 <= i -> zlen (mem b) <= 255 ->
  bget b i = UB OutOfBounds /\ bput b i x = UB OutOfBounds.
Proof.
  intros b i x E Hi L. split; [|apply bput_empty; assumption].
  rewrite bget_empty by assumption. replace (zlen (mem b) <=? 255) with true by lia. reflexivity.
Qed.
Lemma queries : forall b c, holds b c ->
  bcap_rem b = bcap b - zlen c /\ (bfull b = true <-> zlen c = bcap b) /\ (bempty b = true <-> c = []).
Proof.
  intros b c (L & C & M & E). assert (N : zlen c = blen b) by (unfold zlen in *; rewrite E, firstn_length; lia).
  assert (R : bcap_rem b = bcap b - zlen c) by (unfold bcap_rem, u8; rewrite Z.mod_small by lia; lia).
  split; [exact R|]. unfold bfull, bempty. rewrite R, !Z.eqb_eq. split; [lia|]. rewrite <- N. unfold zlen. split; [destruct c; [reflexivity|cbn [List.length]; lia]|intros ->; reflexivity].
Qed.
