(* ProofsLoco.v -- lemmas behind PropsLoco.v *)
From Verif Require Import ZLib SpecLoco ProofsBuffer.

Lemma fmask_ok : forall f, 0 <= f < 32 -> fmask f = Ok (2 ^ f).
Proof.
  intros f H. unfold fmask. replace (f <? 32) with true by lia. f_equal. rewrite shl by lia. unfold u32.
  rewrite Z.mul_1_l, Z.mod_small; [reflexivity|]. split; [lia|]. change 4294967296 with (2 ^ 32). apply Z.pow_lt_mono_r; lia.
Qed.

Lemma land_pow2 : forall x f, 0 <= f -> negb (Z.land x (2 ^ f) =? 0) = Z.testbit x f.
Proof.
  intros x f H. destruct (Z.testbit x f) eqn:E.
  - destruct (Z.land x (2 ^ f) =? 0) eqn:Z0; [|reflexivity].
    apply Z.eqb_eq in Z0. assert (K : Z.testbit (Z.land x (2 ^ f)) f = true) by (rewrite Z.land_spec, E, Z.pow2_bits_true by lia; reflexivity).
    rewrite Z0, Z.bits_0 in K. discriminate.
  - replace (Z.land x (2 ^ f)) with 0; [reflexivity|]. symmetry. apply Z.bits_inj'. intros n Hn.
    rewrite Z.land_spec, Z.bits_0. destruct (Z.eq_dec n f) as [->|N]; [rewrite E; reflexivity|].
    rewrite Z.pow2_bits_false by lia. apply andb_false_r.
Qed.

Lemma getFunction_testbit : forall d f, 0 <= f < 32 -> ld_getFunction d f = Ok (Z.testbit (ld_fbits d) f).
Proof. intros d f H. unfold ld_getFunction. rewrite fmask_ok by assumption. cbn [bind]. rewrite land_pow2 by lia. reflexivity. Qed.

Lemma setFunction_spec : forall d f on, function_word d -> 0 <= f < 32 ->
  exists d', ld_setFunction d f on = Ok d' /\ function_word d' /\ same_but_functions d d' /\
    forall g, 0 <= g < 32 -> ld_getFunction d' g = if g =? f then Ok on else ld_getFunction d g.
Proof.
  intros d f on W H. unfold ld_setFunction. rewrite fmask_ok by assumption. cbn [bind].
  eexists. split; [reflexivity|]. unfold function_word, same_but_functions in *. cbn [ld_fbits ld_uid ld_vel ld_dir ld_addr].
  assert (P : 0 <= 2 ^ f < 2 ^ 32) by (split; [lia|apply Z.pow_lt_mono_r; lia]).
  split; [|split; [repeat split; reflexivity|]].
  - destruct on; [apply lor_range; lia|]. apply land_range; [lia|lia|].
    apply (lxor_range _ _ 32); lia.
  - intros g Hg. rewrite !getFunction_testbit by assumption. cbn [ld_fbits].
    destruct on; rewrite ?Z.lor_spec, ?Z.land_spec, ?Z.lxor_spec.
    + destruct (g =? f) eqn:E.
      * apply Z.eqb_eq in E. subst g. rewrite Z.pow2_bits_true by lia. rewrite orb_true_r. reflexivity.
      * rewrite Z.pow2_bits_false by lia. rewrite orb_false_r. reflexivity.
    + assert (T : Z.testbit 0xFFFFFFFF g = true).
      { change 0xFFFFFFFF with (Z.ones 32). apply Z.ones_spec_low. lia. }
      rewrite T. destruct (g =? f) eqn:E.
      * apply Z.eqb_eq in E. subst g. rewrite Z.pow2_bits_true by lia. rewrite andb_false_r. reflexivity.
      * rewrite Z.pow2_bits_false by lia. rewrite andb_true_r. reflexivity.
Qed.

Lemma wide_function : forall d f on, 32 <= f ->
  ld_setFunction d f on = UB BadShift /\ ld_getFunction d f = UB BadShift.
Proof. intros d f on H. unfold ld_setFunction, ld_getFunction, fmask. replace (f <? 32) with false by lia. split; reflexivity. Qed.

(** names *)
Lemma skipn_repeat : forall n m, skipn n (repeat 0 m) = repeat 0 (m - n).
Proof. induction n; destruct m; cbn; auto. Qed.

Lemma name_copy : forall s r, nulfree s ->
  c_strncpy erased_name (s ++ 0 :: r) kEngineNameLength =
  Ok (firstn 32 s ++ repeat 0 (33 - List.length (firstn 32 s))).
Proof.
  intros s r H. unfold erased_name, kEngineNameLength. rewrite c_strncpy_eq; [|assumption|rewrite zlen_repeat; lia].
  change (Z.to_nat 32) with 32%nat. f_equal. rewrite <- app_assoc. f_equal.
  rewrite skipn_repeat, repeat_0_app. f_equal. rewrite min_len. lia.
Qed.

Lemma shows_copy : forall s, nulfree s -> shows_name (firstn 32 s ++ repeat 0 (33 - List.length (firstn 32 s))) (firstn 32 s).
Proof. intros s H. repeat split; [apply nulfree_firstn; assumption|rewrite min_len; lia]. Qed.

Lemma shows_name_str : forall f t, shows_name f t -> c_str f = Ok t /\ List.length f = 33%nat.
Proof.
  intros f t (H1 & H2 & ->). replace (33 - List.length t)%nat with (S (32 - List.length t)) by lia.
  cbn [repeat]. split; [apply c_str_eq; assumption|]. rewrite app_length. cbn [List.length]. rewrite repeat_length. lia.
Qed.

Lemma strncmp_eq_spec : forall n a b ra rb, nulfree a -> nulfree b ->
  strncmp_eq (a ++ 0 :: ra) (b ++ 0 :: rb) n = Ok (if list_eq_dec Z.eq_dec (firstn n a) (firstn n b) then true else false).
Proof.
  induction n; intros a b ra rb Ha Hb.
  { destruct a, b; reflexivity. }
  destruct a as [|x a], b as [|y b]; cbn [app strncmp_eq firstn].
  - rewrite Z.eqb_refl. match goal with |- context [list_eq_dec ?e ?x ?y] => destruct (list_eq_dec e x y) end; congruence.
  - inversion Hb; subst. replace (0 =? y) with false by lia. match goal with |- context [list_eq_dec ?e ?x ?y] => destruct (list_eq_dec e x y) end; congruence.
  - inversion Ha; subst. replace (x =? 0) with false by lia. match goal with |- context [list_eq_dec ?e ?x ?y] => destruct (list_eq_dec e x y) end; congruence.
  - inversion Ha; inversion Hb; subst. destruct (x =? y) eqn:E.
    + apply Z.eqb_eq in E. subst y. replace (x =? 0) with false by lia. rewrite IHn by assumption.
      repeat match goal with |- context [list_eq_dec ?e ?x ?y] => destruct (list_eq_dec e x y) end; congruence.
    + apply Z.eqb_neq in E. match goal with |- context [list_eq_dec ?e ?x ?y] => destruct (list_eq_dec e x y) end; congruence.
Qed.

Lemma lo_setName_spec : forall l s r, nulfree s ->
  exists l', lo_setName l (s ++ 0 :: r) = Ok l' /\ si_avail (lo_info l') = NAME_KNOWN /\
    shows_name (si_name (lo_info l')) (firstn 32 s) /\ lo_data l' = lo_data lo_reset /\ lo_proto l' = lo_proto lo_reset.
Proof.
  intros l s r H. unfold lo_setName. change (si_name (lo_info lo_reset)) with erased_name. rewrite name_copy by assumption.
  cbn [bind]. eexists. split; [reflexivity|]. cbn [lo_info lo_data lo_proto si_avail si_name].
  repeat split; auto using nulfree_firstn. rewrite min_len; lia.
Qed.
Lemma si_setName_spec : forall i s r, nulfree s ->
  exists i', si_setName i (s ++ 0 :: r) = Ok i' /\ si_avail i' = NAME_KNOWN /\ shows_name (si_name i') (firstn 32 s).
Proof.
  intros i s r H. unfold si_setName. change (si_name si_reset) with erased_name. rewrite name_copy by assumption.
  cbn [bind]. eexists. split; [reflexivity|]. cbn [si_avail si_name]. split; [reflexivity|apply shows_copy; assumption].
Qed.

Lemma same_name : forall f t s r, shows_name f t -> nulfree s ->
  strncmp_eq (s ++ 0 :: r) f (Z.to_nat kEngineNameLength) = Ok (if list_eq_dec Z.eq_dec (firstn 32 s) t then true else false).
Proof.
  intros f t s r (H1 & H2 & ->) Hs. replace (33 - List.length t)%nat with (S (32 - List.length t)) by lia. cbn [repeat].
  rewrite strncmp_eq_spec by assumption. change (Z.to_nat kEngineNameLength) with 32%nat.
  rewrite (firstn_all2 t) by lia. reflexivity.
Qed.

Lemma avail_eqb_spec : forall a b, avail_eqb a b = true <-> a = b.
Proof. destruct a, b; cbn; split; congruence. Qed.

Lemma lo_setNameConditional_spec : forall l t s r, shows_name (si_name (lo_info l)) t -> nulfree s ->
  (si_avail (lo_info l) <> EMPTY /\ firstn 32 s = t -> lo_setNameConditional l (s ++ 0 :: r) = Ok (l, false)) /\
  (si_avail (lo_info l) = EMPTY \/ firstn 32 s <> t ->
     exists l', lo_setNameConditional l (s ++ 0 :: r) = Ok (l', true) /\ lo_setName l (s ++ 0 :: r) = Ok l').
Proof.
  intros l t s r H Hs. unfold lo_setNameConditional. rewrite (same_name _ _ _ _ H Hs).
  destruct (lo_setName_spec l s r Hs) as (l' & E & _). rewrite E. cbn [bind].
  destruct (avail_eqb (si_avail (lo_info l)) EMPTY) eqn:A.
  - apply avail_eqb_spec in A. cbn [bind]. split; [tauto|]. intros _. exists l'. auto.
  - assert (si_avail (lo_info l) <> EMPTY) by (intros X; apply avail_eqb_spec in X; congruence).
    cbn [bind]. match goal with |- context [list_eq_dec ?e ?x ?y] => destruct (list_eq_dec e x y) end; split; intros; try tauto; eauto.
Qed.
Lemma si_setNameConditional_spec : forall i t s r, shows_name (si_name i) t -> nulfree s ->
  (si_avail i <> EMPTY /\ firstn 32 s = t -> si_setNameConditional i (s ++ 0 :: r) = Ok (i, false)) /\
  (si_avail i = EMPTY \/ firstn 32 s <> t ->
     exists i', si_setNameConditional i (s ++ 0 :: r) = Ok (i', true) /\ si_setName i (s ++ 0 :: r) = Ok i').
Proof.
  intros l t s r H Hs. unfold si_setNameConditional. rewrite (same_name _ _ _ _ H Hs).
  destruct (si_setName_spec l s r Hs) as (l' & E & _). rewrite E. cbn [bind].
  destruct (avail_eqb (si_avail l) EMPTY) eqn:A.
  - apply avail_eqb_spec in A. cbn [bind]. split; [tauto|]. intros _. exists l'. auto.
  - assert (si_avail l <> EMPTY) by (intros X; apply avail_eqb_spec in X; congruence).
    cbn [bind]. match goal with |- context [list_eq_dec ?e ?x ?y] => destruct (list_eq_dec e x y) end; split; intros; try tauto; eauto.
Qed.

(** protocol strings *)
Lemma proto_spec : forall l s r, List.length (lo_proto l) = 8%nat -> nulfree s ->
  exists l', lo_setProtocolString l (s ++ 0 :: r) = Ok l' /\ lo_info l' = lo_info l /\ lo_data l' = lo_data l /\
    lo_proto l' = firstn 8 s ++ repeat 0 (8 - List.length s).
Proof.
  intros l s r L H. unfold lo_setProtocolString, kProtocolNameMaxLength.
  rewrite c_strncpy_eq; [|assumption|unfold zlen; lia]. cbn [bind]. eexists. split; [reflexivity|]. cbn.
  repeat split. change (Z.to_nat 8) with 8%nat. rewrite skipn_all2 by lia. rewrite app_nil_r. reflexivity.
Qed.

Lemma proto_str : forall s, nulfree s ->
  c_str (firstn 8 s ++ repeat 0 (8 - List.length s)) = if (List.length s <? 8)%nat then Ok s else UB OutOfBounds.
Proof.
  intros s H. destruct (List.length s <? 8)%nat eqn:E.
  - apply Nat.ltb_lt in E. rewrite firstn_all2 by lia.
    replace (8 - List.length s)%nat with (S (7 - List.length s)) by lia. apply c_str_eq; assumption.
  - apply Nat.ltb_ge in E. replace (8 - List.length s)%nat with 0%nat by lia. cbn [repeat]. rewrite app_nil_r.
    apply c_str_none. apply nulfree_firstn; assumption.
Qed.

Lemma lo_print_full : forall l t, si_avail (lo_info l) = FULL_DETAILS -> shows_name (si_name (lo_info l)) t ->
  lo_print l = (p <- c_str (lo_proto l) ;;
    Ok ((zs "  EngineShortInfo: " ++ zs "'" ++ t ++ zs "'") ++ ld_print (lo_data l) ++ zs " Proto: " ++ p ++ nl)).
Proof.
  intros l t A N. unfold lo_print, si_print. rewrite A. rewrite (proj1 (shows_name_str _ _ N)). cbn [bind].
  destruct (c_str (lo_proto l)); reflexivity.
Qed.

Lemma print_ub_iff : forall l t s r, si_avail (lo_info l) = FULL_DETAILS -> shows_name (si_name (lo_info l)) t ->
  List.length (lo_proto l) = 8%nat -> nulfree s ->
  exists l', lo_setProtocolString l (s ++ 0 :: r) = Ok l' /\
    (lo_print l' = UB OutOfBounds <-> (8 <= List.length s)%nat).
Proof.
  intros l t s r A N L H. destruct (proto_spec l s r L H) as (l' & E & E1 & E2 & E3). exists l'. split; [exact E|].
  rewrite (lo_print_full l' t) by congruence. rewrite E3, proto_str by assumption.
  destruct (List.length s <? 8)%nat eqn:K; cbn [bind]; split; intros X; try discriminate; try reflexivity.
  - apply Nat.ltb_lt in K. lia.
  - apply Nat.ltb_ge in K. lia.
Qed.

(** directions *)
Lemma switch_spec : forall x,
  switchDirection x = if x =? 1 then 2 else if x =? 2 then 1 else 4.
Proof. reflexivity. Qed.
Lemma change_spec : forall d,
  ld_changeDirection d = ld_setDirection d (if ld_dir d =? 1 then 2 else if ld_dir d =? 2 then 1 else ld_dir d).
Proof.
  intros [u v x a f]. unfold ld_changeDirection, DIR_FORWARD, DIR_REVERSE. cbn [ld_dir].
  destruct (x =? 1); [reflexivity|]. destruct (x =? 2); reflexivity.
Qed.
Lemma change_involution : forall d, ld_changeDirection (ld_changeDirection d) = d.
Proof.
  intros [u v x a f]. rewrite !change_spec. unfold ld_setDirection; cbn [ld_dir ld_uid ld_vel ld_addr ld_fbits]. f_equal.
  destruct (x =? 1) eqn:E; [apply Z.eqb_eq in E; subst; reflexivity|].
  destruct (x =? 2) eqn:E2; [apply Z.eqb_eq in E2; subst; reflexivity|]. rewrite E, E2. reflexivity.
Qed.
Lemma switch_involution : forall x, (switchDirection (switchDirection x) = x <-> x = 1 \/ x = 2 \/ x = 4).
Proof.
  intros x. rewrite !switch_spec. destruct (x =? 1) eqn:E; [apply Z.eqb_eq in E; subst; cbn; split; auto|].
  destruct (x =? 2) eqn:E2; [apply Z.eqb_eq in E2; subst; cbn; split; auto|]. cbn. split; lia.
Qed.
