(* ProofsOwn.v -- strings inside engines and the caller's frames (C116, C117). *)
From Verif Require Import ZLib SpecOwn ProofsBuffer ProofsLoco ProofsSafe ProofsStation ProofsCodec.

Lemma upd_upd : forall A n (x y : A) l, upd n x (upd n y l) = upd n x l.
Proof. induction n; intros x y [|z l]; cbn; congruence. Qed.
Lemma at_some : forall A (l : list A) i x, nth_error l i = Some x -> at_ l i = Ok x.
Proof. intros A l i x H. unfold at_. rewrite H. reflexivity. Qed.
Lemma nth_upd_other : forall A i j (x : A) l, i <> j -> nth_error (upd j x l) i = nth_error l i.
Proof. induction i; intros [|j] x [|y l] H; cbn; auto; try congruence. Qed.
Lemma nth_upd_here : forall A i (x y : A) l, nth_error l i = Some y -> nth_error (upd i x l) i = Some x.
Proof. induction i; intros x y [|z l] H; cbn in *; try discriminate; eauto. Qed.

Lemma memory_ok : forall es a m, memory_at es a m -> arg_memory es a = Ok m.
Proof.
  intros es [m'|e k|e k] m H; cbn in *; [congruence| |]; destruct H as (l & N & L & ->); rewrite (at_some _ _ _ _ N); cbn [bind]; unfold from_index;
    apply Nat.leb_le in L; rewrite L; reflexivity.
Qed.
Lemma memory_apart : forall es e x a m, apart e a -> memory_at es a m -> memory_at (upd e x es) a m.
Proof. intros es e x [m'|e' k|e' k] m A H; cbn in *; auto; destruct H as (l & N & L); exists l; rewrite nth_upd_other by assumption; auto. Qed.
Lemma in_name_apart : forall e n a n', apart e a -> in_name e n a n' = false.
Proof. intros e n [m|e' k|e' k] n' A; cbn in *; auto. unfold overlap. cbn. destruct (Nat.eqb_spec e e'); [congruence|reflexivity]. Qed.
Lemma in_proto_apart : forall e n a n', apart e a -> in_proto e n a n' = false.
Proof. intros e n [m|e' k|e' k] n' A; cbn in *; auto. unfold overlap. cbn. destruct (Nat.eqb_spec e e'); [congruence|reflexivity]. Qed.

Lemma apart_setName : forall es e l a m, nth_error es e = Some l -> apart e a -> memory_at es a m -> o_setName es e a = one_changed es e (lo_setName l m).
Proof.
  intros es e l a m N A M. unfold o_setName, lo_setName. rewrite (at_some _ _ _ _ N). cbn [bind].
  rewrite (memory_ok _ _ _ (memory_apart _ _ lo_reset _ _ A M)). cbn [bind]. rewrite in_name_apart by assumption.
  change (si_name (lo_info lo_reset)) with erased_name. destruct (c_strncpy erased_name m kEngineNameLength); cbn [bind one_changed]; [|reflexivity].
  rewrite upd_upd. reflexivity.
Qed.
Lemma apart_conditional : forall es e l a m, nth_error es e = Some l -> apart e a -> memory_at es a m ->
  o_setNameConditional es e a = match lo_setNameConditional l m with Ok (l', b) => Ok (upd e l' es, b) | UB u => UB u end.
Proof.
  intros es e l a m N A M. unfold o_setNameConditional, lo_setNameConditional. rewrite (at_some _ _ _ _ N). cbn [bind].
  rewrite (memory_ok _ _ _ M). cbn [bind]. rewrite (apart_setName _ _ _ _ _ N A M).
  match goal with |- context [bind ?x _] => destruct x as [[|]|] end; cbn [bind]; [| |reflexivity].
  - rewrite ZLib.upd_same_id by assumption. reflexivity.
  - destruct (lo_setName l m); reflexivity.
Qed.
Lemma apart_protocol : forall es e l a m, nth_error es e = Some l -> apart e a -> memory_at es a m -> o_setProtocolString es e a = one_changed es e (lo_setProtocolString l m).
Proof.
  intros es e l a m N A M. unfold o_setProtocolString, lo_setProtocolString. rewrite (at_some _ _ _ _ N). cbn [bind].
  rewrite (memory_ok _ _ _ M). cbn [bind]. rewrite in_proto_apart by assumption. destruct (c_strncpy (lo_proto l) m kProtocolNameMaxLength); reflexivity.
Qed.
Lemma apart_all : forall es e l a m, nth_error es e = Some l -> apart e a -> memory_at es a m ->
  o_setName es e a = one_changed es e (lo_setName l m) /\
  o_setNameConditional es e a = match lo_setNameConditional l m with Ok (l', b) => Ok (upd e l' es, b) | UB u => UB u end /\
  o_setProtocolString es e a = one_changed es e (lo_setProtocolString l m).
Proof. intros. split; [|split]; [apply apart_setName|apply apart_conditional|apply apart_protocol]; assumption. Qed.

(** ** The engine's own name *)
Lemma skip_zero : forall k n, skipn k (repeat 0 n) = repeat 0 (n - k).
Proof. apply skipn_repeat. Qed.
Lemma own_name_setName : forall es e l k, nth_error es e = Some l ->
  o_setName es e (NameAt e k) = if Nat.eqb k 32 then Ok (upd e nameless es) else if (k <? 32)%nat then UB Overlap else UB OutOfBounds.
Proof.
  intros es e l k N. unfold o_setName. rewrite (at_some _ _ _ _ N). cbn [bind arg_memory]. rewrite (at_some _ _ _ _ (nth_upd_here _ _ _ _ _ N)). cbn [bind].
  change (si_name (lo_info lo_reset)) with erased_name. unfold from_index. change (List.length erased_name) with 33%nat.
  destruct (Nat.leb_spec k 33) as [K|K].
  2:{ cbn [bind]. destruct (Nat.eqb_spec k 32); [lia|]. destruct (Nat.ltb_spec k 32); [lia|reflexivity]. }
  cbn [bind]. unfold erased_name at 1. rewrite skip_zero. change (Z.to_nat kEngineNameLength) with 32%nat.
  assert (O : in_name e kEngineNameLength (NameAt e k) (str_read (skipn k erased_name) 32) = (k <? 32)%nat).
  { cbn [in_name]. unfold overlap. cbn [fst snd]. rewrite Nat.eqb_refl. unfold erased_name. rewrite skip_zero.
    destruct (33 - k)%nat as [|j] eqn:J; cbn [repeat str_read]; destruct (Nat.ltb_spec k 32); unfold kEngineNameLength; cbn [Z.eqb andb]; try reflexivity; try lia. }
  unfold erased_name at 1 in O. rewrite skip_zero in O. rewrite O.
  destruct (Nat.ltb_spec k 32); [destruct (Nat.eqb_spec k 32); [lia|reflexivity]|].
  destruct (Nat.eqb_spec k 32) as [->|]; [|replace k with 33%nat by lia; reflexivity].
  change (skipn 32 erased_name) with ([] ++ 0 :: @nil Z). rewrite name_copy by constructor. cbn [bind]. rewrite upd_upd. reflexivity.
Qed.
Lemma name_from : forall f t k, shows_name f t -> (k <= 32)%nat -> exists r, skipn k f = skipn k t ++ 0 :: r.
Proof.
  intros f t k (F & L & ->) K. rewrite skipn_app, skip_zero. destruct (33 - List.length t - (k - List.length t))%nat as [|j] eqn:J; [lia|]. exists (repeat 0 j). reflexivity.
Qed.
Lemma nulfree_skipn : forall k t, nulfree t -> nulfree (skipn k t).
Proof. intros k t H. unfold nulfree in *. rewrite <- (firstn_skipn k t) in H. apply Forall_app in H. apply H. Qed.
Lemma skipn_self : forall A k (t : list A), skipn k t = t <-> k = 0%nat \/ t = [].
Proof.
  intros A k t. split; [|intros [-> | ->]; [reflexivity|apply skipn_nil]]. intros H. destruct k; [auto|]. destruct t as [|x t]; [auto|].
  apply (f_equal (@List.length A)) in H. rewrite skipn_length in H. cbn [List.length] in H. lia.
Qed.
Lemma name_array : forall l t, engine_fields l t -> List.length (si_name (lo_info l)) = 33%nat.
Proof. intros l t [H _]. exact (proj2 (shows_name_str _ _ H)). Qed.
Lemma own_name_read : forall es e l t k, nth_error es e = Some l -> engine_fields l t -> 
  (k <= 32)%nat -> exists r, arg_memory es (NameAt e k) = Ok (skipn k t ++ 0 :: r).
Proof.
  intros es e l t k N F K. destruct (name_from _ _ k (proj1 F) K) as (r & E). exists r. cbn [arg_memory]. rewrite (at_some _ _ _ _ N). cbn [bind].
  unfold from_index. rewrite (name_array _ _ F). destruct (Nat.leb_spec k 33); [|lia]. rewrite E. reflexivity.
Qed.
Lemma own_name_conditional : forall es e l t k, nth_error es e = Some l -> engine_fields l t ->
  (si_avail (lo_info l) <> EMPTY -> (k <= 32)%nat -> k = 0%nat \/ t = [] -> o_setNameConditional es e (NameAt e k) = Ok (es, false)) /\
  (si_avail (lo_info l) = EMPTY \/ (32 < k)%nat \/ k <> 0%nat /\ t <> [] ->
     (k = 32%nat -> o_setNameConditional es e (NameAt e k) = Ok (upd e nameless es, true)) /\
     (k <> 32%nat -> undefined (o_setNameConditional es e (NameAt e k)))).
Proof.
  intros es e l t k N F. unfold o_setNameConditional. rewrite (at_some _ _ _ _ N). cbn [bind].
  destruct (avail_eqb (si_avail (lo_info l)) EMPTY) eqn:A.
  - apply avail_eqb_spec in A. split; [congruence|]. intros _. cbn [bind]. rewrite (own_name_setName _ _ _ _ N).
    destruct (Nat.eqb_spec k 32); (split; [intros K|intros K]); try congruence; try reflexivity. destruct (k <? 32)%nat; eexists; reflexivity.
  - assert (NE : si_avail (lo_info l) <> EMPTY) by (intros X; apply avail_eqb_spec in X; congruence).
    destruct (Nat.leb_spec k 32) as [K|K].
    + destruct (own_name_read _ _ _ _ _ N F K) as (r & E). rewrite E. cbn [bind].
      rewrite (same_name _ _ _ _ (proj1 F) (nulfree_skipn _ _ (proj1 (proj1 F)))). cbn [bind].
      rewrite firstn_all2 by (pose proof (skipn_length k t); destruct F as [(_ & L & _) _]; lia).
      destruct (list_eq_dec Z.eq_dec (skipn k t) t) as [S|S].
      * split; [reflexivity|]. apply skipn_self in S. intros [X|[X|[X Y]]]; [congruence|lia|]. destruct S; congruence.
      * split; [intros _ _ X; exfalso; apply S; apply skipn_self; exact X|]. intros _. rewrite (own_name_setName _ _ _ _ N).
        destruct (Nat.eqb_spec k 32); (split; [intros K2|intros K2]); try congruence; try reflexivity. destruct (k <? 32)%nat; eexists; reflexivity.
    + split; [lia|]. intros _. split; [lia|]. intros _. cbn [arg_memory]. rewrite (at_some _ _ _ _ N). cbn [bind]. unfold from_index.
      rewrite (name_array _ _ F). destruct (Nat.leb_spec k 33) as [|]; [|eexists; reflexivity].
      replace (skipn k (si_name (lo_info l))) with (@nil Z) by (rewrite skipn_all2; [reflexivity|rewrite (name_array _ _ F); lia]).
      eexists; reflexivity.
Qed.
Lemma own_name_protocol : forall es e l t k, nth_error es e = Some l -> engine_fields l t ->
  ((k <= 32)%nat -> o_setProtocolString es e (NameAt e k) = Ok (upd e (with_protocol l (in_eight (skipn k t))) es)) /\
  ((32 < k)%nat -> undefined (o_setProtocolString es e (NameAt e k))).
Proof.
  intros es e l t k N F. unfold o_setProtocolString. rewrite (at_some _ _ _ _ N). cbn [bind]. split; intros K.
  - destruct (own_name_read _ _ _ _ _ N F K) as (r & E). rewrite E. cbn [bind in_proto].
    rewrite c_strncpy_eq; [|apply nulfree_skipn; apply F|destruct F as [_ P]; unfold kProtocolNameMaxLength, zlen; lia]. cbn [bind].
    change (Z.to_nat kProtocolNameMaxLength) with 8%nat. rewrite (skipn_all2 (lo_proto l)) by (destruct F; lia). rewrite app_nil_r. reflexivity.
  - cbn [arg_memory]. rewrite (at_some _ _ _ _ N). cbn [bind]. unfold from_index.
    rewrite (name_array _ _ F). destruct (Nat.leb_spec k 33) as [|]; [|eexists; reflexivity].
    replace (skipn k (si_name (lo_info l))) with (@nil Z) by (rewrite skipn_all2; [reflexivity|rewrite (name_array _ _ F); lia]).
    cbn [bind in_proto str_read]. unfold c_strncpy. destruct F as [_ P]. replace (zlen (lo_proto l) <? kProtocolNameMaxLength) with false by (unfold zlen, kProtocolNameMaxLength; lia).
    eexists; reflexivity.
Qed.

(** ** The engine's own protocol *)
Lemma own_proto_setName : forall es e l k, nth_error es e = Some l ->
  o_setName es e (ProtoAt e k) = if (k <? 8)%nat then Ok (upd e nameless es) else UB OutOfBounds.
Proof.
  intros es e l k N. unfold o_setName. rewrite (at_some _ _ _ _ N). cbn [bind arg_memory]. rewrite (at_some _ _ _ _ (nth_upd_here _ _ _ _ _ N)). cbn [bind].
  change (lo_proto lo_reset) with (repeat 0 8) at 1. unfold from_index. rewrite repeat_length.
  destruct (Nat.leb_spec k 8) as [K|K]; cbn [bind]; [|destruct (Nat.ltb_spec k 8); [lia|reflexivity]]. rewrite skip_zero. cbn [in_name].
  destruct (Nat.ltb_spec k 8).
  - destruct (8 - k)%nat as [|j] eqn:J; [lia|]. cbn [repeat]. change (0 :: repeat 0 j) with ([] ++ 0 :: repeat 0 j). rewrite name_copy by constructor.
    cbn [bind]. rewrite upd_upd. reflexivity.
  - replace k with 8%nat by lia. reflexivity.
Qed.
Lemma nul_split : forall m, nulfree m \/ exists s r, nulfree s /\ m = s ++ 0 :: r.
Proof.
  induction m as [|c m IH]; [left; constructor|]. destruct (Z.eq_dec c 0) as [->|C]; [right; exists [], m; split; [constructor|reflexivity]|].
  destruct IH as [IH|(s & r & S & ->)]; [left; constructor; assumption|right; exists (c :: s), r; split; [constructor; assumption|reflexivity]].
Qed.
(** comparing a text that is not ended *)
Lemma open_compare : forall n m f t r, nulfree m -> (List.length m < n)%nat -> nulfree t -> f = t ++ 0 :: r ->
  (begins_with m t -> strncmp_eq m f n = UB OutOfBounds) /\ (~ begins_with m t -> strncmp_eq m f n = Ok false).
Proof.
  induction n; intros m f t r M L T ->; [lia|]. destruct m as [|x m].
  { split; [reflexivity|]. intros B. exfalso. apply B. exists t. reflexivity. }
  inversion M as [|? ? X M']; subst. destruct t as [|y t]; cbn [app strncmp_eq].
  { replace (x =? 0) with false by lia. split; [intros (q & E); discriminate|reflexivity]. }
  inversion T as [|? ? Y T']; subst. destruct (x =? y) eqn:E.
  - apply Z.eqb_eq in E. subst y. replace (x =? 0) with false by lia. cbn [List.length] in L. destruct (IHn m _ t r M' ltac:(lia) T' eq_refl) as [I1 I2]. split.
    + intros (q & Q). injection Q as ->. apply I1. exists q. reflexivity.
    + intros B. apply I2. intros (q & ->). apply B. exists q. reflexivity.
  - apply Z.eqb_neq in E. split; [intros (q & Q); injection Q; congruence|reflexivity].
Qed.
Lemma own_proto_conditional : forall es e l t k, nth_error es e = Some l -> engine_fields l t -> (k < 8)%nat ->
  let p := skipn k (lo_proto l) in
  (si_avail (lo_info l) = EMPTY -> o_setNameConditional es e (ProtoAt e k) = Ok (upd e nameless es, true)) /\
  (si_avail (lo_info l) <> EMPTY ->
     (forall s r, p = s ++ 0 :: r -> nulfree s -> o_setNameConditional es e (ProtoAt e k) =
        if list_eq_dec Z.eq_dec s t then Ok (es, false) else Ok (upd e nameless es, true)) /\
     (nulfree p -> begins_with p t -> undefined (o_setNameConditional es e (ProtoAt e k))) /\
     (nulfree p -> ~ begins_with p t -> o_setNameConditional es e (ProtoAt e k) = Ok (upd e nameless es, true))).
Proof.
  intros es e l t k N F K p.
  assert (SN : o_setName es e (ProtoAt e k) = Ok (upd e nameless es)) by (rewrite (own_proto_setName _ _ _ _ N); destruct (Nat.ltb_spec k 8); [reflexivity|lia]).
  assert (LP : (List.length p <= 8)%nat) by (unfold p; rewrite skipn_length; destruct F; lia).
  assert (AM : arg_memory es (ProtoAt e k) = Ok p).
  { cbn [arg_memory]. rewrite (at_some _ _ _ _ N). cbn [bind]. unfold from_index. destruct F as [_ P]. rewrite P. destruct (Nat.leb_spec k 8); [reflexivity|lia]. }
  unfold o_setNameConditional. rewrite (at_some _ _ _ _ N), SN. cbn [bind]. split.
  - intros A. apply avail_eqb_spec in A. rewrite A. reflexivity.
  - intros A. destruct (avail_eqb (si_avail (lo_info l)) EMPTY) eqn:B; [apply avail_eqb_spec in B; congruence|]. rewrite AM. cbn [bind].
    split; [|split].
    + intros s r E S. rewrite E. rewrite (same_name _ _ _ _ (proj1 F) S). cbn [bind]. rewrite E, app_length in LP. rewrite firstn_all2 by lia.
      destruct (list_eq_dec Z.eq_dec s t); reflexivity.
    + intros P G. destruct (name_from _ _ 0 (proj1 F) ltac:(lia)) as (q & Q). cbn [skipn] in Q.
      destruct (open_compare (Z.to_nat kEngineNameLength) p _ t q P ltac:(change (Z.to_nat kEngineNameLength) with 32%nat; lia) (proj1 (proj1 F)) Q) as [I _].
      rewrite (I G). eexists; reflexivity.
    + intros P G. destruct (name_from _ _ 0 (proj1 F) ltac:(lia)) as (q & Q). cbn [skipn] in Q.
      destruct (open_compare (Z.to_nat kEngineNameLength) p _ t q P ltac:(change (Z.to_nat kEngineNameLength) with 32%nat; lia) (proj1 (proj1 F)) Q) as [_ I].
      rewrite (I G). reflexivity.
Qed.
Lemma str_read_some : forall c r n, (0 < n)%nat -> 1 <= str_read (c :: r) n.
Proof.
  assert (P : forall n r, 0 <= str_read r n) by (induction n; intros [|c r]; cbn [str_read]; try lia; destruct (c =? 0); [lia|specialize (IHn r); lia]).
  intros c r [|n] H; [lia|]. cbn [str_read]. destruct (c =? 0); [lia|]. specialize (P n r). lia.
Qed.
Lemma own_proto_protocol : forall es e l t k, nth_error es e = Some l -> engine_fields l t -> undefined (o_setProtocolString es e (ProtoAt e k)).
Proof.
  intros es e l t k N [_ P]. unfold o_setProtocolString. rewrite (at_some _ _ _ _ N). cbn [bind arg_memory]. rewrite (at_some _ _ _ _ N). cbn [bind].
  unfold from_index. rewrite P. destruct (Nat.leb_spec k 8) as [K|K]; [|eexists; reflexivity]. cbn [bind].
  destruct (skipn k (lo_proto l)) as [|c r] eqn:E.
  - cbn [str_read in_proto]. unfold overlap. rewrite !andb_false_r. cbn [andb].
    unfold c_strncpy. replace (zlen (lo_proto l) <? kProtocolNameMaxLength) with false by (unfold zlen, kProtocolNameMaxLength; lia). 
    eexists; reflexivity.
  - assert (k < 8)%nat by (apply (f_equal (@List.length Z)) in E; rewrite skipn_length in E; cbn [List.length] in E; lia).
    pose proof (str_read_some c r 8 ltac:(lia)) as R. change (Z.to_nat kProtocolNameMaxLength) with 8%nat. set (x := str_read (c :: r) 8) in *.
    cbn [in_proto]. unfold overlap, kProtocolNameMaxLength. cbn [fst snd]. rewrite Nat.eqb_refl.
    replace (0 <? 8) with true by reflexivity. replace (0 <? x) with true by lia. replace (0 <? Z.of_nat k + x) with true by lia. replace (Z.of_nat k <? 0 + 8) with true by lia.
    eexists; reflexivity.
Qed.

(** ** The engines stay engines *)
Lemma at_inv : forall A (l : list A) i x, at_ l i = Ok x -> nth_error l i = Some x.
Proof. intros A l i x H. unfold at_ in H. destruct (nth_error l i); [congruence|discriminate]. Qed.
Lemma strncpy_more : forall j m b x, strncpy_bytes m j = Ok b -> strncpy_bytes (m ++ x) j = Ok b.
Proof.
  induction j; intros m b x H; [destruct m; cbn in *; destruct x; assumption|]. destruct m as [|c m]; [discriminate|]. cbn [strncpy_bytes app] in *. destruct (c =? 0); [assumption|].
  destruct (strncpy_bytes m j) as [b'|] eqn:E; [|discriminate]. rewrite (IHj _ _ x E). assumption.
Qed.
Lemma strncpy_shows : forall m n, c_strncpy erased_name m kEngineNameLength = Ok n -> exists t, shows_name n t.
Proof.
  intros m n H. assert (X : exists s r, nulfree s /\ c_strncpy erased_name (s ++ 0 :: r) kEngineNameLength = Ok n).
  { destruct (nul_split m) as [F|(s & r & S & ->)]; [|eauto]. exists m, []. split; [assumption|]. unfold c_strncpy in *.
    destruct (zlen erased_name <? kEngineNameLength); [discriminate|]. destruct (strncpy_bytes m (Z.to_nat kEngineNameLength)) as [b|] eqn:B; [|discriminate].
    rewrite (strncpy_more _ _ _ [0] B). assumption. }
  destruct X as (s & r & S & E). rewrite name_copy in E by assumption. injection E as <-. exists (firstn 32 s). apply shows_copy. assumption.
Qed.
Lemma wr_len : forall m off y m', wr m off y = Ok m' -> List.length m' = List.length m.
Proof.
  intros m off y m' H. unfold wr in H. destruct ((0 <=? off) && (off + zlen y <=? zlen m)) eqn:E; [|discriminate]. injection H as <-.
  apply andb_prop in E. destruct E as [E1 E2]. unfold zlen in *. rewrite !app_length, firstn_length, skipn_length. lia.
Qed.
Lemma strncpy_proto : forall p m q, List.length p = 8%nat -> c_strncpy p m kProtocolNameMaxLength = Ok q -> List.length q = 8%nat.
Proof.
  intros p m q L H. unfold c_strncpy in H. destruct (zlen p <? kProtocolNameMaxLength); [discriminate|].
  destruct (strncpy_bytes m (Z.to_nat kProtocolNameMaxLength)) as [b|] eqn:B; [|discriminate]. cbn [bind] in H. rewrite <- L. exact (wr_len _ _ _ _ H).
Qed.
Lemma upd_engines : forall es e l, engines_ok es -> (exists t, engine_fields l t) -> engines_ok (upd e l es).
Proof. intros es e l H L. apply upd_forall; assumption. Qed.
Lemma setName_keeps : forall es e a es', engines_ok es -> o_setName es e a = Ok es' -> engines_ok es'.
Proof.
  intros es e a es' H E. unfold o_setName in E. destruct (at_ es e) as [l|] eqn:A; [|discriminate]. cbn [bind] in E.
  destruct (arg_memory (upd e lo_reset es) a) as [str|]; [|discriminate]. cbn [bind] in E.
  match type of E with (if ?b then _ else _) = _ => destruct b; [discriminate|] end.
  destruct (c_strncpy erased_name str kEngineNameLength) as [n|] eqn:C; [|discriminate]. cbn [bind] in E. injection E as <-. rewrite upd_upd.
  apply upd_engines; [assumption|]. destruct (strncpy_shows _ _ C) as (t & T). exists t. split; [exact T|reflexivity].
Qed.
Lemma conditional_keeps : forall es e a es' b, engines_ok es -> o_setNameConditional es e a = Ok (es', b) -> engines_ok es'.
Proof.
  intros es e a es' b H E. unfold o_setNameConditional in E. destruct (at_ es e) as [l|] eqn:A; [|discriminate]. cbn [bind] in E.
  match type of E with bind ?x _ = _ => destruct x as [[|]|]; [| |discriminate] end; cbn [bind] in E; [congruence|].
  destruct (o_setName es e a) as [es1|] eqn:S; [|discriminate]. cbn [bind] in E. injection E as <- _. exact (setName_keeps _ _ _ _ H S).
Qed.
Lemma protocol_keeps : forall es e a es', engines_ok es -> o_setProtocolString es e a = Ok es' -> engines_ok es'.
Proof.
  intros es e a es' H E. unfold o_setProtocolString in E. destruct (at_ es e) as [l|] eqn:A; [|discriminate]. cbn [bind] in E.
  destruct (arg_memory es a) as [str|]; [|discriminate]. cbn [bind] in E.
  match type of E with (if ?b then _ else _) = _ => destruct b; [discriminate|] end.
  destruct (c_strncpy (lo_proto l) str kProtocolNameMaxLength) as [n|] eqn:C; [|discriminate]. cbn [bind] in E. injection E as <-.
  destruct (nth_forall _ _ _ _ _ H (at_inv _ _ _ _ A)) as (t & T & P). apply upd_engines; [assumption|]. exists t. split; [exact T|exact (strncpy_proto _ _ _ P C)].
Qed.
Lemma all_keep : forall es e a, engines_ok es ->
  (forall es', o_setName es e a = Ok es' -> engines_ok es') /\ (forall es' b, o_setNameConditional es e a = Ok (es', b) -> engines_ok es') /\
  (forall es', o_setProtocolString es e a = Ok es' -> engines_ok es').
Proof. intros es e a H. split; [|split]; intros; [eapply setName_keeps|eapply conditional_keeps|eapply protocol_keeps]; eassumption. Qed.

(** ** Frames *)
Lemma one_send : forall w s x h tx h', letter_ok x -> is_u16 h -> sender w s tx h' ->
  o_sendPacket s (posted x h) w = Ok (w, [EvTx tx (posted x h')], posted x h') /\
  (forall lw, step lw (OnStation s (SendPacket (posted x h))) w = Ok (w, [EvTx tx (posted x h')])).
Proof.
  intros w s x h tx h' (X1 & X2 & X3) H (st & S0 & T & ->). split.
  - unfold o_sendPacket. rewrite (get_st _ _ _ S0). cbn [bind]. rewrite (tx_some _ _ _ _ T). cbn [bind]. unfold posted. cbn [fid fdata].
    rewrite id_setHash_value; [reflexivity|repeat split; unfold is_u16 in H; lia|exact (proj2 S0)].
  - intros lw. unfold posted. apply sendPacket; [assumption|assumption|repeat split; unfold is_u16 in H; lia].
Qed.
Lemma Forall2_impl' : forall A B (P Q : A -> B -> Prop) l m, (forall x y, P x y -> Q x y) -> Forall2 P l m -> Forall2 Q l m.
Proof. intros A B P Q l m H F. induction F; constructor; auto. Qed.
Lemma map_upd : forall A B (f : A -> B) n x l, map f (upd n x l) = upd n (f x) (map f l).
Proof. induction n; intros x [|y l]; cbn; congruence. Qed.
Lemma sends_spec : forall w (hash_of tx_of : nat -> _) l ds,
  Forall (fun d => letter_ok (fst d) /\ is_u16 (snd d)) ds ->
  Forall (fun p => sender w (fst p) (tx_of (fst p)) (hash_of (fst p)) /\ (snd p < List.length ds)%nat) l ->
  exists ds', List.length ds' = List.length ds /\ (forall i x h, nth_error ds i = Some (x, h) -> nth_error ds' i = Some (x, last_hash l hash_of i h)) /\
  exists fs, Forall2 (fun p f => exists x h, nth_error ds (snd p) = Some (x, h) /\ f = EvTx (tx_of (fst p)) (posted x (hash_of (fst p)))) l fs /\
  o_sends l (map (fun d => posted (fst d) (snd d)) ds) w = Ok (w, fs, map (fun d => posted (fst d) (snd d)) ds').
Proof.
  intros w hash_of tx_of l. induction l as [|[s i] l IH]; intros ds D L.
  { exists ds. split; [reflexivity|]. split; [auto|]. exists []. split; [constructor|reflexivity]. }
  inversion L as [|? ? [SE I] L']; subst. cbn [fst snd] in SE, I. destruct (nth_error ds i) as [[x h]|] eqn:N; [|apply nth_error_None in N; lia].
  destruct (nth_forall _ _ _ _ _ D N) as [X H]. cbn [fst snd] in X, H.
  assert (U : is_u16 (hash_of s)) by (destruct SE as (st & S0 & _ & ->); exact (proj2 S0)).
  destruct (IH (upd i (x, hash_of s) ds)) as (ds' & LEN & KEEP & fs & F & E).
  { apply upd_forall; [assumption|]. split; assumption. }
  { rewrite upd_len. assumption. }
  exists ds'. rewrite upd_len in LEN. split; [assumption|]. split.
  - intros j y h0 J. cbn [last_hash]. destruct (Nat.eqb_spec j i) as [->|NE].
    + rewrite N in J. injection J as <- <-. apply KEEP. exact (nth_upd_here _ _ _ _ _ N).
    + apply KEEP. rewrite nth_upd_other; assumption.
  - exists (EvTx (tx_of s) (posted x (hash_of s)) :: fs). split.
    + constructor; [exists x, h; auto|]. revert F. apply Forall2_impl'. intros [s' j] f (y & h0 & J & ->). cbn [fst snd] in *.
      destruct (Nat.eq_dec j i) as [->|NE].
      * rewrite (nth_upd_here _ _ _ _ _ N) in J. injection J as <- <-. exists x, h. auto.
      * rewrite nth_upd_other in J by assumption. exists y, h0. auto.
    + cbn [o_sends]. rewrite (at_some _ _ _ _ (map_nth_error (fun d => posted (fst d) (snd d)) _ _ N)). cbn [bind fst snd].
      rewrite (proj1 (one_send _ _ _ h _ _ X H SE)). cbn [bind]. rewrite map_upd in E. cbn [fst snd] in E. rewrite E. reflexivity.
Qed.
Lemma own_proto_behind : forall es e l t k, nth_error es e = Some l -> engine_fields l t -> (8 <= k)%nat -> undefined (o_setNameConditional es e (ProtoAt e k)).
Proof.
  intros es e l t k N F K. unfold o_setNameConditional. rewrite (at_some _ _ _ _ N), (own_proto_setName _ _ _ _ N). cbn [bind].
  destruct (Nat.ltb_spec k 8); [lia|]. destruct (avail_eqb (si_avail (lo_info l)) EMPTY); [eexists; reflexivity|].
  cbn [arg_memory]. rewrite (at_some _ _ _ _ N). cbn [bind]. unfold from_index. destruct (k <=? List.length (lo_proto l))%nat; [|eexists; reflexivity].
  rewrite skipn_all2 by (destruct F; lia). eexists; reflexivity.
Qed.
Lemma own_proto_setName' : forall es e l k, nth_error es e = Some l ->
  ((k < 8)%nat -> o_setName es e (ProtoAt e k) = Ok (upd e nameless es)) /\ ((8 <= k)%nat -> undefined (o_setName es e (ProtoAt e k))).
Proof.
  intros es e l k N. rewrite (own_proto_setName _ _ _ _ N). destruct (Nat.ltb_spec k 8); split; intros; try lia; [reflexivity|eexists; reflexivity].
Qed.
Lemma own_name_setName' : forall es e l k, nth_error es e = Some l ->
  (k = 32%nat -> o_setName es e (NameAt e k) = Ok (upd e nameless es)) /\ (k <> 32%nat -> undefined (o_setName es e (NameAt e k))).
Proof.
  intros es e l k N. rewrite (own_name_setName _ _ _ _ N). destruct (Nat.eqb_spec k 32); split; intros; try congruence; try reflexivity.
  destruct (k <? 32)%nat; eexists; reflexivity.
Qed.
