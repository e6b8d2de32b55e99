From Verif Require Import SpecConsumer ProofsBuffer ProofsCrc ProofsText ProofsLoco ProofsWorld ProofsStation ProofsPrint ProofsRequest ProofsStream ZLib.

(** ** Words *)
Lemma begins_nil : forall s, begins s [] = true. Proof. intros []; reflexivity. Qed.
Lemma begins_spec : forall s p, begins s p = true <-> exists r, s = p ++ r.
Proof.
  intros s p. revert s. induction p as [|x p IH]; intros s.
  - rewrite begins_nil. split; [|reflexivity]. intros _. exists s. reflexivity.
  - destruct s as [|y s]; cbn.
    + split; [discriminate|]. intros (r & X). discriminate.
    + rewrite andb_true_iff, IH, Z.eqb_eq. split.
      * intros (-> & r & ->). exists r. reflexivity.
      * intros (r & X). injection X as -> ->. eauto.
Qed.
(** strncmp of a literal and a buffer, either way round *)
Lemma strncmp_sym : forall n a c, strncmp_eq a c n = strncmp_eq c a n.
Proof.
  induction n as [|n IH]; intros a c; destruct a as [|x a], c as [|y c]; cbn; try reflexivity.
  rewrite (Z.eqb_sym y x). destruct (x =? y) eqn:E; [|reflexivity]. apply Z.eqb_eq in E. subst. destruct (y =? 0); auto.
Qed.
Lemma strncmp_word : forall word token pad, nulfree word ->
  strncmp_eq (word ++ [0]) (token ++ pad) (List.length token) = Ok (taken_for word token).
Proof.
  intros word token pad N. revert word N. induction token as [|y t IH]; intros word N; cbn [app List.length strncmp_eq].
  - unfold taken_for. rewrite begins_nil. destruct word; reflexivity.
  - destruct word as [|x w]; cbn [app strncmp_eq].
    + unfold taken_for. cbn [begins app orb]. rewrite begins_nil, andb_true_r. destruct (0 =? y) eqn:E; reflexivity.
    + inversion N; subst. unfold taken_for. cbn [begins app]. rewrite (Z.eqb_sym y x). destruct (x =? y) eqn:E; [|reflexivity].
      apply Z.eqb_eq in E. subst. replace (y =? 0) with false by lia. cbn [andb]. apply IH. assumption.
Qed.
Lemma zb_mem : forall cap l, mem (zb cap l) = l ++ repeat 0 (cap - List.length l). Proof. reflexivity. Qed.
Lemma zb_len : forall cap l, Z.to_nat (blen (zb cap l)) = List.length l. Proof. intros. unfold zb, zlen. cbn. lia. Qed.
Lemma lit_word : forall word cap t, nulfree (zs word) -> lit_strncmp (lit word) (zb cap t) = Ok (taken_for (zs word) t).
Proof. intros. unfold lit_strncmp, lit. rewrite zb_mem, zb_len. apply strncmp_word. assumption. Qed.
Lemma buf_word : forall word cap t, nulfree (zs word) -> bstrncmp (zb cap t) (lit word) = Ok (taken_for (zs word) t).
Proof. intros. unfold bstrncmp, lit. rewrite zb_mem, zb_len, strncmp_sym. apply strncmp_word. assumption. Qed.
Lemma words : nulfree (zs "lokomotive") /\ nulfree (zs "uid") /\ nulfree (zs "typ") /\ nulfree (zs "adresse") /\
  nulfree (zs "loknamen") /\ nulfree (zs "numloks") /\ nulfree (zs "wert").
Proof. repeat (split; [repeat constructor; discriminate|]). repeat constructor; discriminate. Qed.

(** ** Numbers *)
(** reading stops at the first NUL at the latest *)
Lemma skip_ext : forall v x r, exists v', c_skip_space (v ++ 0 :: x) = Ok (v' ++ 0 :: x) /\ c_skip_space (v ++ 0 :: r) = Ok (v' ++ 0 :: r).
Proof.
  induction v as [|c v IH]; intros x r; cbn [app c_skip_space].
  - exists []. split; reflexivity.
  - destruct (c_isspace c); [apply IH|]. exists (c :: v). split; reflexivity.
Qed.
Lemma sign_ext : forall v x r, exists n v', c_sign (v ++ 0 :: x) = Ok (n, v' ++ 0 :: x) /\ c_sign (v ++ 0 :: r) = Ok (n, v' ++ 0 :: r).
Proof.
  intros [|c v] x r; cbn [app c_sign].
  - exists false, []. split; reflexivity.
  - destruct (c =? 45); [exists true, v; split; reflexivity|]. destruct (c =? 43); [exists false, v; split; reflexivity|].
    exists false, (c :: v). split; reflexivity.
Qed.
Lemma prefix_ext : forall v x r, exists v', c_hexprefix (v ++ 0 :: x) = Ok (v' ++ 0 :: x) /\ c_hexprefix (v ++ 0 :: r) = Ok (v' ++ 0 :: r).
Proof.
  intros [|z [|y v]] x r.
  - exists []. split; cbn; [destruct x|destruct r]; reflexivity.
  - exists [z]. cbn. split; rewrite andb_false_r; reflexivity.
  - cbn [app c_hexprefix]. destruct ((z =? 48) && ((y =? 120) || (y =? 88))) eqn:E; [|exists (z :: y :: v); split; reflexivity].
    destruct v as [|c v]; cbn [app].
    + exists [z; y]. split; reflexivity.
    + destruct (is_digit_of 16 c); [exists (c :: v)|exists (z :: y :: c :: v)]; split; reflexivity.
Qed.
Lemma digits_ext : forall base v acc x r, exists n, c_digits base acc (v ++ 0 :: x) = Ok n /\ c_digits base acc (v ++ 0 :: r) = Ok n.
Proof.
  intros base. induction v as [|c v IH]; intros acc x r; cbn [app c_digits].
  - exists acc. split; reflexivity.
  - destruct (c_digit c) as [d|]; [|exists acc; split; reflexivity]. destruct (d <? base); [apply IH|exists acc; split; reflexivity].
Qed.
Lemma hex_read : forall lw v r, c_strtoul16 lw (v ++ 0 :: r) = Ok (hex_value lw v).
Proof.
  intros lw v r. unfold hex_value, c_strtoul16. destruct (skip_ext v r []) as (a & E1 & E2). rewrite E1, E2. cbn [bind].
  destruct (sign_ext a r []) as (n & b & F1 & F2). rewrite F1, F2. cbn [bind].
  destruct (prefix_ext b r []) as (c & G1 & G2). rewrite G1, G2. cbn [bind].
  destruct (digits_ext 16 c 0 r []) as (x & H1 & H2). rewrite H1, H2. reflexivity.
Qed.
Lemma dec_read : forall lw v r, c_strtol10 lw (v ++ 0 :: r) = Ok (dec_value lw v).
Proof.
  intros lw v r. unfold dec_value, c_strtol10. destruct (skip_ext v r []) as (a & E1 & E2). rewrite E1, E2. cbn [bind].
  destruct (sign_ext a r []) as (n & b & F1 & F2). rewrite F1, F2. cbn [bind].
  destruct (digits_ext 10 b 0 r []) as (x & H1 & H2). rewrite H1, H2. reflexivity.
Qed.
Lemma pad_nul : forall (v : list Z) n, (List.length v < n)%nat -> v ++ repeat 0 (n - List.length v) = v ++ 0 :: repeat 0 (n - S (List.length v)).
Proof. intros v n H. replace (n - List.length v)%nat with (S (n - S (List.length v))) by lia. reflexivity. Qed.

Lemma hexdigit_digit : forall c d, hexdigit c d -> c_digit c = Some d /\ d <? 16 = true /\ c_isspace c = false /\ c <> 45 /\ c <> 43.
Proof.
  intros c d H. unfold hexdigit in H. unfold c_digit, c_isspace.
  assert (X : c_digit c = Some d).
  { unfold c_digit. destruct H as [(A & ->)|[(A & ->)|(A & ->)]].
    - replace ((48 <=? c) && (c <=? 57)) with true by (symmetry; rewrite andb_true_iff; lia). reflexivity.
    - replace ((48 <=? c) && (c <=? 57)) with false by (symmetry; rewrite andb_false_iff; lia).
      replace ((97 <=? c) && (c <=? 122)) with true by (symmetry; rewrite andb_true_iff; lia). reflexivity.
    - replace ((48 <=? c) && (c <=? 57)) with false by (symmetry; rewrite andb_false_iff; lia).
      replace ((97 <=? c) && (c <=? 122)) with false by (symmetry; rewrite andb_false_iff; lia).
      replace ((65 <=? c) && (c <=? 90)) with true by (symmetry; rewrite andb_true_iff; lia). reflexivity. }
  split; [exact X|]. split; [destruct H as [H|[H|H]]; lia|].
  split; [|destruct H as [H|[H|H]]; lia]. replace (c =? 32) with false by (destruct H as [H|[H|H]]; lia). cbn [orb].
  apply andb_false_iff. destruct H as [H|[H|H]]; lia.
Qed.
Lemma hexdigits_read : forall acc ds x, hexdigits acc ds x -> c_digits 16 acc (ds ++ [0]) = Ok x.
Proof.
  intros acc ds x H. induction H; cbn [app c_digits]; [reflexivity|].
  destruct (hexdigit_digit _ _ H) as (E1 & E2 & _). rewrite E1, E2. exact IHhexdigits.
Qed.
Lemma hexdigits_nonneg : forall acc ds x, hexdigits acc ds x -> 0 <= acc -> 0 <= x.
Proof. intros acc ds x H. induction H; intros; [assumption|]. apply IHhexdigits. unfold hexdigit in H. destruct H as [H|[H|H]]; lia. Qed.
(** a numeral is read as its number, saturating at the largest unsigned long *)
Lemma numeral_read : forall lw t x, numeral t x -> hex_value lw t = Z.min x (2 ^ lw - 1).
Proof.
  intros lw t x (ds & NE & T & H). assert (N0 : 0 <= x) by (eapply hexdigits_nonneg; [exact H|lia]).
  destruct ds as [|c ds]; [congruence|]. assert (HC : exists d, hexdigit c d) by (inversion H; subst; eauto).
  assert (HS : forall c2 ds2, ds = c2 :: ds2 -> exists d2, hexdigit c2 d2) by (intros c2 ds2 ->; inversion H as [|? ? ? ? ? _ H2]; subst; inversion H2; subst; eauto).
  destruct HC as (d & HC). destruct (hexdigit_digit _ _ HC) as (E1 & E2 & E3 & E4 & E5).
  unfold hex_value, c_strtoul16. assert (V : forall v, (if 2 ^ lw <=? v then 2 ^ lw - 1 else v) = Z.min v (2 ^ lw - 1)) by (intros v; destruct (2 ^ lw <=? v) eqn:K; lia).
  apply hexdigits_read in H. cbn [app] in H. destruct T as [-> | ->].
  - cbn [app c_skip_space]. rewrite E3. cbn [bind c_sign]. replace (c =? 45) with false by lia. replace (c =? 43) with false by lia. cbn [bind].
    assert (P : c_hexprefix (c :: ds ++ [0]) = Ok (c :: ds ++ [0])).
    { destruct ds as [|c2 ds]; cbn [app c_hexprefix]; [rewrite andb_false_r; reflexivity|].
      destruct ((c =? 48) && ((c2 =? 120) || (c2 =? 88))) eqn:K; [|reflexivity]. exfalso.
      cbn [app c_digits] in H. apply andb_true_iff in K. destruct K as (_ & K). apply orb_true_iff in K. rewrite !Z.eqb_eq in K.
      destruct (HS _ _ eq_refl) as (d2 & Hs). unfold hexdigit in Hs. lia. }
    rewrite P. cbn [bind]. rewrite H. apply V.
  - change (zs "0x") with [48; 120]. cbn [app c_skip_space c_isspace]. change (c_isspace 48) with false. cbn [bind c_sign].
    change (48 =? 45) with false. change (48 =? 43) with false. cbn [bind c_hexprefix].
    change ((48 =? 48) && ((120 =? 120) || (120 =? 88))) with true. cbn iota. unfold is_digit_of. rewrite E1, E2. cbn [bind]. rewrite H. apply V.
Qed.

(** ** One line, engine consumer *)
Lemma until_nul_split : forall v r, exists r', v ++ 0 :: r = until_nul v ++ 0 :: r' /\ nulfree (until_nul v).
Proof.
  induction v as [|c v IH]; intros r; cbn.
  - exists r. split; [reflexivity|constructor].
  - destruct (c =? 0) eqn:E.
    + apply Z.eqb_eq in E. subst. exists (v ++ 0 :: r). split; [reflexivity|constructor].
    + destruct (IH r) as (r' & E' & N). exists r'. rewrite E'. split; [reflexivity|]. constructor; [lia|assumption].
Qed.
Lemma until_nul_len : forall v, (List.length (until_nul v) <= List.length v)%nat.
Proof. induction v as [|c v IH]; cbn; [lia|]. destruct (c =? 0); cbn; lia. Qed.
Lemma until_nul_id : forall v, nulfree v -> until_nul v = v.
Proof. intros v H. induction H; cbn; [reflexivity|]. replace (x =? 0) with false by lia. congruence. Qed.

Lemma line_spec : forall lw l s k v, List.length (lo_proto l) = 8%nat -> (List.length v < 26)%nat ->
  loco_line lw l (zb max_section s) (zb max_key k) (zb max_value v) = Ok (after_line lw l (s, k, v)).
Proof.
  intros lw l s k v P V. destruct words as (W1 & W2 & W3 & W4 & _). unfold loco_line, kEngineResult, kEngineKeyUid, kEngineKeyProtocol, kEngineKeyAddress.
  unfold after_line, attribute_of. rewrite !lit_word by assumption. cbn [bind].
  destruct (taken_for (zs "lokomotive") s); [|reflexivity].
  rewrite zb_mem, pad_nul by exact V. destruct (taken_for (zs "uid") k).
  { rewrite hex_read. reflexivity. }
  destruct (taken_for (zs "typ") k).
  { destruct (until_nul_split v (repeat 0 (max_value - S (List.length v)))) as (r' & E & N). rewrite E.
    destruct (proto_spec l (until_nul v) r' P N) as (l' & E1 & E2 & E3 & E4). rewrite E1. destruct l'; cbn in *. subst. reflexivity. }
  destruct (taken_for (zs "adresse") k); [|reflexivity]. rewrite hex_read. reflexivity.
Qed.
Lemma line_proto : forall lw l r, List.length (lo_proto l) = 8%nat -> List.length (lo_proto (after_line lw l r)) = 8%nat.
Proof.
  intros lw l ((s & k) & v) H. cbn [after_line]. destruct (attribute_of s k) as [[]|]; cbn [with_attribute lo_proto]; try assumption.
  rewrite app_length, firstn_length, repeat_length. lia.
Qed.
Lemma line_info : forall lw l r, lo_info (after_line lw l r) = lo_info l.
Proof. intros lw l ((s & k) & v). cbn [after_line]. destruct (attribute_of s k) as [[]|]; reflexivity. Qed.
Lemma lines_info : forall lw rs l, lo_info (after_lines lw l rs) = lo_info l.
Proof. intros lw. induction rs; intros l; cbn; [reflexivity|]. unfold after_lines in IHrs. rewrite IHrs. apply line_info. Qed.
Lemma lines_proto : forall lw rs l, List.length (lo_proto l) = 8%nat -> List.length (lo_proto (after_lines lw l rs)) = 8%nat.
Proof. intros lw. induction rs; intros l H; cbn; [assumption|]. apply IHrs. apply line_proto. assumption. Qed.
Lemma lines_snoc : forall lw l rs r, after_lines lw l (rs ++ [r]) = after_line lw (after_lines lw l rs) r.
Proof. intros. unfold after_lines. rewrite fold_left_app. reflexivity. Qed.

Lemma put_engine_seq : forall e x (a : act) w, (put_engine e x ;;; a) w = a (with_engine w e x).
Proof. intros. unfold World.seq, put_engine. cbn [bind]. change (mkW _ _ _ _) with (with_engine w e x). destruct (a (with_engine w e x)) as [[]|]; reflexivity. Qed.
Lemma put_cons_seq : forall c x (a : act) w, (put_cons c x ;;; a) w = a (with_consumer w c x).
Proof. intros. unfold World.seq, put_cons. cbn [bind]. change (mkW _ _ _ _) with (with_consumer w c x). destruct (a (with_consumer w c x)) as [[]|]; reflexivity. Qed.
Lemma emit_seq : forall e (a : act) w, (emit e ;;; a) w = match a w with Ok (w', t) => Ok (w', e :: t) | UB u => UB u end.
Proof. intros. unfold World.seq, emit. cbn [bind]. destruct (a w) as [[]|]; reflexivity. Qed.
Lemma ask_ok : forall A (f : world -> res A) k w x, f w = Ok x -> ask f k w = k x w.
Proof. intros. unfold ask. rewrite H. reflexivity. Qed.
Lemma get_cons_ok : forall w c x, consumer_at w c x -> get_cons c w = Ok x.
Proof. intros. unfold get_cons, at_. rewrite H. reflexivity. Qed.
Lemma get_engine_ok : forall w e l, engine_at w e l -> get_engine e w = Ok l.
Proof. intros. unfold get_engine, at_. rewrite H. reflexivity. Qed.

Lemma consume_loco : forall lw w c e cb l s k v, consumer_at w c (LocoC (Def (Some e)) cb) -> engine_at w e l ->
  List.length (lo_proto l) = 8%nat -> (List.length v < 26)%nat ->
  cons_consume lw c (zb max_section s) (zb max_key k) (zb max_value v) w =
    Ok (with_engine w e (after_line lw l (s, k, v)), [EvConsume c (zb max_section s) (zb max_key k) (zb max_value v)]).
Proof.
  intros lw w c e cb l s k v C E P V. unfold cons_consume. rewrite emit_seq. rewrite (ask_ok _ _ _ _ _ (get_cons_ok _ _ _ C)).
  unfold loco_consume. erewrite ask_ok by reflexivity. cbn beta iota. rewrite (ask_ok _ _ _ _ _ (get_engine_ok _ _ _ E)). cbn beta.
  rewrite (ask_ok _ _ _ _ _ (line_spec lw l s k v P V)). reflexivity.
Qed.
Lemma consume_detached : forall lw w c cb s k v, consumer_at w c (LocoC (Def None) cb) ->
  cons_consume lw c s k v w = Ok (w, [EvConsume c s k v]).
Proof.
  intros. unfold cons_consume. rewrite emit_seq. rewrite (ask_ok _ _ _ _ _ (get_cons_ok _ _ _ H)). reflexivity.
Qed.

(** ** One line, list consumer *)
Lemma free_eq : forall i, si_isFree i = free_entry i. Proof. intros [[] n]; reflexivity. Qed.
Lemma first_free : forall t n, match findFirstFreeEntry t with
  | None => filled t [n] = t /\ forall i, In i t -> free_entry i = false
  | Some k => (k < List.length t)%nat /\ filled t [n] = upd k (named n) t /\ free_entry (nth k t si_reset) = true
  end.
Proof.
  induction t as [|i t IH]; intros n; cbn [findFirstFreeEntry filled]; [split; [reflexivity|contradiction]|].
  rewrite free_eq. destruct (free_entry i) eqn:F.
  - cbn. split; [lia|]. split; [|assumption]. f_equal. destruct t as [|j t]; [reflexivity|]. cbn [filled]. destruct (free_entry j) eqn:J; [reflexivity|]. f_equal.
    clear. induction t as [|j t IH]; [reflexivity|]. cbn [filled]. destruct (free_entry j); [reflexivity|]. rewrite IH. reflexivity.
  - specialize (IH n). destruct (findFirstFreeEntry t) as [k|].
    + destruct IH as (A & B & C). cbn. rewrite B. split; [lia|]. auto.
    + destruct IH as (A & B). rewrite A. split; [reflexivity|]. intros j [<-|J]; auto.
Qed.
Lemma filled_nil : forall t, filled t [] = t.
Proof. induction t as [|j t IH]; [reflexivity|]. cbn [filled]. destruct (free_entry j); [reflexivity|]. rewrite IH. reflexivity. Qed.
Lemma filled_app : forall ns t ms, filled t (ns ++ ms) = filled (filled t ns) ms.
Proof.
  intros ns t ms. revert ns ms. induction t as [|i t IH]; intros ns ms; [reflexivity|].
  cbn [filled]. destruct (free_entry i) eqn:F.
  - destruct ns as [|n ns]; cbn [app].
    + destruct ms as [|m ms]; cbn [filled]; rewrite F; reflexivity.
    + cbn [filled]. change (free_entry (named n)) with false. cbn iota. rewrite IH. reflexivity.
  - cbn [filled]. rewrite F, IH. reflexivity.
Qed.
Lemma filled_len : forall t ns, List.length (filled t ns) = List.length t.
Proof. induction t as [|i t IH]; intros ns; cbn; [reflexivity|]. destruct (free_entry i); [destruct ns; cbn; auto|cbn; auto]. Qed.

(** the list consumer after some lines *)
Definition after_list (lw : Z) (co : mu bool) (infos : list ShortInfo) (num off : mu Z) (cb : mu (option nat)) (rs : list report) : CObj :=
  ListC co (filled infos (names_in rs))
        (match rev (counts_in rs) with v :: _ => Def (dec_value lw v mod 256) | [] => num end) off cb.
Lemma names_snoc : forall rs r, names_in (rs ++ [r]) = names_in rs ++ match list_entry_of r with NameEntry v => [until_nul v] | _ => [] end.
Proof. intros. unfold names_in. rewrite flat_map_app. cbn. rewrite app_nil_r. reflexivity. Qed.
Lemma counts_snoc : forall rs r, counts_in (rs ++ [r]) = counts_in rs ++ match list_entry_of r with CountEntry v => [v] | _ => [] end.
Proof. intros. unfold counts_in. rewrite flat_map_app. cbn. rewrite app_nil_r. reflexivity. Qed.
Lemma after_list_snoc : forall lw co i n o cb rs r, after_list lw co i n o cb (rs ++ [r]) =
  match list_entry_of r with
  | NameEntry v => ListC co (filled (filled i (names_in rs)) [until_nul v])
                         (match rev (counts_in rs) with v :: _ => Def (dec_value lw v mod 256) | [] => n end) o cb
  | CountEntry v => ListC co (filled i (names_in rs)) (Def (dec_value lw v mod 256)) o cb
  | NoEntry => after_list lw co i n o cb rs
  end.
Proof.
  intros. unfold after_list. rewrite names_snoc, counts_snoc. destruct (list_entry_of r); rewrite ?app_nil_r, ?rev_app_distr; try reflexivity.
  rewrite filled_app. reflexivity.
Qed.

Lemma free_zero : forall i, free_count i = 0%nat -> forall x, In x i -> free_entry x = true -> False.
Proof. intros i H x X F. unfold free_count in H. apply length_zero_iff_nil in H. assert (In x (filter free_entry i)) by (apply filter_In; auto). rewrite H in H0. contradiction. Qed.
Lemma free_none : forall i, (forall x, In x i -> free_entry x = false) -> free_count i = 0%nat.
Proof. intros i H. unfold free_count. induction i as [|x i IH]; [reflexivity|]. cbn [filter]. rewrite (H x) by (left; reflexivity). apply IH. intros y Y. apply H. right. exact Y. Qed.
Lemma free_filled : forall i ns, free_count (filled i ns) = (free_count i - List.length ns)%nat.
Proof.
  unfold free_count. induction i as [|x i IH]; intros ns; [reflexivity|]. cbn [filled filter]. destruct (free_entry x) eqn:F.
  - destruct ns as [|n ns]; cbn [filter List.length]; [rewrite F; reflexivity|]. change (free_entry (named n)) with false. cbv iota. rewrite IH. reflexivity.
  - cbn [filter]. rewrite F. apply IH.
Qed.
Lemma list_talk_snoc : forall rs n r, list_talk n (rs ++ [r]) = list_talk n rs ++ list_talk (n - List.length (names_in rs)) [r].
Proof.
  induction rs as [|x rs IH]; intros n r; [cbn [app names_in flat_map List.length]; rewrite Nat.sub_0_r; reflexivity|].
  change ((x :: rs) ++ [r]) with (x :: rs ++ [r]). cbn [list_talk]. unfold names_in. cbn [flat_map]. fold (names_in rs). destruct (list_entry_of x) eqn:E.
  - cbn [app List.length]. destruct n as [|n]; rewrite IH, <- ?app_assoc; [reflexivity|]. reflexivity.
  - cbn [app]. apply IH.
  - destruct x as ((s & k) & v). cbn [app]. rewrite IH, <- app_assoc. reflexivity.
Qed.
Lemma lines_details : forall lw rs l, details_ok (lo_data l) -> details_ok (lo_data (after_lines lw l rs)).
Proof.
  intros lw. induction rs as [|((s & k) & v) rs IH]; intros l H; [exact H|]. apply IH. unfold after_line. destruct (attribute_of s k) as [[]|]; try exact H.
  - destruct H as (A & B & C & D & E). unfold details_ok. cbn. split; [|auto]. unfold is_u32. change 4294967296 with (2 ^ 32). apply Z.mod_pos_bound. reflexivity.
  - destruct H as (A & B & C & D & E). unfold details_ok. cbn. repeat (split; [assumption|]). split; [|assumption]. unfold is_u32. change 4294967296 with (2 ^ 32). apply Z.mod_pos_bound. reflexivity.
Qed.
Lemma consume_list : forall lw w c co i n o cb s k v, consumer_at w c (ListC co i n o cb) -> list_line_fits (s, k, v) ->
  exists t, cons_consume lw c (zb max_section s) (zb max_key k) (zb max_value v) w =
    Ok (with_consumer w c (after_list lw co i n o cb [(s, k, v)]), EvConsume c (zb max_section s) (zb max_key k) (zb max_value v) :: t) /\ calls t = [] /\
    console t = list_talk (free_count i) [(s, k, v)].
Proof.
  intros lw w c co i n o cb s k v C ((_ & _ & V) & S10). destruct words as (_ & _ & _ & _ & W1 & W2 & W3).
  unfold cons_consume. rewrite emit_seq. rewrite (ask_ok _ _ _ _ _ (get_cons_ok _ _ _ C)). cbn beta iota.
  unfold list_consume, kEngineNames, kSectionNumEngines, kGenericValue. erewrite ask_ok by (apply buf_word; assumption). cbn beta iota.
  change [(s, k, v)] with ([] ++ [(s, k, v)]). rewrite after_list_snoc. cbn [list_entry_of].
  change (list_talk (free_count i) ([] ++ [(s, k, v)])) with (list_talk (free_count i) [(s, k, v)]). cbn [list_talk list_entry_of].
  destruct (taken_for (zs "loknamen") s); cbn iota.
  - assert (SAME : with_consumer w c (ListC co i n o cb) = w).
    { unfold with_consumer. rewrite upd_same_id by exact C. destruct w; reflexivity. }
    cbn [names_in flat_map counts_in rev]. rewrite filled_nil. pose proof (first_free i (until_nul v)) as F. destruct (findFirstFreeEntry i) as [j|].
    + destruct F as (JL & -> & FC). rewrite zb_mem, pad_nul by exact V.
      destruct (until_nul_split v (repeat 0 (max_value - S (List.length v)))) as (r' & E & N). rewrite E.
      erewrite ask_ok by (apply c_str_eq; exact N). cbn beta. unfold print. rewrite emit_seq.
      unfold si_setName. change (si_name si_reset) with erased_name. rewrite name_copy by assumption. cbn [bind].
      assert (L32 : firstn 32 (until_nul v) = until_nul v) by (apply firstn_all2; pose proof (until_nul_len v); lia). rewrite L32.
      erewrite ask_ok by reflexivity. unfold put_cons. eexists. split; [reflexivity|split; [reflexivity|]].
      destruct (free_count i) as [|m] eqn:FF; [exfalso; apply (free_zero i FF (nth j i si_reset)); [apply nth_In; exact JL|exact FC]|].
      unfold console. cbn [map List.concat app]. change nl with newline. rewrite ?app_nil_r. reflexivity.
    + destruct F as (-> & FA). rewrite SAME. rewrite (free_none i FA). eexists. split; [reflexivity|split; reflexivity].
  - erewrite ask_ok by (apply buf_word; assumption). cbn beta iota. destruct (taken_for (zs "numloks") s).
    + erewrite ask_ok by (apply buf_word; assumption). cbn beta iota. destruct (taken_for (zs "wert") k).
      * cbn [names_in flat_map]. rewrite filled_nil. unfold basUint8. rewrite zb_mem, pad_nul by exact V.
        erewrite ask_ok by (rewrite dec_read; reflexivity). unfold put_cons. eexists. split; [reflexivity|split; reflexivity].
      * unfold after_list. cbn [names_in flat_map counts_in rev]. rewrite filled_nil.
        replace (with_consumer w c (ListC co i n o cb)) with w; [eexists; split; [reflexivity|split; reflexivity]|].
        unfold with_consumer. rewrite upd_same_id by exact C. destruct w; reflexivity.
    + rewrite zb_mem, pad_nul by (unfold max_section; lia).
      destruct (until_nul_split s (repeat 0 (max_section - S (List.length s)))) as (r' & E & N). rewrite E.
      erewrite ask_ok by (apply c_str_eq; exact N). cbn beta.
      unfold after_list. cbn [names_in flat_map counts_in rev]. rewrite filled_nil.
      replace (with_consumer w c (ListC co i n o cb)) with w; [eexists; split; [reflexivity|split; [reflexivity|unfold console; cbn [map List.concat app]; rewrite ?app_nil_r; reflexivity]]|].
      unfold with_consumer. rewrite upd_same_id by exact C. destruct w; reflexivity.
Qed.

(** ** End of the stream *)
Lemma notes_app : forall a c, notes (a ++ c) = notes a ++ notes c. Proof. intros. apply filter_app. Qed.
Lemma complete_loco : forall w c e cb l n p, consumer_at w c (LocoC (Def (Some e)) (Def cb)) -> engine_at w e l ->
  shows_name (si_name (lo_info l)) n -> c_str (lo_proto l) = Ok p ->
  exists t, cons_complete c w = Ok (with_engine w e (lo_setAvailability l FULL_DETAILS), t) /\
    notes t = EvStreamComplete c :: callback_note cb (fun cb => EvEndComplete cb c) /\ calls t = notes t /\
    (details_ok (lo_data l) -> console t = downloaded_text (lo_setAvailability l FULL_DETAILS)).
Proof.
  intros w c e cb l n p C E N P. unfold cons_complete. rewrite emit_seq. rewrite (ask_ok _ _ _ _ _ (get_cons_ok _ _ _ C)). cbn beta iota.
  erewrite ask_ok by reflexivity. cbn beta iota. rewrite (ask_ok _ _ _ _ _ (get_engine_ok _ _ _ E)). cbn beta. rewrite put_engine_seq.
  unfold puts, print. rewrite emit_seq. unfold print_res.
  assert (LP : exists bs, lo_print (lo_setAvailability l FULL_DETAILS) = Ok bs).
  { rewrite (lo_print_full _ n) by (try reflexivity; exact N). cbn [lo_setAvailability lo_proto]. rewrite P. cbn [bind]. eauto. }
  destruct LP as (bs & LP). unfold World.seq at 1. rewrite (ask_ok _ _ _ _ bs LP). unfold print. unfold emit at 1. cbn [bind].
  rewrite emit_seq. erewrite ask_ok by reflexivity.
  assert (TX : details_ok (lo_data l) -> bs = engine_text (lo_setAvailability l FULL_DETAILS)) by (intros D; apply lo_print_text; [exact D|exact LP]).
  destruct cb as [cb|]; cbn [when_some skip emit bind app]; eexists; (split; [reflexivity|split; [reflexivity|split; [reflexivity|]]]);
    intros D; rewrite (TX D); unfold downloaded_text, console; cbn [map List.concat app]; rewrite ?app_nil_r; reflexivity.
Qed.
Lemma complete_loco_ub : forall w c e cb l n, consumer_at w c (LocoC (Def (Some e)) (Def cb)) -> engine_at w e l ->
  shows_name (si_name (lo_info l)) n -> c_str (lo_proto l) = UB OutOfBounds -> cons_complete c w = UB OutOfBounds.
Proof.
  intros w c e cb l n C E N P. unfold cons_complete. rewrite emit_seq. rewrite (ask_ok _ _ _ _ _ (get_cons_ok _ _ _ C)). cbn beta iota.
  erewrite ask_ok by reflexivity. cbn beta iota. rewrite (ask_ok _ _ _ _ _ (get_engine_ok _ _ _ E)). cbn beta. rewrite put_engine_seq.
  unfold puts, print. rewrite emit_seq. unfold print_res.
  assert (LP : lo_print (lo_setAvailability l FULL_DETAILS) = UB OutOfBounds).
  { rewrite (lo_print_full _ n) by (try reflexivity; exact N). cbn [lo_setAvailability lo_proto]. rewrite P. reflexivity. }
  unfold World.seq at 1. unfold ask at 1. rewrite LP. reflexivity.
Qed.
Lemma aborted_loco : forall w c e cb, consumer_at w c (LocoC e (Def cb)) ->
  cons_aborted c w = Ok (w, EvStreamAborted c :: callback_note cb (fun cb => EvEndAborted cb c)).
Proof.
  intros w c e cb C. unfold cons_aborted. rewrite emit_seq. rewrite (ask_ok _ _ _ _ _ (get_cons_ok _ _ _ C)). cbn beta iota.
  erewrite ask_ok by reflexivity. destruct cb as [cb|]; reflexivity.
Qed.
Lemma complete_list : forall w c co i n o cb, consumer_at w c (ListC co i n o (Def cb)) ->
  cons_complete c w = Ok (with_consumer w c (ListC (Def true) i n o (Def cb)), EvStreamComplete c :: callback_note cb (fun cb => EvEndComplete cb c)).
Proof.
  intros. unfold cons_complete. rewrite emit_seq. rewrite (ask_ok _ _ _ _ _ (get_cons_ok _ _ _ H)). cbn beta iota. rewrite put_cons_seq.
  erewrite ask_ok by reflexivity. destruct cb as [cb|]; reflexivity.
Qed.
Lemma aborted_list : forall w c co i n o cb, consumer_at w c (ListC co i n o (Def cb)) ->
  cons_aborted c w = Ok (with_consumer w c (ListC (Def false) (map (fun _ => si_reset) i) (Def 0) (Def 0) (Def cb)), EvStreamAborted c :: callback_note cb (fun cb => EvEndAborted cb c)).
Proof.
  intros. unfold cons_aborted. rewrite emit_seq. rewrite (ask_ok _ _ _ _ _ (get_cons_ok _ _ _ H)). cbn beta iota. rewrite put_cons_seq.
  erewrite ask_ok by reflexivity. destruct cb as [cb|]; reflexivity.
Qed.

(** ** One frame, any consumer *)
Definition deliver_lines (lw : Z) (q : option nat) (l : list report) : act :=
  when_some q (fun c => cons_consume_all lw c (map as_buffers l)).
Definition body_sp (rest expected : Z) (got : list Z) (a : auto) (q : option nat) (st : SState) : SP :=
  mkSP st rest (parser a q) (mkCrc (Def (crc_of 0xFFFF got)) (Def expected)) q.
Lemma add_header : forall lw w p sp q d, lib_at w p sp -> sp_state sp = SS_FIRST -> (dlc d = 6 \/ dlc d = 7) -> 0 < header_length d ->
  sp_cons sp = q -> sp_crc sp = crc_reset -> forall a, sp_text sp = parser a q ->
  lib_addMessage lw p d w = Ok (with_parser w p (LibP (body_sp (header_length d) (header_crc d) [] a q SS_DATA)), []).
Proof.
  intros lw w p sp q d L S D H Q C a T. unfold lib_addMessage. rewrite (ask_ok _ _ _ _ _ (lib_get _ _ _ L)). rewrite S.
  replace ((dlc d =? 6) || (dlc d =? 7)) with true by (symmetry; rewrite orb_true_iff, !Z.eqb_eq; assumption). cbn beta iota zeta. cbn [sp_remaining].
  replace (header_length d >? 0) with true by lia. rewrite C, T, Q. reflexivity.
Qed.
Lemma seq_cong : forall (a c c' : act) w, (forall w, c w = c' w) -> (a ;;; c) w = (a ;;; c') w.
Proof. intros a c c' w H. unfold World.seq. destruct (a w) as [[w1 t1]|u]; [|reflexivity]. cbn [bind]. rewrite H. reflexivity. Qed.
Lemma add_data : forall lw w p rest expected got a q d, lib_at w p (body_sp rest expected got a q SS_DATA) -> fits a -> data_frame d ->
  let a' := fst (aadd a (content d)) in let got' := got ++ content d in
  lib_addMessage lw p d w =
  (deliver_lines lw q (snd (aadd a (content d))) ;;;
   if u32 (rest - 8) =? 0 then
     if verdict got' expected then put_lib p (body_sp 0 expected got' a' q SS_DONE) ;;; when_some q cons_complete
     else put_lib p (body_sp 0 expected got' a' q SS_IDLE) ;;; when_some q cons_aborted
   else skip) (with_parser w p (LibP (body_sp (u32 (rest - 8)) expected got' a' q SS_DATA))).
Proof.
  intros lw w p rest expected got a q d L F (P & D) a' got'. unfold lib_addMessage. rewrite (ask_ok _ _ _ _ _ (lib_get _ _ _ L)).
  cbn [body_sp sp_state sp_remaining sp_crc sp_text sp_cons]. replace (negb (dlc d =? 8)) with false by (rewrite D; reflexivity).
  assert (X1 : (bs <- data_visited d ;; crc_feed (mkCrc (Def (crc_of 0xFFFF got)) (Def expected)) bs) = Ok (mkCrc (Def (crc_of 0xFFFF got')) (Def expected))).
  { rewrite (visited_data _ P D). cbn [bind]. rewrite crc_feed_eq. unfold got'. rewrite crc_of_app. reflexivity. }
  erewrite ask_ok by exact X1. cbn beta.
  assert (X2 : tp_addText (parser a q) (mkBuf (dbytes d) CanDataMaxLength (dlc d)) = Ok (parser a' q, told q (snd (aadd a (content d))))).
  { rewrite (addText_spec _ _ _ _ F (holds_data _ P D)). reflexivity. }
  erewrite ask_ok by exact X2. cbn [fst snd]. rewrite put_lib_seq. cbn [parser tp_cons]. rewrite D.
  assert (W : when_some q (fun c => cons_consume_all lw c (told q (snd (aadd a (content d))))) = deliver_lines lw q (snd (aadd a (content d)))) by (destruct q; reflexivity).
  rewrite W. change (mkSP SS_DATA (u32 (rest - 8)) (parser a' q) (mkCrc (Def (crc_of 65535 got')) (Def expected)) q) with (body_sp (u32 (rest - 8)) expected got' a' q SS_DATA).
  apply seq_cong. intros w1.
  destruct (u32 (rest - 8) =? 0) eqn:Z0; [|reflexivity]. apply Z.eqb_eq in Z0. rewrite Z0. unfold verdict.
  erewrite ask_ok by reflexivity. cbn [mread bind]. destruct (crc_of 65535 got' =? expected); reflexivity.
Qed.

(** ** A whole stream, any consumer.  [I l w]: the consumer's objects in w are as they should be after the lines l *)
Section AnyConsumer.
Variables (lw : Z) (p c : nat) (I : list report -> world -> Prop) (okl : report -> Prop).
Variables (deliver : Data -> op) (pre : Data -> list event) (Q : world -> Prop) (say : list report -> list Z).
Hypothesis HI : forall l w x, I l w -> I l (with_parser w p x).
Hypothesis HC : forall l s k v w, okl (s, k, v) -> I l w -> exists w' t,
  cons_consume lw c (zb max_section s) (zb max_key k) (zb max_value v) w = Ok (w', t) /\ I (l ++ [(s, k, v)]) w' /\
  w_parsers w' = w_parsers w /\ w_stations w' = w_stations w /\ notes t = [] /\ say (l ++ [(s, k, v)]) = say l ++ console t.
Hypothesis HQ : forall w w', w_stations w' = w_stations w -> Q w -> Q w'.
Hypothesis HD : forall w sp d, lib_at w p sp -> in_progress sp = true -> Q w -> payload_ok d ->
  step lw (deliver d) w = match lib_addMessage lw p d w with Ok (w', t) => Ok (w', pre d ++ t) | UB u => UB u end.
Hypothesis HN : forall d, notes (pre d) = [].
Hypothesis HP : forall d, console (pre d) = [].

Lemma lines_run : forall rs l w, Forall okl rs -> I l w -> exists w' t,
  cons_consume_all lw c (map as_buffers rs) w = Ok (w', t) /\ I (l ++ rs) w' /\
  w_parsers w' = w_parsers w /\ w_stations w' = w_stations w /\ notes t = [] /\ say (l ++ rs) = say l ++ console t.
Proof.
  induction rs as [|((s & k) & v) rs IH]; intros l w F H.
  - exists w, []. rewrite app_nil_r. cbn [console map List.concat]. rewrite app_nil_r. auto 10.
  - inversion F; subst. destruct (HC _ _ _ _ _ H2 H) as (w1 & t1 & E1 & I1 & P1 & S1 & N1 & Y1).
    destruct (IH _ _ H3 I1) as (w2 & t2 & E2 & I2 & P2 & S2 & N2 & Y2). exists w2, (t1 ++ t2).
    cbn [map as_buffers cons_consume_all]. rewrite (seq_ok _ _ _ _ _ E1), E2, notes_app, N1, N2, P2, P1, S2, S1.
    rewrite <- app_assoc in I2, Y2. cbn [app] in Y2. rewrite Y1, <- app_assoc, <- console_app in Y2. auto 10.
Qed.

Lemma frame_run : forall d rest expected got a l w, lib_at w p (body_sp rest expected got a (Some c) SS_DATA) -> fits a -> data_frame d ->
  8 < rest < 4294967296 -> Forall okl (snd (aadd a (content d))) -> I l w -> Q w ->
  exists w' t, step lw (deliver d) w = Ok (w', t) /\
    lib_at w' p (body_sp (rest - 8) expected (got ++ content d) (fst (aadd a (content d))) (Some c) SS_DATA) /\
    I (l ++ snd (aadd a (content d))) w' /\ notes t = [] /\ say (l ++ snd (aadd a (content d))) = say l ++ console t /\ w_stations w' = w_stations w /\
    w_parsers w' = upd p (LibP (body_sp (rest - 8) expected (got ++ content d) (fst (aadd a (content d))) (Some c) SS_DATA)) (w_parsers w).
Proof.
  intros d rest expected got a l w L F D B O H HQw. rewrite (HD _ _ _ L eq_refl HQw (proj1 D)). rewrite (add_data _ _ _ _ _ _ _ _ _ L F D).
  assert (U : u32 (rest - 8) = rest - 8) by (unfold u32; apply Z.mod_small; lia). rewrite U. replace (rest - 8 =? 0) with false by lia.
  destruct (lines_run _ _ _ O (HI _ _ (LibP (body_sp (rest - 8) expected (got ++ content d) (fst (aadd a (content d))) (Some c) SS_DATA)) H)) as (w1 & t1 & E1 & I1 & P1 & S1 & N1 & Y1).
  unfold deliver_lines. cbn [when_some]. rewrite (seq_ok _ _ _ _ _ E1). cbn [skip]. exists w1, (pre d ++ t1 ++ []).
  split; [reflexivity|]. rewrite app_nil_r, notes_app, console_app, HN, HP, N1, S1, P1. cbn [with_parser w_parsers w_stations]. repeat (split; [first [reflexivity|assumption|idtac]|]).
  - unfold lib_at. rewrite P1. eapply lib_upd. exact L.
  - reflexivity.
Qed.

Lemma body_run : forall ds rest expected got a l w, lib_at w p (body_sp rest expected got a (Some c) SS_DATA) -> fits a -> Forall data_frame ds ->
  8 * zlen ds < rest < 4294967296 -> Forall okl (lines_of a ds) -> I l w -> Q w ->
  exists w' t, run lw (map deliver ds) w = Ok (w', t) /\
    lib_at w' p (body_sp (rest - 8 * zlen ds) expected (got ++ received ds) (auto_after a ds) (Some c) SS_DATA) /\
    I (l ++ lines_of a ds) w' /\ notes t = [] /\ say (l ++ lines_of a ds) = say l ++ console t /\ w_stations w' = w_stations w /\
    w_parsers w' = upd p (LibP (body_sp (rest - 8 * zlen ds) expected (got ++ received ds) (auto_after a ds) (Some c) SS_DATA)) (w_parsers w).
Proof.
  induction ds as [|d ds IH]; intros rest expected got a l w L F D B O H HQw.
  - exists w, []. cbn [map run received flat_map]. change (zlen (@nil Data)) with 0. rewrite !app_nil_r. replace (rest - 8 * 0) with rest by lia.
    change (auto_after a []) with a. change (lines_of a []) with (@nil report). rewrite ?app_nil_r.
    repeat (split; [first [reflexivity|assumption]|]). symmetry. apply upd_same_id. exact L.
  - inversion D; subst. assert (ZL : zlen (d :: ds) = 1 + zlen ds) by (unfold zlen; cbn [List.length]; lia). rewrite ZL in *.
    assert (Z0 : 0 <= zlen ds) by (unfold zlen; lia).
    assert (LN : lines_of a (d :: ds) = snd (aadd a (content d)) ++ lines_of (fst (aadd a (content d))) ds).
    { unfold lines_of. cbn [map aadds]. destruct (aadd a (content d)) as (a1 & e1). destruct (aadds a1 (map content ds)) eqn:X. cbn. rewrite X. reflexivity. }
    assert (AF : auto_after a (d :: ds) = auto_after (fst (aadd a (content d))) ds).
    { unfold auto_after. cbn [map aadds]. destruct (aadd a (content d)) as (a1 & e1). destruct (aadds a1 (map content ds)) eqn:X. cbn. rewrite X. reflexivity. }
    rewrite LN in O. apply Forall_app in O. destruct O as (O1 & O2).
    assert (B8 : 8 < rest < 4294967296) by lia.
    destruct (frame_run _ _ _ _ _ _ _ L F H2 B8 O1 H HQw) as (w1 & t1 & E1 & L1 & I1 & N1 & Y1 & S1 & P1).
    assert (B2 : 8 * zlen ds < rest - 8 < 4294967296) by lia.
    destruct (IH _ _ _ _ _ _ L1 (aadd_fits _ _ F) H3 B2 O2 I1 (HQ _ _ S1 HQw)) as (w2 & t2 & E2 & L2 & I2 & N2 & Y2 & S2 & P2).
    exists w2, (t1 ++ t2). cbn [map run]. rewrite (seq_ok _ _ _ _ _ E1), E2, LN, AF.
    replace (rest - 8 * (1 + zlen ds)) with (rest - 8 - 8 * zlen ds) by lia.
    assert (RC : got ++ received (d :: ds) = (got ++ content d) ++ received ds) by (unfold received; cbn [flat_map]; rewrite app_assoc; reflexivity).
    rewrite RC, (app_assoc l). rewrite notes_app, console_app, N1, N2, S2, S1, Y2, Y1, (app_assoc (say l)). rewrite P1, upd_upd in P2. auto 10.
Qed.

(** the last frame: lines, then the consumer is told *)
Lemma last_run : forall d expected got a l w, lib_at w p (body_sp 8 expected got a (Some c) SS_DATA) -> fits a -> data_frame d ->
  Forall okl (snd (aadd a (content d))) -> I l w -> Q w ->
  let v := verdict (got ++ content d) expected in
  let sp' := body_sp 0 expected (got ++ content d) (fst (aadd a (content d))) (Some c) (if v then SS_DONE else SS_IDLE) in
  exists w1 t1, lib_at w1 p sp' /\ I (l ++ snd (aadd a (content d))) w1 /\ notes t1 = [] /\ say (l ++ snd (aadd a (content d))) = say l ++ console t1 /\ w_stations w1 = w_stations w /\
    w_parsers w1 = upd p (LibP sp') (w_parsers w) /\
    step lw (deliver d) w = match (if v then cons_complete c else cons_aborted c) w1 with Ok (w2, t2) => Ok (w2, t1 ++ t2) | UB u => UB u end.
Proof.
  intros d expected got a l w L F D O H HQw v sp'. rewrite (HD _ _ _ L eq_refl HQw (proj1 D)). rewrite (add_data _ _ _ _ _ _ _ _ _ L F D).
  change (u32 (8 - 8)) with 0. change (0 =? 0) with true. cbn iota. fold v.
  destruct (lines_run _ _ _ O (HI _ _ (LibP (body_sp 0 expected (got ++ content d) (fst (aadd a (content d))) (Some c) SS_DATA)) H)) as (w1 & t1 & E1 & I1 & P1 & S1 & N1 & Y1).
  unfold deliver_lines. cbn [when_some]. rewrite (seq_ok _ _ _ _ _ E1). exists (with_parser w1 p (LibP sp')), (pre d ++ t1).
  assert (PP : w_parsers (with_parser w1 p (LibP sp')) = upd p (LibP sp') (w_parsers w)).
  { cbn [with_parser w_parsers]. rewrite P1. cbn [with_parser w_parsers]. apply upd_upd. }
  split; [unfold lib_at; rewrite PP; eapply lib_upd; exact L|]. split; [apply HI; exact I1|]. split; [rewrite notes_app, HN, N1; reflexivity|].
  split; [rewrite console_app, HP; exact Y1|]. split; [exact S1|]. split; [exact PP|].
  assert (G : forall b : bool, (if b then put_lib p (body_sp 0 expected (got ++ content d) (fst (aadd a (content d))) (Some c) SS_DONE) ;;; cons_complete c
            else put_lib p (body_sp 0 expected (got ++ content d) (fst (aadd a (content d))) (Some c) SS_IDLE) ;;; cons_aborted c) w1 =
          (if b then cons_complete c else cons_aborted c) (with_parser w1 p (LibP (body_sp 0 expected (got ++ content d) (fst (aadd a (content d))) (Some c) (if b then SS_DONE else SS_IDLE))))).
  { intros [|]; rewrite put_lib_seq; reflexivity. }
  rewrite (G v). fold sp'. destruct ((if v then cons_complete c else cons_aborted c) (with_parser w1 p (LibP sp'))) as [[w2 t2]|u]; [|reflexivity].
  rewrite app_assoc. reflexivity.
Qed.

Lemma run_app : forall xs ys w w1 t1, run lw xs w = Ok (w1, t1) ->
  run lw (xs ++ ys) w = match run lw ys w1 with Ok (w2, t2) => Ok (w2, t1 ++ t2) | UB u => UB u end.
Proof.
  induction xs as [|x xs IH]; intros ys w w1 t1 H.
  - inversion H; subst. cbn [app]. destruct (run lw ys w1) as [[]|]; reflexivity.
  - cbn [run app] in *. apply seq_inv in H. destruct H as (wa & ta & tb & H1 & H2 & ->). rewrite (seq_ok _ _ _ _ _ H1). rewrite (IH ys _ _ _ H2).
    destruct (run lw ys w1) as [[]|]; [|reflexivity]. rewrite app_assoc. reflexivity.
Qed.
(** header and all data frames *)
Lemma stream_run : forall hd ds n crc a w sp, lib_at w p sp -> sp_state sp = SS_FIRST -> sp_crc sp = crc_reset -> sp_cons sp = Some c ->
  sp_text sp = parser a (Some c) -> fits a -> header_for hd (8 * n) crc -> 0 < n -> 8 * n < 4294967296 -> Forall data_frame ds -> zlen ds = n ->
  Forall okl (lines_of a ds) -> I [] w -> Q w ->
  let v := verdict (received ds) crc in
  let sp' := body_sp 0 crc (received ds) (auto_after a ds) (Some c) (if v then SS_DONE else SS_IDLE) in
  exists w1 t1, lib_at w1 p sp' /\ I (lines_of a ds) w1 /\ notes t1 = [] /\ say (lines_of a ds) = say [] ++ console t1 /\ w_stations w1 = w_stations w /\
    w_parsers w1 = upd p (LibP sp') (w_parsers w) /\
    run lw (map deliver (hd :: ds)) w = match (if v then cons_complete c else cons_aborted c) w1 with Ok (w2, t2) => Ok (w2, t1 ++ t2) | UB u => UB u end.
Proof.
  intros hd ds n crc a w sp L S C QC T F HF N0 N1 D ZL O H HQw v sp'.
  destruct (header_decodes _ _ _ HF) as (HL & HCR). destruct HF as (PH & DH & _).
  assert (IP : in_progress sp = true) by (unfold in_progress; rewrite S; reflexivity).
  pose proof (HD _ _ _ L IP HQw PH) as E0. rewrite (add_header lw w p sp (Some c) hd L S DH ltac:(lia) QC C a T) in E0.
  rewrite HL, HCR in E0. set (w0 := with_parser w p _) in E0.
  assert (L0 : lib_at w0 p (body_sp (8 * n) crc [] a (Some c) SS_DATA)) by (eapply lib_with; exact L).
  assert (DS : exists ds0 d, ds = ds0 ++ [d]). { destruct (@exists_last _ ds) as (x & y & E). intros X. subst ds. unfold zlen in ZL. cbn in ZL. lia. eauto. }
  destruct DS as (ds0 & d & ->). apply Forall_app in D. destruct D as (D0 & D1). assert (H2 : data_frame d) by (inversion D1; assumption). clear HL HCR. subst n.
  assert (ZN : zlen (ds0 ++ [d]) = zlen ds0 + 1) by (unfold zlen; rewrite app_length; cbn [List.length]; lia). rewrite ZN in *.
  assert (LN : lines_of a (ds0 ++ [d]) = lines_of a ds0 ++ snd (aadd (auto_after a ds0) (content d))).
  { unfold lines_of, auto_after. rewrite map_app. change (map content [d]) with [content d]. rewrite aadds_snoc. reflexivity. }
  assert (AF : auto_after a (ds0 ++ [d]) = fst (aadd (auto_after a ds0) (content d))).
  { unfold auto_after. rewrite map_app. change (map content [d]) with [content d]. rewrite aadds_snoc. reflexivity. }
  assert (RC : received (ds0 ++ [d]) = [] ++ received ds0 ++ content d) by (rewrite received_app; unfold received at 2; cbn [flat_map]; rewrite app_nil_r; reflexivity).
  rewrite LN in O. apply Forall_app in O. destruct O as (O1 & O2).
  assert (B1 : 8 * zlen ds0 < 8 * (zlen ds0 + 1) < 4294967296) by lia.
  destruct (body_run ds0 _ crc [] a [] w0 L0 F D0 B1 O1 (HI _ _ _ H) (HQ w w0 eq_refl HQw)) as (w1 & t1 & E1 & L1 & I1 & NN1 & Y1 & S1 & P1).
  replace (8 * (zlen ds0 + 1) - 8 * zlen ds0) with 8 in L1, P1 by lia.
  assert (FA : fits (auto_after a ds0)) by (unfold auto_after; clear - F; revert a F; induction (map content ds0) as [|x r IH]; intros a F; [exact F|];
     cbn [aadds]; destruct (aadd a x) as (a1 & e1) eqn:X; specialize (IH a1); destruct (aadds a1 r); cbn in *; apply IH; pose proof (aadd_fits a x F) as Y; rewrite X in Y; exact Y).
  assert (SS1 : w_stations w1 = w_stations w) by (rewrite S1; reflexivity).
  destruct (last_run d crc ([] ++ received ds0) (auto_after a ds0) _ w1 L1 FA H2 O2 I1 (HQ _ _ SS1 HQw)) as (w2 & t2 & L2 & I2 & NN2 & Y2 & S2 & P2 & E2).
  cbn [app] in I2.
  assert (VV : verdict (([] ++ received ds0) ++ content d) crc = v) by (unfold v; rewrite RC; reflexivity).
  rewrite VV in E2, L2, P2.
  assert (SP' : body_sp 0 crc (([] ++ received ds0) ++ content d) (fst (aadd (auto_after a ds0) (content d))) (Some c) (if v then SS_DONE else SS_IDLE) = sp').
  { unfold sp'. rewrite RC, AF. reflexivity. }
  rewrite SP' in L2, P2. exists w2, ((pre hd ++ []) ++ t1 ++ t2).
  split; [exact L2|]. split; [rewrite LN; exact I2|]. split; [rewrite !notes_app, HN, NN1, NN2; reflexivity|].
  split; [cbn [app] in Y1, Y2; rewrite LN, Y2, Y1, !console_app, HP, <- app_assoc; reflexivity|]. split; [congruence|].
  split. { rewrite P2, P1. unfold w0. cbn [with_parser w_parsers]. rewrite !upd_upd. reflexivity. }
  cbn [map run]. rewrite (seq_ok _ _ _ _ _ E0). rewrite map_app. rewrite (run_app _ _ _ _ _ E1). cbn [map run].
  unfold World.seq at 1. rewrite E2. destruct ((if v then cons_complete c else cons_aborted c) w2) as [[w3 t3]|u]; [|reflexivity].
  cbn [bind skip]. rewrite !app_nil_r, !app_assoc. reflexivity.
Qed.
End AnyConsumer.

(** ** Streams to an engine consumer *)
Lemma upd_at : forall A i (x y : A) l, nth_error l i = Some y -> nth_error (upd i x l) i = Some x.
Proof. intros A. induction i; intros x y [|z l] H; cbn in *; try discriminate; auto. eapply IHi; exact H. Qed.
Lemma loco_stream : forall lw p c e cb deliver pre (Q : world -> Prop) hd ds n crc a w sp l name,
  (forall w w', w_stations w' = w_stations w -> Q w -> Q w') ->
  (forall w sp d, lib_at w p sp -> in_progress sp = true -> Q w -> payload_ok d ->
    step lw (deliver d) w = match lib_addMessage lw p d w with Ok (w', t) => Ok (w', pre d ++ t) | UB u => UB u end) ->
  (forall d, notes (pre d) = []) -> (forall d, console (pre d) = []) ->
  lib_at w p sp -> sp_state sp = SS_FIRST -> sp_crc sp = crc_reset -> sp_cons sp = Some c ->
  sp_text sp = parser a (Some c) -> fits a -> header_for hd (8 * n) crc -> 0 < n -> 8 * n < 4294967296 -> Forall data_frame ds -> zlen ds = n ->
  Forall line_fits (lines_of a ds) -> Q w ->
  consumer_at w c (LocoC (Def (Some e)) (Def cb)) -> engine_at w e l -> List.length (lo_proto l) = 8%nat -> shows_name (si_name (lo_info l)) name ->
  let v := verdict (received ds) crc in
  let l' := after_lines lw l (lines_of a ds) in
  let sp' := body_sp 0 crc (received ds) (auto_after a ds) (Some c) (if v then SS_DONE else SS_IDLE) in
  (v = true -> In 0 (lo_proto l')) ->
  exists w' t, run lw (map deliver (hd :: ds)) w = Ok (w', t) /\
    w_stations w' = w_stations w /\ w_conss w' = w_conss w /\ w_parsers w' = upd p (LibP sp') (w_parsers w) /\
    w_engines w' = upd e (if v then lo_setAvailability l' FULL_DETAILS else l') (w_engines w) /\
    (notes t = if v then EvStreamComplete c :: callback_note cb (fun cb => EvEndComplete cb c)
              else EvStreamAborted c :: callback_note cb (fun cb => EvEndAborted cb c)) /\
    (details_ok (lo_data l) -> console t = if v then downloaded_text (lo_setAvailability l' FULL_DETAILS) else []).
Proof.
  intros lw p c e cb deliver pre Q hd ds n crc a w sp l name HQ HD HN HP L S C QC T F HF N0 N1 D ZL O HQw HC HE P8 SN v l' sp' PT.
  set (I := fun rs w' => w_conss w' = w_conss w /\ w_engines w' = upd e (after_lines lw l rs) (w_engines w)).
  destruct (stream_run lw p c I line_fits deliver pre Q (fun _ => [])) with (hd := hd) (ds := ds) (n := n) (crc := crc) (a := a) (w := w) (sp := sp)
    as (w1 & t1 & L1 & (IC & IE) & NN & YY & S1 & P1 & E1); try assumption.
  - intros rs w0 x H. exact H.
  - intros rs s k v0 w0 (_ & _ & V) (HC0 & HE0).
    assert (E0 : engine_at w0 e (after_lines lw l rs)) by (unfold engine_at; rewrite HE0; eapply upd_at; exact HE).
    assert (C0 : consumer_at w0 c (LocoC (Def (Some e)) (Def cb))) by (unfold consumer_at; rewrite HC0; exact HC).
    eexists. eexists. split; [apply (consume_loco _ _ _ _ _ _ _ _ _ C0 E0 (lines_proto _ _ _ P8) V)|].
    split; [|split; [reflexivity|split; [reflexivity|split; reflexivity]]]. split; [exact HC0|]. cbn [with_engine w_engines]. rewrite HE0, upd_upd, lines_snoc. reflexivity.
  - split; [reflexivity|]. cbn. symmetry. apply upd_same_id. exact HE.
  - assert (E0 : engine_at w1 e l') by (unfold engine_at; rewrite IE; eapply upd_at; exact HE).
    assert (C0 : consumer_at w1 c (LocoC (Def (Some e)) (Def cb))) by (unfold consumer_at; rewrite IC; exact HC).
    fold v in E1, P1. fold sp' in P1. destruct v eqn:V.
    + assert (SN1 : shows_name (si_name (lo_info l')) name) by (unfold l'; rewrite lines_info; exact SN).
      assert (CS : exists ps, c_str (lo_proto l') = Ok ps).
      { specialize (PT eq_refl). apply in_split in PT. destruct PT as (x & y & ->). destruct (until_nul_split x y) as (r' & -> & N). eexists. apply c_str_eq. exact N. }
      destruct CS as (ps & CS). destruct (complete_loco _ _ _ _ _ _ _ C0 E0 SN1 CS) as (t2 & E2 & N2 & _ & Y2). rewrite E2 in E1.
      eexists. eexists. split; [exact E1|]. split; [exact S1|]. split; [exact IC|]. split; [exact P1|].
      split; [cbn [with_engine w_engines]; rewrite IE, upd_upd; reflexivity|]. split; [rewrite notes_app, NN, N2; reflexivity|].
      intros DK. cbn beta in YY; cbn [app] in YY; rewrite console_app, <- YY. apply Y2. apply lines_details. exact DK.
    + rewrite (aborted_loco _ _ _ _ C0) in E1. eexists. eexists. split; [exact E1|]. split; [exact S1|]. split; [exact IC|]. split; [exact P1|].
      split; [exact IE|]. split; [rewrite notes_app, NN; destruct cb; reflexivity|]. intros _. cbn beta in YY; cbn [app] in YY; rewrite console_app, <- YY. destruct cb; reflexivity.
Qed.

(** ** Streams to a list consumer *)
Lemma list_stream : forall lw p c co i num off cb deliver pre (Q : world -> Prop) hd ds n crc a w sp,
  (forall w w', w_stations w' = w_stations w -> Q w -> Q w') ->
  (forall w sp d, lib_at w p sp -> in_progress sp = true -> Q w -> payload_ok d ->
    step lw (deliver d) w = match lib_addMessage lw p d w with Ok (w', t) => Ok (w', pre d ++ t) | UB u => UB u end) ->
  (forall d, notes (pre d) = []) -> (forall d, console (pre d) = []) ->
  lib_at w p sp -> sp_state sp = SS_FIRST -> sp_crc sp = crc_reset -> sp_cons sp = Some c ->
  sp_text sp = parser a (Some c) -> fits a -> header_for hd (8 * n) crc -> 0 < n -> 8 * n < 4294967296 -> Forall data_frame ds -> zlen ds = n ->
  Forall list_line_fits (lines_of a ds) -> Q w ->
  consumer_at w c (ListC co i num off (Def cb)) ->
  let v := verdict (received ds) crc in
  let sp' := body_sp 0 crc (received ds) (auto_after a ds) (Some c) (if v then SS_DONE else SS_IDLE) in
  exists w' t, run lw (map deliver (hd :: ds)) w = Ok (w', t) /\
    w_stations w' = w_stations w /\ w_engines w' = w_engines w /\ w_parsers w' = upd p (LibP sp') (w_parsers w) /\
    w_conss w' = upd c (if v then after_list lw (Def true) i num off (Def cb) (lines_of a ds)
                        else ListC (Def false) (map (fun _ => si_reset) i) (Def 0) (Def 0) (Def cb)) (w_conss w) /\
    (notes t = if v then EvStreamComplete c :: callback_note cb (fun cb => EvEndComplete cb c)
              else EvStreamAborted c :: callback_note cb (fun cb => EvEndAborted cb c)) /\
    console t = list_talk (free_count i) (lines_of a ds).
Proof.
  intros lw p c co i num off cb deliver pre Q hd ds n crc a w sp HQ HD HN HP L S C QC T F HF N0 N1 D ZL O HQw HC v sp'.
  set (I := fun rs w' => w_engines w' = w_engines w /\ w_conss w' = upd c (after_list lw co i num off (Def cb) rs) (w_conss w)).
  destruct (stream_run lw p c I list_line_fits deliver pre Q (list_talk (free_count i))) with (hd := hd) (ds := ds) (n := n) (crc := crc) (a := a) (w := w) (sp := sp)
    as (w1 & t1 & L1 & (IE & IC) & NN & YY & S1 & P1 & E1); try assumption.
  - intros rs w0 x H. exact H.
  - intros rs s k v0 w0 V (HE0 & HC0).
    assert (C0 : consumer_at w0 c (after_list lw co i num off (Def cb) rs)) by (unfold consumer_at; rewrite HC0; eapply upd_at; exact HC).
    unfold after_list in C0. destruct (consume_list lw _ _ _ _ _ _ _ _ k v0 C0 V) as (t & E & K & Y). eexists. eexists. split; [exact E|].
    split; [|split; [reflexivity|split; [reflexivity|split]]].
    + split; [exact HE0|]. cbn [with_consumer w_conss]. rewrite HC0, upd_upd. f_equal. rewrite after_list_snoc.
      change [(s, k, v0)] with ([] ++ [(s, k, v0)]). rewrite after_list_snoc. cbn [names_in flat_map counts_in rev]. rewrite filled_nil. unfold after_list. cbn [names_in flat_map counts_in rev].
      rewrite filled_nil. destruct (list_entry_of (s, k, v0)); reflexivity.
    + cbn [notes filter is_note]. unfold calls in K. clear - K. induction t as [|x t IH]; [reflexivity|]. cbn in *. destruct x; cbn in *; try discriminate; auto.
    + rewrite list_talk_snoc. f_equal. change (console (EvConsume c (zb max_section s) (zb max_key k) (zb max_value v0) :: t)) with (console t). rewrite Y, free_filled. reflexivity.
  - split; [reflexivity|]. unfold after_list. cbn [names_in flat_map counts_in rev]. rewrite filled_nil. symmetry. apply upd_same_id. exact HC.
  - assert (C0 : consumer_at w1 c (after_list lw co i num off (Def cb) (lines_of a ds))) by (unfold consumer_at; rewrite IC; eapply upd_at; exact HC).
    unfold after_list in C0. fold v in E1, P1. fold sp' in P1. destruct v eqn:V.
    + rewrite (complete_list _ _ _ _ _ _ _ C0) in E1. eexists. eexists. split; [exact E1|]. split; [exact S1|]. split; [exact IE|]. split; [exact P1|].
      split; [cbn [with_consumer w_conss]; rewrite IC, upd_upd; reflexivity|]. split; [rewrite notes_app, NN; destruct cb; reflexivity|].
      rewrite console_app, YY. cbn [list_talk app]. destruct cb; cbn [callback_note console map List.concat app]; rewrite app_nil_r; reflexivity.
    + rewrite (aborted_list _ _ _ _ _ _ _ C0) in E1. eexists. eexists. split; [exact E1|]. split; [exact S1|]. split; [exact IE|]. split; [exact P1|].
      split; [|split; [rewrite notes_app, NN; destruct cb; reflexivity|rewrite console_app, YY; cbn [list_talk app]; destruct cb; cbn [callback_note console map List.concat app]; rewrite app_nil_r; reflexivity]]. cbn [with_consumer w_conss]. rewrite IC, upd_upd. f_equal. f_equal.
      assert (M : forall t t' : list ShortInfo, List.length t = List.length t' -> map (fun _ => si_reset) t = map (fun _ => si_reset) t').
      { induction t as [|x t IH]; intros [|y t'] H; cbn in *; try discriminate; [reflexivity|]. f_equal. apply IH. lia. }
      apply M. apply filled_len.
Qed.

(** ** Documents in frames *)
Lemma content_short : forall ds, short (map content ds).
Proof.
  intros ds. unfold short. induction ds as [|d ds IH]; [constructor|]. cbn [map]. constructor; [|exact IH].
  unfold content, zlen, max_text. rewrite firstn_length. lia.
Qed.
Lemma content_concat : forall ds, List.concat (map content ds) = received ds.
Proof. intros. unfold received. rewrite flat_map_concat_map. reflexivity. Qed.
Lemma sec_fits : forall sec, (List.length sec <= 11)%nat -> fits (mkA Between sec [] []).
Proof. intros. unfold fits, max_section, max_key, max_value. cbn [a_sec a_key a_val List.length]. lia. Qed.
Lemma doc_lines : forall ds d sec, doc_ok d -> carries ds d -> lines_of (mkA Between sec [] []) ds = reports sec d /\
  auto_after (mkA Between sec [] []) ds = mkA Between (last_section sec d) [] [].
Proof.
  intros ds d sec D (_ & g & G & E). unfold lines_of, auto_after.
  destruct (aadds_feed (map content ds) (mkA Between sec [] []) eq_refl (content_short ds)) as (n & E1 & Hn). rewrite E1. cbn [fst snd].
  rewrite content_concat, E in *. rewrite afeed_app, afeed_doc, afeed_between in * by (assumption || reflexivity). cbn [fst snd a_at] in *.
  rewrite Hn by reflexivity. cbn [repeat]. rewrite !app_nil_r. auto.
Qed.
Lemma overlong_fails : forall tok sec, overlong tok -> afeed (mkA Between sec [] []) tok = (failed, [error_report]).
Proof.
  intros tok sec [(s & -> & F & L)|[(k & -> & F & L)|(k & v & -> & F & L & F2 & L2)]]; cbn [app afeed]; unfold astep at 1; cbn [a_at].
  - change (SQ_OPEN =? SQ_OPEN) with true. cbv iota. rewrite afeed_section by (assumption || (cbn; unfold max_section; lia)). cbn [List.length Nat.add a_key a_val]. rewrite L. reflexivity.
  - change (DOT =? SQ_OPEN) with false. change (DOT =? DOT) with true. cbv iota. cbn [a_sec a_key a_val].
    rewrite afeed_key by (assumption || (cbn; unfold max_key; lia)). cbn [List.length Nat.add]. rewrite L. reflexivity.
  - change (DOT =? SQ_OPEN) with false. change (DOT =? DOT) with true. cbv iota. cbn [a_sec a_key a_val].
    rewrite afeed_app, afeed_key by (assumption || (cbn; unfold max_key; lia)). cbn [List.length Nat.add]. rewrite (proj2 (Nat.leb_le _ _)) by assumption.
    cbn [afeed app]. unfold astep at 1. cbn [a_at a_sec a_key a_val]. change (EQUALS =? EQUALS) with true. cbv iota.
    rewrite afeed_value by (assumption || (cbn; unfold max_value; lia)). cbn [List.length Nat.add]. rewrite L2. reflexivity.
Qed.
Lemma broken_lines : forall ds d rest sec, doc_ok d -> carries_broken ds d rest ->
  exists n, lines_of (mkA Between sec [] []) ds = reports sec d ++ repeat error_report (S n).
Proof.
  intros ds d rest sec D (_ & g & tok & G & O & E). unfold lines_of.
  destruct (aadds_feed (map content ds) (mkA Between sec [] []) eq_refl (content_short ds)) as (n & E1 & _). rewrite E1. cbn [fst snd].
  rewrite content_concat, E. rewrite afeed_app, afeed_doc by assumption. rewrite afeed_app, afeed_between by (assumption || reflexivity).
  rewrite afeed_app, overlong_fails by assumption. rewrite afeed_failed. cbn [snd app]. exists n. rewrite <- app_assoc. reflexivity.
Qed.
Lemma error_line : forall lw l, after_line lw l error_report = l. Proof. reflexivity. Qed.
Lemma error_lines : forall lw n l rs, after_lines lw l (rs ++ repeat error_report n) = after_lines lw l rs.
Proof.
  intros lw n l rs. unfold after_lines. rewrite fold_left_app. generalize (fold_left (after_line lw) rs l). intros x.
  induction n as [|n IH]; [reflexivity|]. cbn [repeat fold_left]. rewrite error_line. exact IH.
Qed.

(** ** Attributes after a list of lines *)
Lemma attr_uid : forall lw rs l, ld_uid (lo_data (after_lines lw l rs)) = last (map (fun v => hex_value lw v mod 2 ^ 32) (values_of Uid rs)) (ld_uid (lo_data l)).
Proof.
  intros lw rs l. revert l. induction rs as [|r rs IH] using rev_ind; intros l; [reflexivity|]. rewrite lines_snoc. unfold values_of. rewrite flat_map_app, map_app.
  fold (values_of Uid rs). cbn [flat_map]. rewrite app_nil_r. destruct r as ((s & k) & v). cbn [after_line]. destruct (attribute_of s k) as [[]|]; cbn [attribute_eqb with_attribute lo_data ld_uid map].
  - rewrite last_last. reflexivity.
  - rewrite app_nil_r. apply IH.
  - rewrite app_nil_r. apply IH.
  - rewrite app_nil_r. apply IH.
Qed.
Lemma attr_addr : forall lw rs l, ld_addr (lo_data (after_lines lw l rs)) = last (map (fun v => hex_value lw v mod 2 ^ 32) (values_of Address rs)) (ld_addr (lo_data l)).
Proof.
  intros lw rs l. revert l. induction rs as [|r rs IH] using rev_ind; intros l; [reflexivity|]. rewrite lines_snoc. unfold values_of. rewrite flat_map_app, map_app.
  fold (values_of Address rs). cbn [flat_map]. rewrite app_nil_r. destruct r as ((s & k) & v). cbn [after_line]. destruct (attribute_of s k) as [[]|]; cbn [attribute_eqb with_attribute lo_data ld_addr map].
  - rewrite app_nil_r. apply IH.
  - rewrite app_nil_r. apply IH.
  - rewrite last_last. reflexivity.
  - rewrite app_nil_r. apply IH.
Qed.
Lemma attr_proto : forall lw rs l, lo_proto (after_lines lw l rs) =
  last (map (fun v => firstn 8 (until_nul v) ++ repeat 0 (8 - List.length (until_nul v))) (values_of Protocol rs)) (lo_proto l).
Proof.
  intros lw rs l. revert l. induction rs as [|r rs IH] using rev_ind; intros l; [reflexivity|]. rewrite lines_snoc. unfold values_of. rewrite flat_map_app, map_app.
  fold (values_of Protocol rs). cbn [flat_map]. rewrite app_nil_r. destruct r as ((s & k) & v). cbn [after_line]. destruct (attribute_of s k) as [[]|]; cbn [attribute_eqb with_attribute lo_proto map].
  - rewrite app_nil_r. apply IH.
  - rewrite last_last. reflexivity.
  - rewrite app_nil_r. apply IH.
  - rewrite app_nil_r. apply IH.
Qed.
Lemma attr_rest : forall lw rs l, let l' := after_lines lw l rs in lo_info l' = lo_info l /\ ld_vel (lo_data l') = ld_vel (lo_data l) /\
  ld_dir (lo_data l') = ld_dir (lo_data l) /\ ld_fbits (lo_data l') = ld_fbits (lo_data l).
Proof.
  intros lw rs. induction rs as [|r rs IH]; intros l; cbn; [auto|]. destruct (IH (after_line lw l r)) as (A & B & C & D). unfold after_lines in *. rewrite A, B, C, D.
  destruct r as ((s & k) & v). cbn [after_line]. destruct (attribute_of s k) as [[]|]; cbn; auto.
Qed.

(** ** Requests that start a stream *)
Lemma config_deliver : forall lw s st p id, is_u16 (st_hash st) -> cb_cfg (st_cbs st) = Some p -> config_id id ->
  forall w sp d, lib_at w p sp -> in_progress sp = true -> nth_error (w_stations w) s = Some st -> payload_ok d ->
  step lw (OnStation s (HandlePacket (mkFrame id d))) w =
    match lib_addMessage lw p d w with Ok (w', t) => Ok (w', [EvCfg p (CAdd d)] ++ t) | UB u => UB u end.
Proof.
  intros lw s st p id H C (top & prio & resp & h & F & ->) w sp d L IP S0 P.
  rewrite (config_forward lw w s st p (LibP sp)); [| split; assumption | assumption | assumption | exact L |].
  - cbn [step]. destruct (lib_addMessage lw p d w) as [[]|]; reflexivity.
  - exists p, (LibP sp). split; [reflexivity|]. split; [exact L|]. cbn [pobj_state]. unfold in_progress in IP. destruct (sp_state sp); try discriminate; auto.
Qed.

Lemma engine_prefix : forall lw w s st tx p c e sp sec cb e0 l name, station_at w s st -> cb_tx (st_cbs st) = Some tx -> cb_cfg (st_cbs st) = None ->
  lib_at w p sp -> between_lines sp sec -> consumer_at w c (LocoC e0 cb) -> engine_at w e l -> si_avail (lo_info l) <> EMPTY ->
  shows_name (si_name (lo_info l)) name ->
  let sp1 := mkSP SS_FIRST (sp_remaining sp) (parser (mkA Between sec [] []) (Some c)) crc_reset (Some c) in
  let w1 := mkW (upd s (now_using st (Some p)) (w_stations w)) (upd p (LibP sp1) (w_parsers w)) (upd c (LocoC (Def (Some e)) cb) (w_conss w)) (w_engines w) in
  run lw [ParserSetConsumer p (Some c); LocoSetEngine c (Some e); OnStation s (RequestEngine (RefEngine e) (Some p))] w =
    Ok (w1, EvCfg p CStart :: map (EvTx tx) (engine_request (st_hash st) name)).
Proof.
  intros lw w s st tx p c e sp sec cb e0 l name S0 T C0 L (TX & _) HC HE AV SN sp1 w1. cbn [run].
  assert (E1 : step lw (ParserSetConsumer p (Some c)) w = Ok (with_parser w p (LibP (sp_setConsumer sp (Some c))), [])).
  { cbn [step]. rewrite (ask_ok _ _ _ _ _ (lib_get _ _ _ L)). reflexivity. }
  rewrite (seq_ok _ _ _ _ _ E1). set (wa := with_parser w p _).
  assert (E2 : step lw (LocoSetEngine c (Some e)) wa = Ok (with_consumer wa c (LocoC (Def (Some e)) cb), [])).
  { cbn [step]. rewrite (ask_ok _ _ _ _ _ (get_cons_ok wa c _ HC)). reflexivity. }
  rewrite (seq_ok _ _ _ _ _ E2). set (wb := with_consumer wa c _).
  assert (LB : lib_at wb p (sp_setConsumer sp (Some c))) by (apply (lib_with _ _ _ _ L)).
  destruct (engine_request_accepted lw wb s st tx (RefEngine e) (Some p) (si_avail (lo_info l)) name wb []) as (E3 & _); try assumption.
  - exists (lo_info l). split; [reflexivity|]. split; [exact SN|]. exists l. split; [exact HE|reflexivity].
  - rewrite C0. intros (q & x & Q & _). discriminate.
  - change (nth_error (w_parsers wb) p <> None). rewrite LB. discriminate.
  - rewrite C0. split; reflexivity.
  - rewrite (seq_ok _ _ _ _ _ E3). cbn [skip app]. rewrite !app_nil_r. f_equal. f_equal.
    + unfold started. cbn [with_station w_parsers]. rewrite LB. unfold wb, wa, with_parser, with_station, with_consumer, w1. cbn. rewrite upd_upd. f_equal. f_equal. unfold sp1, sp_setConsumer, crc_reset. cbn.
      rewrite TX. reflexivity.
Qed.

(** ** Downloads *)
Lemma proper_verdict : forall hd ds crc, header_for hd (8 * zlen ds) crc -> (verdict (received ds) crc = true <-> checksum_is (received ds) crc).
Proof. intros. apply verdict_true. Qed.
Lemma nonempty_pos : forall (ds : list Data), ds <> [] -> 0 < zlen ds.
Proof. intros [|d ds] H; [congruence|]. unfold zlen. cbn [List.length]. lia. Qed.

Lemma engine_download_run : forall lw w s st tx p c e sp sec cb e0 l name hd ds crc id, station_at w s st -> cb_tx (st_cbs st) = Some tx -> cb_cfg (st_cbs st) = None ->
  lib_at w p sp -> between_lines sp sec -> consumer_at w c (LocoC e0 (Def cb)) -> engine_at w e l -> si_avail (lo_info l) <> EMPTY ->
  shows_name (si_name (lo_info l)) name -> List.length (lo_proto l) = 8%nat -> config_id id ->
  header_for hd (8 * zlen ds) crc -> ds <> [] -> 8 * zlen ds < 2 ^ 32 -> Forall data_frame ds ->
  let rs := lines_of (mkA Between sec [] []) ds in
  let good := verdict (received ds) crc in
  let l' := after_lines lw l rs in
  Forall line_fits rs -> (good = true -> In 0 (lo_proto l')) ->
  exists w' t, run lw (engine_download s p c e id (hd :: ds)) w = Ok (w', t) /\
    w_engines w' = upd e (if good then lo_setAvailability l' FULL_DETAILS else l') (w_engines w) /\
    w_stations w' = upd s (now_using st (Some p)) (w_stations w) /\
    w_conss w' = upd c (LocoC (Def (Some e)) (Def cb)) (w_conss w) /\
    (exists sp', w_parsers w' = upd p (LibP sp') (w_parsers w) /\ sp_state sp' = (if good then SS_DONE else SS_IDLE) /\ sp_cons sp' = Some c /\
       sp_text sp' = parser (auto_after (mkA Between sec [] []) ds) (Some c)) /\
    notes t = (if good then EvStreamComplete c :: callback_note cb (fun cb => EvEndComplete cb c)
               else EvStreamAborted c :: callback_note cb (fun cb => EvEndAborted cb c)) /\
    (details_ok (lo_data l) -> console t = if good then downloaded_text (lo_setAvailability l' FULL_DETAILS) else []).
Proof.
  intros lw w s st tx p c e sp sec cb e0 l name hd ds crc id S0 T C0 L B HC HE AV SN P8 ID HF NE SZ D rs good l' LF PT.
  pose proof (engine_prefix lw w s st tx p c e sp sec (Def cb) e0 l name S0 T C0 L B HC HE AV SN) as E1.
  cbv zeta in E1. set (sp1 := mkSP SS_FIRST _ _ _ _) in E1. set (w1 := mkW _ _ _ _) in E1.
  assert (L1 : lib_at w1 p sp1) by (eapply lib_upd; exact L).
  assert (Q1 : nth_error (w_stations w1) s = Some (now_using st (Some p))) by (eapply upd_at; apply (proj1 S0)).
  assert (C1 : consumer_at w1 c (LocoC (Def (Some e)) (Def cb))) by (eapply upd_at; exact HC).
  assert (H16 : is_u16 (st_hash (now_using st (Some p)))) by (apply (proj2 S0)).
  destruct (loco_stream lw p c e cb (fun d => OnStation s (HandlePacket (mkFrame id d))) (fun d => [EvCfg p (CAdd d)]) (fun w => nth_error (w_stations w) s = Some (now_using st (Some p)))
     hd ds (zlen ds) crc (mkA Between sec [] []) w1 sp1 l name) as (w2 & t2 & E2 & S2 & CC2 & P2 & EE2 & N2 & Y2); try assumption; try reflexivity.
  - intros wa wb X Y. rewrite X. exact Y.
  - intros. eapply config_deliver; try eassumption. reflexivity.
  - apply sec_fits. apply (proj2 B).
  - apply nonempty_pos. exact NE.
  - exists w2. eexists. split.
    { unfold engine_download, arriving. rewrite (run_app _ _ _ _ _ _ E1). rewrite E2. reflexivity. }
    fold rs l' good in EE2. split; [exact EE2|]. split; [exact S2|]. split; [exact CC2|]. split.
    { eexists. split; [rewrite P2; unfold w1; cbn [w_parsers]; rewrite upd_upd; reflexivity|]. split; [reflexivity|]. split; reflexivity. }
    split; [cbn [notes filter is_note map app engine_request]; exact N2|]. intros DK. exact (Y2 DK).
Qed.
Lemma list_prefix : forall lw w s st tx p c sp sec off, station_at w s st -> cb_tx (st_cbs st) = Some tx -> cb_cfg (st_cbs st) = None ->
  lib_at w p sp -> between_lines sp sec -> byte off ->
  let sp1 := mkSP SS_FIRST (sp_remaining sp) (parser (mkA Between sec [] []) (Some c)) crc_reset (Some c) in
  let w1 := mkW (upd s (now_using st (Some p)) (w_stations w)) (upd p (LibP sp1) (w_parsers w)) (w_conss w) (w_engines w) in
  run lw [ParserSetConsumer p (Some c); OnStation s (RequestEngineList off (Some p))] w =
    Ok (w1, EvCfg p CStart :: map (EvTx tx) (list_frames (st_hash st) off)).
Proof.
  intros lw w s st tx p c sp sec off S0 T C0 L (TX & _) OB sp1 w1. cbn [run].
  assert (E1 : step lw (ParserSetConsumer p (Some c)) w = Ok (with_parser w p (LibP (sp_setConsumer sp (Some c))), [])).
  { cbn [step]. rewrite (ask_ok _ _ _ _ _ (lib_get _ _ _ L)). reflexivity. }
  rewrite (seq_ok _ _ _ _ _ E1). set (wa := with_parser w p _).
  assert (LB : lib_at wa p (sp_setConsumer sp (Some c))) by (apply (lib_with _ _ _ _ L)).
  assert (E3 : step lw (OnStation s (RequestEngineList off (Some p))) wa =
     Ok (started (with_station wa s (now_using st (Some p))) (Some p), [] ++ start_call (Some p) ++ map (EvTx tx) (list_frames (st_hash st) off))).
  { apply (list_request lw wa s st tx off (Some p) wa []); try assumption.
    - change (nth_error (w_parsers wa) p <> None). rewrite LB. discriminate.
    - rewrite C0. split; reflexivity. }
  rewrite (seq_ok _ _ _ _ _ E3). cbn [skip app]. rewrite !app_nil_r. f_equal. f_equal.
  unfold started. cbn [with_station w_parsers]. rewrite LB. unfold wa, with_parser, with_station, w1. cbn. rewrite upd_upd. f_equal. f_equal. unfold sp1, sp_setConsumer, crc_reset. cbn.
  rewrite TX. reflexivity.
Qed.
Lemma list_download_run : forall lw w s st tx p c sp sec co i num o cb off hd ds crc id, station_at w s st -> cb_tx (st_cbs st) = Some tx -> cb_cfg (st_cbs st) = None ->
  lib_at w p sp -> between_lines sp sec -> consumer_at w c (ListC co i num o (Def cb)) -> byte off -> config_id id ->
  header_for hd (8 * zlen ds) crc -> ds <> [] -> 8 * zlen ds < 2 ^ 32 -> Forall data_frame ds ->
  let rs := lines_of (mkA Between sec [] []) ds in
  let good := verdict (received ds) crc in
  Forall list_line_fits rs ->
  exists w' t, run lw (list_download s p c off id (hd :: ds)) w = Ok (w', t) /\
    w_conss w' = upd c (if good then after_list lw (Def true) i num o (Def cb) rs
                        else ListC (Def false) (map (fun _ => si_reset) i) (Def 0) (Def 0) (Def cb)) (w_conss w) /\
    w_engines w' = w_engines w /\ w_stations w' = upd s (now_using st (Some p)) (w_stations w) /\
    notes t = (if good then EvStreamComplete c :: callback_note cb (fun cb => EvEndComplete cb c)
               else EvStreamAborted c :: callback_note cb (fun cb => EvEndAborted cb c)) /\
    console t = list_talk (free_count i) rs.
Proof.
  intros lw w s st tx p c sp sec co i num o cb off hd ds crc id S0 T C0 L B HC OB ID HF NE SZ D rs good LF.
  pose proof (list_prefix lw w s st tx p c sp sec off S0 T C0 L B OB) as E1.
  cbv zeta in E1. set (sp1 := mkSP SS_FIRST _ _ _ _) in E1. set (w1 := mkW _ _ _ _) in E1.
  assert (L1 : lib_at w1 p sp1) by (eapply lib_upd; exact L).
  assert (Q1 : nth_error (w_stations w1) s = Some (now_using st (Some p))) by (eapply upd_at; apply (proj1 S0)).
  assert (H16 : is_u16 (st_hash (now_using st (Some p)))) by (apply (proj2 S0)).
  destruct (list_stream lw p c co i num o cb (fun d => OnStation s (HandlePacket (mkFrame id d))) (fun d => [EvCfg p (CAdd d)]) (fun w => nth_error (w_stations w) s = Some (now_using st (Some p)))
     hd ds (zlen ds) crc (mkA Between sec [] []) w1 sp1) as (w2 & t2 & E2 & S2 & EE2 & P2 & CC2 & N2 & Y2); try assumption; try reflexivity.
  - intros wa wb X Y. rewrite X. exact Y.
  - intros. eapply config_deliver; try eassumption. reflexivity.
  - apply sec_fits. apply (proj2 B).
  - apply nonempty_pos. exact NE.
  - exists w2. eexists. split.
    { unfold list_download, arriving. rewrite (run_app _ _ _ _ _ _ E1). rewrite E2. reflexivity. }
    split; [exact CC2|]. split; [exact EE2|]. split; [exact S2|].
    split; [cbn [notes filter is_note map app list_frames]; exact N2|]. exact Y2.
Qed.

(** ** The consumer of a second request *)
Definition blank (st : SState) (q : option nat) : SP := mkSP st 0 (parser astart q) crc_reset q.
Lemma reset_blank : forall lw w p sp w1 t1, lib_at w p sp -> usable sp -> reset_effect lw w (Some p) w1 t1 ->
  w_parsers w1 = upd p (LibP (blank SS_IDLE None)) (w_parsers w) /\ w_stations w1 = w_stations w.
Proof.
  intros lw w p sp w1 t1 L (a & F & T) H. unfold reset_effect in H. rewrite L in H. destruct H as (t' & H & _).
  cbn [step] in H. destruct (reset_inv _ _ _ _ _ L H) as (tx & E & P & S & _). rewrite T, (reset_spec _ _ F) in E. injection E as <-. auto.
Qed.
Lemma in_progress_processing : forall w p sp, lib_at w p sp -> in_progress sp = false -> ~ processing w (Some p).
Proof.
  intros w p sp L H (q & x & Q & E & P). injection Q as <-. unfold lib_at in L. rewrite L in E. injection E as <-. cbn in P. unfold in_progress in H.
  destruct P as [P|P]; rewrite P in H; discriminate.
Qed.
(** any accepted request for parser p, the station referring to q *)
Lemma request_result : forall lw w s st tx p sp o w2 t, station_at w s st -> cb_tx (st_cbs st) = Some tx ->
  lib_at w p sp -> usable sp -> (cb_cfg (st_cbs st) = Some p \/ cb_cfg (st_cbs st) = None) -> config_request w sp o p ->
  step lw (OnStation s o) w = Ok (w2, t) ->
  lib_at w2 p (match cb_cfg (st_cbs st) with Some _ => blank SS_FIRST None
               | None => mkSP SS_FIRST (sp_remaining sp) (sp_text sp) crc_reset (sp_cons sp) end) /\
  w_stations w2 = upd s (now_using st (Some p)) (w_stations w) /\
  exists t1, notes t = notes t1 /\ reset_effect lw w (cb_cfg (st_cbs st)) (mkW (w_stations w) (match cb_cfg (st_cbs st) with Some _ => upd p (LibP (blank SS_IDLE None)) (w_parsers w) | None => w_parsers w end) (w_conss w2) (w_engines w2)) t1.
Proof.
  intros lw w s st tx p sp o w2 t S0 T L U CC CR H.
  assert (V : valid_ptr w (Some p)) by (cbn; rewrite L; discriminate).
  assert (G : exists w1 t1, reset_effect lw w (cb_cfg (st_cbs st)) w1 t1 /\
    w2 = started (with_station w1 s (now_using st (Some p))) (Some p) /\ notes t = notes t1).
  { destruct CR as [(off & OB & ->)|(r & av & name & RT & AV & IP & ->)].
    - pose proof H as H0. rewrite list_unfold in H0. apply seq_inv in H0. destruct H0 as (wa & ta & tb & H1 & _ & _).
      apply (finish_iff _ _ _ st) in H1; [|assumption]. destruct H1 as (w1 & RE & _). exists w1, ta. split; [exact RE|].
      rewrite (list_request lw w s st tx off (Some p) w1 ta S0 T OB V RE) in H. inversion H; subst. split; [reflexivity|]. rewrite !notes_app. cbn. apply app_nil_r.
    - assert (NP : ~ processing w (cb_cfg (st_cbs st))).
      { destruct CC as [-> | ->]; [eapply in_progress_processing; eassumption|]. intros (q & x & Q & _). discriminate. }
      assert (VC : valid_ptr w (cb_cfg (st_cbs st))) by (destruct CC as [-> | ->]; [exact V|exact Logic.I]).
      pose proof H as H0. rewrite (engine_unfold lw w s st r (Some p) av name S0 RT AV VC NP) in H0. apply seq_inv in H0. destruct H0 as (wa & ta & tb & H1 & _ & _).
      apply (finish_iff _ _ _ st) in H1; [|assumption]. destruct H1 as (w1 & RE & _). exists w1, ta. split; [exact RE|].
      destruct (engine_request_accepted lw w s st tx r (Some p) av name w1 ta S0 T RT AV NP V RE) as (E & _). rewrite E in H. inversion H; subst.
      split; [reflexivity|]. rewrite !notes_app. cbn. apply app_nil_r. }
  destruct G as (w1 & t1 & RE & -> & NT).
  assert (PP : w_parsers w1 = (match cb_cfg (st_cbs st) with Some _ => upd p (LibP (blank SS_IDLE None)) (w_parsers w) | None => w_parsers w end) /\ w_stations w1 = w_stations w).
  { destruct CC as [C|C]; rewrite C in *; [eapply reset_blank; eassumption|]. destruct RE as (-> & _). auto. }
  destruct PP as (PP & PS).
  assert (L1 : lib_at w1 p (match cb_cfg (st_cbs st) with Some _ => blank SS_IDLE None | None => sp end)).
  { unfold lib_at. rewrite PP. destruct CC as [C|C]; rewrite C; [eapply lib_upd; exact L|exact L]. }
  assert (L1' : nth_error (w_parsers (with_station w1 s (now_using st (Some p)))) p = Some (LibP (match cb_cfg (st_cbs st) with Some _ => blank SS_IDLE None | None => sp end))) by exact L1.
  unfold started. rewrite L1'. split; [|split].
  - unfold lib_at. cbn [with_parser w_parsers]. erewrite upd_at by exact L1'. f_equal. destruct (cb_cfg (st_cbs st)); reflexivity.
  - cbn. rewrite PS. reflexivity.
  - exists t1. split; [exact NT|]. cbn [with_parser with_station w_conss w_engines]. rewrite <- PP, <- PS. destruct w1; exact RE.
Qed.
Lemma request_after_finish : forall lw w s st tx p sp c o w2 t, station_at w s st -> cb_tx (st_cbs st) = Some tx -> cb_cfg (st_cbs st) = Some p ->
  lib_at w p sp -> usable sp -> (forall w', w_engines w' = w_engines w -> w_conss w' = w_conss w -> config_request w' (blank SS_IDLE (Some c)) o p) ->
  in_progress sp = false ->
  run lw [OnStation s FinishCurrentConfigRequest; ParserSetConsumer p (Some c); OnStation s o] w = Ok (w2, t) ->
  lib_at w2 p (blank SS_FIRST (Some c)) /\ w_stations w2 = upd s (now_using st (Some p)) (w_stations w) /\ notes t = [].
Proof.
  intros lw w s st tx p sp c o w2 t S0 T C L U CR IP H. cbn [run] in H.
  apply seq_inv in H. destruct H as (w1 & t1 & tr & H1 & H & ->). cbn [step st_step] in H1. apply (finish_iff _ _ _ st) in H1; [|assumption]. destruct H1 as (wr & RE & ->).
  rewrite C in RE. destruct (reset_blank _ _ _ _ _ _ L U RE) as (PP & PS). destruct (idle_reset _ _ _ _ _ RE (in_progress_processing _ _ _ L IP)) as (K1 & K2 & ->).
  apply seq_inv in H. destruct H as (wb & tb & tr2 & H1 & H & ->).
  assert (LB : lib_at (with_station wr s (now_using st None)) p (blank SS_IDLE None)) by (unfold lib_at; cbn [with_station w_parsers]; rewrite PP; eapply lib_upd; exact L).
  cbn [step] in H1. rewrite (ask_ok _ _ _ _ _ (lib_get _ _ _ LB)) in H1. inversion H1; subst. clear H1.
  set (wb := mkW _ _ _ _) in H. apply seq_inv in H. destruct H as (wc & tc & tr3 & H1 & H & ->). inversion H; subst. clear H.
  assert (LC : lib_at wb p (blank SS_IDLE (Some c))) by (unfold wb, lib_at; cbn [w_parsers]; erewrite upd_at by exact LB; reflexivity).
  assert (SB : station_at wb s (now_using st None)) by (split; [unfold wb; cbn; rewrite PS; eapply upd_at; apply (proj1 S0)|apply (proj2 S0)]).
  assert (UB0 : usable (blank SS_IDLE (Some c))) by (exists astart; split; [apply start_fits|reflexivity]).
  assert (CR' : config_request wb (blank SS_IDLE (Some c)) o p) by (apply CR; cbn; congruence).
  destruct (request_result lw wb s (now_using st None) tx p _ o w2 tc SB T LC UB0 (or_intror eq_refl) CR' H1) as (L2 & S2 & t' & N & RE').
  split; [exact L2|]. split; [rewrite S2; unfold wb; cbn; rewrite PS, upd_upd; reflexivity|]. destruct RE' as (_ & ->).
  rewrite !notes_app, N. reflexivity.
Qed.
Lemma silent_frames : forall lw s st p id, is_u16 (st_hash st) -> cb_cfg (st_cbs st) = Some p -> config_id id ->
  forall ds w sp m, nth_error (w_stations w) s = Some st -> lib_at w p sp -> R m sp -> m_cons m = None -> Forall payload_ok ds -> Forall (fun d => dlc d <= 8) ds ->
  exists w' t, run lw (arriving s id ds) w = Ok (w', t) /\ Forall (fun ev => exists d, In d ds /\ ev = EvCfg p (CAdd d)) (calls t) /\
    w_conss w' = w_conss w /\ w_engines w' = w_engines w.
Proof.
  intros lw s st p id H16 C ID. induction ds as [|d ds IH]; intros w sp m S0 L RM MC F F8.
  - exists w, []. cbn. auto.
  - inversion F; inversion F8; subst. assert (M : mine w (m_cons m)) by (rewrite MC; intros x X; discriminate).
    destruct (add_user lw w p sp m d L RM H1 M) as (sp1 & t1 & E1 & R1 & C1).
    assert (X : exists w1 t2 m2 sp2, step lw (OnStation s (HandlePacket (mkFrame id d))) w = Ok (w1, t2) /\ Forall (fun ev => ev = EvCfg p (CAdd d)) (calls t2) /\
      w_stations w1 = w_stations w /\ w_conss w1 = w_conss w /\ w_engines w1 = w_engines w /\ lib_at w1 p sp2 /\ R m2 sp2 /\ m_cons m2 = None).
    { destruct (in_progress sp) eqn:IP.
      - pose proof (config_deliver lw s st p id H16 C ID w sp d L IP S0 H1) as E. rewrite E1 in E. exists (with_parser w p (LibP sp1)). eexists. exists (fst (mstep m d)), sp1.
        split; [exact E|]. split.
        { rewrite calls_app, C1, MC. cbn [heard_by app calls filter is_print negb].
          replace (snd (mstep m d)) with (@nil event); [constructor; [reflexivity|constructor]|]. unfold mstep. rewrite MC.
          destruct (m_ph m); try reflexivity; repeat match goal with |- context [if ?b then _ else _] => destruct b end; reflexivity. }
        repeat (split; [reflexivity|]). split; [apply (lib_with _ _ _ _ L)|]. split; [exact R1|]. destruct (mstep_cons m d) as [X|X]; congruence.
      - destruct ID as (top & prio & resp & h & IF & ->).
        destruct (config_ignored lw w s st top prio resp h d (conj S0 H16) IF H1 ltac:(lia)) as (tr & E & CT & _).
        + rewrite C. cbn. rewrite L. discriminate.
        + rewrite C. eapply in_progress_processing; eassumption.
        + exists w, tr, m, sp. rewrite CT. repeat (split; [first [exact E|assumption|reflexivity|apply Forall_nil]|]). exact MC. }
    destruct X as (w1 & t2 & m2 & sp2 & E & CT & SS & SC & SE & L2 & R2 & M2).
    assert (S1 : nth_error (w_stations w1) s = Some st) by (rewrite SS; exact S0).
    destruct (IH w1 sp2 m2 S1 L2 R2 M2 H2 H6) as (w3 & t3 & E3 & CT3 & SC3 & SE3).
    exists w3, (t2 ++ t3). cbn [arriving map run]. rewrite (seq_ok _ _ _ _ _ E). unfold arriving in E3. rewrite E3. split; [reflexivity|]. split.
    { rewrite calls_app. apply Forall_app. split; [eapply Forall_impl; [|exact CT]; intros ev ->; exists d; split; [left; reflexivity|reflexivity]|].
      eapply Forall_impl; [|exact CT3]. intros ev (d' & IN & ->). exists d'. split; [right; exact IN|reflexivity]. }
    split; congruence.
Qed.

(** ** The statements of PropsConsumer.v *)
Lemma word_prefix : forall word token, nulfree token -> (taken_for word token = true <-> exists r, word = token ++ r).
Proof.
  intros word token N. unfold taken_for. rewrite orb_true_iff. rewrite !begins_spec. split; [|auto]. intros [H|(r & H)]; [exact H|].
  exfalso. subst token. apply Forall_app in N. destruct N as (N & _). apply Forall_app in N. destruct N as (_ & N). inversion N. congruence.
Qed.
Lemma described_engine : forall lw l rs tu u ta a tp, 32 <= lw -> values_of Uid rs = [tu] -> numeral tu u -> u < 2 ^ 32 ->
  values_of Address rs = [ta] -> numeral ta a -> a < 2 ^ 32 -> values_of Protocol rs = [tp] -> nulfree tp -> (List.length tp <= 7)%nat ->
  after_lines lw l rs = mkLoco (lo_info l) (mkLD u (ld_vel (lo_data l)) (ld_dir (lo_data l)) a (ld_fbits (lo_data l))) (tp ++ repeat 0 (8 - List.length tp)).
Proof.
  intros lw l rs tu u ta a tp LW VU NU U VA NA A VP NP P7.
  assert (P : 2 ^ 32 <= 2 ^ lw) by (apply Z.pow_le_mono_r; lia).
  assert (NUM : forall t x, numeral t x -> x < 2 ^ 32 -> hex_value lw t mod 2 ^ 32 = x).
  { intros t x N X. rewrite (numeral_read _ _ _ N). destruct N as (ds & _ & _ & N). assert (0 <= x) by (eapply hexdigits_nonneg; [exact N|lia]).
    rewrite Z.min_l by lia. apply Z.mod_small. lia. }
  pose proof (attr_uid lw rs l) as AU. pose proof (attr_addr lw rs l) as AA. pose proof (attr_proto lw rs l) as AP. destruct (attr_rest lw rs l) as (R1 & R2 & R3 & R4).
  rewrite VU in AU. rewrite VA in AA. rewrite VP in AP. cbn [map last] in AU, AA, AP. rewrite (NUM _ _ NU U) in AU. rewrite (NUM _ _ NA A) in AA.
  rewrite until_nul_id in AP by assumption. rewrite firstn_all2 in AP by lia.
  destruct (after_lines lw l rs) as [i [u' v' d' a' f'] pr]. cbn in *. subst. reflexivity.
Qed.
Lemma described_download : forall lw w s st tx p c e sp sec cb e0 l name hd ds d id tu u ta a tp,
  32 <= lw -> station_at w s st -> cb_tx (st_cbs st) = Some tx -> cb_cfg (st_cbs st) = None ->
  lib_at w p sp -> between_lines sp sec -> consumer_at w c (LocoC e0 (Def cb)) -> engine_at w e l -> si_avail (lo_info l) <> EMPTY ->
  shows_name (si_name (lo_info l)) name -> List.length (lo_proto l) = 8%nat -> config_id id ->
  doc_ok d -> carries ds d -> proper_stream hd ds -> Forall line_fits (reports sec d) ->
  values_of Uid (reports sec d) = [tu] -> numeral tu u -> u < 2 ^ 32 ->
  values_of Address (reports sec d) = [ta] -> numeral ta a -> a < 2 ^ 32 ->
  values_of Protocol (reports sec d) = [tp] -> nulfree tp -> (List.length tp <= 7)%nat ->
  exists w' t, run lw (engine_download s p c e id (hd :: ds)) w = Ok (w', t) /\
    w_engines w' = upd e (mkLoco (mkSI FULL_DETAILS (si_name (lo_info l)))
                                 (mkLD u (ld_vel (lo_data l)) (ld_dir (lo_data l)) a (ld_fbits (lo_data l)))
                                 (tp ++ repeat 0 (8 - List.length tp))) (w_engines w) /\
    notes t = EvStreamComplete c :: callback_note cb (fun cb => EvEndComplete cb c) /\
    (details_ok (lo_data l) ->
     console t = downloaded_text (mkLoco (mkSI FULL_DETAILS (si_name (lo_info l)))
                                         (mkLD u (ld_vel (lo_data l)) (ld_dir (lo_data l)) a (ld_fbits (lo_data l)))
                                         (tp ++ repeat 0 (8 - List.length tp)))).
Proof.
  intros lw w s st tx p c e sp sec cb e0 l name hd ds d id tu u ta a tp LW S0 T C0 L B HC HE AV SN P8 ID DO CA (crc & HF & CK & NE & SZ & DF) LF VU NU U VA NA A VP NP P7.
  destruct (doc_lines ds d sec DO CA) as (DL & _).
  assert (G : verdict (received ds) crc = true) by (apply verdict_true; exact CK).
  pose proof (described_engine lw l _ tu u ta a tp LW VU NU U VA NA A VP NP P7) as DE.
  destruct (engine_download_run lw w s st tx p c e sp sec cb e0 l name hd ds crc id S0 T C0 L B HC HE AV SN P8 ID HF NE SZ DF) as (w' & t & E & EE & _ & _ & _ & N & Y).
  - rewrite DL. exact LF.
  - intros _. rewrite DL, DE. cbn [lo_proto]. apply in_or_app. right. replace (8 - List.length tp)%nat with (S (7 - List.length tp)) by lia. left. reflexivity.
  - rewrite G in *. rewrite DL, DE in EE, Y. exists w', t. split; [exact E|]. split; [exact EE|]. split; [exact N|exact Y].
Qed.
Lemma any_download : forall lw w s st tx p c e sp sec cb e0 l name hd ds crc id d,
  station_at w s st -> cb_tx (st_cbs st) = Some tx -> cb_cfg (st_cbs st) = None ->
  lib_at w p sp -> between_lines sp sec -> consumer_at w c (LocoC e0 (Def cb)) -> engine_at w e l -> si_avail (lo_info l) <> EMPTY ->
  shows_name (si_name (lo_info l)) name -> List.length (lo_proto l) = 8%nat -> config_id id ->
  header_for hd (8 * zlen ds) crc -> ds <> [] -> 8 * zlen ds < 2 ^ 32 -> doc_ok d -> carries ds d -> Forall line_fits (reports sec d) ->
  let l' := after_lines lw l (reports sec d) in In 0 (lo_proto l') ->
  exists w' t, run lw (engine_download s p c e id (hd :: ds)) w = Ok (w', t) /\
    (checksum_is (received ds) crc ->
       w_engines w' = upd e (lo_setAvailability l' FULL_DETAILS) (w_engines w) /\ notes t = EvStreamComplete c :: callback_note cb (fun cb => EvEndComplete cb c)) /\
    (~ checksum_is (received ds) crc ->
       w_engines w' = upd e l' (w_engines w) /\ notes t = EvStreamAborted c :: callback_note cb (fun cb => EvEndAborted cb c)) /\
    (details_ok (lo_data l) -> (checksum_is (received ds) crc -> console t = downloaded_text (lo_setAvailability l' FULL_DETAILS)) /\
       (~ checksum_is (received ds) crc -> console t = [])) /\
    exists sp', lib_at w' p sp' /\ between_lines sp' (last_section sec d).
Proof.
  intros lw w s st tx p c e sp sec cb e0 l name hd ds crc id d S0 T C0 L B HC HE AV SN P8 ID HF NE SZ DO CA LF l' PT.
  destruct (doc_lines ds d sec DO CA) as (DL & DA). destruct CA as (DF & CA).
  destruct (engine_download_run lw w s st tx p c e sp sec cb e0 l name hd ds crc id S0 T C0 L B HC HE AV SN P8 ID HF NE SZ DF) as (w' & t & E & EE & _ & _ & (sp' & PP & _ & CC & TT) & N & Y).
  - rewrite DL. exact LF.
  - intros _. rewrite DL. exact PT.
  - rewrite DL in EE, Y. fold l' in EE, Y. exists w', t. split; [exact E|]. pose proof (verdict_true (received ds) crc) as VT.
    split; [|split; [|split]]; [intros K; apply VT in K; rewrite K in *; auto| | |].
    + intros K. destruct (verdict (received ds) crc) eqn:V; [exfalso; apply K; apply VT; reflexivity|]. auto.
    + intros DK. specialize (Y DK). split; intros K; [apply VT in K; rewrite K in Y; exact Y|].
      destruct (verdict (received ds) crc) eqn:V; [exfalso; apply K; apply VT; reflexivity|exact Y].
    + exists sp'. split; [unfold lib_at; rewrite PP; eapply lib_upd; exact L|]. unfold between_lines. rewrite TT, DA, CC. split; [reflexivity|].
      clear - B DO. destruct B as (_ & B). revert sec B. induction d as [|(g & i) d IH]; intros sec B; [exact B|]. inversion DO; subst. cbn in H1. destruct i; cbn; apply IH; try assumption. apply (proj2 (proj2 H1)).
Qed.
Lemma broken_download : forall lw w s st tx p c e sp sec cb e0 l name hd ds id d rest,
  station_at w s st -> cb_tx (st_cbs st) = Some tx -> cb_cfg (st_cbs st) = None ->
  lib_at w p sp -> between_lines sp sec -> consumer_at w c (LocoC e0 (Def cb)) -> engine_at w e l -> si_avail (lo_info l) <> EMPTY ->
  shows_name (si_name (lo_info l)) name -> List.length (lo_proto l) = 8%nat -> config_id id ->
  proper_stream hd ds -> doc_ok d -> carries_broken ds d rest -> Forall line_fits (reports sec d) ->
  let l' := after_lines lw l (reports sec d) in In 0 (lo_proto l') ->
  exists w' t, run lw (engine_download s p c e id (hd :: ds)) w = Ok (w', t) /\
    w_engines w' = upd e (lo_setAvailability l' FULL_DETAILS) (w_engines w) /\
    notes t = EvStreamComplete c :: callback_note cb (fun cb => EvEndComplete cb c) /\
    (details_ok (lo_data l) -> console t = downloaded_text (lo_setAvailability l' FULL_DETAILS)).
Proof.
  intros lw w s st tx p c e sp sec cb e0 l name hd ds id d rest S0 T C0 L B HC HE AV SN P8 ID (crc & HF & CK & NE & SZ & DF) DO CA LF l' PT.
  destruct (broken_lines ds d rest sec DO CA) as (n & DL).
  assert (G : verdict (received ds) crc = true) by (apply verdict_true; exact CK).
  destruct (engine_download_run lw w s st tx p c e sp sec cb e0 l name hd ds crc id S0 T C0 L B HC HE AV SN P8 ID HF NE SZ DF) as (w' & t & E & EE & _ & _ & _ & N & Y).
  - rewrite DL. apply Forall_app. split; [exact LF|]. apply Forall_forall. intros x X. apply repeat_spec in X. subst x. unfold line_fits, error_report. cbn. lia.
  - intros _. rewrite DL, error_lines. exact PT.
  - rewrite G, DL, error_lines in *. exists w', t. auto.
Qed.
Lemma named_list_download : forall lw w s st tx p c sp sec co i num o cb off hd ds crc id d,
  station_at w s st -> cb_tx (st_cbs st) = Some tx -> cb_cfg (st_cbs st) = None ->
  lib_at w p sp -> between_lines sp sec -> consumer_at w c (ListC co i num o (Def cb)) -> byte off -> config_id id ->
  header_for hd (8 * zlen ds) crc -> ds <> [] -> 8 * zlen ds < 2 ^ 32 -> doc_ok d -> carries ds d -> Forall list_line_fits (reports sec d) ->
  exists w' t, run lw (list_download s p c off id (hd :: ds)) w = Ok (w', t) /\ w_engines w' = w_engines w /\
    console t = list_talk (free_count i) (reports sec d) /\
    (checksum_is (received ds) crc ->
       w_conss w' = upd c (ListC (Def true) (filled i (names_in (reports sec d)))
                             (last (map (fun v => Def (dec_value lw v mod 256)) (counts_in (reports sec d))) num) o (Def cb)) (w_conss w) /\
       notes t = EvStreamComplete c :: callback_note cb (fun cb => EvEndComplete cb c)) /\
    (~ checksum_is (received ds) crc ->
       w_conss w' = upd c (ListC (Def false) (map (fun _ => si_reset) i) (Def 0) (Def 0) (Def cb)) (w_conss w) /\
       notes t = EvStreamAborted c :: callback_note cb (fun cb => EvEndAborted cb c)).
Proof.
  intros lw w s st tx p c sp sec co i num o cb off hd ds crc id d S0 T C0 L B HC OB ID HF NE SZ DO CA LF.
  destruct (doc_lines ds d sec DO CA) as (DL & _). destruct CA as (DF & CA).
  destruct (list_download_run lw w s st tx p c sp sec co i num o cb off hd ds crc id S0 T C0 L B HC OB ID HF NE SZ DF) as (w' & t & E & CC & EE & _ & N & Y).
  - rewrite DL. exact LF.
  - rewrite DL in CC, Y. exists w', t. split; [exact E|]. split; [exact EE|]. split; [exact Y|]. pose proof (verdict_true (received ds) crc) as VT. split.
    + intros K. apply VT in K. rewrite K in *. split; [|exact N]. rewrite CC. f_equal. unfold after_list. f_equal.
      assert (RL : forall (l : list (list Z)), match rev l with v :: _ => Def (dec_value lw v mod 256) | [] => num end = last (map (fun v => Def (dec_value lw v mod 256)) l) num).
      { intros vs. destruct vs as [|x vs _] using rev_ind; [reflexivity|]. rewrite rev_app_distr, map_app. cbn [map]. rewrite last_last. reflexivity. }
      apply RL.
    + intros K. destruct (verdict (received ds) crc) eqn:V; [exfalso; apply K; apply VT; reflexivity|]. auto.
Qed.
Lemma reset_clears_list : forall lw w p c sp co i num o cb, lib_at w p sp -> usable sp -> in_progress sp = true -> sp_cons sp = Some c ->
  consumer_at w c (ListC co i num o (Def cb)) ->
  run lw [ParserReset p] w = Ok (mkW (w_stations w) (upd p (LibP (blank SS_IDLE None)) (w_parsers w))
     (upd c (ListC (Def false) (map (fun _ => si_reset) i) (Def 0) (Def 0) (Def cb)) (w_conss w)) (w_engines w),
     EvStreamAborted c :: callback_note cb (fun cb => EvEndAborted cb c)).
Proof.
  intros lw w p c sp co i num o cb L (a & F & T) IP CC HC. cbn [run step]. unfold lib_reset.
  assert (E1 : (ask (get_lib p) (fun sp0 => (if ss_processing (sp_state sp0) then when_some (sp_cons sp0) cons_aborted else skip) ;;;
     ask (get_lib p) (fun sp1 => ask (fun _ => tp_reset (sp_text sp1)) (fun t => put_lib p (mkSP SS_IDLE 0 t crc_reset None))))) w =
     Ok (mkW (w_stations w) (upd p (LibP (blank SS_IDLE None)) (w_parsers w))
     (upd c (ListC (Def false) (map (fun _ => si_reset) i) (Def 0) (Def 0) (Def cb)) (w_conss w)) (w_engines w),
     EvStreamAborted c :: callback_note cb (fun cb => EvEndAborted cb c))).
  { rewrite (ask_ok _ _ _ _ _ (lib_get _ _ _ L)). rewrite CC. replace (ss_processing (sp_state sp)) with true by (unfold in_progress in IP; destruct (sp_state sp); try discriminate; reflexivity).
    cbn [when_some]. rewrite (seq_ok _ _ _ _ _ (aborted_list _ _ _ _ _ _ _ HC)).
    rewrite (ask_ok _ _ _ _ _ (lib_get (with_consumer w c _) p sp L)). rewrite T. rewrite (ask_ok _ _ _ _ _ (reset_spec _ _ F)). cbn. rewrite app_nil_r. reflexivity. }
  rewrite (seq_ok _ _ _ _ _ E1). cbn [skip]. rewrite app_nil_r. reflexivity.
Qed.
Lemma notes_ends : forall t, ends t = filter is_end (notes t).
Proof. induction t as [|x t IH]; [reflexivity|]. unfold ends, notes in *. cbn [filter]. destruct x; cbn [is_end is_note filter]; rewrite <- ?IH; reflexivity. Qed.
Lemma ends_cons_other : forall x t, is_end x = false -> ends (x :: t) = ends t.
Proof. intros x t H. unfold ends. cbn [filter]. rewrite H. reflexivity. Qed.
Lemma second_request_loses : forall lw w s st tx p sp c o w1 t1, station_at w s st -> cb_tx (st_cbs st) = Some tx -> cb_cfg (st_cbs st) = Some p ->
  lib_at w p sp -> usable sp -> config_request w sp o p ->
  run lw [ParserSetConsumer p (Some c); OnStation s o] w = Ok (w1, t1) ->
  ends t1 = (if in_progress sp then [EvStreamAborted c] else []) /\ lib_at w1 p (blank SS_FIRST None) /\
  forall id ds, config_id id -> Forall payload_ok ds -> Forall (fun d => dlc d <= 8) ds ->
    exists w2 t2, run lw (arriving s id ds) w1 = Ok (w2, t2) /\ Forall (fun ev => exists d, In d ds /\ ev = EvCfg p (CAdd d)) (calls t2) /\
      w_conss w2 = w_conss w1 /\ w_engines w2 = w_engines w1.
Proof.
  intros lw w s st tx p sp c o w1 t1 S0 T C L U CR H. cbn [run] in H. apply seq_inv in H. destruct H as (wa & ta & tb & H1 & H & ->).
  cbn [step] in H1. rewrite (ask_ok _ _ _ _ _ (lib_get _ _ _ L)) in H1. inversion H1; subst. clear H1. apply seq_inv in H. destruct H as (wb & tc & td & H1 & H & ->). inversion H; subst. clear H.
  change (mkW _ _ _ _) with (with_parser w p (LibP (sp_setConsumer sp (Some c)))) in H1. set (wa := with_parser w p _) in H1.
  assert (LA : lib_at wa p (sp_setConsumer sp (Some c))) by (apply (lib_with _ _ _ _ L)).
  assert (UA : usable (sp_setConsumer sp (Some c))).
  { destruct U as (a & F & TT). exists a. split; [exact F|]. unfold sp_setConsumer. cbn. rewrite TT. reflexivity. }
  assert (CA : config_request wa (sp_setConsumer sp (Some c)) o p) by exact CR.
  destruct (request_result lw wa s st tx p _ o _ _ S0 T LA UA (or_introl C) CA H1) as (L1 & S1 & (tr & NT & RE)). rewrite C in L1, RE. cbn [cb_cfg st_cbs now_using] in RE.
  split.
  { rewrite app_nil_r. cbn [app]. rewrite (notes_ends tc), NT, <- (notes_ends tr). unfold reset_effect in RE. rewrite LA in RE. destruct RE as (t' & RE & ->).
    cbn [step] in RE. destruct (reset_inv _ _ _ _ _ LA RE) as (_ & _ & _ & _ & EN). rewrite ends_cons_other by reflexivity. rewrite EN. reflexivity. }
  split; [exact L1|].
  intros id ds ID F F8. apply (silent_frames lw s (now_using st (Some p)) p id (proj2 S0) eq_refl ID ds w1 (blank SS_FIRST None) (mkM Header astart None)); try assumption; try reflexivity.
  - rewrite S1. eapply upd_at. apply (proj1 S0).
  - unfold R, blank. cbn [sp_cons m_cons sp_text m_auto m_ph sp_state sp_crc]. repeat split. apply start_fits. apply start_fits. apply start_fits.
Qed.
Lemma which_lines : forall s k, nulfree s -> nulfree k ->
  (attribute_of s k = Some Uid <-> (exists r, zs "lokomotive" = s ++ r) /\ (exists r, zs "uid" = k ++ r)) /\
  (attribute_of s k = Some Protocol <-> (exists r, zs "lokomotive" = s ++ r) /\ ~ (exists r, zs "uid" = k ++ r) /\ (exists r, zs "typ" = k ++ r)) /\
  (attribute_of s k = Some Address <-> (exists r, zs "lokomotive" = s ++ r) /\ ~ (exists r, zs "uid" = k ++ r) /\ ~ (exists r, zs "typ" = k ++ r) /\ (exists r, zs "adresse" = k ++ r)) /\
  (attribute_of s k = None <-> ~ (exists r, zs "lokomotive" = s ++ r) \/
     (~ (exists r, zs "uid" = k ++ r) /\ ~ (exists r, zs "typ" = k ++ r) /\ ~ (exists r, zs "adresse" = k ++ r))).
Proof.
  intros s k NS NK. unfold attribute_of. rewrite <- !word_prefix by assumption.
  destruct (taken_for (zs "lokomotive") s), (taken_for (zs "uid") k), (taken_for (zs "typ") k), (taken_for (zs "adresse") k); intuition congruence.
Qed.
Lemma line_effect : forall lw w c e cb l s k v,
  consumer_at w c (LocoC (Def (Some e)) cb) -> engine_at w e l -> List.length (lo_proto l) = 8%nat -> (List.length v < 26)%nat ->
  exists l', cons_consume lw c (zb max_section s) (zb max_key k) (zb max_value v) w =
    Ok (with_engine w e l', [EvConsume c (zb max_section s) (zb max_key k) (zb max_value v)]) /\
  lo_info l' = lo_info l /\ ld_vel (lo_data l') = ld_vel (lo_data l) /\ ld_dir (lo_data l') = ld_dir (lo_data l) /\ ld_fbits (lo_data l') = ld_fbits (lo_data l) /\
  ld_uid (lo_data l') = match attribute_of s k with Some Uid => hex_value lw v mod 2 ^ 32 | _ => ld_uid (lo_data l) end /\
  ld_addr (lo_data l') = match attribute_of s k with Some Address => hex_value lw v mod 2 ^ 32 | _ => ld_addr (lo_data l) end /\
  lo_proto l' = match attribute_of s k with
                | Some Protocol => firstn 8 (until_nul v) ++ repeat 0 (8 - List.length (until_nul v))
                | _ => lo_proto l end.
Proof.
  intros lw w c e cb l s k v C E P V. exists (after_line lw l (s, k, v)). split; [apply (consume_loco _ _ _ _ _ _ _ _ _ C E P V)|].
  unfold after_line. destruct (attribute_of s k) as [[| |]|]; cbn; auto 10.
Qed.
Lemma loco_request_aborted : forall lw w p c sp e cb, lib_at w p sp -> usable sp -> in_progress sp = true -> sp_cons sp = Some c ->
  consumer_at w c (LocoC e (Def cb)) ->
  run lw [ParserReset p] w = Ok (mkW (w_stations w) (upd p (LibP (blank SS_IDLE None)) (w_parsers w)) (w_conss w) (w_engines w),
     EvStreamAborted c :: callback_note cb (fun cb => EvEndAborted cb c)).
Proof.
  intros lw w p c sp e cb L (a & F & T) IP CC HC. cbn [run step]. unfold lib_reset.
  erewrite seq_ok with (w1 := mkW (w_stations w) (upd p (LibP (blank SS_IDLE None)) (w_parsers w)) (w_conss w) (w_engines w)); [cbn [skip]; rewrite app_nil_r; reflexivity|].
  rewrite (ask_ok _ _ _ _ _ (lib_get _ _ _ L)). rewrite CC. replace (ss_processing (sp_state sp)) with true by (unfold in_progress in IP; destruct (sp_state sp); try discriminate; reflexivity).
  cbn [when_some]. rewrite (seq_ok _ _ _ _ _ (aborted_loco _ _ _ _ HC)).
  rewrite (ask_ok _ _ _ _ _ (lib_get w p sp L)). rewrite T. rewrite (ask_ok _ _ _ _ _ (reset_spec _ _ F)). cbn. rewrite app_nil_r. reflexivity.
Qed.
Lemma list_line_effect : forall lw w c co i n o cb s k v, consumer_at w c (ListC co i n o cb) -> list_line_fits (s, k, v) ->
  exists t, cons_consume lw c (zb max_section s) (zb max_key k) (zb max_value v) w =
    Ok (with_consumer w c (match list_entry_of (s, k, v) with
                           | NameEntry x => ListC co (filled i [until_nul x]) n o cb
                           | CountEntry x => ListC co i (Def (dec_value lw x mod 256)) o cb
                           | NoEntry => ListC co i n o cb
                           end), EvConsume c (zb max_section s) (zb max_key k) (zb max_value v) :: t) /\ calls t = [] /\
    console t = list_talk (free_count i) [(s, k, v)].
Proof.
  intros lw w c co i n o cb s k v C F. destruct (consume_list lw w c co i n o cb s k v C F) as (t & E & T). exists t. split; [|exact T]. rewrite E. do 2 f_equal. f_equal.
  unfold after_list, names_in, counts_in. cbn [flat_map]. destruct (list_entry_of (s, k, v)); cbn [app rev]; rewrite ?filled_nil; reflexivity.
Qed.
Lemma filled_full : forall i ns, Forall (fun x => free_entry x = false) i -> filled i ns = i.
Proof. induction i as [|x i IH]; intros ns F; [reflexivity|]. inversion F; subst. cbn [filled]. rewrite H1. f_equal. apply IH. assumption. Qed.
Lemma finish_first : forall lw w s st tx p sp c o w2 t,
  station_at w s st -> cb_tx (st_cbs st) = Some tx -> cb_cfg (st_cbs st) = Some p ->
  lib_at w p sp -> usable sp -> in_progress sp = false ->
  ((exists off, byte off /\ o = RequestEngineList off (Some p)) \/ (exists r av name, refers_to w r av name /\ av <> EMPTY /\ o = RequestEngine r (Some p))) ->
  run lw [OnStation s FinishCurrentConfigRequest; ParserSetConsumer p (Some c); OnStation s o] w = Ok (w2, t) ->
  (exists sp2, lib_at w2 p sp2 /\ sp_cons sp2 = Some c /\ sp_state sp2 = SS_FIRST /\ sp_text sp2 = parser astart (Some c)) /\
  notes t = [] /\ nth_error (w_stations w2) s = Some (now_using st (Some p)).
Proof.
  intros lw w s st tx p sp c o w2 t S0 T C L U IP O H. destruct (request_after_finish lw w s st tx p sp c o w2 t S0 T C L U) as (A & B & D); try assumption.
  - intros w' E1 E2. destruct O as [O|(r & av & name & R & AV & ->)]; [left; exact O|]. right. exists r, av, name. split; [|auto].
    unfold refers_to in *. destruct R as (si & R1 & R2 & R3). exists si. split; [exact R1|]. split; [exact R2|]. destruct r; rewrite ?E1, ?E2; exact R3.
  - split; [|split; [exact D|rewrite B; eapply upd_at; apply (proj1 S0)]]. eexists. split; [exact A|]. repeat split.
Qed.
Lemma decdigits_read : forall acc ds x, decdigits acc ds x -> c_digits 10 acc (ds ++ [0]) = Ok x.
Proof.
  induction 1 as [acc|acc c d r x (H1 & H2) H IH]; [reflexivity|]. cbn [app c_digits]. unfold c_digit.
  replace ((48 <=? c) && (c <=? 57)) with true by lia. replace (c - 48 <? 10) with true by lia. rewrite <- H2. exact IH.
Qed.
Lemma decdigits_nonneg : forall acc ds x, decdigits acc ds x -> 0 <= acc -> 0 <= x.
Proof. induction 1 as [acc|acc c d r x (H1 & H2) H IH]; intros; [assumption|]. apply IH. lia. Qed.
Lemma decimal_count : forall lw v x, 32 <= lw -> v <> [] -> decdigits 0 v x -> x < 2 ^ 31 -> dec_value lw v mod 256 = x mod 256.
Proof.
  intros lw v x LW NE D X. pose proof (decdigits_nonneg _ _ _ D ltac:(lia)) as P. pose proof (decdigits_read _ _ _ D) as E. unfold dec_value, c_strtol10.
  destruct v as [|c v]; [congruence|]. inversion D as [|? ? ? ? ? (H1 & H2) ?]; subst. cbn [app c_skip_space]. unfold c_isspace.
  replace ((c =? 32) || (9 <=? c) && (c <=? 13)) with false by lia. cbn [bind c_sign]. replace (c =? 45) with false by lia. replace (c =? 43) with false by lia. cbn [bind].
  change (c :: v ++ [0]) with ((c :: v) ++ [0]). rewrite E. cbn [bind]. assert (2 ^ 31 <= 2 ^ (lw - 1)) by (apply Z.pow_le_mono_r; lia). f_equal. lia.
Qed.
