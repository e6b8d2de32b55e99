(* ProofsText.v -- lemmas behind PropsText.v *)
From Verif Require Import ZLib SpecText ProofsBuffer.

(** ** Zero-padded buffers *)
Lemma zb_B : forall cap l, (List.length l <= cap)%nat -> zb cap l = B l (repeat 0 (cap - List.length l)) [].
Proof.
  intros cap l H. unfold zb, B. rewrite app_nil_r. f_equal. rewrite zlen_repeat. unfold zlen. lia.
Qed.
Lemma zb_Bok : forall cap l, (List.length l <= cap)%nat -> (cap <= 255)%nat -> Bok l (repeat 0 (cap - List.length l)).
Proof. intros. unfold Bok. rewrite zlen_repeat. unfold zlen. lia. Qed.
Lemma zb_holds : forall cap l, (List.length l <= cap)%nat -> (cap <= 255)%nat -> holds (zb cap l) l.
Proof. intros. rewrite zb_B by assumption. apply B_holds. apply zb_Bok; assumption. Qed.
Lemma zb_blen : forall cap l, blen (zb cap l) = zlen l. Proof. reflexivity. Qed.
Lemma zb_erase : forall cap l, (List.length l <= cap)%nat -> berase (zb cap l) = Ok (zb cap []).
Proof.
  intros cap l H. rewrite zb_B by assumption. rewrite berase_B. f_equal. rewrite zb_B by (cbn; lia). f_equal.
  rewrite repeat_length. cbn [List.length]. f_equal. lia.
Qed.
Lemma zb_push : forall cap l b s, (List.length l <= cap)%nat -> (cap <= 255)%nat -> holds b s ->
  bpush (zb cap l) b = Ok (zb cap (l ++ firstn (cap - List.length l) s), Z.min (Z.of_nat cap - zlen l) (zlen s)).
Proof.
  intros cap l b s H Hc Hb. rewrite zb_B by assumption. destruct (holds_B b s Hb) as (p & -> & Hp).
  rewrite bpush_B by (assumption || (apply zb_Bok; assumption)). rewrite repeat_length.
  f_equal. f_equal.
  - rewrite zb_B by (rewrite app_length, min_len; lia). f_equal.
    rewrite app_length, min_len. rewrite <- (repeat_length 0 (cap - List.length l)) at 1.
    assert (K : forall n m, skipn n (repeat 0 m) = repeat 0 (m - n)) by (induction n; destruct m; cbn; auto).
    rewrite repeat_length. rewrite K. f_equal. lia.
  - rewrite zlen_repeat. unfold zlen. lia.
Qed.
Lemma zb_set_err : forall cap l, (List.length l <= cap)%nat -> (cap <= 255)%nat -> (6 <= cap)%nat ->
  bset (zb cap l) (lit "ERROR") = Ok (zb cap err).
Proof.
  intros cap l H Hc H6. rewrite zb_B by assumption.
  change (lit "ERROR") with (err ++ 0 :: []).
  rewrite bset_B; [|apply zb_Bok; assumption|repeat constructor; discriminate|rewrite zlen_repeat; unfold zlen; lia].
  f_equal. rewrite zb_B by (cbn; lia). rewrite zlen_repeat, repeat_length.
  rewrite firstn_all2 by (change (List.length err) with 5%nat; unfold zlen; lia).
  change (List.length err) with 5%nat. f_equal. f_equal. lia.
Qed.
Lemma zb_pop_all : forall cap l, (List.length l <= cap)%nat -> (cap <= 255)%nat -> bpop_front (zb cap l) (zlen l) = Ok (zb cap []).
Proof.
  intros cap l H Hc. rewrite zb_B by assumption. rewrite bpop_B; [|apply zb_Bok; assumption|apply zlen_nonneg].
  f_equal. rewrite zb_B by (cbn; lia). unfold zlen. rewrite Nat2Z.id, skipn_all. f_equal.
  rewrite repeat_length. cbn [List.length]. f_equal. lia.
Qed.

(** ** Searching for a token *)
Definition hits (ds : list Z) (c : Z) : bool := existsb (fun d => c =? d) ds.

Lemma hits_In : forall ds c, hits ds c = true <-> In c ds.
Proof. intros. apply existsb_In. Qed.

(** longest prefix without delimiter *)
Fixpoint tok (ds s : list Z) : list Z :=
  match s with [] => [] | c :: r => if hits ds c then [] else c :: tok ds r end.

Lemma tok_split : forall ds s, (tok ds s = s /\ free_of ds s) \/
  (exists d r, s = tok ds s ++ d :: r /\ In d ds).
Proof.
  induction s as [|c s IH]; [left; split; [reflexivity|constructor]|]. cbn [tok].
  destruct (hits ds c) eqn:E.
  - right. exists c, s. split; [reflexivity|apply hits_In; assumption].
  - assert (~ In c ds) by (rewrite <- hits_In; congruence).
    destruct IH as [(-> & F)|(d & r & E2 & I)].
    + left. split; [reflexivity|constructor; assumption].
    + right. exists d, r. split; [|assumption]. cbn [app]. congruence.
Qed.
Lemma tok_free : forall ds s, free_of ds (tok ds s).
Proof.
  induction s as [|c s IH]; [constructor|]. cbn [tok]. destruct (hits ds c) eqn:E; constructor; [|assumption].
  rewrite <- hits_In. congruence.
Qed.

Lemma nth_mid : forall (a b : list Z) c, nth (List.length a) (a ++ c :: b) 0 = c.
Proof. intros. rewrite app_nth2, Nat.sub_diag by lia. reflexivity. Qed.

Lemma free_nth : forall ds s j, free_of ds s -> (j < List.length s)%nat -> ~ In (nth j s 0) ds.
Proof. intros ds s j F H. unfold free_of in F. rewrite Forall_forall in F. apply F. apply nth_In. assumption. Qed.

Lemma nth_app_mid : forall (pre t r : list Z) j, (List.length pre <= j < List.length pre + List.length t)%nat ->
  nth j (pre ++ t ++ r) 0 = nth (j - List.length pre) t 0.
Proof. intros. rewrite app_nth2 by lia. rewrite app_nth1 by lia. reflexivity. Qed.

Lemma find_hit : forall ds e pre t d r b, holds b (pre ++ t ++ d :: r) -> nulfree ds -> zlen ds <= 255 ->
  free_of ds t -> In d ds -> bfind_chars b (ds ++ 0 :: e) (zlen pre) = Ok (zlen pre + zlen t).
Proof.
  intros ds e pre t d r b H Hn Hl F I.
  destruct (bfind_chars_spec b _ ds e (zlen pre) H Hn Hl (zlen_nonneg _ _)) as (k & -> & K). f_equal.
  pose proof (zlen_nonneg _ pre). pose proof (zlen_nonneg _ t). pose proof (zlen_nonneg _ r).
  assert (L : zlen (pre ++ t ++ d :: r) = zlen pre + zlen t + 1 + zlen r)
    by (rewrite !zlen_app; unfold zlen; cbn [List.length]; lia).
  assert (D : nth (Z.to_nat (zlen pre + zlen t)) (pre ++ t ++ d :: r) 0 = d).
  { replace (Z.to_nat (zlen pre + zlen t)) with (List.length (pre ++ t)) by (rewrite app_length; unfold zlen; lia).
    rewrite app_assoc. apply nth_mid. }
  destruct K as [(-> & N)|((K1 & K2) & K3 & K4)].
  - exfalso. apply (N (zlen pre + zlen t)); [lia|]. rewrite D. assumption.
  - destruct (Z.lt_trichotomy k (zlen pre + zlen t)) as [Q|[Q|Q]]; [|assumption|].
    + exfalso. revert K3. rewrite nth_app_mid by (unfold zlen in *; lia). apply free_nth; [assumption|unfold zlen in *; lia].
    + exfalso. apply (K4 (zlen pre + zlen t)); [lia|]. rewrite D. assumption.
Qed.

Lemma find_none : forall ds e pre t b, holds b (pre ++ t) -> nulfree ds -> zlen ds <= 255 ->
  free_of ds t -> bfind_chars b (ds ++ 0 :: e) (zlen pre) = Ok npos.
Proof.
  intros ds e pre t b H Hn Hl F.
  destruct (bfind_chars_spec b _ ds e (zlen pre) H Hn Hl (zlen_nonneg _ _)) as (k & -> & K). f_equal.
  destruct K as [(-> & _)|((K1 & K2) & K3 & K4)]; [reflexivity|]. exfalso. revert K3.
  rewrite zlen_app in K2. pose proof (zlen_nonneg _ pre).
  rewrite <- (app_nil_r t), nth_app_mid by (unfold zlen in *; lia). apply free_nth; [assumption|unfold zlen in *; lia].
Qed.

(** ** The parser with a loaded buffer *)
Definition loaded (a : auto) (c : option nat) (text : list Z) : TP :=
  mkTP (pstate (a_at a)) c (zb 31 text) (zb max_section (a_sec a)) (zb max_key (a_key a)) (zb max_value (a_val a)).

Lemma told_app : forall c a b, told c (a ++ b) = told c a ++ told c b.
Proof. destruct c; intros; cbn [told]; [apply map_app|reflexivity]. Qed.

Lemma emit_loaded : forall st c b s k v,
  tp_emit (mkTP st c b (zb max_section s) (zb max_key k) (zb max_value v)) = told c [(s, k, v)].
Proof. destruct c; reflexivity. Qed.

Lemma report_error : forall st c text s k v,
  (List.length s <= max_section)%nat -> (List.length k <= max_key)%nat -> (List.length v <= max_value)%nat ->
  tp_reportParseError (mkTP st c (zb 31 text) (zb max_section s) (zb max_key k) (zb max_value v)) =
  Ok (loaded failed c text, told c [error_report]).
Proof.
  intros. unfold tp_reportParseError, set_state, set_sec, set_key, set_val. cbn [tp_state tp_cons tp_buf tp_sec tp_key tp_val].
  unfold max_section, max_key, max_value in *.
  rewrite !zb_set_err by lia. cbn [bind tp_state tp_cons tp_buf tp_sec tp_key tp_val].
  destruct c; reflexivity.
Qed.

(** ** The automaton on delimiter-free stretches *)
Lemma afeed_app : forall s a r, afeed a (s ++ r) = let '(a1, e1) := afeed a s in let '(a2, e2) := afeed a1 r in (a2, e1 ++ e2).
Proof.
  induction s as [|c s IH]; intros a r; cbn [app afeed]; [destruct (afeed a r); reflexivity|].
  destruct (astep a c) as (a1, e1). rewrite IH. destruct (afeed a1 s) as (a2, e2). destruct (afeed a2 r) as (a3, e3).
  rewrite app_assoc. reflexivity.
Qed.
Lemma afailed_at : forall a, a_at a = Failed -> forall s, afeed a s = (a, []).
Proof.
  intros a H. induction s as [|c s IH]; [reflexivity|]. cbn [afeed]. unfold astep. rewrite H. rewrite IH. reflexivity.
Qed.

Lemma afeed_failed : forall s, afeed failed s = (failed, []).
Proof. intros. apply afailed_at. reflexivity. Qed.

Lemma afeed_between : forall t a, a_at a = Between -> free_of [SQ_OPEN; DOT] t -> afeed a t = (a, []).
Proof.
  induction t as [|c t IH]; intros a H F; [reflexivity|]. inversion F; subst. cbn [afeed]. unfold astep. rewrite H.
  cbn [In] in H2. replace (c =? SQ_OPEN) with false by lia. replace (c =? DOT) with false by lia.
  rewrite IH by assumption. reflexivity.
Qed.
Lemma afeed_section : forall t s k v, free_of [SQ_CLOSE] t -> (List.length s <= max_section)%nat ->
  afeed (mkA InSection s k v) t =
  if (List.length s + List.length t <=? max_section)%nat then (mkA InSection (s ++ t) k v, []) else (failed, [error_report]).
Proof.
  induction t as [|c t IH]; intros s k v F L; cbn [afeed List.length].
  - rewrite Nat.add_0_r, app_nil_r. rewrite (proj2 (Nat.leb_le _ _)) by assumption. reflexivity.
  - inversion F; subst. cbn [In] in H1. unfold astep. cbn [a_at a_sec a_key a_val].
    replace (c =? SQ_CLOSE) with false by lia. destruct (List.length s <? max_section)%nat eqn:E.
    + apply Nat.ltb_lt in E. rewrite IH; [|assumption|rewrite app_length; cbn [List.length]; lia]. rewrite <- app_assoc.
      rewrite app_length. cbn [List.length app]. replace (List.length s + 1 + List.length t)%nat with (List.length s + S (List.length t))%nat by lia.
      destruct (_ <=? _)%nat; reflexivity.
    + apply Nat.ltb_ge in E. rewrite afeed_failed. rewrite (proj2 (Nat.leb_gt _ _)) by lia. reflexivity.
Qed.
Lemma afeed_key : forall t s k v, free_of [EQUALS; NEWLINE] t -> (List.length k <= max_key)%nat ->
  afeed (mkA InKey s k v) t =
  if (List.length k + List.length t <=? max_key)%nat then (mkA InKey s (k ++ t) v, []) else (failed, [error_report]).
Proof.
  induction t as [|c t IH]; intros s k v F L; cbn [afeed List.length].
  - rewrite Nat.add_0_r, app_nil_r. rewrite (proj2 (Nat.leb_le _ _)) by assumption. reflexivity.
  - inversion F; subst. cbn [In] in H1. unfold astep. cbn [a_at a_sec a_key a_val].
    replace (c =? EQUALS) with false by lia. replace (c =? NEWLINE) with false by lia. destruct (List.length k <? max_key)%nat eqn:E.
    + apply Nat.ltb_lt in E. rewrite IH; [|assumption|rewrite app_length; cbn [List.length]; lia]. rewrite <- app_assoc.
      rewrite app_length. cbn [List.length app]. replace (List.length k + 1 + List.length t)%nat with (List.length k + S (List.length t))%nat by lia.
      destruct (_ <=? _)%nat; reflexivity.
    + apply Nat.ltb_ge in E. rewrite afeed_failed. rewrite (proj2 (Nat.leb_gt _ _)) by lia. reflexivity.
Qed.
Lemma afeed_value : forall t s k v, free_of [NEWLINE] t -> (List.length v <= max_value)%nat ->
  afeed (mkA InValue s k v) t =
  if (List.length v + List.length t <=? max_value)%nat then (mkA InValue s k (v ++ t), []) else (failed, [error_report]).
Proof.
  induction t as [|c t IH]; intros s k v F L; cbn [afeed List.length].
  - rewrite Nat.add_0_r, app_nil_r. rewrite (proj2 (Nat.leb_le _ _)) by assumption. reflexivity.
  - inversion F; subst. cbn [In] in H1. unfold astep. cbn [a_at a_sec a_key a_val].
    replace (c =? NEWLINE) with false by lia. destruct (List.length v <? max_value)%nat eqn:E.
    + apply Nat.ltb_lt in E. rewrite IH; [|assumption|rewrite app_length; cbn [List.length]; lia]. rewrite <- app_assoc.
      rewrite app_length. cbn [List.length app]. replace (List.length v + 1 + List.length t)%nat with (List.length v + S (List.length t))%nat by lia.
      destruct (_ <=? _)%nat; reflexivity.
    + apply Nat.ltb_ge in E. rewrite afeed_failed. rewrite (proj2 (Nat.leb_gt _ _)) by lia. reflexivity.
Qed.

Lemma astep_fits : forall a c, fits a -> fits (fst (astep a c)).
Proof.
  intros [w s k v] c (H1 & H2 & H3). unfold astep, fits, max_section, max_key, max_value in *. cbn [a_at a_sec a_key a_val] in *.
  destruct w; repeat match goal with |- context [if ?b then _ else _] => destruct b eqn:?; cbn [fst a_sec a_key a_val] end;
    rewrite ?app_length; cbn [fst a_sec a_key a_val failed List.length];
    repeat match goal with H : (_ <? _)%nat = true |- _ => apply Nat.ltb_lt in H end;
    change (List.length err) with 5%nat; repeat split; lia.
Qed.
Lemma afeed_fits : forall s a, fits a -> fits (fst (afeed a s)).
Proof.
  induction s as [|c s IH]; intros a H; [assumption|]. cbn [afeed]. pose proof (astep_fits a c H) as S.
  destruct (astep a c) as (a1, e1). specialize (IH a1 S). destruct (afeed a1 s). assumption.
Qed.
Lemma failed_fits : fits failed.
Proof. unfold fits, max_section, max_key, max_value. cbn. lia. Qed.
Lemma aadd_fits : forall a s, fits a -> fits (fst (aadd a s)).
Proof. intros a s H. unfold aadd. destruct (_ || _); [apply failed_fits|apply afeed_fits; assumption]. Qed.

(** ** findToken *)
Definition dcap (d : Dest) : nat := match d with DSec => max_section | DKey => max_key | DVal => max_value end.
Definition aget (a : auto) (d : Dest) : list Z := match d with DSec => a_sec a | DKey => a_key a | DVal => a_val a end.
Definition aput (a : auto) (d : Dest) (l : list Z) : auto :=
  match d with
  | DSec => mkA (a_at a) l (a_key a) (a_val a)
  | DKey => mkA (a_at a) (a_sec a) l (a_val a)
  | DVal => mkA (a_at a) (a_sec a) (a_key a) l
  end.
Lemma dest_get_loaded : forall a c text d, dest_get (loaded a c text) d = zb (dcap d) (aget a d).
Proof. destruct d; reflexivity. Qed.
Lemma dest_set_loaded : forall a c text d l, dest_set (loaded a c text) d (zb (dcap d) l) = loaded (aput a d l) c text.
Proof. destruct d; reflexivity. Qed.
Lemma aget_fits : forall a d, fits a -> (List.length (aget a d) <= dcap d)%nat.
Proof. intros a d (H1 & H2 & H3). destruct d; assumption. Qed.
Lemma aput_fits : forall a d l, fits a -> (List.length l <= dcap d)%nat -> fits (aput a d l).
Proof. intros a d l (H1 & H2 & H3) H. destruct d; unfold fits; cbn in *; auto. Qed.
Lemma dcap_small : forall d, (dcap d <= 255)%nat.
Proof. destruct d; unfold dcap, max_section, max_key, max_value; lia. Qed.

Lemma report_error' : forall a c text, fits a -> tp_reportParseError (loaded a c text) = Ok (loaded failed c text, told c [error_report]).
Proof. intros a c text (H1 & H2 & H3). apply report_error; assumption. Qed.

Lemma sub_window : forall text pre t r, text = pre ++ t ++ r -> (List.length text <= 31)%nat ->
  exists v, bsub (zb 31 text) (zlen pre) (zlen pre + zlen t) = Ok v /\ holds v t.
Proof.
  intros text pre t r E L. assert (H : holds (zb 31 text) text) by (apply zb_holds; lia).
  assert (LE : zlen text = zlen pre + zlen t + zlen r) by (rewrite E, !zlen_app; lia).
  pose proof (zlen_nonneg _ pre). pose proof (zlen_nonneg _ t). pose proof (zlen_nonneg _ r).
  destruct (bsub_window _ _ (zlen pre) (zlen pre + zlen t) H) as (v & Ev & Hv & _); [lia|rewrite zb_blen; lia|].
  exists v. split; [exact Ev|]. rewrite E in Hv. replace (zlen pre + zlen t - zlen pre) with (zlen t) in Hv by lia.
  unfold zlen in Hv. rewrite !Nat2Z.id, skipn_app_exact, firstn_app_exact in Hv. exact Hv.
Qed.

Lemma push_dest : forall a c text d v t, fits a -> holds v t ->
  (exists b', bpush (dest_get (loaded a c text) d) v = Ok (b', Z.min (Z.of_nat (dcap d) - zlen (aget a d)) (zlen t)) /\
     dest_set (loaded a c text) d b' = loaded (aput a d (aget a d ++ firstn (dcap d - List.length (aget a d)) t)) c text).
Proof.
  intros a c text d v t F H. rewrite dest_get_loaded. pose proof (aget_fits a d F).
  rewrite (zb_push _ _ v t H0 (dcap_small d) H). eexists. split; [reflexivity|]. apply dest_set_loaded.
Qed.

Lemma holds_blen : forall v t, holds v t -> blen v = zlen t.
Proof. intros v t (H1 & H2 & H3 & ->). unfold zlen. rewrite min_len. unfold zlen in H3. lia. Qed.

Lemma findToken_hit : forall a c pre t d r D ds e, fits a -> (List.length (pre ++ t ++ d :: r) <= 31)%nat ->
  nulfree ds -> zlen ds <= 255 -> free_of ds t -> In d ds ->
  tp_findToken (loaded a c (pre ++ t ++ d :: r)) (zlen pre) (ds ++ 0 :: e) (Some D) =
  if (List.length (aget a D) + List.length t <=? dcap D)%nat
  then Ok (loaded (aput a D (aget a D ++ t)) c (pre ++ t ++ d :: r), [], mkFT (zlen (pre ++ t) + 1) true d)
  else Ok (loaded failed c (pre ++ t ++ d :: r), told c [error_report], mkFT (zlen (pre ++ t)) false d).
Proof.
  intros a c pre t d r D ds e F L Hn Hl Ft I. remember (pre ++ t ++ d :: r) as text eqn:ET.
  assert (HB : holds (zb 31 text) text) by (apply zb_holds; lia).
  pose proof (zlen_nonneg _ pre). pose proof (zlen_nonneg _ t). pose proof (zlen_nonneg _ r).
  assert (LE : zlen text = zlen pre + zlen t + 1 + zlen r) by (rewrite ET, !zlen_app; unfold zlen; cbn [List.length]; lia).
  assert (L31 : zlen text <= 31) by (unfold zlen; lia).
  unfold tp_findToken. change (tp_buf (loaded a c text)) with (zb 31 text).
  rewrite (find_hit ds e pre t d r) by (assumption || (rewrite <- ET; assumption)). cbn [bind].
  replace (zlen pre + zlen t =? npos) with false by (unfold npos; lia).
  rewrite (bget_spec _ text) by (assumption || lia || (intros X; rewrite X in LE; cbn in LE; lia)).
  rewrite Z.min_l by lia.
  assert (D0 : nth (Z.to_nat (zlen pre + zlen t)) text 0 = d).
  { replace (Z.to_nat (zlen pre + zlen t)) with (List.length (pre ++ t)) by (rewrite app_length; unfold zlen; lia).
    rewrite ET, app_assoc. apply nth_mid. }
  rewrite D0. cbn [bind].
  destruct (sub_window text pre t (d :: r) ET ltac:(lia)) as (v & Ev & Hv). rewrite Ev. cbn [bind].
  destruct (push_dest a c text D v t F Hv) as (b' & Eb & Es). rewrite Eb. cbn [bind]. rewrite Es.
  rewrite (holds_blen _ _ Hv). pose proof (aget_fits a D F) as AF.
  rewrite zlen_app.
  destruct (List.length (aget a D) + List.length t <=? dcap D)%nat eqn:Q.
  - apply Nat.leb_le in Q. replace (_ <? _) with false by (unfold zlen; lia). cbn [bind].
    rewrite firstn_all2 by lia. f_equal. f_equal. f_equal. unfold u8. apply Z.mod_small. lia.
  - apply Nat.leb_gt in Q. replace (_ <? _) with true by (unfold zlen; lia).
    rewrite report_error'; [reflexivity|]. apply aput_fits; [assumption|]. rewrite app_length, min_len. lia.
Qed.

Lemma findToken_none : forall a c pre t D ds e, fits a -> (List.length (pre ++ t) <= 31)%nat ->
  nulfree ds -> zlen ds <= 255 -> free_of ds t ->
  tp_findToken (loaded a c (pre ++ t)) (zlen pre) (ds ++ 0 :: e) (Some D) =
  if (List.length (aget a D) + List.length t <=? dcap D)%nat
  then Ok (loaded (aput a D (aget a D ++ t)) c (pre ++ t), [], mkFT (zlen (pre ++ t)) false 0)
  else Ok (loaded failed c (pre ++ t), told c [error_report], mkFT (zlen (pre ++ t)) false 0).
Proof.
  intros a c pre t D ds e F L Hn Hl Ft. remember (pre ++ t) as text eqn:ET.
  assert (HB : holds (zb 31 text) text) by (apply zb_holds; lia).
  pose proof (zlen_nonneg _ pre). pose proof (zlen_nonneg _ t).
  assert (LE : zlen text = zlen pre + zlen t) by (rewrite ET, !zlen_app; lia).
  unfold tp_findToken. change (tp_buf (loaded a c text)) with (zb 31 text).
  rewrite (find_none ds e pre t) by (assumption || (rewrite <- ET; assumption)). cbn [bind].
  rewrite Z.eqb_refl. cbn [bind]. rewrite zb_blen, LE.
  destruct (sub_window text pre t [] ltac:(rewrite app_nil_r; assumption) ltac:(lia)) as (v & Ev & Hv). rewrite Ev. cbn [bind].
  destruct (push_dest a c text D v t F Hv) as (b' & Eb & Es). rewrite Eb. cbn [bind]. rewrite Es.
  rewrite (holds_blen _ _ Hv). pose proof (aget_fits a D F) as AF.
  destruct (List.length (aget a D) + List.length t <=? dcap D)%nat eqn:Q.
  - apply Nat.leb_le in Q. replace (_ <? _) with false by (unfold zlen; lia). cbn [bind].
    rewrite firstn_all2 by lia. reflexivity.
  - apply Nat.leb_gt in Q. replace (_ <? _) with true by (unfold zlen; lia).
    rewrite report_error'; [reflexivity|]. apply aput_fits; [assumption|]. rewrite app_length, min_len. lia.
Qed.

Lemma findStart_hit : forall a c pre t d r ds e, (List.length (pre ++ t ++ d :: r) <= 31)%nat ->
  nulfree ds -> zlen ds <= 255 -> free_of ds t -> In d ds ->
  tp_findToken (loaded a c (pre ++ t ++ d :: r)) (zlen pre) (ds ++ 0 :: e) None =
  Ok (loaded a c (pre ++ t ++ d :: r), [], mkFT (zlen (pre ++ t) + 1) true d).
Proof.
  intros a c pre t d r ds e L Hn Hl Ft I. remember (pre ++ t ++ d :: r) as text eqn:ET.
  assert (HB : holds (zb 31 text) text) by (apply zb_holds; lia).
  pose proof (zlen_nonneg _ pre). pose proof (zlen_nonneg _ t). pose proof (zlen_nonneg _ r).
  assert (LE : zlen text = zlen pre + zlen t + 1 + zlen r) by (rewrite ET, !zlen_app; unfold zlen; cbn [List.length]; lia).
  assert (L31 : zlen text <= 31) by (unfold zlen; lia).
  unfold tp_findToken. change (tp_buf (loaded a c text)) with (zb 31 text).
  rewrite (find_hit ds e pre t d r) by (assumption || (rewrite <- ET; assumption)). cbn [bind].
  replace (zlen pre + zlen t =? npos) with false by (unfold npos; lia).
  rewrite (bget_spec _ text) by (assumption || lia || (intros X; rewrite X in LE; cbn in LE; lia)).
  rewrite Z.min_l by lia.
  assert (D0 : nth (Z.to_nat (zlen pre + zlen t)) text 0 = d).
  { replace (Z.to_nat (zlen pre + zlen t)) with (List.length (pre ++ t)) by (rewrite app_length; unfold zlen; lia).
    rewrite ET, app_assoc. apply nth_mid. }
  rewrite D0. cbn [bind]. rewrite zlen_app. f_equal. f_equal. f_equal. unfold u8. apply Z.mod_small. lia.
Qed.
Lemma findStart_none : forall a c pre t ds e, (List.length (pre ++ t) <= 31)%nat ->
  nulfree ds -> zlen ds <= 255 -> free_of ds t ->
  tp_findToken (loaded a c (pre ++ t)) (zlen pre) (ds ++ 0 :: e) None =
  Ok (loaded a c (pre ++ t), [], mkFT (zlen (pre ++ t)) false 0).
Proof.
  intros a c pre t ds e L Hn Hl Ft. 
  assert (HB : holds (zb 31 (pre ++ t)) (pre ++ t)) by (apply zb_holds; lia).
  unfold tp_findToken. change (tp_buf (loaded a c (pre ++ t))) with (zb 31 (pre ++ t)).
  rewrite (find_none ds e pre t) by assumption. cbn [bind]. rewrite Z.eqb_refl. reflexivity.
Qed.

(** ** processBuffer is the automaton *)
Lemma nf1 : nulfree [SQ_OPEN; DOT] /\ nulfree [DOT; SQ_OPEN] /\ nulfree [SQ_CLOSE] /\ nulfree [EQUALS; NEWLINE] /\ nulfree [NEWLINE].
Proof. repeat split; repeat constructor; discriminate. Qed.


Lemma in_two : forall x a b : Z, In x [a; b] -> x = a \/ x = b.
Proof. cbn. intuition. Qed.
Lemma in_one : forall x a : Z, In x [a] -> x = a.
Proof. cbn. intuition. Qed.

Lemma loaded_key : forall a c x, tp_key (loaded a c x) = zb max_key (a_key a). Proof. reflexivity. Qed.
Lemma loaded_val : forall a c x, tp_val (loaded a c x) = zb max_value (a_val a). Proof. reflexivity. Qed.

(** one pass of the switch handles a non-empty stretch of the text exactly like the automaton *)
Lemma iteration_spec : forall a c pre rest, fits a -> rest <> [] -> (List.length (pre ++ rest) <= 31)%nat ->
  exists m rest', rest = m ++ rest' /\ m <> [] /\
    tp_iteration (loaded a c (pre ++ rest)) (zlen pre) =
    Ok (loaded (fst (afeed a m)) c (pre ++ rest), told c (snd (afeed a m)), zlen (pre ++ m), false).
Proof.
  intros a c pre rest F N L. destruct nf1 as (N1 & N2 & N3 & N4 & N5).
  assert (NE : forall (t : list Z) d, t ++ [d] <> []) by (intros t d X; apply app_eq_nil in X; destruct X; discriminate).
  destruct a as [w s k v]. destruct F as (F1 & F2 & F3). cbn [a_sec a_key a_val] in F1, F2, F3.
  assert (F : fits (mkA w s k v)) by (repeat split; assumption).
  unfold tp_iteration. change (tp_state (loaded (mkA w s k v) c (pre ++ rest))) with (pstate w).
  destruct w; cbn [pstate].
  - (* Between *)
    change kKeyOrSectionStart with ([DOT; SQ_OPEN] ++ 0 :: []).
    destruct (tok_split [DOT; SQ_OPEN] rest) as [(_ & Ft)|(d & r & E & I)].
    + rewrite findStart_none by (assumption || discriminate). cbn [bind ft_success ft_consumed].
      exists rest, []. split; [rewrite app_nil_r; reflexivity|]. split; [assumption|].
      rewrite afeed_between; [destruct c; reflexivity|reflexivity|]. unfold free_of in *. eapply Forall_impl; [|exact Ft]. cbn. intuition.
    + remember (tok [DOT; SQ_OPEN] rest) as t eqn:Et. assert (Ft : free_of [DOT; SQ_OPEN] t) by (rewrite Et; apply tok_free).
      exists (t ++ [d]), r. rewrite E, <- app_assoc. split; [reflexivity|]. split; [apply NE|].
      rewrite E in L. rewrite findStart_hit by (assumption || discriminate). cbn [bind ft_success ft_consumed].
      pose proof (zlen_nonneg _ (pre ++ t)). pose proof (zlen_nonneg _ r).
      assert (LE : zlen (pre ++ t ++ d :: r) = zlen (pre ++ t) + 1 + zlen r) by (rewrite !zlen_app; unfold zlen; cbn [List.length]; lia).
      assert (L31 : zlen (pre ++ t ++ d :: r) <= 31) by (unfold zlen; lia).
      assert (U : u8 (zlen (pre ++ t) + 1 - 1) = zlen (pre ++ t)) by (unfold u8; rewrite Z.mod_small by lia; lia). rewrite U.
      change (tp_buf (loaded (mkA Between s k v) c (pre ++ t ++ d :: r))) with (zb 31 (pre ++ t ++ d :: r)).
      rewrite (bget_spec _ (pre ++ t ++ d :: r)) by (try (apply zb_holds; lia); try lia; intros X; rewrite X in LE; cbn in LE; lia).
      rewrite Z.min_l by lia.
      assert (D0 : nth (Z.to_nat (zlen (pre ++ t))) (pre ++ t ++ d :: r) 0 = d)
        by (rewrite app_assoc; unfold zlen; rewrite Nat2Z.id; apply nth_mid).
      rewrite D0. cbn [bind].
      assert (AF : afeed (mkA Between s k v) (t ++ [d]) = astep (mkA Between s k v) d).
      { rewrite afeed_app, afeed_between; [|reflexivity|unfold free_of in *; eapply Forall_impl; [|exact Ft]; cbn; intuition].
        cbn [afeed]. destruct (astep _ d). rewrite app_nil_r. reflexivity. }
      rewrite AF. unfold astep. cbn [a_at]. rewrite !zlen_app in *. change (zlen [d]) with 1.
      unfold kSectionStart, kKeyStart.
      destruct (in_two _ _ _ I) as [-> | ->].
      * change (DOT =? 91) with false. change (DOT =? SQ_OPEN) with false. change (DOT =? 46) with true.
        change (DOT =? DOT) with true. cbn [fst snd]. rewrite Z.add_assoc. destruct c; reflexivity.
      * change (SQ_OPEN =? 91) with true. change (SQ_OPEN =? SQ_OPEN) with true. cbn [fst snd].
        change (tp_sec (loaded (mkA Between s k v) c (pre ++ t ++ SQ_OPEN :: r))) with (zb max_section s).
        rewrite zb_erase by assumption. cbn [bind]. rewrite Z.add_assoc. destruct c; reflexivity.
  - (* InSection *)
    change kSectionStop with ([SQ_CLOSE] ++ 0 :: []).
    destruct (tok_split [SQ_CLOSE] rest) as [(_ & Ft)|(d & r & E & I)].
    + rewrite findToken_none by (assumption || discriminate).
      exists rest, []. split; [rewrite app_nil_r; reflexivity|]. split; [assumption|].
      rewrite afeed_section by assumption. cbn [aget a_sec dcap].
      destruct (_ <=? _)%nat; cbn [bind ft_success ft_consumed fst snd]; destruct c; reflexivity.
    + remember (tok [SQ_CLOSE] rest) as t eqn:Et. assert (Ft : free_of [SQ_CLOSE] t) by (rewrite Et; apply tok_free).
      rewrite E in L. rewrite E. rewrite findToken_hit by (assumption || discriminate). cbn [aget a_sec dcap].
      destruct (List.length s + List.length t <=? max_section)%nat eqn:Q.
      * exists (t ++ [d]), r. rewrite <- app_assoc. split; [reflexivity|]. split; [apply NE|].
        rewrite afeed_app, afeed_section, Q by assumption. cbn [afeed]. unfold astep. cbn [a_at].
        apply in_one in I. subst d. change (SQ_CLOSE =? SQ_CLOSE) with true.
        cbn [fst snd app bind ft_success ft_consumed]. rewrite !zlen_app. change (zlen [SQ_CLOSE]) with 1. rewrite Z.add_assoc.
        destruct c; reflexivity.
      * exists t, (d :: r). split; [reflexivity|]. split.
        { intros ->. apply Nat.leb_gt in Q. cbn in Q. lia. }
        rewrite afeed_section, Q by assumption. reflexivity.
  - (* InKey *)
    change kKeyOrValueStop with ([EQUALS; NEWLINE] ++ 0 :: []).
    destruct (tok_split [EQUALS; NEWLINE] rest) as [(_ & Ft)|(d & r & E & I)].
    + rewrite findToken_none by (assumption || discriminate).
      exists rest, []. split; [rewrite app_nil_r; reflexivity|]. split; [assumption|].
      rewrite afeed_key by assumption. cbn [aget a_key dcap].
      destruct (_ <=? _)%nat; cbn [bind ft_success ft_consumed fst snd]; destruct c; reflexivity.
    + remember (tok [EQUALS; NEWLINE] rest) as t eqn:Et. assert (Ft : free_of [EQUALS; NEWLINE] t) by (rewrite Et; apply tok_free).
      rewrite E in L. rewrite E. rewrite findToken_hit by (assumption || discriminate). cbn [aget a_key dcap].
      destruct (List.length k + List.length t <=? max_key)%nat eqn:Q.
      * exists (t ++ [d]), r. rewrite <- app_assoc. split; [reflexivity|]. split; [apply NE|].
        rewrite afeed_app, afeed_key, Q by assumption. cbn [afeed]. unfold astep. cbn [a_at a_sec a_key a_val].
        unfold kKeyStop, kValueStop.
        apply in_two in I. destruct I as [-> | ->].
        -- change (EQUALS =? EQUALS) with true. cbn [fst snd app bind ft_success ft_consumed ft_match].
           change (EQUALS =? 61) with true.
           rewrite !zlen_app. change (zlen [EQUALS]) with 1. rewrite Z.add_assoc. destruct c; reflexivity.
        -- change (NEWLINE =? EQUALS) with false. change (NEWLINE =? NEWLINE) with true.
           cbn [fst snd app bind ft_success ft_consumed ft_match].
           change (NEWLINE =? 61) with false. change (NEWLINE =? 10) with true. cbv iota.
           cbn [aput a_sec a_key a_val a_at]. rewrite loaded_val. cbn [a_val].
           rewrite zb_erase by assumption. cbn [bind].
           unfold loaded at 1. unfold set_val at 1. cbn [tp_key tp_state tp_cons tp_buf tp_sec tp_val a_sec a_key a_val a_at].
           rewrite zb_erase by (apply Nat.leb_le in Q; rewrite app_length; exact Q). cbn [bind].
           rewrite !zlen_app. change (zlen [NEWLINE]) with 1. rewrite Z.add_assoc. destruct c; reflexivity.
      * exists t, (d :: r). split; [reflexivity|]. split.
        { intros ->. apply Nat.leb_gt in Q. cbn in Q. lia. }
        rewrite afeed_key, Q by assumption. reflexivity.
  - (* InValue *)
    change kValueStop_str with ([NEWLINE] ++ 0 :: []).
    destruct (tok_split [NEWLINE] rest) as [(_ & Ft)|(d & r & E & I)].
    + rewrite findToken_none by (assumption || discriminate).
      exists rest, []. split; [rewrite app_nil_r; reflexivity|]. split; [assumption|].
      rewrite afeed_value by assumption. cbn [aget a_val dcap].
      destruct (_ <=? _)%nat; cbn [bind ft_success ft_consumed fst snd]; destruct c; reflexivity.
    + remember (tok [NEWLINE] rest) as t eqn:Et. assert (Ft : free_of [NEWLINE] t) by (rewrite Et; apply tok_free).
      rewrite E in L. rewrite E. rewrite findToken_hit by (assumption || discriminate). cbn [aget a_val dcap].
      destruct (List.length v + List.length t <=? max_value)%nat eqn:Q.
      * exists (t ++ [d]), r. rewrite <- app_assoc. split; [reflexivity|]. split; [apply NE|].
        rewrite afeed_app, afeed_value, Q by assumption. cbn [afeed]. unfold astep. cbn [a_at a_sec a_key a_val].
        apply in_one in I. subst d. change (NEWLINE =? NEWLINE) with true.
        cbn [fst snd app bind ft_success ft_consumed aput a_at a_sec a_key a_val].
        rewrite loaded_key. cbn [a_key]. rewrite zb_erase by assumption. cbn [bind].
        rewrite loaded_val. cbn [a_val].
        rewrite zb_erase by (apply Nat.leb_le in Q; rewrite app_length; exact Q). cbn [bind].
        rewrite !zlen_app. change (zlen [NEWLINE]) with 1. rewrite Z.add_assoc.
        destruct c; reflexivity.
      * exists t, (d :: r). split; [reflexivity|]. split.
        { intros ->. apply Nat.leb_gt in Q. cbn in Q. lia. }
        rewrite afeed_value, Q by assumption. reflexivity.
  - (* Failed *)
    exists rest, []. split; [rewrite app_nil_r; reflexivity|]. split; [assumption|].
    rewrite afailed_at by reflexivity. destruct c; reflexivity.
Qed.

Lemma afeed_pair : forall a m r, fst (afeed a (m ++ r)) = fst (afeed (fst (afeed a m)) r) /\
  snd (afeed a (m ++ r)) = snd (afeed a m) ++ snd (afeed (fst (afeed a m)) r).
Proof. intros. rewrite afeed_app. destruct (afeed a m) as (a1, e1). cbn [fst snd]. destruct (afeed a1 r). split; reflexivity. Qed.

Lemma process_spec : forall fuel a c pre rest, fits a -> (List.length rest <= fuel)%nat -> (List.length (pre ++ rest) <= 31)%nat ->
  tp_process fuel (loaded a c (pre ++ rest)) (zlen pre) =
  Ok (loaded (fst (afeed a rest)) c (pre ++ rest), told c (snd (afeed a rest)), zlen (pre ++ rest)).
Proof.
  induction fuel as [|fuel IH]; intros a c pre rest F Lf L.
  - destruct rest; [|cbn in Lf; lia]. rewrite app_nil_r in *. cbn [tp_process]. change (blen (tp_buf (loaded a c pre))) with (zlen pre).
    rewrite Z.ltb_irrefl. cbn [afeed fst snd]. destruct c; reflexivity.
  - destruct rest as [|x rest].
    + rewrite app_nil_r in *. cbn [tp_process]. change (blen (tp_buf (loaded a c pre))) with (zlen pre).
      rewrite Z.ltb_irrefl. cbn [afeed fst snd]. destruct c; reflexivity.
    + cbn [tp_process]. change (blen (tp_buf (loaded a c (pre ++ x :: rest)))) with (zlen (pre ++ x :: rest)).
      replace (zlen pre <? zlen (pre ++ x :: rest)) with true by (rewrite zlen_app; unfold zlen; cbn [List.length]; lia).
      destruct (iteration_spec a c pre (x :: rest) F ltac:(discriminate) L) as (m & r & E & N & ->). cbn [bind].
      rewrite E. rewrite app_assoc. rewrite E, app_assoc in L.
      rewrite IH; [| |  |assumption].
      * cbn [bind]. destruct (afeed_pair a m r) as (-> & ->). rewrite told_app. reflexivity.
      * apply afeed_fits. assumption.
      * assert (Q : List.length (x :: rest) = List.length (m ++ r)) by congruence. rewrite app_length in Q.
        destruct m; [congruence|]. cbn [List.length] in *. lia.
Qed.

Lemma addText_spec : forall a c b s, fits a -> holds b s ->
  tp_addText (parser a c) b = Ok (parser (fst (aadd a s)) c, told c (snd (aadd a s))).
Proof.
  intros a c b s F H. unfold tp_addText, aadd, kBufferLength, max_text. rewrite (holds_blen _ _ H).
  assert (AF : (match tp_state (parser a c) with ERROR => true | _ => false end) = afailed a)
    by (unfold parser, afailed; cbn [tp_state]; destruct (a_at a); reflexivity).
  rewrite AF. destruct ((zlen s >? 30) || afailed a) eqn:Q.
  - apply (report_error' a c [] F).
  - apply orb_false_elim in Q. destruct Q as (Q1 & Q2). pose proof (zlen_nonneg _ s).
    assert (L : (List.length s <= 30)%nat) by (unfold zlen in *; lia).
    destruct s as [|x s].
    + change (zlen []) with 0. cbn [Z.to_nat tp_addLoop]. rewrite (holds_blen _ _ H). change (0 <? zlen []) with false. cbv iota.
      cbn [afeed fst snd]. destruct c; reflexivity.
    + unfold zlen at 1. rewrite Nat2Z.id. cbn [List.length tp_addLoop]. rewrite (holds_blen _ _ H).
      change (0 <? zlen (x :: s)) with true. cbv iota. rewrite AF, Q2, orb_false_r.
      change (bfull (tp_buf (parser a c))) with false. cbv iota.
      unfold bsub1. rewrite (holds_blen _ _ H).
      destruct (bsub_window b (x :: s) 0 (zlen (x :: s)) H) as (w & Ew & Hw & _); [lia|rewrite (holds_blen _ _ H); lia|].
      rewrite Ew. cbn [bind]. rewrite Z.sub_0_r in Hw. cbn [Z.to_nat skipn] in Hw. unfold zlen in Hw. rewrite Nat2Z.id, firstn_all in Hw.
      change (tp_buf (parser a c)) with (zb 31 []). rewrite (zb_push 31 [] w _ ltac:(cbn; lia) ltac:(lia) Hw).
      cbn [bind app]. rewrite firstn_all2 by (cbn [List.length] in *; lia).
      change (set_buf (parser a c) (zb 31 (x :: s))) with (loaded a c ([] ++ x :: s)).
      unfold tp_processBuffer. change (blen (tp_buf (loaded a c ([] ++ x :: s)))) with (zlen (x :: s)).
      change 0 with (zlen (@nil Z)) at 1.
      rewrite process_spec; [|assumption|unfold zlen; rewrite Nat2Z.id; lia|cbn [app List.length] in *; lia].
      cbn [bind app]. change (tp_buf (loaded (fst (afeed a (x :: s))) c (x :: s))) with (zb 31 (x :: s)).
      rewrite zb_pop_all by (cbn [List.length] in *; lia). cbn [bind].
      change (zlen (@nil Z)) with 0. rewrite Z.sub_0_r. rewrite Z.min_r by lia.
      assert (U : u8 (0 + zlen (x :: s)) = zlen (x :: s)) by (unfold u8; rewrite Z.add_0_l; apply Z.mod_small; lia).
      rewrite U. destruct (List.length s); cbn [tp_addLoop]; rewrite (holds_blen _ _ H), Z.ltb_irrefl; cbn [bind]; rewrite app_nil_r; reflexivity.
Qed.

(** ** Histories *)
Definition hstep (x : auto * option nat) (k : tcall) (s : list Z) : auto * option nat :=
  match k with TText _ => (fst (aadd (fst x) s), snd x) | TReset => (astart, None) | TConsumer c => (fst x, c) end.

Lemma wr_all : forall m n, List.length m = n -> wr m 0 (repeat 0 n) = Ok (repeat 0 n).
Proof.
  intros m n H. change m with ([] ++ m). rewrite <- (app_nil_r m). rewrite (wr_mid [] m [] (repeat 0 n) 0 eq_refl) by (rewrite repeat_length; exact H).
  cbn [app]. rewrite app_nil_r. reflexivity.
Qed.
Lemma constructed : forall m1 m2 m3 m4 n1 n2 n3 n4 state consumer,
  List.length m1 = 31%nat -> List.length m2 = 11%nat -> List.length m3 = 11%nat -> List.length m4 = 26%nat ->
  tp_reset (mkTP state consumer (mkBuf m1 n1 31) (mkBuf m2 n2 11) (mkBuf m3 n3 11) (mkBuf m4 n4 26)) = Ok tp_new.
Proof.
  intros m1 m2 m3 m4 n1 n2 n3 n4 state consumer L1 L2 L3 L4. unfold tp_reset, berase. cbn [tp_buf tp_sec tp_key tp_val mem blen bcap].
  change (Z.to_nat 31) with 31%nat. change (Z.to_nat 11) with 11%nat. change (Z.to_nat 26) with 26%nat. rewrite (wr_all m1 _ L1). cbn [bind]. rewrite (wr_all m2 _ L2). cbn [bind]. rewrite (wr_all m3 _ L3). cbn [bind]. rewrite (wr_all m4 _ L4). reflexivity.
Qed.
Lemma reset_spec : forall a c, fits a -> tp_reset (parser a c) = Ok tp_new.
Proof.
  intros a c (H1 & H2 & H3). unfold tp_reset, parser. cbn [tp_buf tp_sec tp_key tp_val]. rewrite !zb_erase by (assumption || (cbn; lia)).
  reflexivity.
Qed.
Lemma start_parser : tp_new = parser astart None. Proof. reflexivity. Qed.
Lemma start_fits : fits astart. Proof. unfold fits, max_section, max_key, max_value. cbn. lia. Qed.

Definition ok_report (r : report) : Prop :=
  let '(s, k, v) := r in (List.length s <= max_section)%nat /\ (List.length k <= max_key)%nat /\ (List.length v <= max_value)%nat.
Lemma err_ok : ok_report error_report. Proof. unfold ok_report, error_report, max_section, max_key, max_value. cbn. lia. Qed.
Lemma astep_reports : forall a c, fits a -> Forall ok_report (snd (astep a c)).
Proof.
  intros [w s k v] c (H1 & H2 & H3). unfold astep. cbn [a_at a_sec a_key a_val] in *.
  destruct w; repeat match goal with |- context [if ?b then _ else _] => destruct b end; cbn [snd];
    repeat first [apply Forall_nil | apply Forall_cons]; try apply err_ok; unfold ok_report, max_section, max_key, max_value in *; cbn [List.length]; lia.
Qed.
Lemma afeed_reports : forall s a, fits a -> Forall ok_report (snd (afeed a s)).
Proof.
  induction s as [|c s IH]; intros a F; [constructor|]. cbn [afeed].
  pose proof (astep_reports a c F). pose proof (astep_fits a c F). destruct (astep a c) as (a1, e1).
  specialize (IH a1 H0). destruct (afeed a1 s). cbn [snd fst] in *. apply Forall_app; split; assumption.
Qed.
Lemma aadd_reports : forall a s, fits a -> Forall ok_report (snd (aadd a s)).
Proof. intros. unfold aadd. destruct (_ || _); [constructor; [apply err_ok|constructor]|apply afeed_reports; assumption]. Qed.

Lemma trun_safe : forall l a c, fits a -> Forall valid_call l ->
  exists a' c' evs, trun (parser a c) l = Ok (parser a' c', evs) /\ fits a' /\
    Forall (fun e => exists r, ok_report r /\ e = as_buffers r) evs.
Proof.
  induction l as [|k l IH]; intros a c F V; [exists a, c, []; split; [reflexivity|]; split; [assumption|constructor]|].
  inversion V; subst. cbn [trun]. destruct k as [b| |c1]; cbn [tstep].
  - destruct H1 as (s & H1). rewrite (addText_spec a c b s F H1). cbn [bind].
    destruct (IH (fst (aadd a s)) c (aadd_fits a s F) H2) as (a' & c' & evs & E & F' & R). rewrite E. cbn [bind].
    exists a', c', (told c (snd (aadd a s)) ++ evs). split; [reflexivity|]. split; [assumption|]. apply Forall_app. split; [|assumption].
    destruct c; [|constructor]. cbn [told]. pose proof (aadd_reports a s F) as Q. rewrite Forall_map. eapply Forall_impl; [|exact Q].
    intros r Hr. exists r. auto.
  - rewrite (reset_spec a c F). cbn [bind]. rewrite start_parser. destruct (IH astart None start_fits H2) as (a' & c' & evs & E & F' & R).
    rewrite E. cbn [bind app]. eauto 8.
  - cbn [bind]. change (tp_setConsumer (parser a c) c1) with (parser a c1). destruct (IH a c1 F H2) as (a' & c' & evs & E & F' & R).
    rewrite E. cbn [bind app]. eauto 8.
Qed.

Lemma trun_texts : forall cut bs a c, fits a -> texts cut bs ->
  trun (parser a c) (map TText bs) = Ok (parser (fst (aadds a cut)) c, told c (snd (aadds a cut))).
Proof.
  induction cut as [|s cut IH]; intros bs a c F T; inversion T; subst.
  - cbn [map trun aadds fst snd]. destruct c; reflexivity.
  - cbn [map trun tstep aadds]. rewrite (addText_spec a c x s F) by assumption. cbn [bind].
    pose proof (aadd_fits a s F). destruct (aadd a s) as (a1, e1). cbn [fst snd] in *.
    rewrite IH by assumption. cbn [bind]. destruct (aadds a1 cut). cbn [fst snd]. rewrite told_app. reflexivity.
Qed.

Lemma aadds_failed : forall cut, aadds failed cut = (failed, repeat error_report (List.length cut)).
Proof.
  induction cut as [|s cut IH]; [reflexivity|]. cbn [aadds List.length repeat]. unfold aadd. change (afailed failed) with true.
  rewrite orb_true_r, IH. reflexivity.
Qed.

Lemma afeed_failed_inv : forall s a, afailed a = false -> afailed (fst (afeed a s)) = true -> fst (afeed a s) = failed.
Proof.
  induction s as [|c s IH]; intros a N H; [cbn in H; congruence|].
  destruct (afeed_pair a [c] s) as (E & _). cbn [app] in E. rewrite E in *. clear E.
  assert (A1 : fst (afeed a [c]) = fst (astep a c)) by (cbn [afeed]; destruct (astep a c); reflexivity). rewrite A1 in *.
  destruct (afailed (fst (astep a c))) eqn:Q.
  - assert (X : fst (astep a c) = failed).
    { revert Q. unfold astep, afailed in *. destruct a as [w ? ? ?]. cbn [a_at] in *.
      destruct w; repeat match goal with |- context [if ?b then _ else _] => destruct b end; cbn; congruence. }
    rewrite X, afeed_failed. reflexivity.
  - apply IH; assumption.
Qed.

Lemma aadds_feed : forall cut a, afailed a = false -> short cut ->
  exists n, aadds a cut = (fst (afeed a (List.concat cut)), snd (afeed a (List.concat cut)) ++ repeat error_report n) /\
    (afailed (fst (afeed a (List.concat cut))) = false -> n = 0%nat).
Proof.
  induction cut as [|s cut IH]; intros a N S.
  - exists 0%nat. cbn. split; [reflexivity|auto].
  - inversion S; subst. cbn [aadds List.concat]. unfold aadd. unfold max_text in *.
    replace (zlen s >? 30) with false by lia. rewrite N. cbn [orb].
    destruct (afeed_pair a s (List.concat cut)) as (E1 & E2). rewrite E1, E2.
    destruct (afeed a s) as (a1, e1) eqn:E. cbn [fst snd].
    destruct (afailed a1) eqn:Q.
    + assert (X : a1 = failed).
      { pose proof (afeed_failed_inv s a N) as K. rewrite E in K. cbn [fst] in K. auto. }
      subst a1. rewrite aadds_failed, afeed_failed. cbn [fst snd]. exists (List.length cut).
      rewrite app_nil_r. split; [reflexivity|discriminate].
    + destruct (IH a1 Q H2) as (n & -> & Hn). exists n. rewrite app_assoc. split; [reflexivity|assumption].
Qed.

(** ** C34 *)
Lemma cut_independent : forall a c cut bs, fits a -> a_at a <> Failed -> texts cut bs -> short cut ->
  exists n, trun (parser a c) (map TText bs) =
    Ok (parser (fst (afeed a (List.concat cut))) c, told c (snd (afeed a (List.concat cut)) ++ repeat error_report n)) /\
    (a_at (fst (afeed a (List.concat cut))) <> Failed -> n = 0%nat).
Proof.
  intros a c cut bs F N T S. assert (N' : afailed a = false) by (unfold afailed; destruct (a_at a); congruence).
  rewrite (trun_texts cut bs a c F T). destruct (aadds_feed cut a N' S) as (n & E & Hn). exists n. rewrite E. cbn [fst snd].
  split; [reflexivity|]. intros K. apply Hn. clear - K. unfold afailed. revert K. generalize (fst (afeed a (List.concat cut))). intros [w ? ? ?]. cbn [a_at]. destruct w; congruence.
Qed.

Lemma repeat_snoc : forall (x : report) n, x :: repeat x n = repeat x (S n). Proof. reflexivity. Qed.

Lemma two_cuts : forall a c cut1 bs1 cut2 bs2, fits a -> a_at a <> Failed ->
  texts cut1 bs1 -> short cut1 -> texts cut2 bs2 -> short cut2 -> List.concat cut1 = List.concat cut2 ->
  exists t e1 e2, trun (parser a c) (map TText bs1) = Ok (t, e1) /\ trun (parser a c) (map TText bs2) = Ok (t, e2) /\
    (tp_state t <> ERROR -> e1 = e2) /\
    (exists e n1 n2, e1 = told c (e ++ repeat error_report n1) /\ e2 = told c (e ++ repeat error_report n2)).
Proof.
  intros a c cut1 bs1 cut2 bs2 F N T1 S1 T2 S2 E.
  destruct (cut_independent a c cut1 bs1 F N T1 S1) as (n1 & E1 & H1).
  destruct (cut_independent a c cut2 bs2 F N T2 S2) as (n2 & E2 & H2). rewrite <- E in *.
  do 3 eexists. split; [exact E1|]. split; [exact E2|]. split.
  - unfold parser. cbn [tp_state]. intros K.
    assert (a_at (fst (afeed a (List.concat cut1))) <> Failed) by (intros X; rewrite X in K; apply K; reflexivity).
    rewrite H1, H2 by assumption. reflexivity.
  - eauto.
Qed.

(** ** C35 *)
Lemma afeed_item : forall i s, item_ok i ->
  afeed (mkA Between s [] []) (show i) =
  (mkA Between (last_section s [([], i)]) [] [], reports s [([], i)]).
Proof.
  intros i s H. destruct i as [s'|k|k v]; cbn [show item_ok last_section reports] in *.
  - destruct H as (F & L). cbn [app afeed]. unfold astep at 1. cbn [a_at]. change (SQ_OPEN =? SQ_OPEN) with true. cbv iota.
    rewrite afeed_app, afeed_section by (assumption || (cbn; unfold max_section; lia)). cbn [List.length Nat.add].
    rewrite (proj2 (Nat.leb_le _ _)) by assumption. reflexivity.
  - destruct H as (F & L). cbn [app afeed]. unfold astep at 1. cbn [a_at]. change (DOT =? SQ_OPEN) with false. change (DOT =? DOT) with true. cbv iota.
    cbn [a_sec a_key a_val].
    rewrite afeed_app, afeed_key by (assumption || (cbn; unfold max_section; lia)). cbn [List.length Nat.add].
    rewrite (proj2 (Nat.leb_le _ _)) by assumption. reflexivity.
  - destruct H as (F & L & F2 & L2). cbn [app afeed]. unfold astep at 1. cbn [a_at]. change (DOT =? SQ_OPEN) with false. change (DOT =? DOT) with true. cbv iota.
    cbn [a_sec a_key a_val].
    rewrite afeed_app, afeed_key by (assumption || (cbn; unfold max_section; lia)). cbn [List.length Nat.add].
    rewrite (proj2 (Nat.leb_le _ _)) by assumption. cbn [afeed app]. unfold astep at 1. cbn [a_at a_sec a_key a_val].
    change (EQUALS =? EQUALS) with true. cbv iota.
    rewrite afeed_app, afeed_value by (assumption || (cbn; unfold max_section; lia)). cbn [List.length Nat.add].
    rewrite (proj2 (Nat.leb_le _ _)) by assumption. reflexivity.
Qed.
Lemma afeed_doc : forall d s, doc_ok d -> afeed (mkA Between s [] []) (show_doc d) = (mkA Between (last_section s d) [] [], reports s d).
Proof.
  induction d as [|(g, i) d IH]; intros s H; [reflexivity|]. inversion H; subst. cbn [fst snd] in H2. destruct H2 as (G & I).
  unfold show_doc in *. cbn [flat_map fst snd]. rewrite <- app_assoc. rewrite afeed_app, afeed_between by (reflexivity || assumption).
  rewrite afeed_app, afeed_item by assumption. rewrite IH by assumption.
  destruct i; cbn [last_section reports app]; reflexivity.
Qed.
Lemma parse_doc : forall d gap sec c cut bs, doc_ok d -> free_of [SQ_OPEN; DOT] gap -> (List.length sec <= 11)%nat ->
  List.concat cut = show_doc d ++ gap -> short cut -> texts cut bs ->
  trun (parser (mkA Between sec [] []) c) (map TText bs) =
  Ok (parser (mkA Between (last_section sec d) [] []) c, told c (reports sec d)).
Proof.
  intros d gap sec c cut bs D G L E S T.
  assert (F : fits (mkA Between sec [] [])) by (unfold fits, max_section, max_key, max_value; cbn [a_sec a_key a_val List.length]; lia).
  destruct (cut_independent (mkA Between sec [] []) c cut bs F ltac:(discriminate) T S) as (n & E1 & Hn). rewrite E1.
  rewrite E in *. rewrite afeed_app, afeed_doc, afeed_between in * by (assumption || reflexivity). cbn [fst snd a_at] in *.
  rewrite Hn by discriminate. cbn [repeat]. rewrite !app_nil_r. reflexivity.
Qed.

(** ** C36 *)
Lemma told_nil : forall c (l : list report), told (Some c) l = [] <-> l = [].
Proof. intros. cbn [told]. destruct l; cbn [map]; split; congruence. Qed.

Lemma limit_gen : forall sec c start w tokn n (get : auto -> list Z) cut bs a1,
  (List.length sec <= 11)%nat -> texts cut bs -> short cut -> List.concat cut = start ++ tokn ->
  afeed (mkA Between sec [] []) start = (a1, []) -> a_at a1 = w -> w <> Failed ->
  afeed a1 tokn = (if (List.length tokn <=? n)%nat then (fst (afeed a1 tokn), []) else (failed, [error_report])) ->
  ((List.length tokn <= n)%nat -> a_at (fst (afeed a1 tokn)) <> Failed) ->
  exists t evs, trun (parser (mkA Between sec [] []) (Some c)) (map TText bs) = Ok (t, evs) /\
    ((List.length tokn <= n)%nat <-> evs = []) /\ ((List.length tokn <= n)%nat <-> tp_state t <> ERROR) /\
    ((n < List.length tokn)%nat -> exists m, evs = map as_buffers (repeat error_report (S m))).
Proof.
  intros sec c start w tokn n _ cut bs a1 L T S E St W NF Ft Nf.
  assert (F : fits (mkA Between sec [] [])) by (unfold fits, max_section, max_key, max_value; cbn [a_sec a_key a_val List.length]; lia).
  destruct (cut_independent (mkA Between sec [] []) (Some c) cut bs F ltac:(discriminate) T S) as (m & E1 & Hm).
  rewrite E in *. destruct (afeed_pair (mkA Between sec [] []) start tokn) as (P1 & P2). rewrite P1, P2, St in *. cbn [fst snd app] in *.
  do 2 eexists. split; [exact E1|]. rewrite told_nil.
  destruct (List.length tokn <=? n)%nat eqn:Q.
  - apply Nat.leb_le in Q. rewrite Hm by (apply Nf; assumption). rewrite Ft. cbn [fst snd app repeat].
    split; [tauto|]. split; [|lia]. split; [|tauto]. intros _. specialize (Nf Q). unfold parser. cbn [tp_state]. revert Nf.
    destruct (a_at (fst (afeed a1 tokn))); cbn; congruence.
  - apply Nat.leb_gt in Q. rewrite Ft. cbn [fst snd app]. split; [split; [lia|discriminate]|]. split.
    + split; [lia|]. intros K. exfalso. apply K. reflexivity.
    + intros _. exists m. reflexivity.
Qed.

Lemma section_limit : forall sec c s cut bs, (List.length sec <= 11)%nat -> free_of [SQ_CLOSE] s ->
  texts cut bs -> short cut -> List.concat cut = [SQ_OPEN] ++ s ->
  exists t evs, trun (parser (mkA Between sec [] []) (Some c)) (map TText bs) = Ok (t, evs) /\
    ((List.length s <= 11)%nat <-> evs = []) /\ ((List.length s <= 11)%nat <-> tp_state t <> ERROR) /\
    ((11 < List.length s)%nat -> exists m, evs = map as_buffers (repeat error_report (S m))).
Proof.
  intros sec c s cut bs L F T S E.
  eapply (limit_gen sec c [SQ_OPEN] InSection s 11 a_sec cut bs (mkA InSection [] [] [])); try assumption; try reflexivity; try discriminate.
  - rewrite afeed_section by (assumption || (cbn; lia)). cbn [List.length Nat.add]. unfold max_section. destruct (_ <=? _)%nat; reflexivity.
  - intros Q. rewrite afeed_section by (assumption || (cbn; lia)). cbn [List.length Nat.add]. unfold max_section.
    rewrite (proj2 (Nat.leb_le _ _)) by assumption. discriminate.
Qed.
Lemma key_limit : forall sec c s cut bs, (List.length sec <= 11)%nat -> free_of [EQUALS; NEWLINE] s ->
  texts cut bs -> short cut -> List.concat cut = [DOT] ++ s ->
  exists t evs, trun (parser (mkA Between sec [] []) (Some c)) (map TText bs) = Ok (t, evs) /\
    ((List.length s <= 11)%nat <-> evs = []) /\ ((List.length s <= 11)%nat <-> tp_state t <> ERROR) /\
    ((11 < List.length s)%nat -> exists m, evs = map as_buffers (repeat error_report (S m))).
Proof.
  intros sec c s cut bs L F T S E.
  eapply (limit_gen sec c [DOT] InKey s 11 a_sec cut bs (mkA InKey sec [] [])); try assumption; try reflexivity; try discriminate.
  - rewrite afeed_key by (assumption || (cbn; lia)). cbn [List.length Nat.add]. unfold max_key. destruct (_ <=? _)%nat; reflexivity.
  - intros Q. rewrite afeed_key by (assumption || (cbn; lia)). cbn [List.length Nat.add]. unfold max_key.
    rewrite (proj2 (Nat.leb_le _ _)) by assumption. discriminate.
Qed.
Lemma value_limit : forall sec c k s cut bs, (List.length sec <= 11)%nat -> free_of [EQUALS; NEWLINE] k -> (List.length k <= 11)%nat ->
  free_of [NEWLINE] s -> texts cut bs -> short cut -> List.concat cut = ([DOT] ++ k ++ [EQUALS]) ++ s ->
  exists t evs, trun (parser (mkA Between sec [] []) (Some c)) (map TText bs) = Ok (t, evs) /\
    ((List.length s <= 26)%nat <-> evs = []) /\ ((List.length s <= 26)%nat <-> tp_state t <> ERROR) /\
    ((26 < List.length s)%nat -> exists m, evs = map as_buffers (repeat error_report (S m))).
Proof.
  intros sec c k s cut bs L Fk Lk F T S E.
  eapply (limit_gen sec c ([DOT] ++ k ++ [EQUALS]) InValue s 26 a_sec cut bs (mkA InValue sec k [])); try assumption; try reflexivity; try discriminate.
  - cbn [app afeed]. unfold astep at 1. cbn [a_at]. change (DOT =? SQ_OPEN) with false. change (DOT =? DOT) with true. cbv iota.
    cbn [a_sec a_key a_val]. rewrite afeed_app, afeed_key by (assumption || (cbn; lia)). cbn [List.length Nat.add].
    rewrite (proj2 (Nat.leb_le _ _)) by assumption. reflexivity.
  - rewrite afeed_value by (assumption || (cbn; lia)). cbn [List.length Nat.add]. unfold max_value. destruct (_ <=? _)%nat; reflexivity.
  - intros Q. rewrite afeed_value by (assumption || (cbn; lia)). cbn [List.length Nat.add]. unfold max_value.
    rewrite (proj2 (Nat.leb_le _ _)) by assumption. discriminate.
Qed.

(** ** C37 *)
Lemma reach : forall l t e, Forall valid_call l -> trun tp_new l = Ok (t, e) -> exists a c, t = parser a c /\ fits a.
Proof.
  intros l t e V E. rewrite start_parser in E. destruct (trun_safe l astart None start_fits V) as (a & c & evs & E2 & F & _).
  rewrite E2 in E. injection E as <- _. eauto.
Qed.
Lemma aadds_at_failed : forall cut a, afailed a = true -> snd (aadds a cut) = repeat error_report (List.length cut) /\ afailed (fst (aadds a cut)) = true.
Proof.
  intros [|s cut] a H; [cbn; auto|]. cbn [aadds List.length repeat]. unfold aadd. rewrite H, orb_true_r.
  rewrite aadds_failed. cbn. auto.
Qed.
Lemma sticky : forall l t e bs cut, Forall valid_call l -> trun tp_new l = Ok (t, e) -> tp_state t = ERROR -> texts cut bs ->
  exists t', trun t (map TText bs) = Ok (t', told (tp_cons t) (repeat error_report (List.length bs))) /\
    tp_state t' = ERROR /\ tp_cons t' = tp_cons t.
Proof.
  intros l t e bs cut V E R T. destruct (reach l t e V E) as (a & c & -> & F).
  assert (A : afailed a = true) by (revert R; unfold parser, afailed; cbn [tp_state]; destruct (a_at a); cbn; congruence).
  rewrite (trun_texts cut bs a c F T). destruct (aadds_at_failed cut a A) as (E1 & E2). rewrite E1.
  assert (LT : List.length bs = List.length cut) by (clear - T; unfold texts in T; induction T; cbn; congruence). rewrite LT. eexists. split; [reflexivity|]. split; [|reflexivity].
  unfold parser. cbn [tp_state]. unfold afailed in E2. revert E2. destruct (a_at _); cbn; congruence.
Qed.
Lemma sticky_reset : forall l t e, Forall valid_call l -> trun tp_new l = Ok (t, e) -> tp_reset t = Ok tp_new.
Proof. intros l t e V E. destruct (reach l t e V E) as (a & c & -> & F). apply reset_spec. assumption. Qed.
Lemma too_long : forall l t e b s, Forall valid_call l -> trun tp_new l = Ok (t, e) -> holds b s -> zlen s > 30 ->
  exists t', tp_addText t b = Ok (t', told (tp_cons t) [error_report]) /\ tp_state t' = ERROR.
Proof.
  intros l t e b s V E H L. destruct (reach l t e V E) as (a & c & -> & F). rewrite (addText_spec a c b s F H).
  unfold aadd, max_text. replace (zlen s >? 30) with true by lia. cbn [orb fst snd]. eexists. split; reflexivity.
Qed.

(** ** C38 *)
Lemma parser_safe : forall l, Forall valid_call l ->
  exists t evs, trun tp_new l = Ok (t, evs) /\ blen (tp_buf t) = 0 /\
    (exists s k v, holds (tp_sec t) s /\ holds (tp_key t) k /\ holds (tp_val t) v).
Proof.
  intros l V. rewrite start_parser. destruct (trun_safe l astart None start_fits V) as (a & c & evs & E & F & _).
  exists (parser a c), evs. split; [exact E|]. split; [reflexivity|].
  exists (a_sec a), (a_key a), (a_val a). destruct F as (F1 & F2 & F3). unfold parser. cbn [tp_sec tp_key tp_val].
  unfold max_section, max_key, max_value in *.
  split; [apply zb_holds; lia|]. split; apply zb_holds; lia.
Qed.

(** ** C39 *)
Definition until_nul_ok (cap : Z) (b : bufm) (x : list Z) : Prop :=
  (c_str (mem b) = Ok x <-> nulfree x /\ zlen x < cap) /\
  (c_str (mem b) = UB OutOfBounds <-> nulfree x /\ zlen x = cap).

Lemma nulfree_dec : forall x, nulfree x \/ exists y r, x = y ++ 0 :: r /\ nulfree y.
Proof.
  induction x as [|c x IH]; [left; constructor|]. destruct (Z.eq_dec c 0) as [->|N].
  - right. exists [], x. split; [reflexivity|constructor].
  - destruct IH as [IH|(y & r & -> & IH)]; [left; constructor; assumption|]. right. exists (c :: y), r. split; [reflexivity|constructor; assumption].
Qed.
Lemma zb_cstr : forall cap x, (List.length x <= cap)%nat ->
  (c_str (mem (zb cap x)) = Ok x <-> nulfree x /\ (List.length x < cap)%nat) /\
  (c_str (mem (zb cap x)) = UB OutOfBounds <-> nulfree x /\ (List.length x = cap)%nat).
Proof.
  intros cap x L. unfold zb. cbn [mem]. destruct (nulfree_dec x) as [N|(y & r & -> & N)].
  - destruct (Nat.eq_dec (List.length x) cap) as [Q|Q].
    + replace (cap - List.length x)%nat with 0%nat by lia. cbn [repeat]. rewrite app_nil_r, c_str_none by assumption.
      split; split; try tauto; try discriminate. intros (_ & X). lia.
    + replace (cap - List.length x)%nat with (S (cap - List.length x - 1)) by lia. cbn [repeat]. rewrite c_str_eq by assumption.
      split; split; try discriminate; intros X; try (destruct X; lia); try reflexivity; split; [assumption|lia].
  - assert (NN : ~ nulfree (y ++ 0 :: r)).
    { intros X. apply Forall_app in X. destruct X as (_ & X). inversion X. congruence. }
    rewrite <- app_assoc. cbn [app]. rewrite c_str_eq by assumption. split; split; try tauto; try discriminate.
    intros X. injection X as X. exfalso. apply (f_equal (@List.length Z)) in X. rewrite app_length in X. cbn [List.length] in X. lia.
Qed.

Lemma reported_buffer : forall cap x, (List.length x <= cap)%nat -> (cap <= 255)%nat ->
  holds (zb cap x) x /\ zlen (mem (zb cap x)) = Z.of_nat cap.
Proof.
  intros. split; [apply zb_holds; assumption|]. unfold zb. cbn [mem]. rewrite zlen_app, zlen_repeat. unfold zlen. lia.
Qed.

Lemma reported : forall l t evs, Forall valid_call l -> trun tp_new l = Ok (t, evs) -> forall bs bk bv, In (bs, bk, bv) evs ->
  exists s k v, holds bs s /\ holds bk k /\ holds bv v /\
    zlen (mem bs) = 11 /\ zlen (mem bk) = 11 /\ zlen (mem bv) = 26 /\
    (c_str (mem bs) = Ok s <-> nulfree s /\ (List.length s < 11)%nat) /\
    (c_str (mem bk) = Ok k <-> nulfree k /\ (List.length k < 11)%nat) /\
    (c_str (mem bv) = Ok v <-> nulfree v /\ (List.length v < 26)%nat) /\
    (c_str (mem bs) = UB OutOfBounds <-> nulfree s /\ (List.length s = 11)%nat) /\
    (c_str (mem bk) = UB OutOfBounds <-> nulfree k /\ (List.length k = 11)%nat) /\
    (c_str (mem bv) = UB OutOfBounds <-> nulfree v /\ (List.length v = 26)%nat).
Proof.
  intros l t evs V E bs bk bv I. rewrite start_parser in E.
  destruct (trun_safe l astart None start_fits V) as (a & c & evs2 & E2 & F & R). rewrite E2 in E. injection E as <- <-.
  rewrite Forall_forall in R. destruct (R _ I) as (((s & k) & v) & (L1 & L2 & L3) & Q). cbn [as_buffers] in Q. injection Q as -> -> ->.
  exists s, k, v. unfold max_section, max_key, max_value in *.
  destruct (reported_buffer 11 s L1 ltac:(lia)) as (A1 & A2). destruct (reported_buffer 11 k L2 ltac:(lia)) as (B1 & B2).
  destruct (reported_buffer 26 v L3 ltac:(lia)) as (C1 & C2).
  destruct (zb_cstr 11 s L1) as (A3 & A4). destruct (zb_cstr 11 k L2) as (B3 & B4). destruct (zb_cstr 26 v L3) as (C3 & C4).
  tauto.
Qed.

Lemma reachable : forall l, Forall valid_call l -> exists a c evs, trun tp_new l = Ok (parser a c, evs) /\ fits a.
Proof.
  intros l V. rewrite start_parser. destruct (trun_safe l astart None start_fits V) as (a & c & evs & E & F & _). eauto.
Qed.

(** ** C34-C36 from construction *)
(** between two lines no key and no value is pending *)
Definition tidy (a : auto) : Prop :=
  match a_at a with Between | InSection => a_key a = [] /\ a_val a = [] | InKey => a_val a = [] | InValue => True | Failed => a = failed end.
Lemma astep_tidy : forall a c, tidy a -> tidy (fst (astep a c)).
Proof.
  intros [w s k v] c T. unfold tidy, astep in *. cbn [a_at a_sec a_key a_val] in *.
  destruct w; repeat match goal with |- context [if ?b then _ else _] => destruct b end; cbn [fst a_at a_sec a_key a_val]; try reflexivity; tauto.
Qed.
Lemma afeed_tidy : forall s a, tidy a -> tidy (fst (afeed a s)).
Proof.
  induction s as [|c s IH]; intros a T; [exact T|]. cbn [afeed]. pose proof (astep_tidy a c T) as T1. destruct (astep a c) as (a1 & e1). specialize (IH a1 T1).
  destruct (afeed a1 s). exact IH.
Qed.
Lemma aadd_tidy : forall a s, tidy a -> tidy (fst (aadd a s)).
Proof. intros a s T. unfold aadd. destruct (_ || _); [reflexivity|apply afeed_tidy; exact T]. Qed.
Lemma trun_tidy : forall l a c t e, fits a -> tidy a -> Forall valid_call l -> trun (parser a c) l = Ok (t, e) -> exists a' c', t = parser a' c' /\ fits a' /\ tidy a'.
Proof.
  induction l as [|k l IH]; intros a c t e F T V E; [injection E as <- _; eauto|]. inversion V; subst. cbn [trun] in E. destruct k as [b| |c1]; cbn [tstep] in E.
  - destruct H1 as (s & H1). rewrite (addText_spec a c b s F H1) in E. cbn [bind] in E.
    destruct (trun (parser (fst (aadd a s)) c) l) as [(t2 & e2)|u] eqn:E2; [|discriminate]. cbn [bind] in E. injection E as <- _.
    eapply IH; [apply aadd_fits; exact F|apply aadd_tidy; exact T|exact H2|exact E2].
  - rewrite (reset_spec a c F) in E. cbn [bind] in E. rewrite start_parser in E. destruct (trun (parser astart None) l) as [(t2 & e2)|u] eqn:E2; [|discriminate].
    cbn [bind] in E. injection E as <- _. eapply IH; [apply start_fits|split; reflexivity|exact H2|exact E2].
  - cbn [bind] in E. change (tp_setConsumer (parser a c) c1) with (parser a c1) in E. destruct (trun (parser a c1) l) as [(t2 & e2)|u] eqn:E2; [|discriminate].
    cbn [bind] in E. injection E as <- _. eapply IH; [exact F|exact T|exact H2|exact E2].
Qed.
Lemma used_parser : forall t, used t -> exists a, t = parser a (tp_cons t) /\ fits a /\ tidy a.
Proof.
  intros t (l & e & V & E). rewrite start_parser in E. destruct (trun_tidy l astart None t e start_fits (conj eq_refl eq_refl) V E) as (a & c & -> & F & T).
  exists a. auto.
Qed.
Lemma used_between : forall t sec, used t -> tp_state t = LOOKING -> holds (tp_sec t) sec -> t = parser (mkA Between sec [] []) (tp_cons t) /\ (List.length sec <= 11)%nat.
Proof.
  intros t sec U S H. destruct (used_parser t U) as ([w s k v] & E & F & T). rewrite E in S, H. unfold parser in S, H. cbn [tp_state tp_sec a_at a_sec] in S, H.
  assert (w = Between) by (destruct w; cbn in S; congruence). subst w. destruct T as (K & V). cbn [a_key a_val] in K, V. subst k v.
  destruct F as (F & _). cbn [a_sec] in F. pose proof (zb_holds max_section s F ltac:(unfold max_section; lia)) as H2.
  assert (sec = s). { destruct H as (_ & _ & _ & ->). destruct H2 as (_ & _ & _ & H2). symmetry. exact H2. } subst sec. split; [exact E|exact F].
Qed.
Lemma used_cut : forall t cut bs, used t -> tp_state t <> ERROR -> texts cut bs -> short cut ->
  exists a n, t = parser a (tp_cons t) /\ fits a /\
    trun t (map TText bs) = Ok (parser (fst (afeed a (List.concat cut))) (tp_cons t), told (tp_cons t) (snd (afeed a (List.concat cut)) ++ repeat error_report n)) /\
    (a_at (fst (afeed a (List.concat cut))) <> Failed -> n = 0%nat).
Proof.
  intros t cut bs U S T SH. destruct (used_parser t U) as (a & E & F & _). assert (N : a_at a <> Failed) by (intros X; apply S; rewrite E; unfold parser; cbn [tp_state]; rewrite X; reflexivity).
  destruct (cut_independent a (tp_cons t) cut bs F N T SH) as (n & R & H). exists a, n. rewrite <- E in R. auto.
Qed.
Lemma used_two_cuts : forall t cut1 bs1 cut2 bs2, used t -> tp_state t <> ERROR ->
  texts cut1 bs1 -> short cut1 -> texts cut2 bs2 -> short cut2 -> List.concat cut1 = List.concat cut2 ->
  exists t' e1 e2, trun t (map TText bs1) = Ok (t', e1) /\ trun t (map TText bs2) = Ok (t', e2) /\
    (tp_state t' <> ERROR -> e1 = e2) /\
    (exists e n1 n2, e1 = told (tp_cons t) (e ++ repeat error_report n1) /\ e2 = told (tp_cons t) (e ++ repeat error_report n2)).
Proof.
  intros t cut1 bs1 cut2 bs2 U S. destruct (used_parser t U) as (a & E & F & _). assert (N : a_at a <> Failed) by (intros X; apply S; rewrite E; unfold parser; cbn [tp_state]; rewrite X; reflexivity).
  rewrite E. exact (two_cuts a (tp_cons t) cut1 bs1 cut2 bs2 F N).
Qed.
Lemma last_section_fits : forall d sec, doc_ok d -> (List.length sec <= 11)%nat -> (List.length (last_section sec d) <= 11)%nat.
Proof.
  induction d as [|(g & i) d IH]; intros sec D L; [exact L|]. inversion D as [|? ? (_ & I) D']; subst. destruct i; cbn [last_section]; apply IH; try assumption. apply I.
Qed.
Lemma used_doc : forall t d gap sec cut bs, used t -> tp_state t = LOOKING -> holds (tp_sec t) sec -> doc_ok d -> free_of [SQ_OPEN; DOT] gap ->
  List.concat cut = show_doc d ++ gap -> short cut -> texts cut bs ->
  exists t', trun t (map TText bs) = Ok (t', told (tp_cons t) (reports sec d)) /\ tp_state t' = LOOKING /\ tp_cons t' = tp_cons t /\ holds (tp_sec t') (last_section sec d).
Proof.
  intros t d gap sec cut bs U S H D G E SH T. destruct (used_between t sec U S H) as (ET & L). exists (parser (mkA Between (last_section sec d) [] []) (tp_cons t)).
  split; [rewrite ET at 1; apply (parse_doc d gap sec (tp_cons t) cut bs); assumption|]. split; [reflexivity|]. split; [reflexivity|]. apply zb_holds; [apply last_section_fits; assumption|unfold max_section; lia].
Qed.
Lemma used_here : forall t, used t -> tp_state t = LOOKING -> exists sec, t = parser (mkA Between sec [] []) (tp_cons t) /\ (List.length sec <= 11)%nat.
Proof.
  intros t U S. destruct (used_parser t U) as ([w s k v] & E & F & T). exists s. apply used_between; [exact U|exact S|]. rewrite E. apply zb_holds; [apply F|unfold max_section; lia].
Qed.
Lemma used_section : forall t c s cut bs, used t -> tp_state t = LOOKING -> tp_cons t = Some c -> free_of [SQ_CLOSE] s ->
  texts cut bs -> short cut -> List.concat cut = [SQ_OPEN] ++ s -> limited 11 s (trun t (map TText bs)).
Proof.
  intros t c s cut bs U S C F T SH E. destruct (used_here t U S) as (sec & ET & L). rewrite ET, C. unfold limited. eapply section_limit; eassumption.
Qed.
Lemma used_key : forall t c s cut bs, used t -> tp_state t = LOOKING -> tp_cons t = Some c -> free_of [EQUALS; NEWLINE] s ->
  texts cut bs -> short cut -> List.concat cut = [DOT] ++ s -> limited 11 s (trun t (map TText bs)).
Proof.
  intros t c s cut bs U S C F T SH E. destruct (used_here t U S) as (sec & ET & L). rewrite ET, C. unfold limited. eapply key_limit; eassumption.
Qed.
Lemma used_value : forall t c k s cut bs, used t -> tp_state t = LOOKING -> tp_cons t = Some c -> free_of [EQUALS; NEWLINE] k -> (List.length k <= 11)%nat ->
  free_of [NEWLINE] s -> texts cut bs -> short cut -> List.concat cut = ([DOT] ++ k ++ [EQUALS]) ++ s -> limited 26 s (trun t (map TText bs)).
Proof.
  intros t c k s cut bs U S C FK LK F T SH E. destruct (used_here t U S) as (sec & ET & L). rewrite ET, C. unfold limited. eapply value_limit; eassumption.
Qed.
