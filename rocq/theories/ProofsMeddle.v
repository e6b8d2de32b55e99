(* ProofsMeddle.v -- lemmas behind PropsMeddle.v *)
From Verif Require Import ZLib SpecMeddle ProofsBuffer ProofsText.

(** ** Buffers stay zero-padded *)
Definition pad (b : bufm) : list Z := firstn (Z.to_nat (bcap b - blen b)) (skipn (Z.to_nat (blen b)) (mem b)).
Definition zeroed (b : bufm) : Prop := Forall (fun z => z = 0) (pad b).
Lemma pad_B : forall c p e, pad (B c p e) = p.
Proof.
  intros. unfold pad, B; cbn [mem blen bcap]. replace (zlen c + zlen p - zlen c) with (zlen p) by lia.
  unfold zlen. rewrite !Nat2Z.id, skipn_app_exact, firstn_app_exact. reflexivity.
Qed.
Lemma zeroed_B : forall c p e, zeroed (B c p e) <-> Forall (fun z => z = 0) p.
Proof. intros. unfold zeroed. rewrite pad_B. reflexivity. Qed.
Lemma zeros : forall n, Forall (fun z => z = 0) (repeat 0 n).
Proof. induction n; cbn; constructor; auto. Qed.
Lemma Forall_tail : forall n (P : Z -> Prop) l, Forall P l -> Forall P (skipn n l).
Proof. induction n; intros P l H; [assumption|]. destruct H; cbn; [constructor|auto]. Qed.

Definition tidily (bs bs' : list bufm) : Prop := Forall2 (fun b b' => zeroed b -> zeroed b') bs bs'.
Lemma tidily_refl : forall bs, tidily bs bs.
Proof. induction bs; constructor; auto. Qed.
Lemma tidily_trans : forall a b c, tidily a b -> tidily b c -> tidily a c.
Proof. intros a b c H. revert c. induction H; intros c K; inversion K; subst; constructor; auto. apply IHForall2. assumption. Qed.
Lemma tidily_upd : forall bs i b b', nth_error bs i = Some b -> (zeroed b -> zeroed b') -> tidily bs (upd i b' bs).
Proof.
  induction bs as [|x bs IH]; intros i b b' E H; destruct i; cbn in *; try discriminate.
  - injection E as ->. constructor; [assumption|apply tidily_refl].
  - constructor; [auto|]. eapply IH; eassumption.
Qed.

Lemma code_step_tidy : forall o bs qs qs' n, image bs qs -> ideal_step o qs = Some (qs', n) ->
  exists bs', code_step o bs = Ok (bs', n) /\ tidily bs bs'.
Proof.
  intros o bs qs qs' n H E. destruct (code_step_sim o bs qs qs' n H E) as (bs' & C & _). exists bs'. split; [exact C|].
  destruct o; cbn [ideal_step code_step] in *.
  - destruct (nth_error qs i) as [q|] eqn:Eq; [|discriminate]. destruct (nth_error qs j) as [r|] eqn:Er; [|discriminate].
    destruct (nth_error_F2 _ _ _ _ _ _ _ H Eq) as (b & Eb & Rb). destruct (nth_error_F2 _ _ _ _ _ _ _ H Er) as (b' & Eb' & Rb').
    unfold bat in C. rewrite Eb, Eb' in C. cbn [bind] in C.
    destruct (represents_B _ _ Rb) as (p & Xb & Hp & Hc). destruct (represents_B _ _ Rb') as (p' & Xb' & Hp' & Hc').
    rewrite Xb, Xb', bpush_B in C by assumption. cbn [bind] in C. injection C as <- _.
    eapply tidily_upd; [exact Eb|]. rewrite Xb, !zeroed_B. apply Forall_tail.
  - destruct (nth_error qs i) as [q|] eqn:Eq; [|discriminate].
    destruct (nth_error_F2 _ _ _ _ _ _ _ H Eq) as (b & Eb & Rb). unfold bat in C. rewrite Eb in C. cbn [bind] in C.
    destruct (represents_B _ _ Rb) as (p & Xb & Hp & Hc). rewrite Xb, bpush_char_B in C by assumption.
    destruct p as [|y p]; cbn [bind] in C; injection C as <- _; (eapply tidily_upd; [exact Eb|]); rewrite Xb, !zeroed_B; auto.
    intros K. inversion K; assumption.
  - destruct (nth_error qs i) as [q|] eqn:Eq; [|discriminate].
    destruct ((0 <=? n0) && (n0 <=? 255)) eqn:En; [|discriminate].
    destruct (nth_error_F2 _ _ _ _ _ _ _ H Eq) as (b & Eb & Rb). unfold bat in C. rewrite Eb in C. cbn [bind] in C.
    destruct (represents_B _ _ Rb) as (p & Xb & Hp & Hc). rewrite Xb, bpop_B in C by (assumption || lia). cbn [bind] in C. injection C as <- _.
    eapply tidily_upd; [exact Eb|]. rewrite zeroed_B. intros _. apply zeros.
  - destruct (nth_error qs i) as [q|] eqn:Eq; [|discriminate].
    destruct (nth_error_F2 _ _ _ _ _ _ _ H Eq) as (b & Eb & Rb). unfold bat in C. rewrite Eb in C. cbn [bind] in C.
    destruct (represents_B _ _ Rb) as (p & Xb & Hp & Hc). rewrite Xb, berase_B in C. cbn [bind] in C. injection C as <- _.
    eapply tidily_upd; [exact Eb|]. rewrite zeroed_B. intros _. apply zeros.
  - destruct (nth_error qs i) as [q|] eqn:Eq; [|discriminate].
    destruct ((1 <=? q_cap q) && _) eqn:En; [|discriminate]. apply andb_true_iff in En. destruct En as (En & Es).
    assert (Hs : nulfree s).
    { apply Forall_forall. intros x I. rewrite forallb_forall in Es. specialize (Es x I). lia. }
    destruct (nth_error_F2 _ _ _ _ _ _ _ H Eq) as (b & Eb & Rb). unfold bat in C. rewrite Eb in C. cbn [bind] in C.
    destruct (represents_B _ _ Rb) as (p & Xb & Hp & Hc). rewrite Xb, bset_B in C by (assumption || lia). cbn [bind] in C. injection C as <- _.
    eapply tidily_upd; [exact Eb|]. rewrite zeroed_B. intros _. apply zeros.
  - destruct (nth_error qs i) as [q|] eqn:Eq; [|discriminate]. destruct (nth_error qs j) as [r|] eqn:Er; [|discriminate].
    destruct (nth_error_F2 _ _ _ _ _ _ _ H Eq) as (b & Eb & Rb). destruct (nth_error_F2 _ _ _ _ _ _ _ H Er) as (b' & Eb' & Rb').
    unfold bat in C. rewrite Eb, Eb' in C. cbn [bind] in C.
    destruct (represents_B _ _ Rb) as (p & Xb & Hp & Hc). destruct (represents_B _ _ Rb') as (p' & Xb' & Hp' & Hc').
    pose proof (zlen_nonneg _ p). pose proof (zlen_nonneg _ (q_items r)). pose proof (zlen_nonneg _ (q_items q)).
    destruct (Nat.eqb i j) eqn:Eij.
    + rewrite Xb, bpush_B in C by assumption. cbn [bind] in C.
      rewrite bpop_B in C; [|apply bpush_ok; assumption|lia]. cbn [bind] in C. injection C as <- _.
      eapply tidily_upd; [exact Eb|]. rewrite zeroed_B. intros _. apply zeros.
    + apply Nat.eqb_neq in Eij. unfold bmove in C. rewrite Xb, Xb', bpush_B in C by assumption. cbn [bind] in C.
      rewrite bpop_B in C by (assumption || lia). cbn [bind] in C. injection C as <- _.
      eapply tidily_trans; [eapply tidily_upd; [exact Eb|]|eapply tidily_upd; [rewrite nth_error_upd_other by congruence; exact Eb'|]].
      * rewrite Xb, !zeroed_B. apply Forall_tail.
      * rewrite zeroed_B. intros _. apply zeros.
  - destruct (nth_error qs i) as [q|] eqn:Eq; [|discriminate].
    destruct (q_items q) as [|y l] eqn:Ei; [discriminate|]. destruct (0 <=? k) eqn:Ek; [|discriminate].
    destruct (nth_error_F2 _ _ _ _ _ _ _ H Eq) as (b & Eb & Rb). unfold bat in C. rewrite Eb in C. cbn [bind] in C.
    destruct (represents_B _ _ Rb) as (p & Xb & Hp & Hc). rewrite Xb, bput_B in C by (assumption || lia || congruence). cbn [bind] in C. injection C as <- _.
    eapply tidily_upd; [exact Eb|]. rewrite Xb, !zeroed_B. auto.
Qed.

Lemma code_run_tidy : forall l bs qs qs' ns, image bs qs -> ideal_run l qs = Some (qs', ns) ->
  exists bs', code_run l bs = Ok (bs', ns) /\ tidily bs bs'.
Proof.
  induction l as [|o l IH]; intros bs qs qs' ns H E; cbn [ideal_run code_run] in *.
  - injection E as <- <-. exists bs. split; [reflexivity|apply tidily_refl].
  - destruct (ideal_step o qs) as [[qs1 n]|] eqn:E1; [|discriminate].
    destruct (ideal_run l qs1) as [[qs2 ns2]|] eqn:E2; [|discriminate]. injection E as <- <-.
    destruct (code_step_tidy o bs qs qs1 n H E1) as (bs1 & C1 & T1).
    destruct (code_step_sim o bs qs qs1 n H E1) as (bs1' & C1' & I1 & _). rewrite C1 in C1'. injection C1' as <-.
    destruct (IH bs1 qs1 qs2 ns2 I1 E2) as (bs2 & C2 & T2). exists bs2. rewrite C1. cbn [bind]. rewrite C2. cbn [bind].
    split; [reflexivity|eapply tidily_trans; eassumption].
Qed.

Lemma zb_represents : forall cap l, (List.length l <= cap)%nat -> (cap <= 255)%nat -> represents (zb cap l) (mkQ (Z.of_nat cap) l).
Proof. intros. split; [reflexivity|apply zb_holds; assumption]. Qed.
Lemma zb_zeroed : forall cap l, (List.length l <= cap)%nat -> zeroed (zb cap l).
Proof. intros. rewrite zb_B by assumption. rewrite zeroed_B. apply zeros. Qed.
Lemma zb_beyond : forall cap l, (List.length l <= cap)%nat -> beyond (zb cap l) = [].
Proof. intros. rewrite zb_B by assumption. apply B_beyond. Qed.
Lemma all_zero : forall p, Forall (fun z => z = 0) p -> p = repeat 0 (List.length p).
Proof. induction 1; cbn; congruence. Qed.
Lemma zb_intro : forall b cap l, represents b (mkQ (Z.of_nat cap) l) -> zeroed b -> beyond b = [] -> b = zb cap l /\ (List.length l <= cap)%nat.
Proof.
  intros b cap l R Z Y. destruct (represents_B _ _ R) as (p & X & Hp & Hc). cbn [q_items q_cap] in *. rewrite Y in X.
  rewrite X, zeroed_B in Z. apply all_zero in Z. unfold zlen in Hc.
  split; [|lia]. rewrite X, zb_B by lia. f_equal. rewrite Z. f_equal. lia.
Qed.

(** ** A consumer's code agrees with its conduct *)
Definition agrees (h : handler) (f : conduct) : Prop := forall log r, in_limits r ->
  h (map as_buffers log) (as_buffers r) = Ok (as_buffers (f log r)) /\ in_limits (f log r).
Lemma leaves_agrees : forall q f, leaves q f -> agrees (code_of q) f.
Proof.
  intros q f L log [[s k] v] (H1 & H2 & H3). destruct (L log (s, k, v) (conj H1 (conj H2 H3))) as (mine & mine' & ns & R & I).
  unfold code_of. cbn [as_buffers]. change (zb max_section s, zb max_key k, zb max_value v) with (as_buffers (s, k, v)).
  set (w := q (map as_buffers log) (as_buffers (s, k, v))) in *. destruct (f log (s, k, v)) as [[s' k'] v'].
  unfold max_section, max_key, max_value.
  assert (IM : image (zb 11 s :: zb 11 k :: zb 26 v :: own w) (queues (s, k, v) ++ mine)).
  { cbn [queues app]. constructor; [apply (zb_represents 11); lia|]. constructor; [apply (zb_represents 11); lia|].
    constructor; [apply (zb_represents 26); lia|]. exact R. }
  destruct (code_run_sim _ _ _ _ _ IM I) as (bs' & C & IM' & Y). destruct (code_run_tidy _ _ _ _ _ IM I) as (bs2 & C2 & T).
  rewrite C in C2. injection C2 as <-. rewrite C. cbn [bind]. cbn [queues app] in IM'.
  inversion IM' as [|b1 q1 l1 m1 R1 IM1]; subst. inversion IM1 as [|b2 q2 l2 m2 R2 IM2]; subst. inversion IM2 as [|b3 q3 l3 m3 R3 IM3]; subst.
  cbn [map] in Y. rewrite !zb_beyond in Y by assumption. injection Y as Y1 Y2 Y3 _.
  inversion T as [|? ? ? ? Z1 T1]; subst. inversion T1 as [|? ? ? ? Z2 T2]; subst. inversion T2 as [|? ? ? ? Z3 T3]; subst.
  destruct (zb_intro _ 11 _ R1 (Z1 (zb_zeroed _ _ H1)) Y1) as (-> & K1). destruct (zb_intro _ 11 _ R2 (Z2 (zb_zeroed _ _ H2)) Y2) as (-> & K2).
  destruct (zb_intro _ 26 _ R3 (Z3 (zb_zeroed _ _ H3)) Y3) as (-> & K3). split; [reflexivity|]. repeat split; assumption.
Qed.

(** ** The parser with such a consumer *)
Definition mload (x : auto * list report) (c : option nat) (text : list Z) : mtp := (loaded (fst x) c text, map as_buffers (snd x)).
Definition mfeed (f : conduct) (c : option nat) (x : auto * list report) (s : list Z) : auto * list report := fold_left (mstep f c) s x.

Lemma err_limits : in_limits error_report. Proof. cbn. lia. Qed.
Lemma handed_limits : forall h f c log r, agrees h f -> in_limits r -> in_limits (fst (handed f c log r)).
Proof. intros h f [n|] log r A H; cbn [handed fst]; [apply A; assumption|assumption]. Qed.

Lemma tell_spec : forall h f st c b s k v log, agrees h f -> in_limits (s, k, v) ->
  m_tell h (mkTP st c b (zb max_section s) (zb max_key k) (zb max_value v), map as_buffers log) =
  let '(s', k', v', log') := handed f c log (s, k, v) in
  Ok (mkTP st c b (zb max_section s') (zb max_key k') (zb max_value v'), map as_buffers log').
Proof.
  intros h f st c b s k v log A H. unfold m_tell. cbn [tp_cons]. destruct c as [n|]; [|reflexivity]. cbn [tp_sec tp_key tp_val handed].
  destruct (A log (s, k, v) H) as (E & _). change (zb max_section s, zb max_key k, zb max_value v) with (as_buffers (s, k, v)). rewrite E.
  destruct (f log (s, k, v)) as [[s' k'] v']. cbn [bind as_buffers]. rewrite map_app. reflexivity.
Qed.
Lemma m_error : forall h f a c text log, agrees h f -> fits a ->
  m_reportParseError h (mload (a, log) c text) = Ok (mload (mfail f c log) c text).
Proof.
  intros h f [w s k v] c text log A (H1 & H2 & H3). unfold m_reportParseError, mload, loaded, set_state, set_sec, set_key, set_val. cbn [fst snd a_at a_sec a_key a_val] in *.
  cbn [tp_state tp_cons tp_buf tp_sec tp_key tp_val].
  unfold max_section, max_key, max_value in *. rewrite !zb_set_err by lia. cbn [bind tp_state tp_cons tp_buf tp_sec tp_key tp_val].
  change (zb 11 (zs "ERROR")) with (zb max_section err). change (zb 26 (zs "ERROR")) with (zb max_value err).
  rewrite (tell_spec h f) by (assumption || apply err_limits).
  unfold mfail. fold error_report. destruct (handed f c log error_report) as [[[s' k'] v'] log']. reflexivity.
Qed.
Lemma mfail_fits : forall h f c log, agrees h f -> fits (fst (mfail f c log)).
Proof.
  intros h f c log A. unfold mfail. pose proof (handed_limits h f c log _ A err_limits).
  destruct (handed f c log error_report) as [[[s k] v] log']. exact H.
Qed.
Lemma mfail_at : forall f c log, a_at (fst (mfail f c log)) = Failed.
Proof. intros. unfold mfail. destruct (handed f c log error_report) as [[[s k] v] log']. reflexivity. Qed.

Lemma mfeed_failed : forall f c s x, a_at (fst x) = Failed -> mfeed f c x s = x.
Proof.
  unfold mfeed. induction s as [|z s IH]; intros [a log] H; [reflexivity|]. cbn [fold_left fst] in *.
  assert (E : mstep f c (a, log) z = (a, log)) by (unfold mstep; rewrite H; unfold astep; rewrite H; reflexivity). rewrite E. apply IH. assumption.
Qed.
Lemma mfeed_fail : forall f c s log, mfeed f c (mfail f c log) s = mfail f c log.
Proof. intros. apply mfeed_failed, mfail_at. Qed.
Lemma mfeed_app : forall f c s r x, mfeed f c x (s ++ r) = mfeed f c (mfeed f c x s) r.
Proof. intros. apply fold_left_app. Qed.

Lemma mfeed_between : forall f c t a log, a_at a = Between -> free_of [SQ_OPEN; DOT] t -> mfeed f c (a, log) t = (a, log).
Proof.
  unfold mfeed. induction t as [|z t IH]; intros a log H F; [reflexivity|]. inversion F; subst. cbn [fold_left]. unfold mstep at 2. rewrite H.
  unfold astep. rewrite H. cbn [In] in H2. replace (z =? SQ_OPEN) with false by lia. replace (z =? DOT) with false by lia. apply IH; assumption.
Qed.
Lemma mfeed_section : forall f c t s k v log, free_of [SQ_CLOSE] t -> (List.length s <= max_section)%nat ->
  mfeed f c (mkA InSection s k v, log) t =
  if (List.length s + List.length t <=? max_section)%nat then (mkA InSection (s ++ t) k v, log) else mfail f c log.
Proof.
  unfold mfeed. induction t as [|z t IH]; intros s k v log F L; cbn [fold_left List.length].
  - rewrite Nat.add_0_r, app_nil_r. rewrite (proj2 (Nat.leb_le _ _)) by assumption. reflexivity.
  - inversion F; subst. cbn [In] in H1. unfold mstep at 2. cbn [a_at a_sec].
    replace (z =? SQ_CLOSE) with false by lia. destruct (List.length s <? max_section)%nat eqn:E; cbn [orb].
    + unfold astep. cbn [a_at a_sec a_key a_val]. replace (z =? SQ_CLOSE) with false by lia. rewrite E. cbn [fst].
      apply Nat.ltb_lt in E. rewrite IH; [|assumption|rewrite app_length; cbn [List.length]; lia]. rewrite <- app_assoc.
      rewrite app_length. cbn [List.length app]. replace (List.length s + 1 + List.length t)%nat with (List.length s + S (List.length t))%nat by lia. reflexivity.
    + apply Nat.ltb_ge in E. rewrite (proj2 (Nat.leb_gt _ _)) by lia. apply mfeed_fail.
Qed.
Lemma mfeed_key : forall f c t s k v log, free_of [EQUALS; NEWLINE] t -> (List.length k <= max_key)%nat ->
  mfeed f c (mkA InKey s k v, log) t =
  if (List.length k + List.length t <=? max_key)%nat then (mkA InKey s (k ++ t) v, log) else mfail f c log.
Proof.
  unfold mfeed. induction t as [|z t IH]; intros s k v log F L; cbn [fold_left List.length].
  - rewrite Nat.add_0_r, app_nil_r. rewrite (proj2 (Nat.leb_le _ _)) by assumption. reflexivity.
  - inversion F; subst. cbn [In] in H1. unfold mstep at 2. cbn [a_at a_key].
    replace (z =? EQUALS) with false by lia. replace (z =? NEWLINE) with false by lia. destruct (List.length k <? max_key)%nat eqn:E; cbn [orb].
    + unfold astep. cbn [a_at a_sec a_key a_val]. replace (z =? EQUALS) with false by lia. replace (z =? NEWLINE) with false by lia. rewrite E. cbn [fst].
      apply Nat.ltb_lt in E. rewrite IH; [|assumption|rewrite app_length; cbn [List.length]; lia]. rewrite <- app_assoc.
      rewrite app_length. cbn [List.length app]. replace (List.length k + 1 + List.length t)%nat with (List.length k + S (List.length t))%nat by lia. reflexivity.
    + apply Nat.ltb_ge in E. rewrite (proj2 (Nat.leb_gt _ _)) by lia. apply mfeed_fail.
Qed.
Lemma mfeed_value : forall f c t s k v log, free_of [NEWLINE] t -> (List.length v <= max_value)%nat ->
  mfeed f c (mkA InValue s k v, log) t =
  if (List.length v + List.length t <=? max_value)%nat then (mkA InValue s k (v ++ t), log) else mfail f c log.
Proof.
  unfold mfeed. induction t as [|z t IH]; intros s k v log F L; cbn [fold_left List.length].
  - rewrite Nat.add_0_r, app_nil_r. rewrite (proj2 (Nat.leb_le _ _)) by assumption. reflexivity.
  - inversion F; subst. cbn [In] in H1. unfold mstep at 2. cbn [a_at a_val].
    replace (z =? NEWLINE) with false by lia. destruct (List.length v <? max_value)%nat eqn:E; cbn [orb].
    + unfold astep. cbn [a_at a_sec a_key a_val]. replace (z =? NEWLINE) with false by lia. rewrite E. cbn [fst].
      apply Nat.ltb_lt in E. rewrite IH; [|assumption|rewrite app_length; cbn [List.length]; lia]. rewrite <- app_assoc.
      rewrite app_length. cbn [List.length app]. replace (List.length v + 1 + List.length t)%nat with (List.length v + S (List.length t))%nat by lia. reflexivity.
    + apply Nat.ltb_ge in E. rewrite (proj2 (Nat.leb_gt _ _)) by lia. apply mfeed_fail.
Qed.

Lemma mstep_fits : forall h f c a log z, agrees h f -> fits a -> fits (fst (mstep f c (a, log) z)).
Proof.
  intros h f c a log z A F. pose proof (astep_fits a z F) as S. pose proof (mfail_fits h f c log A) as M.
  destruct a as [w s k v]. destruct F as (F1 & F2 & F3). unfold mstep. cbn [a_at a_sec a_key a_val] in *.
  destruct w; try exact S; repeat match goal with |- context [if ?b then _ else _] => destruct b end; try exact S; try exact M.
  - pose proof (handed_limits h f c log (s, k, []) A ltac:(cbn; unfold max_section, max_key in *; lia)) as X.
    destruct (handed f c log (s, k, [])) as [[[s' k'] v'] log']. cbn [fst in_limits] in X.
    unfold fits, max_section, max_key, max_value. cbn [fst a_sec a_key a_val List.length]. lia.
  - pose proof (handed_limits h f c log (s, k, v) A ltac:(cbn; unfold max_section, max_key, max_value in *; lia)) as X.
    destruct (handed f c log (s, k, v)) as [[[s' k'] v'] log']. cbn [fst in_limits] in X.
    unfold fits, max_section, max_key, max_value. cbn [fst a_sec a_key a_val List.length]. lia.
Qed.
Lemma mfeed_fits : forall h f c s x, agrees h f -> fits (fst x) -> fits (fst (mfeed f c x s)).
Proof.
  unfold mfeed. induction s as [|z s IH]; intros [a log] A F; [assumption|]. cbn [fold_left]. apply IH; [assumption|]. eapply mstep_fits; eassumption.
Qed.
Lemma madd_fits : forall h f c x s, agrees h f -> fits (fst x) -> fits (fst (madd f c x s)).
Proof. intros. unfold madd. destruct (_ || _); [eapply mfail_fits; eassumption|eapply mfeed_fits; eassumption]. Qed.

(** ** findToken *)
Lemma m_findToken_hit : forall h f a c log pre t d r D ds e, agrees h f -> fits a -> (List.length (pre ++ t ++ d :: r) <= 31)%nat ->
  nulfree ds -> zlen ds <= 255 -> free_of ds t -> In d ds ->
  m_findToken h (mload (a, log) c (pre ++ t ++ d :: r)) (zlen pre) (ds ++ 0 :: e) (Some D) =
  if (List.length (aget a D) + List.length t <=? dcap D)%nat
  then Ok (mload (aput a D (aget a D ++ t), log) c (pre ++ t ++ d :: r), mkFT (zlen (pre ++ t) + 1) true d)
  else Ok (mload (mfail f c log) c (pre ++ t ++ d :: r), mkFT (zlen (pre ++ t)) false d).
Proof.
  intros h f a c log pre t d r D ds e A F L Hn Hl Ft I. remember (pre ++ t ++ d :: r) as text eqn:ET.
  assert (HB : holds (zb 31 text) text) by (apply zb_holds; lia).
  pose proof (zlen_nonneg _ pre). pose proof (zlen_nonneg _ t). pose proof (zlen_nonneg _ r).
  assert (LE : zlen text = zlen pre + zlen t + 1 + zlen r) by (rewrite ET, !zlen_app; unfold zlen; cbn [List.length]; lia).
  assert (L31 : zlen text <= 31) by (unfold zlen; lia).
  unfold m_findToken. unfold mload at 1. cbn [fst snd]. change (tp_buf (loaded a c text)) with (zb 31 text).
  rewrite (find_hit ds e pre t d r) by (assumption || (rewrite <- ET; assumption)). cbn [bind].
  replace (zlen pre + zlen t =? npos) with false by (unfold npos; lia).
  rewrite (bget_spec _ text) by (assumption || lia || (intros X; rewrite X in LE; cbn in LE; lia)).
  rewrite Z.min_l by lia.
  assert (D0 : nth (Z.to_nat (zlen pre + zlen t)) text 0 = d).
  { replace (Z.to_nat (zlen pre + zlen t)) with (List.length (pre ++ t)) by (rewrite app_length; unfold zlen; lia).
    rewrite ET, app_assoc. apply nth_mid. }
  rewrite D0. cbn [bind].
  destruct (sub_window text pre t (d :: r) ET ltac:(lia)) as (v & Ev & Hv). rewrite Ev. cbn [bind].
  destruct (push_dest a c text D v t F Hv) as (b' & Eb & Es). rewrite Eb. cbn [bind]. rewrite Es.
  rewrite (holds_blen _ _ Hv). pose proof (aget_fits a D F) as AF.
  rewrite zlen_app.
  destruct (List.length (aget a D) + List.length t <=? dcap D)%nat eqn:Q.
  - apply Nat.leb_le in Q. replace (_ <? _) with false by (unfold zlen; lia). cbn [bind].
    rewrite firstn_all2 by lia. unfold mload. cbn [fst snd]. f_equal. f_equal. f_equal. unfold u8. apply Z.mod_small. lia.
  - apply Nat.leb_gt in Q. replace (_ <? _) with true by (unfold zlen; lia).
    set (a1 := aput a D _). change (loaded a1 c text, map as_buffers log) with (mload (a1, log) c text).
    rewrite (m_error h f); [reflexivity|assumption|]. apply aput_fits; [assumption|]. rewrite app_length, min_len. lia.
Qed.

Lemma m_findToken_none : forall h f a c log pre t D ds e, agrees h f -> fits a -> (List.length (pre ++ t) <= 31)%nat ->
  nulfree ds -> zlen ds <= 255 -> free_of ds t ->
  m_findToken h (mload (a, log) c (pre ++ t)) (zlen pre) (ds ++ 0 :: e) (Some D) =
  if (List.length (aget a D) + List.length t <=? dcap D)%nat
  then Ok (mload (aput a D (aget a D ++ t), log) c (pre ++ t), mkFT (zlen (pre ++ t)) false 0)
  else Ok (mload (mfail f c log) c (pre ++ t), mkFT (zlen (pre ++ t)) false 0).
Proof.
  intros h f a c log pre t D ds e A F L Hn Hl Ft. remember (pre ++ t) as text eqn:ET.
  assert (HB : holds (zb 31 text) text) by (apply zb_holds; lia).
  pose proof (zlen_nonneg _ pre). pose proof (zlen_nonneg _ t).
  assert (LE : zlen text = zlen pre + zlen t) by (rewrite ET, !zlen_app; lia).
  unfold m_findToken. unfold mload at 1. cbn [fst snd]. change (tp_buf (loaded a c text)) with (zb 31 text).
  rewrite (find_none ds e pre t) by (assumption || (rewrite <- ET; assumption)). cbn [bind].
  rewrite Z.eqb_refl. cbn [bind]. rewrite zb_blen, LE.
  destruct (sub_window text pre t [] ltac:(rewrite app_nil_r; assumption) ltac:(lia)) as (v & Ev & Hv). rewrite Ev. cbn [bind].
  destruct (push_dest a c text D v t F Hv) as (b' & Eb & Es). rewrite Eb. cbn [bind]. rewrite Es.
  rewrite (holds_blen _ _ Hv). pose proof (aget_fits a D F) as AF.
  destruct (List.length (aget a D) + List.length t <=? dcap D)%nat eqn:Q.
  - apply Nat.leb_le in Q. replace (_ <? _) with false by (unfold zlen; lia). cbn [bind].
    rewrite firstn_all2 by lia. reflexivity.
  - apply Nat.leb_gt in Q. replace (_ <? _) with true by (unfold zlen; lia).
    set (a1 := aput a D _). change (loaded a1 c text, map as_buffers log) with (mload (a1, log) c text).
    rewrite (m_error h f); [reflexivity|assumption|]. apply aput_fits; [assumption|]. rewrite app_length, min_len. lia.
Qed.

Lemma m_findStart : forall h t log off chars,
  m_findToken h (t, log) off chars None = '(t', _, r) <- tp_findToken t off chars None ;; Ok ((t', log), r).
Proof.
  intros. unfold m_findToken, tp_findToken. destruct (bfind_chars (tp_buf t) chars off) as [n|u]; cbn [bind]; [|reflexivity].
  destruct (n =? npos); cbn [bind]; [reflexivity|]. destruct (bget (tp_buf t) n); reflexivity.
Qed.

(** one pass of the switch *)
Lemma m_iteration_spec : forall h f a log c pre rest, agrees h f -> fits a -> rest <> [] -> (List.length (pre ++ rest) <= 31)%nat ->
  exists m rest', rest = m ++ rest' /\ m <> [] /\
    m_iteration h (mload (a, log) c (pre ++ rest)) (zlen pre) =
    Ok (mload (mfeed f c (a, log) m) c (pre ++ rest), zlen (pre ++ m), false).
Proof.
  intros h f a log c pre rest A F N L. destruct nf1 as (N1 & N2 & N3 & N4 & N5).
  assert (NE : forall (t : list Z) d, t ++ [d] <> []) by (intros t d X; apply app_eq_nil in X; destruct X; discriminate).
  destruct a as [w s k v]. destruct F as (F1 & F2 & F3). cbn [a_sec a_key a_val] in F1, F2, F3.
  assert (F : fits (mkA w s k v)) by (repeat split; assumption).
  unfold m_iteration. change (tp_state (fst (mload (mkA w s k v, log) c (pre ++ rest)))) with (pstate w).
  destruct w; cbn [pstate].
  - (* Between *)
    unfold mload at 1. rewrite m_findStart. cbn [fst snd].
    change kKeyOrSectionStart with ([DOT; SQ_OPEN] ++ 0 :: []).
    destruct (tok_split [DOT; SQ_OPEN] rest) as [(_ & Ft)|(d & r & E & I)].
    + rewrite findStart_none by (assumption || discriminate). cbn [bind ft_success ft_consumed].
      exists rest, []. split; [rewrite app_nil_r; reflexivity|]. split; [assumption|].
      rewrite mfeed_between; [reflexivity|reflexivity|]. unfold free_of in *. eapply Forall_impl; [|exact Ft]. cbn. intuition.
    + remember (tok [DOT; SQ_OPEN] rest) as t eqn:Et. assert (Ft : free_of [DOT; SQ_OPEN] t) by (rewrite Et; apply tok_free).
      exists (t ++ [d]), r. rewrite E, <- app_assoc. split; [reflexivity|]. split; [apply NE|].
      rewrite E in L. rewrite findStart_hit by (assumption || discriminate). cbn [bind ft_success ft_consumed].
      pose proof (zlen_nonneg _ (pre ++ t)). pose proof (zlen_nonneg _ r).
      assert (LE : zlen (pre ++ t ++ d :: r) = zlen (pre ++ t) + 1 + zlen r) by (rewrite !zlen_app; unfold zlen; cbn [List.length]; lia).
      assert (L31 : zlen (pre ++ t ++ d :: r) <= 31) by (unfold zlen; lia).
      assert (U : u8 (zlen (pre ++ t) + 1 - 1) = zlen (pre ++ t)) by (unfold u8; rewrite Z.mod_small by lia; lia). rewrite U.
      change (tp_buf (loaded (mkA Between s k v) c (pre ++ t ++ d :: r))) with (zb 31 (pre ++ t ++ d :: r)).
      rewrite (bget_spec _ (pre ++ t ++ d :: r)) by (try (apply zb_holds; lia); try lia; intros X; rewrite X in LE; cbn in LE; lia).
      rewrite Z.min_l by lia.
      assert (D0 : nth (Z.to_nat (zlen (pre ++ t))) (pre ++ t ++ d :: r) 0 = d)
        by (rewrite app_assoc; unfold zlen; rewrite Nat2Z.id; apply nth_mid).
      rewrite D0. cbn [bind].
      rewrite mfeed_app, mfeed_between; [|reflexivity|unfold free_of in *; eapply Forall_impl; [|exact Ft]; cbn; intuition].
      unfold mfeed, mstep. cbn [fold_left a_at]. unfold astep. cbn [a_at a_sec a_key a_val]. rewrite !zlen_app in *. change (zlen [d]) with 1.
      unfold kSectionStart, kKeyStart.
      destruct (in_two _ _ _ I) as [-> | ->].
      * change (DOT =? 91) with false. change (DOT =? SQ_OPEN) with false. change (DOT =? 46) with true.
        change (DOT =? DOT) with true. cbn [fst snd]. rewrite Z.add_assoc. reflexivity.
      * change (SQ_OPEN =? 91) with true. change (SQ_OPEN =? SQ_OPEN) with true. cbn [fst snd].
        change (tp_sec (loaded (mkA Between s k v) c (pre ++ t ++ SQ_OPEN :: r))) with (zb max_section s).
        rewrite zb_erase by assumption. cbn [bind]. rewrite Z.add_assoc. reflexivity.
  - (* InSection *)
    change kSectionStop with ([SQ_CLOSE] ++ 0 :: []).
    destruct (tok_split [SQ_CLOSE] rest) as [(_ & Ft)|(d & r & E & I)].
    + rewrite (m_findToken_none h f) by (assumption || discriminate).
      exists rest, []. split; [rewrite app_nil_r; reflexivity|]. split; [assumption|].
      rewrite mfeed_section by assumption. cbn [aget a_sec dcap].
      destruct (_ <=? _)%nat; [reflexivity|]. destruct (mfail f c log); reflexivity.
    + remember (tok [SQ_CLOSE] rest) as t eqn:Et. assert (Ft : free_of [SQ_CLOSE] t) by (rewrite Et; apply tok_free).
      rewrite E in L. rewrite E. rewrite (m_findToken_hit h f) by (assumption || discriminate). cbn [aget a_sec dcap].
      destruct (List.length s + List.length t <=? max_section)%nat eqn:Q.
      * exists (t ++ [d]), r. rewrite <- app_assoc. split; [reflexivity|]. split; [apply NE|].
        rewrite mfeed_app, mfeed_section, Q by assumption. unfold mfeed, mstep. cbn [fold_left a_at a_sec]. unfold astep. cbn [a_at].
        apply in_one in I. subst d. change (SQ_CLOSE =? SQ_CLOSE) with true. cbn [orb].
        unfold mload at 1. cbn [fst snd app bind ft_success ft_consumed]. rewrite !zlen_app. change (zlen [SQ_CLOSE]) with 1. rewrite Z.add_assoc.
        reflexivity.
      * exists t, (d :: r). split; [reflexivity|]. split.
        { intros ->. apply Nat.leb_gt in Q. cbn in Q. lia. }
        rewrite mfeed_section, Q by assumption. destruct (mfail f c log). reflexivity.
  - (* InKey *)
    change kKeyOrValueStop with ([EQUALS; NEWLINE] ++ 0 :: []).
    destruct (tok_split [EQUALS; NEWLINE] rest) as [(_ & Ft)|(d & r & E & I)].
    + rewrite (m_findToken_none h f) by (assumption || discriminate).
      exists rest, []. split; [rewrite app_nil_r; reflexivity|]. split; [assumption|].
      rewrite mfeed_key by assumption. cbn [aget a_key dcap].
      destruct (_ <=? _)%nat; [reflexivity|]. destruct (mfail f c log); reflexivity.
    + remember (tok [EQUALS; NEWLINE] rest) as t eqn:Et. assert (Ft : free_of [EQUALS; NEWLINE] t) by (rewrite Et; apply tok_free).
      rewrite E in L. rewrite E. rewrite (m_findToken_hit h f) by (assumption || discriminate). cbn [aget a_key dcap].
      destruct (List.length k + List.length t <=? max_key)%nat eqn:Q.
      * exists (t ++ [d]), r. rewrite <- app_assoc. split; [reflexivity|]. split; [apply NE|].
        rewrite mfeed_app, mfeed_key, Q by assumption. unfold mfeed, mstep. cbn [fold_left a_at a_sec a_key a_val].
        unfold kKeyStop, kValueStop.
        apply in_two in I. destruct I as [-> | ->].
        -- change (EQUALS =? NEWLINE) with false. change (EQUALS =? EQUALS) with true. cbn [orb]. unfold astep. cbn [a_at].
           change (EQUALS =? EQUALS) with true.
           unfold mload at 1. cbn [fst snd app bind ft_success ft_consumed ft_match].
           change (EQUALS =? 61) with true. cbv iota.
           rewrite !zlen_app. change (zlen [EQUALS]) with 1. rewrite Z.add_assoc. reflexivity.
        -- change (NEWLINE =? NEWLINE) with true. cbv iota.
           unfold mload at 1. cbn [fst snd app bind ft_success ft_consumed ft_match].
           change (NEWLINE =? 61) with false. change (NEWLINE =? 10) with true. cbv iota.
           cbn [aput a_sec a_key a_val a_at]. rewrite loaded_val. cbn [a_val].
           rewrite zb_erase by assumption. cbn [bind].
           unfold loaded at 1. unfold set_val at 1. cbn [tp_key tp_state tp_cons tp_buf tp_sec tp_val a_sec a_key a_val a_at].
           apply Nat.leb_le in Q.
           assert (IL : in_limits (s, k ++ t, [])) by (cbn [in_limits List.length]; rewrite app_length; unfold max_section, max_key in *; lia).
           pose proof (handed_limits h f c log _ A IL) as HL.
           rewrite (tell_spec h f) by assumption.
           destruct (handed f c log (s, k ++ t, [])) as [[[s' k'] v'] log']. cbn [bind]. cbn [fst in_limits] in HL.
           cbn [tp_key]. rewrite zb_erase by (unfold max_key; lia). cbn [bind].
           rewrite !zlen_app. change (zlen [NEWLINE]) with 1. rewrite Z.add_assoc. reflexivity.
      * exists t, (d :: r). split; [reflexivity|]. split.
        { intros ->. apply Nat.leb_gt in Q. cbn in Q. lia. }
        rewrite mfeed_key, Q by assumption. destruct (mfail f c log). reflexivity.
  - (* InValue *)
    change kValueStop_str with ([NEWLINE] ++ 0 :: []).
    destruct (tok_split [NEWLINE] rest) as [(_ & Ft)|(d & r & E & I)].
    + rewrite (m_findToken_none h f) by (assumption || discriminate).
      exists rest, []. split; [rewrite app_nil_r; reflexivity|]. split; [assumption|].
      rewrite mfeed_value by assumption. cbn [aget a_val dcap].
      destruct (_ <=? _)%nat; [reflexivity|]. destruct (mfail f c log); reflexivity.
    + remember (tok [NEWLINE] rest) as t eqn:Et. assert (Ft : free_of [NEWLINE] t) by (rewrite Et; apply tok_free).
      rewrite E in L. rewrite E. rewrite (m_findToken_hit h f) by (assumption || discriminate). cbn [aget a_val dcap].
      destruct (List.length v + List.length t <=? max_value)%nat eqn:Q.
      * exists (t ++ [d]), r. rewrite <- app_assoc. split; [reflexivity|]. split; [apply NE|].
        rewrite mfeed_app, mfeed_value, Q by assumption. unfold mfeed, mstep. cbn [fold_left a_at a_sec a_key a_val].
        apply in_one in I. subst d. change (NEWLINE =? NEWLINE) with true. cbv iota.
        unfold mload at 1. cbn [fst snd app bind ft_success ft_consumed aput a_at a_sec a_key a_val].
        unfold loaded at 1. cbn [a_at a_sec a_key a_val].
        apply Nat.leb_le in Q.
        assert (IL : in_limits (s, k, v ++ t)) by (cbn [in_limits List.length]; rewrite app_length; unfold max_section, max_key, max_value in *; lia).
        pose proof (handed_limits h f c log _ A IL) as HL.
        rewrite (tell_spec h f) by assumption.
        destruct (handed f c log (s, k, v ++ t)) as [[[s' k'] v'] log']. cbn [bind]. cbn [fst in_limits] in HL.
        cbn [tp_key tp_val]. rewrite !zb_erase by (unfold max_key, max_value; lia). cbn [bind].
        rewrite !zlen_app. change (zlen [NEWLINE]) with 1. rewrite Z.add_assoc.
        reflexivity.
      * exists t, (d :: r). split; [reflexivity|]. split.
        { intros ->. apply Nat.leb_gt in Q. cbn in Q. lia. }
        rewrite mfeed_value, Q by assumption. destruct (mfail f c log). reflexivity.
  - (* Failed *)
    exists rest, []. split; [rewrite app_nil_r; reflexivity|]. split; [assumption|].
    rewrite mfeed_failed by reflexivity. reflexivity.
Qed.

Lemma m_process_spec : forall h f fuel x c pre rest, agrees h f -> fits (fst x) -> (List.length rest <= fuel)%nat -> (List.length (pre ++ rest) <= 31)%nat ->
  m_process h fuel (mload x c (pre ++ rest)) (zlen pre) =
  Ok (mload (mfeed f c x rest) c (pre ++ rest), zlen (pre ++ rest)).
Proof.
  induction fuel as [|fuel IH]; intros [a log] c pre rest A F Lf L.
  - destruct rest; [|cbn in Lf; lia]. rewrite app_nil_r in *. cbn [m_process]. change (blen (tp_buf (fst (mload (a, log) c pre)))) with (zlen pre).
    rewrite Z.ltb_irrefl. reflexivity.
  - destruct rest as [|z rest].
    + rewrite app_nil_r in *. cbn [m_process]. change (blen (tp_buf (fst (mload (a, log) c pre)))) with (zlen pre).
      rewrite Z.ltb_irrefl. reflexivity.
    + cbn [m_process]. change (blen (tp_buf (fst (mload (a, log) c (pre ++ z :: rest))))) with (zlen (pre ++ z :: rest)).
      replace (zlen pre <? zlen (pre ++ z :: rest)) with true by (rewrite zlen_app; unfold zlen; cbn [List.length]; lia).
      destruct (m_iteration_spec h f a log c pre (z :: rest) A F ltac:(discriminate) L) as (m & r & E & N & ->). cbn [bind].
      rewrite E. rewrite app_assoc. rewrite E, app_assoc in L.
      rewrite IH; [rewrite mfeed_app; reflexivity|assumption| | |assumption].
      * eapply mfeed_fits; eassumption.
      * assert (Q : List.length (z :: rest) = List.length (m ++ r)) by congruence. rewrite app_length in Q.
        destruct m; [congruence|]. cbn [List.length] in *. lia.
Qed.

(** the parser object with its consumer's log *)
Definition mparser (x : auto * list report) (c : option nat) : mtp := (parser (fst x) c, map as_buffers (snd x)).

Lemma m_addText_spec : forall h f x c b s, agrees h f -> fits (fst x) -> holds b s ->
  m_addText h (mparser x c) b = Ok (mparser (madd f c x s) c).
Proof.
  intros h f [a log] c b s A F H. unfold m_addText, madd, kBufferLength, max_text. rewrite (holds_blen _ _ H). cbn [fst snd].
  assert (AF : (match tp_state (fst (mparser (a, log) c)) with ERROR => true | _ => false end) = afailed a)
    by (unfold mparser, parser, afailed; cbn [fst tp_state]; destruct (a_at a); reflexivity).
  rewrite AF. destruct ((zlen s >? 30) || afailed a) eqn:Q.
  - apply (m_error h f a c [] log A F).
  - apply orb_false_elim in Q. destruct Q as (Q1 & Q2). pose proof (zlen_nonneg _ s).
    assert (L : (List.length s <= 30)%nat) by (unfold zlen in *; lia).
    destruct s as [|z s].
    + change (zlen []) with 0. cbn [Z.to_nat m_addLoop]. rewrite (holds_blen _ _ H). change (0 <? zlen []) with false. reflexivity.
    + unfold zlen at 1. rewrite Nat2Z.id. cbn [List.length m_addLoop]. rewrite (holds_blen _ _ H).
      change (0 <? zlen (z :: s)) with true. cbv iota. unfold mparser at 1. cbn [fst snd].
      unfold mparser in AF. cbn [fst] in AF. rewrite AF, Q2, orb_false_r.
      change (bfull (tp_buf (parser a c))) with false. cbv iota.
      unfold bsub1. rewrite (holds_blen _ _ H).
      destruct (bsub_window b (z :: s) 0 (zlen (z :: s)) H) as (w & Ew & Hw & _); [lia|rewrite (holds_blen _ _ H); lia|].
      rewrite Ew. cbn [bind]. rewrite Z.sub_0_r in Hw. cbn [Z.to_nat skipn] in Hw. unfold zlen in Hw. rewrite Nat2Z.id, firstn_all in Hw.
      change (tp_buf (parser a c)) with (zb 31 []). rewrite (zb_push 31 [] w _ ltac:(cbn; lia) ltac:(lia) Hw).
      cbn [bind app]. rewrite firstn_all2 by (cbn [List.length] in *; lia).
      change (set_buf (parser a c) (zb 31 (z :: s)), map as_buffers log) with (mload (a, log) c ([] ++ z :: s)).
      change (blen (zb 31 (z :: s))) with (zlen (z :: s)).
      change 0 with (zlen (@nil Z)) at 1.
      rewrite (m_process_spec h f); [|assumption|assumption|unfold zlen; rewrite Nat2Z.id; lia|cbn [app List.length] in *; lia].
      unfold mload. cbn [bind app]. fold (mfeed f c (a, log) (z :: s)). set (y := mfeed f c (a, log) (z :: s)).
      change (tp_buf (loaded (fst y) c (z :: s))) with (zb 31 (z :: s)).
      rewrite zb_pop_all by (cbn [List.length] in *; lia). cbn [bind].
      change (zlen (@nil Z)) with 0. rewrite Z.sub_0_r. rewrite Z.min_r by lia.
      assert (U : u8 (0 + zlen (z :: s)) = zlen (z :: s)) by (unfold u8; rewrite Z.add_0_l; apply Z.mod_small; lia).
      rewrite U. destruct (List.length s); cbn [m_addLoop]; rewrite (holds_blen _ _ H), Z.ltb_irrefl; reflexivity.
Qed.

(** ** Histories *)
Lemma mstep_call_spec : forall h f x k, agrees h f -> fits (shows x) -> valid_call k ->
  mstep_call h (as_code x) k = Ok (as_code (expect f x k)) /\ fits (shows (expect f x k)).
Proof.
  intros h f [a c log] k A F V. destruct k as [b| |c1]; cbn [mstep_call expect shows tells calls_made] in *.
  - destruct V as (s & H). assert (E : text_of b = s) by (destruct H as (_ & _ & _ & ->); reflexivity). rewrite E.
    pose proof (m_addText_spec h f (a, log) c b s A F H) as M. unfold mparser in M. cbn [fst snd] in M. unfold as_code. cbn [shows tells calls_made].
    rewrite M. pose proof (madd_fits h f c (a, log) s A F) as G. destruct (madd f c (a, log) s) as (a1, log1). split; [reflexivity|exact G].
  - unfold as_code. cbn [fst snd shows tells calls_made]. rewrite (reset_spec a c F). split; [reflexivity|apply start_fits].
  - split; [reflexivity|assumption].
Qed.
Lemma mrun_spec : forall h f l x, agrees h f -> fits (shows x) -> Forall valid_call l ->
  mrun h (as_code x) l = Ok (as_code (fold_left (expect f) l x)) /\ fits (shows (fold_left (expect f) l x)).
Proof.
  induction l as [|k l IH]; intros x A F V; cbn [mrun fold_left]; [split; [reflexivity|assumption]|].
  inversion V; subst. destruct (mstep_call_spec h f x k A F H1) as (E & G). rewrite E. cbn [bind]. apply IH; assumption.
Qed.
Lemma new_code : (tp_new, []) = as_code (mkPicture astart None []). Proof. reflexivity. Qed.
Lemma predicted_calls : forall q f l, leaves q f -> Forall valid_call l -> mrun (code_of q) (tp_new, []) l = Ok (as_code (expected f l)).
Proof.
  intros q f l L V. rewrite new_code. apply (mrun_spec (code_of q) f l (mkPicture astart None []) (leaves_agrees q f L) start_fits V).
Qed.
Lemma mrun_app : forall h l1 l2 x, mrun h x (l1 ++ l2) = x <- mrun h x l1 ;; mrun h x l2.
Proof. induction l1 as [|k l1 IH]; intros l2 x; [reflexivity|]. cbn [app mrun]. destruct (mstep_call h x k); cbn [bind]; [apply IH|reflexivity]. Qed.
Lemma reset_clean : forall q f l t log, leaves q f -> Forall valid_call l -> mrun (code_of q) (tp_new, []) l = Ok (t, log) -> tp_reset t = Ok tp_new.
Proof.
  intros q f l t log L V E. rewrite new_code in E.
  destruct (mrun_spec (code_of q) f l (mkPicture astart None []) (leaves_agrees q f L) start_fits V) as (E2 & F). rewrite E in E2.
  unfold as_code in E2. injection E2 as -> ->. apply reset_spec. exact F.
Qed.

(** ** A consumer that leaves the buffers alone *)
Definition idle : handler := fun _ x => Ok x.
Lemma idle_tell : forall t log, m_tell idle (t, log) = Ok (t, log ++ tp_emit t).
Proof. intros [st c b s k v] log. unfold m_tell, tp_emit. cbn [tp_cons]. destruct c; cbn; [reflexivity|]. rewrite app_nil_r. reflexivity. Qed.
Lemma idle_error : forall t log, m_reportParseError idle (t, log) = '(t', e) <- tp_reportParseError t ;; Ok (t', log ++ e).
Proof.
  intros. unfold m_reportParseError, tp_reportParseError. destruct (bset _ _); cbn [bind]; [|reflexivity].
  destruct (bset _ _); cbn [bind]; [|reflexivity]. destruct (bset _ _); cbn [bind]; [|reflexivity]. apply idle_tell.
Qed.
Lemma idle_find : forall t log off cs d, m_findToken idle (t, log) off cs d = '(t', e, r) <- tp_findToken t off cs d ;; Ok ((t', log ++ e), r).
Proof.
  intros. unfold m_findToken, tp_findToken. destruct (bfind_chars (tp_buf t) cs off) as [n|u]; cbn [bind]; [|reflexivity].
  destruct (n =? npos); cbn [bind].
  2: destruct (bget (tp_buf t) n); cbn [bind]; [|reflexivity].
  all: destruct d as [d|]; cbn [bind]; [|rewrite app_nil_r; reflexivity].
  all: destruct (bsub _ _ _); cbn [bind]; [|reflexivity]; destruct (bpush _ _) as [[b p]|]; cbn [bind]; [|reflexivity].
  all: destruct (p <? _); cbn [bind]; [|rewrite app_nil_r; reflexivity].
  all: rewrite idle_error; destruct (tp_reportParseError _) as [[t' e]|]; reflexivity.
Qed.
Lemma idle_iteration : forall t log n, m_iteration idle (t, log) n = '(t', e, m, r) <- tp_iteration t n ;; Ok ((t', log ++ e), m, r).
Proof.
  intros. unfold m_iteration, tp_iteration. cbn [fst].
  destruct (tp_state t); try (rewrite idle_find; destruct (tp_findToken t _ _ _) as [[[t1 e1] r1]|u]; cbn [bind]; [|reflexivity]).
  - destruct (ft_success r1); [|reflexivity]. destruct (bget _ _); cbn [bind]; [|reflexivity].
    destruct (_ =? _); [destruct (berase _); reflexivity|]. cbn [bind]. destruct (_ =? _); [reflexivity|].
    rewrite idle_error. destruct (tp_reportParseError t1) as [[t2 e2]|]; cbn [bind]; [|reflexivity]. rewrite app_assoc. reflexivity.
  - destruct (ft_success r1); reflexivity.
  - destruct (ft_success r1); [|reflexivity]. destruct (_ =? _); [reflexivity|]. destruct (_ =? _); [|reflexivity].
    destruct (berase (tp_val t1)); cbn [bind]; [|reflexivity]. rewrite idle_tell. cbn [bind].
    destruct (berase _); cbn [bind]; [|reflexivity]. rewrite app_assoc. reflexivity.
  - destruct (ft_success r1); [|reflexivity]. rewrite idle_tell. cbn [bind].
    destruct (berase _); cbn [bind]; [|reflexivity]. destruct (berase _); cbn [bind]; [|reflexivity]. rewrite app_assoc. reflexivity.
  - cbn [bind]. rewrite app_nil_r. reflexivity.
Qed.
Lemma idle_process : forall fuel t log n, m_process idle fuel (t, log) n = '(t', e, m) <- tp_process fuel t n ;; Ok ((t', log ++ e), m).
Proof.
  induction fuel as [|fuel IH]; intros t log n; cbn [m_process tp_process fst]; destruct (n <? _); try reflexivity; try (cbn [bind]; rewrite app_nil_r; reflexivity).
  rewrite idle_iteration. destruct (tp_iteration t n) as [[[[t1 e1] m1] r1]|u]; cbn [bind]; [|reflexivity].
  destruct r1; [reflexivity|]. rewrite IH. destruct (tp_process fuel t1 m1) as [[[t2 e2] m2]|u]; cbn [bind]; [|reflexivity]. rewrite app_assoc. reflexivity.
Qed.
Lemma idle_loop : forall fuel t log b n, m_addLoop idle fuel (t, log) b n = '(t', e) <- tp_addLoop fuel t b n ;; Ok (t', log ++ e).
Proof.
  induction fuel as [|fuel IH]; intros t log b n; cbn [m_addLoop tp_addLoop]; destruct (n <? _); try reflexivity; try (cbn [bind]; rewrite app_nil_r; reflexivity).
  destruct (_ || _); [apply idle_error|]. destruct (bsub1 b n); cbn [bind]; [|reflexivity]. destruct (bpush _ _) as [[b1 p1]|]; cbn [bind]; [|reflexivity].
  unfold tp_processBuffer. cbn [set_buf tp_buf]. rewrite idle_process. destruct (tp_process _ _ _) as [[[t2 e2] m2]|u]; cbn [bind]; [|reflexivity].
  destruct (bpop_front _ _); cbn [bind]; [|reflexivity]. rewrite IH. destruct (tp_addLoop _ _ _ _) as [[t3 e3]|u]; cbn [bind]; [|reflexivity]. rewrite app_assoc. reflexivity.
Qed.
Lemma idle_add : forall t log b, m_addText idle (t, log) b = '(t', e) <- tp_addText t b ;; Ok (t', log ++ e).
Proof. intros. unfold m_addText, tp_addText. cbn [fst]. destruct (_ || _); [apply idle_error|apply idle_loop]. Qed.
Lemma idle_run : forall l t log, mrun idle (t, log) l = '(t', e) <- trun t l ;; Ok (t', log ++ e).
Proof.
  induction l as [|k l IH]; intros t log; cbn [mrun trun]; [cbn [bind]; rewrite app_nil_r; reflexivity|].
  destruct k as [b| |c]; cbn [mstep_call tstep fst snd].
  - rewrite idle_add. destruct (tp_addText t b) as [[t1 e1]|u]; cbn [bind]; [|reflexivity]. rewrite IH.
    destruct (trun t1 l) as [[t2 e2]|u]; cbn [bind]; [|reflexivity]. rewrite app_assoc. reflexivity.
  - destruct (tp_reset t) as [t1|u]; cbn [bind]; [|reflexivity]. rewrite IH. destruct (trun t1 l) as [[t2 e2]|u]; reflexivity.
  - cbn [bind]. rewrite IH. destruct (trun _ l) as [[t2 e2]|u]; reflexivity.
Qed.

(** ** Harmless consumers *)
Definition stay : conduct := fun _ r => r.
Lemma idle_agrees : agrees idle stay. Proof. intros log r H. split; [reflexivity|exact H]. Qed.
Definition same_view (a a' : auto) : Prop := a = a' \/ (a_at a = Failed /\ a_at a' = Failed).
Definition alike (x y : auto * list report) : Prop := same_view (fst x) (fst y) /\ snd x = snd y.
Lemma mfail_alike : forall f g c log, alike (mfail f c log) (mfail g c log).
Proof.
  intros. split; [right; split; apply mfail_at|]. unfold mfail, handed. destruct c; [|reflexivity].
  destruct (f log error_report) as [[s k] v]. destruct (g log error_report) as [[s' k'] v']. reflexivity.
Qed.
Lemma mstep_alike : forall f c x y z, harmless f -> alike x y -> alike (mstep f c x z) (mstep stay c y z).
Proof.
  intros f c [a log] [b log'] z H (V & E). cbn [fst snd] in *. subst log'.
  destruct V as [<-|(V1 & V2)].
  2:{ unfold mstep. rewrite V1, V2. unfold astep. rewrite V1, V2. split; [right; split; assumption|reflexivity]. }
  assert (R : forall x, alike x x) by (intros [? ?]; split; [left; reflexivity|reflexivity]).
  unfold mstep. destruct (a_at a) eqn:W; try apply R.
  - destruct (_ || _); [apply R|apply mfail_alike].
  - destruct (z =? NEWLINE).
    + unfold handed. destruct c; [|apply R]. destruct (H log (a_sec a) (a_key a) []) as (H1 & H2). specialize (H2 eq_refl).
      unfold stay. destruct (f log (a_sec a, a_key a, [])) as [[s k] v]. cbn [fst snd] in *. subst. apply R.
    + destruct (_ || _); [apply R|apply mfail_alike].
  - destruct (z =? NEWLINE).
    + unfold handed. destruct c; [|apply R]. destruct (H log (a_sec a) (a_key a) (a_val a)) as (H1 & _).
      unfold stay. destruct (f log (a_sec a, a_key a, a_val a)) as [[s k] v]. cbn [fst snd] in *. subst. apply R.
    + destruct (_ <? _)%nat; [apply R|apply mfail_alike].
Qed.
Lemma mfeed_alike : forall f c s x y, harmless f -> alike x y -> alike (fold_left (mstep f c) s x) (fold_left (mstep stay c) s y).
Proof. induction s as [|z s IH]; intros x y H V; [exact V|]. cbn [fold_left]. apply IH; [assumption|]. apply mstep_alike; assumption. Qed.
Lemma view_failed : forall a b, same_view a b -> afailed a = afailed b.
Proof. intros a b [->|(H1 & H2)]; [reflexivity|]. unfold afailed. rewrite H1, H2. reflexivity. Qed.
Lemma madd_alike : forall f c s x y, harmless f -> alike x y -> alike (madd f c x s) (madd stay c y s).
Proof.
  intros f c s x y H (V & E). unfold madd. rewrite (view_failed _ _ V), E. destruct (_ || _); [apply mfail_alike|].
  apply mfeed_alike; [assumption|]. split; assumption.
Qed.
Lemma expect_alike : forall f l x y, harmless f -> tells x = tells y -> same_view (shows x) (shows y) -> calls_made x = calls_made y ->
  let x' := fold_left (expect f) l x in let y' := fold_left (expect stay) l y in
  tells x' = tells y' /\ same_view (shows x') (shows y') /\ calls_made x' = calls_made y'.
Proof.
  induction l as [|k l IH]; intros x y H T V E; cbn [fold_left]; [auto|]. apply IH; [assumption| | |]; destruct k as [b| |c]; cbn [expect tells shows calls_made]; try assumption; try reflexivity.
  - destruct (madd f (tells x) _ _), (madd stay (tells y) _ _). assumption.
  - pose proof (madd_alike f (tells x) (text_of b) (shows x, calls_made x) (shows y, calls_made y) H (conj V E)) as (M & _). rewrite <- T.
    destruct (madd f (tells x) _ _), (madd stay (tells x) _ _). exact M.
  - left. reflexivity.
  - pose proof (madd_alike f (tells x) (text_of b) (shows x, calls_made x) (shows y, calls_made y) H (conj V E)) as (_ & M). rewrite <- T.
    destruct (madd f (tells x) _ _), (madd stay (tells x) _ _). exact M.
Qed.
Lemma harmless_same : forall q f l, leaves q f -> harmless f -> Forall valid_call l ->
  exists t t' log, mrun (code_of q) (tp_new, []) l = Ok (t, log) /\ trun tp_new l = Ok (t', log) /\
    tp_state t = tp_state t' /\ tp_cons t = tp_cons t' /\ (tp_state t <> ERROR -> t = t').
Proof.
  intros q f l L H V. pose proof (predicted_calls q f l L V) as E1.
  pose proof (mrun_spec idle stay l (mkPicture astart None []) idle_agrees start_fits V) as (E2 & _). rewrite <- new_code in E2. rewrite idle_run in E2.
  destruct (expect_alike f l (mkPicture astart None []) (mkPicture astart None []) H eq_refl (or_introl eq_refl) eq_refl) as (T & W & C).
  fold (expected f l) in T, W, C. destruct (trun tp_new l) as [[t' e]|u]; cbn [bind app] in E2; [|discriminate].
  unfold as_code in E1, E2. injection E2 as X1 X2. subst t' e.
  rewrite C in E1. do 3 eexists. split; [exact E1|]. split; [reflexivity|]. unfold parser. cbn [tp_state tp_cons].
  rewrite T. destruct W as [<-|(W1 & W2)]; [auto|]. rewrite W1, W2. split; [reflexivity|]. split; [reflexivity|]. intros K. exfalso. apply K. reflexivity.
Qed.

(** ** Documents *)
Lemma handed_some : forall f n log r, handed f (Some n) log r = (f log r, log ++ [r]). Proof. reflexivity. Qed.
Lemma mfeed_cons : forall f c x z s, mfeed f c x (z :: s) = mfeed f c (mstep f c x z) s. Proof. reflexivity. Qed.
Lemma mfeed_open : forall f c s k v log r, mfeed f c (mkA Between s k v, log) (SQ_OPEN :: r) = mfeed f c (mkA InSection [] k v, log) r. Proof. reflexivity. Qed.
Lemma mfeed_close : forall f c s k v log r, mfeed f c (mkA InSection s k v, log) (SQ_CLOSE :: r) = mfeed f c (mkA Between s k v, log) r. Proof. reflexivity. Qed.
Lemma mfeed_dot : forall f c s k v log r, mfeed f c (mkA Between s k v, log) (DOT :: r) = mfeed f c (mkA InKey s k v, log) r. Proof. reflexivity. Qed.
Lemma mfeed_equals : forall f c s k v log r, mfeed f c (mkA InKey s k v, log) (EQUALS :: r) = mfeed f c (mkA InValue s k v, log) r. Proof. reflexivity. Qed.
Lemma mfeed_flag : forall f n s k v log r, mfeed f (Some n) (mkA InKey s k v, log) (NEWLINE :: r) =
  let '(s', _, v') := f log (s, k, []) in mfeed f (Some n) (mkA Between s' [] v', log ++ [(s, k, [])]) r.
Proof. intros. rewrite mfeed_cons. unfold mstep. cbn [a_at a_sec a_key]. change (NEWLINE =? NEWLINE) with true. cbv iota. rewrite handed_some. destruct (f log (s, k, [])) as [[s' k'] v']. reflexivity. Qed.
Lemma mfeed_pair : forall f n s k v log r, mfeed f (Some n) (mkA InValue s k v, log) (NEWLINE :: r) =
  let '(s', _, _) := f log (s, k, v) in mfeed f (Some n) (mkA Between s' [] [], log ++ [(s, k, v)]) r.
Proof. intros. rewrite mfeed_cons. unfold mstep. cbn [a_at a_sec a_key a_val]. change (NEWLINE =? NEWLINE) with true. cbv iota. rewrite handed_some. destruct (f log (s, k, v)) as [[s' k'] v']. reflexivity. Qed.

Lemma mfeed_doc : forall h f n d s lf log, agrees h f -> doc_ok d -> (List.length s <= 11)%nat -> (List.length lf <= 26)%nat ->
  (values_fit f log s lf d /\ exists s' lf', mfeed f (Some n) (mkA Between s [] lf, log) (show_doc d) = (mkA Between s' [] lf', meddled f log s lf d)) \/
  (~ values_fit f log s lf d /\ a_at (fst (mfeed f (Some n) (mkA Between s [] lf, log) (show_doc d))) = Failed).
Proof.
  intros h f n d. induction d as [|(g, i) d IH]; intros s lf log A D Ls Ll; [left; split; [exact Logic.I|]; exists s, lf; reflexivity|].
  inversion D as [|? ? (G & I) D']; subst. cbn [fst snd] in *. unfold show_doc in *. cbn [flat_map fst snd]. rewrite <- app_assoc.
  rewrite mfeed_app, mfeed_between by (reflexivity || assumption).
  destruct i as [s'|k|k v]; cbn [show item_ok meddled values_fit] in *.
  - destruct I as (F & L). cbn [app]. rewrite <- app_assoc. rewrite mfeed_open. rewrite mfeed_app, mfeed_section by (assumption || (cbn; lia)). cbn [List.length Nat.add].
    rewrite (proj2 (Nat.leb_le _ _)) by assumption. cbn [app]. rewrite mfeed_close. apply IH; assumption.
  - destruct I as (F & L). cbn [app]. rewrite <- app_assoc. rewrite mfeed_dot. rewrite mfeed_app, mfeed_key by (assumption || (cbn; lia)). cbn [List.length Nat.add].
    rewrite (proj2 (Nat.leb_le _ _)) by assumption. cbn [app]. rewrite mfeed_flag.
    destruct (A log (s, k, []) ltac:(cbn [in_limits List.length]; lia)) as (_ & B). destruct (f log (s, k, [])) as [[s1 k1] v1]. cbn [in_limits] in B. apply IH; try assumption; lia.
  - destruct I as (F & L & F2 & L2). cbn [app]. rewrite <- !app_assoc. rewrite mfeed_dot. rewrite mfeed_app, mfeed_key by (assumption || (cbn; lia)). cbn [List.length Nat.add].
    rewrite (proj2 (Nat.leb_le _ _)) by assumption. cbn [app]. rewrite mfeed_equals. rewrite <- app_assoc. rewrite mfeed_app, mfeed_value by (assumption || (unfold max_value; lia)).
    rewrite app_length. destruct (List.length lf + List.length v <=? max_value)%nat eqn:Q.
    + apply Nat.leb_le in Q. cbn [app]. rewrite mfeed_pair.
      destruct (A log (s, k, lf ++ v) ltac:(cbn [in_limits]; rewrite app_length; unfold max_value in Q; lia)) as (_ & B).
      destruct (f log (s, k, lf ++ v)) as [[s1 k1] v1]. cbn [in_limits] in B.
      destruct (IH s1 [] (log ++ [(s, k, lf ++ v)]) A D' ltac:(lia) ltac:(cbn; lia)) as [(V & X)|(V & X)]; [left|right].
      * split; [split; [exact Q|exact V]|exact X].
      * split; [intros (_ & K); exact (V K)|exact X].
    + apply Nat.leb_gt in Q. right. split; [intros (K & _); unfold max_value in Q; lia|]. rewrite mfeed_fail. apply mfail_at.
Qed.

Lemma madds_failed : forall f c cut x, a_at (fst x) = Failed -> a_at (fst (fold_left (madd f c) cut x)) = Failed.
Proof.
  induction cut as [|s cut IH]; intros x H; [assumption|]. cbn [fold_left]. apply IH. unfold madd.
  replace (afailed (fst x)) with true by (unfold afailed; rewrite H; reflexivity). rewrite orb_true_r. apply mfail_at.
Qed.
Lemma madds_feed : forall f c cut x, short cut -> a_at (fst x) <> Failed ->
  (a_at (fst (mfeed f c x (List.concat cut))) <> Failed -> fold_left (madd f c) cut x = mfeed f c x (List.concat cut)) /\
  (a_at (fst (mfeed f c x (List.concat cut))) = Failed -> a_at (fst (fold_left (madd f c) cut x)) = Failed).
Proof.
  induction cut as [|s cut IH]; intros x S N; [split; [reflexivity|auto]|]. inversion S; subst. cbn [fold_left List.concat]. rewrite mfeed_app.
  assert (E : madd f c x s = mfeed f c x s).
  { unfold madd. unfold max_text in *. replace (zlen s >? 30) with false by lia. replace (afailed (fst x)) with false; [reflexivity|].
    unfold afailed. destruct (a_at (fst x)); congruence. }
  rewrite E. destruct (a_at (fst (mfeed f c x s))) eqn:W.
  5:{ rewrite (mfeed_failed f c (List.concat cut) _ W). split; [congruence|]. intros _. apply madds_failed. assumption. }
  all: apply IH; [assumption|congruence].
Qed.
Lemma expect_texts : forall f cut bs x, texts cut bs ->
  fold_left (expect f) (map TText bs) x =
  let (a, log) := fold_left (madd f (tells x)) cut (shows x, calls_made x) in mkPicture a (tells x) log.
Proof.
  intros f cut bs x T. revert x. induction T as [|b s bs cut H T IH]; intros x; cbn [map fold_left]; [destruct x; reflexivity|].
  rewrite IH. cbn [expect]. replace (text_of b) with s by (destruct H as (_ & _ & _ & ->); reflexivity).
  destruct (madd f (tells x) (shows x, calls_made x) s) as (a1, log1). reflexivity.
Qed.

Lemma read_doc : forall q f n d gap cut bs, leaves q f -> doc_ok d -> free_of [SQ_OPEN; DOT] gap ->
  List.concat cut = show_doc d ++ gap -> short cut -> texts cut bs ->
  exists t log, mrun (code_of q) (tp_new, []) (TConsumer (Some n) :: map TText bs) = Ok (t, log) /\
    (tp_state t <> ERROR <-> values_fit f [] [] [] d) /\
    (values_fit f [] [] [] d -> log = map as_buffers (meddled f [] [] [] d)).
Proof.
  intros q f n d gap cut bs L D G E S T.
  assert (V : Forall valid_call (TConsumer (Some n) :: map TText bs)).
  { constructor; [exact Logic.I|]. clear - T. induction T; cbn [map]; constructor; [eexists; eassumption|assumption]. }
  rewrite (predicted_calls q f _ L V). unfold expected. cbn [fold_left expect shows tells calls_made].
  rewrite (expect_texts f cut bs _ T). cbn [shows tells calls_made].
  destruct (madds_feed f (Some n) cut (astart, []) S ltac:(discriminate)) as (M1 & M2). rewrite E in M1, M2. rewrite mfeed_app in M1, M2.
  destruct (mfeed_doc (code_of q) f n d [] [] [] (leaves_agrees q f L) D ltac:(cbn; lia) ltac:(cbn; lia)) as [(X & s' & l' & Y)|(X & Y)];
    fold astart in Y.
  - rewrite Y in M1, M2. rewrite mfeed_between in M1, M2 by (reflexivity || assumption). rewrite M1 by discriminate.
    do 2 eexists. split; [reflexivity|]. split; [split; [auto|discriminate]|reflexivity].
  - rewrite (mfeed_failed f (Some n) gap _ Y) in M2. specialize (M2 Y). destruct (fold_left (madd f (Some n)) cut (astart, [])) as (a, log).
    cbn [fst] in M2. do 2 eexists. split; [reflexivity|]. cbn [as_code shows tells parser tp_state fst]. split; [|intros K; exfalso; exact (X K)].
    rewrite M2. split; [intros K; exfalso; apply K; reflexivity|intros K; exfalso; exact (X K)].
Qed.
