(* ProofsSharedText.v -- the text parser on shared memory simulates the copying model *)
From Verif Require Import ZLib SpecShared ProofsBuffer.

(** ** One buffer *)
Lemma store_see : forall h s b b' h' s', see h s = Ok b -> store h s b' = (h', s') ->
  see h' s' = Ok b' /\ sb_ptr s' = sb_ptr s /\ sb_len s' = blen b' /\ sb_cap s' = bcap b' /\
  (forall j, j <> fst (sb_ptr s) -> nth_error h' j = nth_error h j) /\ List.length h' = List.length h.
Proof.
  intros h [[k o] l c] b b' h' s' S E. unfold see, h_from in S. unfold store, h_put in E. cbn [sb_ptr fst snd sb_len sb_cap] in *. destruct (nth_error h k) as [m|] eqn:Em; [|discriminate].
  destruct ((0 <=? o) && (o <=? zlen m)) eqn:O; [|discriminate]. injection E as <- <-. cbn [sb_ptr sb_len sb_cap fst snd].
  assert (L : List.length (firstn (Z.to_nat o) m) = Z.to_nat o) by (rewrite firstn_length; unfold zlen in O; lia).
  split; [|split; [reflexivity|split; [reflexivity|split; [reflexivity|split; [intros j J; apply nth_error_upd_other; congruence|apply upd_length]]]]].
  unfold see, h_from. cbn [sb_ptr fst snd sb_len sb_cap]. rewrite (nth_error_upd_same _ _ _ _ _ Em). rewrite zlen_app. pose proof (zlen_nonneg _ (mem b')). unfold zlen at 1. rewrite L.
  replace (_ && _) with true by (unfold zlen in *; lia). cbn [bind]. rewrite <- L at 1. rewrite skipn_app_exact. destruct b'; reflexivity.
Qed.
Lemma see_other : forall h h' s, nth_error h' (fst (sb_ptr s)) = nth_error h (fst (sb_ptr s)) -> see h' s = see h s.
Proof. intros h h' s E. unfold see, h_from. rewrite E. reflexivity. Qed.
Lemma see_fields : forall h s b, see h s = Ok b -> sb_len s = blen b /\ sb_cap s = bcap b.
Proof. intros h s b E. unfold see in E. destruct (h_from h (sb_ptr s)) as [m|]; [|discriminate]. injection E as <-. split; reflexivity. Qed.
Lemma sub_see : forall h s b a e, see h s = Ok b -> 0 <= a -> 0 <= bcap b ->
  match bsub b a e with
  | UB u => s_sub h s a e = UB u
  | Ok bv => exists v, s_sub h s a e = Ok v /\ see h v = Ok bv /\ fst (sb_ptr v) = fst (sb_ptr s)
  end.
Proof.
  intros h s b a e S Ha Hc. unfold s_sub. rewrite S. cbn [bind]. destruct (see_fields _ _ _ S) as (_ & Ec). rewrite Ec.
  unfold bsub. set (st := if a >? bcap b then bcap b else a). assert (Hst : 0 <= st) by (subst st; destruct (a >? bcap b); lia).
  destruct (zlen (mem b) <? st) eqn:L; [reflexivity|]. cbn [bind]. eexists. split; [reflexivity|]. split; [|reflexivity].
  unfold see, h_from in S |- *. cbn [sb_ptr sb_len sb_cap fst snd blen bcap]. destruct (nth_error h (fst (sb_ptr s))) as [m|]; [|discriminate]. destruct ((0 <=? snd (sb_ptr s)) && _) eqn:O; [|discriminate].
  cbn [bind] in S. injection S as <-. cbn [mem] in *. unfold zlen in L, O. rewrite skipn_length in L. unfold zlen. replace (_ && _) with true by lia. cbn [bind]. rewrite skipn_skipn. do 2 f_equal. f_equal. lia.
Qed.
Lemma push_see : forall h s o b bo, see h s = Ok b -> see h o = Ok bo -> fst (sb_ptr s) <> fst (sb_ptr o) ->
  s_push h s o = '(b', n) <- bpush b bo ;; Ok (store h s b', n).
Proof.
  intros h s o b bo S O D. unfold s_push. rewrite S, O. cbn [bind]. replace (overlap _ _ _ _) with false; [reflexivity|].
  unfold overlap. cbn [fst]. rewrite (proj2 (Nat.eqb_neq _ _) D). reflexivity.
Qed.

(** ** The parser's buffers *)
Definition slot := option Dest.
Definition hget (t : HP) (x : slot) : sbuf := match x with None => hp_buf t | Some d => hdest_get t d end.
Definition hput (t : HP) (x : slot) (b : sbuf) : HP := match x with None => hset_buf t b | Some d => hdest_set t d b end.
Definition tget (t : TP) (x : slot) : bufm := match x with None => tp_buf t | Some d => dest_get t d end.
Definition tput (t : TP) (x : slot) (b : bufm) : TP := match x with None => set_buf t b | Some d => dest_set t d b end.
Lemma hget_put : forall t x b y, (x = y /\ hget (hput t x b) y = b) \/ (x <> y /\ hget (hput t x b) y = hget t y).
Proof. intros t [[]|] b [[]|]; first [left; split; reflexivity | right; split; [discriminate|reflexivity]]. Qed.
Lemma tget_put : forall t x b y, (x = y /\ tget (tput t x b) y = b) \/ (x <> y /\ tget (tput t x b) y = tget t y).
Proof. intros t [[]|] b [[]|]; first [left; split; reflexivity | right; split; [discriminate|reflexivity]]. Qed.
Lemma put_state : forall t x b, hp_state (hput t x b) = hp_state t /\ hp_cons (hput t x b) = hp_cons t. Proof. intros t [[]|] b; split; reflexivity. Qed.
Lemma tput_state : forall t x b, tp_state (tput t x b) = tp_state t /\ tp_cons (tput t x b) = tp_cons t. Proof. intros t [[]|] b; split; reflexivity. Qed.

Record Rel (h : heap) (t : HP) (tp : TP) : Prop := mkRel {
  r_state : hp_state t = tp_state tp; r_cons : hp_cons t = tp_cons tp;
  r_see : forall x, see h (hget t x) = Ok (tget tp x);
  r_far : forall x y, x <> y -> array_of (hget t x) <> array_of (hget t y);
  r_sign : forall x, 0 <= blen (tget tp x) /\ 0 <= bcap (tget tp x) }.
Definition keeps (h : heap) (t : HP) (h' : heap) (t' : HP) : Prop :=
  (forall x, sb_ptr (hget t' x) = sb_ptr (hget t x)) /\ (forall j, (forall x, j <> array_of (hget t x)) -> nth_error h' j = nth_error h j) /\ List.length h' = List.length h.
Lemma keeps_refl : forall h t, keeps h t h t. Proof. split; [|split]; reflexivity. Qed.
Lemma keeps_trans : forall h t h1 t1 h2 t2, keeps h t h1 t1 -> keeps h1 t1 h2 t2 -> keeps h t h2 t2.
Proof.
  intros h t h1 t1 h2 t2 (A1 & A2 & A3) (B1 & B2 & B3). split; [intros x; rewrite B1; apply A1|]. split; [|congruence]. intros j J. rewrite B2; [apply A2; exact J|]. intros x. unfold array_of. rewrite A1. apply J.
Qed.
Lemma rel_len : forall h t tp x, Rel h t tp -> sb_len (hget t x) = blen (tget tp x) /\ sb_cap (hget t x) = bcap (tget tp x).
Proof. intros h t tp x R. apply (see_fields h). apply R. Qed.

Lemma rel_store : forall h t tp x b h' s', Rel h t tp -> store h (hget t x) b = (h', s') -> 0 <= blen b /\ 0 <= bcap b ->
  Rel h' (hput t x s') (tput tp x b) /\ keeps h t h' (hput t x s').
Proof.
  intros h t tp x b h' s' R E Nb. destruct (store_see h (hget t x) _ b h' s' (r_see _ _ _ R x) E) as (S & P & _ & _ & F & Ln).
  assert (Pt : forall y, sb_ptr (hget (hput t x s') y) = sb_ptr (hget t y)) by (intros y; destruct (hget_put t x s' y) as [(<- & ->)|(_ & ->)]; [exact P|reflexivity]).
  split; [split|split; [exact Pt|split; [|exact Ln]]].
  - rewrite (proj1 (put_state _ _ _)), (proj1 (tput_state _ _ _)). apply R.
  - rewrite (proj2 (put_state _ _ _)), (proj2 (tput_state _ _ _)). apply R.
  - intros y. destruct (hget_put t x s' y) as [(<- & ->)|(D & ->)]; destruct (tget_put tp x b y) as [(D' & ->)|(D' & ->)] || destruct (tget_put tp x b x) as [(D' & ->)|(D' & ->)]; try contradiction; try congruence.
    rewrite <- (r_see _ _ _ R y). apply see_other. apply F. intros C. exact (r_far _ _ _ R y x (fun e => D (eq_sym e)) C).
  - intros y z D. unfold array_of. rewrite !Pt. apply (r_far _ _ _ R y z D).
  - intros y. destruct (tget_put tp x b y) as [(<- & ->)|(D & ->)]; [exact Nb|apply R].
  - intros j J. apply F. apply J.
Qed.
Definition slot_sim0 (x : slot) (h : heap) (t : HP) (tp : TP) (r : res (heap * sbuf)) (r' : res bufm) : Prop :=
  match r' with
  | UB u => r = UB u
  | Ok b => exists h' s', r = Ok (h', s') /\ Rel h' (hput t x s') (tput tp x b) /\ keeps h t h' (hput t x s')
  end.
Lemma on_slot : forall f x h t tp, Rel h t tp -> (forall b, f (tget tp x) = Ok b -> 0 <= blen b /\ 0 <= bcap b) -> slot_sim0 x h t tp (on_seen0 f h (hget t x)) (f (tget tp x)).
Proof.
  intros f x h t tp R Nb. unfold slot_sim0, on_seen0. rewrite (r_see _ _ _ R x). cbn [bind]. destruct (f (tget tp x)) as [b|u] eqn:E; [|reflexivity]. cbn [bind].
  destruct (store h (hget t x) b) as (h', s') eqn:Es. exists h', s'. split; [reflexivity|]. apply (rel_store h t tp x b h' s' R Es). apply Nb. reflexivity.
Qed.
Lemma berase_sign : forall b b', berase b = Ok b' -> 0 <= bcap b -> 0 <= blen b' /\ 0 <= bcap b'.
Proof. intros b b' E H. unfold berase in E. destruct (wr _ _ _); [|discriminate]. injection E as <-. cbn. lia. Qed.
Lemma bpop_sign : forall b n b', bpop_front b n = Ok b' -> 0 <= bcap b -> 0 <= blen b' /\ 0 <= bcap b'.
Proof.
  intros b n b' E H. unfold bpop_front in E. destruct (n >=? blen b); [exact (berase_sign _ _ E H)|]. destruct (rd_blk _ _ _); [|discriminate]. cbn [bind] in E. destruct (wr _ _ _); [|discriminate]. cbn [bind] in E. destruct (wr _ _ _); [|discriminate].
  injection E as <-. cbn [blen bcap]. split; [apply Z.mod_pos_bound; lia|exact H].
Qed.
Lemma bpush_sign : forall b o b' n, bpush b o = Ok (b', n) -> 0 <= bcap b -> 0 <= blen b' /\ 0 <= bcap b'.
Proof.
  intros b o b' n E H. unfold bpush in E. destruct (rd_blk _ _ _); [|discriminate]. cbn [bind] in E. destruct (wr _ _ _); [|discriminate]. injection E as <- _. cbn [blen bcap]. split; [apply Z.mod_pos_bound; lia|exact H].
Qed.
Lemma bset_sign : forall b l b', bset b l = Ok b' -> 0 <= bcap b -> 0 <= blen b' /\ 0 <= bcap b'.
Proof.
  intros b l b' E H. unfold bset in E. destruct (berase b); [|discriminate]. cbn [bind] in E. destruct (c_strncpy _ _ _); [|discriminate]. cbn [bind] in E. destruct (c_strlen _); [|discriminate]. injection E as <-. cbn [blen bcap]. split; [apply Z.mod_pos_bound; lia|exact H].
Qed.
Lemma erase_slot : forall d h t tp, Rel h t tp -> slot_sim0 (Some d) h t tp (s_erase h (hdest_get t d)) (berase (dest_get tp d)).
Proof. intros d h t tp R. apply (on_slot berase (Some d) h t tp R). intros b E. exact (berase_sign _ _ E (proj2 (r_sign _ _ _ R (Some d)))). Qed.
Lemma set_slot : forall d l h t tp, Rel h t tp -> slot_sim0 (Some d) h t tp (s_set_lit l h (hdest_get t d)) (bset (dest_get tp d) l).
Proof. intros d l h t tp R. apply (on_slot (fun b => bset b l) (Some d) h t tp R). intros b E. exact (bset_sign _ _ _ E (proj2 (r_sign _ _ _ R (Some d)))). Qed.
Lemma emit_sim : forall h t tp, Rel h t tp -> h_emit h t = Ok (tp_emit tp).
Proof.
  intros h t tp R. unfold h_emit, tp_emit. rewrite (r_cons _ _ _ R). destruct (tp_cons tp); [|reflexivity].
  change (hp_sec t) with (hget t (Some DSec)). change (hp_key t) with (hget t (Some DKey)). change (hp_val t) with (hget t (Some DVal)). rewrite !(r_see _ _ _ R). reflexivity.
Qed.
Lemma rel_state : forall h t tp s, Rel h t tp -> Rel h (hset_state t s) (set_state tp s).
Proof. intros h t tp s [R1 R2 R3 R4 R5]. split; [reflexivity|assumption..]. Qed.
Lemma keeps_state : forall h t h' t' s, keeps h t h' t' -> keeps h t h' (hset_state t' s).
Proof. intros h t h' t' s (K1 & K2 & K3). split; [intros x; specialize (K1 x); destruct x as [[]|]; exact K1|split; assumption]. Qed.
Lemma keeps_state' : forall h t h' t' s, keeps h (hset_state t s) h' t' -> keeps h t h' t'.
Proof.
  intros h t h' t' s (K1 & K2 & K3). split; [intros x; specialize (K1 x); destruct x as [[]|]; exact K1|split; [|exact K3]]. intros j J. apply K2. intros x. specialize (J x). destruct x as [[]|]; exact J.
Qed.

Definition sim1 {X} (h : heap) (t : HP) (r : res (heap * HP * X)) (r' : res (TP * X)) : Prop :=
  match r' with
  | UB u => r = UB u
  | Ok (tp', x) => exists h' t', r = Ok (h', t', x) /\ Rel h' t' tp' /\ keeps h t h' t'
  end.
Lemma error_sim : forall h t tp, Rel h t tp -> sim1 h t (h_reportParseError h t) (tp_reportParseError tp).
Proof.
  intros h t tp R. apply (rel_state h t tp ERROR) in R. unfold h_reportParseError, tp_reportParseError. cbv zeta. set (t1 := hset_state t ERROR) in *. set (p1 := set_state tp ERROR) in *.
  pose proof (set_slot DSec (lit "ERROR") h t1 p1 R) as S1. unfold slot_sim0 in S1. cbn [dest_get hdest_get] in S1. destruct (bset (tp_sec p1) (lit "ERROR")) as [s|u]; [|unfold sim1; cbn [bind]; rewrite S1; reflexivity].
  destruct S1 as (h1 & s1 & E1 & R1 & K1). rewrite E1. cbn [bind].
  pose proof (set_slot DKey (lit "ERROR") h1 _ _ R1) as S2. unfold slot_sim0 in S2. cbn [dest_get hdest_get hput tput hdest_set dest_set hset_sec set_sec tp_key hp_key] in S2. destruct (bset (tp_key p1) (lit "ERROR")) as [k|u]; [|unfold sim1; cbn [bind]; rewrite S2; reflexivity].
  destruct S2 as (h2 & s2 & E2 & R2 & K2). rewrite E2. cbn [bind].
  pose proof (set_slot DVal (lit "ERROR") h2 _ _ R2) as S3. unfold slot_sim0 in S3. cbn [dest_get hdest_get hput tput hdest_set dest_set hset_sec set_sec hset_key set_key tp_val hp_val] in S3. destruct (bset (tp_val p1) (lit "ERROR")) as [v|u]; [|unfold sim1; cbn [bind]; rewrite S3; reflexivity].
  destruct S3 as (h3 & s3 & E3 & R3 & K3). rewrite E3. cbn [bind sim1].
  exists h3, (hset_val (hset_key (hset_sec t1 s1) s2) s3). split; [rewrite (emit_sim _ _ _ R3); reflexivity|]. split; [exact R3|]. apply (keeps_state' h t h3 _ ERROR). eapply keeps_trans; [exact K1|]. eapply keeps_trans; [exact K2|exact K3].
Qed.
Definition sim2 {X Y} (h : heap) (t : HP) (r : res (heap * HP * X * Y)) (r' : res (TP * X * Y)) : Prop :=
  match r' with
  | UB u => r = UB u
  | Ok (tp', x, y) => exists h' t', r = Ok (h', t', x, y) /\ Rel h' t' tp' /\ keeps h t h' t'
  end.
Definition sim3 {X Y V} (h : heap) (t : HP) (r : res (heap * HP * X * Y * V)) (r' : res (TP * X * Y * V)) : Prop :=
  match r' with
  | UB u => r = UB u
  | Ok (tp', x, y, v) => exists h' t', r = Ok (h', t', x, y, v) /\ Rel h' t' tp' /\ keeps h t h' t'
  end.
Lemma bfind_loop_low : forall n m hit i k, bfind_loop m hit i n = Ok k -> 0 <= i -> 0 <= k.
Proof.
  induction n as [|n IH]; intros m hit i k E Hi; cbn [bfind_loop] in E; [injection E as <-; unfold npos; lia|].
  destruct (rd m i) as [c|]; [|discriminate]. cbn [bind] in E. destruct (hit c); [injection E as <-; exact Hi|]. apply (IH m hit (i + 1) k E). lia.
Qed.
Lemma bfind_low : forall b ch off k, bfind_chars b ch off = Ok k -> 0 <= off -> 0 <= k.
Proof.
  intros b ch off k E H. unfold bfind_chars in E. destruct (off >=? blen b); [injection E as <-; unfold npos; lia|]. destruct (c_strlen ch); [|discriminate]. cbn [bind] in E. exact (bfind_loop_low _ _ _ _ _ E H).
Qed.
Lemma find_sim : forall h t tp off ch d, Rel h t tp -> 0 <= off -> sim2 h t (h_findToken h t off ch d) (tp_findToken tp off ch d).
Proof.
  intros h t tp off ch d R Ho. unfold h_findToken, tp_findToken. pose proof (r_see _ _ _ R None) as Sb. cbn [hget tget] in Sb. rewrite Sb. cbn [bind].
  destruct (bfind_chars (tp_buf tp) ch off) as [fd|u]; [|reflexivity]. cbn [bind]. destruct (rel_len _ _ _ None R) as (Lb & Cb). cbn [hget tget] in Lb, Cb. rewrite Lb.
  destruct (if fd =? npos then Ok (blen (tp_buf tp), false, 0) else c <- bget (tp_buf tp) fd ;; Ok (fd, true, c)) as [((cn & su) & mc)|u]; [|reflexivity]. cbn [bind].
  destruct d as [d|]; [|exists h, t; split; [reflexivity|split; [exact R|apply keeps_refl]]].
  pose proof (sub_see h (hp_buf t) (tp_buf tp) off cn Sb Ho (proj2 (r_sign _ _ _ R None))) as V. destruct (bsub (tp_buf tp) off cn) as [bv|u]; [|rewrite V; reflexivity]. destruct V as (v & Ev & Sv & Av). rewrite Ev. cbn [bind].
  rewrite (push_see h (hdest_get t d) v (dest_get tp d) bv (r_see _ _ _ R (Some d)) Sv) by (rewrite Av; exact (r_far _ _ _ R (Some d) None ltac:(discriminate))).
  destruct (bpush (dest_get tp d) bv) as [(b' & n)|u] eqn:Pu; [|reflexivity]. cbn [bind]. destruct (store h (hdest_get t d) b') as (h1, s1) eqn:Es.
  destruct (rel_store h t tp (Some d) b' h1 s1 R Es (bpush_sign _ _ _ _ Pu (proj2 (r_sign _ _ _ R (Some d))))) as (R1 & K1). cbn [hput tput] in R1, K1. destruct (see_fields _ _ _ Sv) as (Lv & _). rewrite Lv.
  destruct (n <? blen bv).
  - pose proof (error_sim _ _ _ R1) as Er. unfold sim1 in Er. destruct (tp_reportParseError (dest_set tp d b')) as [(tp2 & ev)|u]; [|rewrite Er; reflexivity]. destruct Er as (h2 & t2 & E2 & R2 & K2). rewrite E2. cbn [bind sim2].
    exists h2, t2. split; [reflexivity|]. split; [exact R2|]. eapply keeps_trans; [exact K1|exact K2].
  - cbn [bind sim2]. exists h1, (hdest_set t d s1). split; [reflexivity|]. split; [exact R1|exact K1].
Qed.
Lemma find_low : forall tp off ch d tp' e r, tp_findToken tp off ch d = Ok (tp', e, r) -> 0 <= off -> 0 <= blen (tp_buf tp) -> 0 <= ft_consumed r.
Proof.
  intros tp off ch d tp' e r E Ho Hl. unfold tp_findToken in E. destruct (bfind_chars (tp_buf tp) ch off) as [fd|u] eqn:Ef; [|discriminate]. cbn [bind] in E. pose proof (bfind_low _ _ _ _ Ef Ho) as Hf.
  destruct (fd =? npos); [|destruct (bget (tp_buf tp) fd) as [c|]; [|discriminate]]; cbn [bind] in E;
  (destruct d as [d|]; [|cbn [bind] in E; injection E as _ _ <-; cbn [ft_consumed]; first [exact Hl|exact Hf|apply Z.mod_pos_bound; lia]]);
  (destruct (bsub _ _ _) as [bv|]; [|discriminate]); cbn [bind] in E; (destruct (bpush _ _) as [(b' & n)|]; [|discriminate]); cbn [bind] in E;
  (destruct (n <? blen bv); [destruct (tp_reportParseError _) as [(? & ?)|]; [|discriminate]|]); cbn [bind] in E; injection E as _ _ <-; cbn [ft_consumed]; first [exact Hl|exact Hf|apply Z.mod_pos_bound; lia].
Qed.
Ltac fin K := eexists _, _; split; [reflexivity|]; split; [assumption || (apply rel_state; assumption)|]; first [exact K | apply keeps_state; exact K].
Lemma iter_sim : forall h t tp c, Rel h t tp -> 0 <= c -> sim3 h t (h_iteration h t c) (tp_iteration tp c).
Proof.
  intros h t tp c R Hc. unfold h_iteration, tp_iteration. rewrite (r_state _ _ _ R). destruct (tp_state tp) eqn:St.
  - pose proof (find_sim h t tp c kKeyOrSectionStart None R Hc) as F. unfold sim2 in F. destruct (tp_findToken tp c kKeyOrSectionStart None) as [((p1 & e) & r)|u]; [|rewrite F; reflexivity]. destruct F as (h1 & t1 & F & R1 & K1). rewrite F. cbn [bind].
    destruct (ft_success r); [|cbn [sim3]; fin K1]. pose proof (r_see _ _ _ R1 None) as Sb. cbn [hget tget] in Sb. rewrite Sb. cbn [bind]. destruct (bget (tp_buf p1) (u8 (ft_consumed r - 1))) as [x|]; [|reflexivity]. cbn [bind].
    destruct (x =? kSectionStart).
    + pose proof (erase_slot DSec _ _ _ R1) as S. unfold slot_sim0 in S. cbn [hdest_get dest_get] in S. destruct (berase (tp_sec p1)) as [b|]; [|rewrite S; reflexivity]. destruct S as (h2 & s2 & S & R2 & K2). rewrite S. cbn [bind sim3]. cbn [hput tput hdest_set dest_set] in *.
      pose proof (keeps_trans _ _ _ _ _ _ K1 K2) as K. fin K.
    + destruct (x =? kKeyStart); [cbn [sim3]; fin K1|]. pose proof (error_sim _ _ _ R1) as S. unfold sim1 in S. destruct (tp_reportParseError p1) as [(p2 & e2)|]; [|rewrite S; reflexivity]. destruct S as (h2 & t2 & S & R2 & K2). rewrite S. cbn [bind sim3]. pose proof (keeps_trans _ _ _ _ _ _ K1 K2) as K. fin K.
  - pose proof (find_sim h t tp c kSectionStop (Some DSec) R Hc) as F. unfold sim2 in F. destruct (tp_findToken tp c kSectionStop (Some DSec)) as [((p1 & e) & r)|u]; [|rewrite F; reflexivity]. destruct F as (h1 & t1 & F & R1 & K1). rewrite F. cbn [bind sim3].
    destruct (ft_success r); fin K1.
  - pose proof (find_sim h t tp c kKeyOrValueStop (Some DKey) R Hc) as F. unfold sim2 in F. destruct (tp_findToken tp c kKeyOrValueStop (Some DKey)) as [((p1 & e) & r)|u]; [|rewrite F; reflexivity]. destruct F as (h1 & t1 & F & R1 & K1). rewrite F. cbn [bind].
    destruct (ft_success r); [|cbn [sim3]; fin K1]. destruct (ft_match r =? kKeyStop); [cbn [sim3]; fin K1|]. destruct (ft_match r =? kValueStop); [|cbn [sim3]; fin K1].
    pose proof (erase_slot DVal _ _ _ R1) as S. unfold slot_sim0 in S. cbn [hdest_get dest_get] in S. destruct (berase (tp_val p1)) as [b|]; [|rewrite S; reflexivity]. destruct S as (h2 & s2 & S & R2 & K2). rewrite S. cbn [bind]. cbn [hput tput hdest_set dest_set] in *.
    rewrite (emit_sim _ _ _ R2). cbn [bind].
    pose proof (erase_slot DKey _ _ _ R2) as S'. unfold slot_sim0 in S'. cbn [hdest_get dest_get] in S'. destruct (berase (tp_key (set_val p1 b))) as [b3|]; [|rewrite S'; reflexivity]. destruct S' as (h3 & s3 & S' & R3 & K3). rewrite S'. cbn [bind sim3]. cbn [hput tput hdest_set dest_set] in *.
    pose proof (keeps_trans _ _ _ _ _ _ (keeps_trans _ _ _ _ _ _ K1 K2) K3) as K. fin K.
  - pose proof (find_sim h t tp c kValueStop_str (Some DVal) R Hc) as F. unfold sim2 in F. destruct (tp_findToken tp c kValueStop_str (Some DVal)) as [((p1 & e) & r)|u]; [|rewrite F; reflexivity]. destruct F as (h1 & t1 & F & R1 & K1). rewrite F. cbn [bind].
    destruct (ft_success r); [|cbn [sim3]; fin K1]. rewrite (emit_sim _ _ _ R1). cbn [bind].
    pose proof (erase_slot DKey _ _ _ R1) as S. unfold slot_sim0 in S. cbn [hdest_get dest_get] in S. destruct (berase (tp_key p1)) as [b|]; [|rewrite S; reflexivity]. destruct S as (h2 & s2 & S & R2 & K2). rewrite S. cbn [bind]. cbn [hput tput hdest_set dest_set] in *.
    pose proof (erase_slot DVal _ _ _ R2) as S'. unfold slot_sim0 in S'. cbn [hdest_get dest_get set_key tp_val hset_key hp_val] in S'. destruct (berase (tp_val p1)) as [b3|]; [|rewrite S'; reflexivity]. destruct S' as (h3 & s3 & S' & R3 & K3). rewrite S'. cbn [bind sim3]. cbn [hput tput hdest_set dest_set] in *.
    pose proof (keeps_trans _ _ _ _ _ _ (keeps_trans _ _ _ _ _ _ K1 K2) K3) as K. fin K.
  - cbn [sim3]. rewrite (proj1 (rel_len _ _ _ None R) : sb_len (hp_buf t) = blen (tp_buf tp)). pose proof (keeps_refl h t) as K. fin K.
Qed.
Lemma iter_low : forall tp c tp' e c' b, tp_iteration tp c = Ok (tp', e, c', b) -> 0 <= c -> 0 <= blen (tp_buf tp) -> 0 <= c'.
Proof.
  intros tp c tp' e c' b E Hc Hl. unfold tp_iteration in E. destruct (tp_state tp); try (injection E as _ _ <- _; exact Hl);
  (destruct (tp_findToken tp c _ _) as [((p1 & e1) & r)|] eqn:F; [|discriminate]); pose proof (find_low _ _ _ _ _ _ _ F Hc Hl) as Hr; cbn [bind] in E;
  repeat match type of E with
         | (if ?x then _ else _) = _ => destruct x
         | bind ?x _ = _ => destruct x as [?|]; [|discriminate]; cbn [bind] in E
         | (let '(_, _) := ?x in _) = _ => destruct x
         end; try discriminate; injection E as _ _ <- _; first [exact Hr|exact Hc].
Qed.
Lemma process_sim : forall n h t tp c, Rel h t tp -> 0 <= c -> sim2 h t (h_process n h t c) (tp_process n tp c).
Proof.
  induction n as [|n IH]; intros h t tp c R Hc; cbn [h_process tp_process]; rewrite (proj1 (rel_len _ _ _ None R) : sb_len (hp_buf t) = blen (tp_buf tp)); (destruct (c <? blen (tp_buf tp)); [|cbn [sim2]; pose proof (keeps_refl h t) as K; fin K]); [reflexivity|].
  pose proof (iter_sim h t tp c R Hc) as I. pose proof (iter_low tp c) as L. unfold sim3 in I. destruct (tp_iteration tp c) as [(((p1 & e) & c1) & rt)|]; [|rewrite I; reflexivity]. destruct I as (h1 & t1 & I & R1 & K1). rewrite I. cbn [bind].
  destruct rt; [cbn [sim2]; fin K1|]. specialize (L _ _ _ _ eq_refl Hc (proj1 (r_sign _ _ _ R None))).
  specialize (IH h1 t1 p1 c1 R1 L). unfold sim2 in IH. destruct (tp_process n p1 c1) as [((p2 & e2) & c2)|]; [|rewrite IH; reflexivity]. destruct IH as (h2 & t2 & E2 & R2 & K2). rewrite E2. cbn [bind sim2]. pose proof (keeps_trans _ _ _ _ _ _ K1 K2) as K. fin K.
Qed.
(** the text comes from another array *)
Lemma loop_sim : forall n m h t tp s i c tp' e, Rel h t tp -> see h s = Ok i -> 0 <= bcap i -> (forall x, array_of s <> array_of (hget t x)) -> 0 <= c -> (n <= m)%nat ->
  tp_addLoop n tp i c = Ok (tp', e) -> exists h' t', h_addLoop m h t (Theirs s) c = Ok (h', t', e) /\ Rel h' t' tp' /\ keeps h t h' t'.
Proof.
  induction n as [|n IH]; intros m h t tp s i c tp' e R Si Ci Far Hc Hm E; (destruct m as [|m]; [try lia|]); cbn [h_addLoop tp_addLoop iget] in *;
  rewrite (proj1 (see_fields _ _ _ Si)); (destruct (c <? blen i); [|injection E as <- <-; pose proof (keeps_refl h t) as K; fin K]); try discriminate.
  destruct (rel_len _ _ _ None R) as (Lb & Cb). cbn [hget tget] in Lb, Cb. rewrite (r_state _ _ _ R), Lb, Cb. fold (bcap_rem (tp_buf tp)). fold (bfull (tp_buf tp)).
  destruct (bfull (tp_buf tp) || match tp_state tp with ERROR => true | _ => false end).
  - pose proof (error_sim _ _ _ R) as S. unfold sim1 in S. rewrite E in S. exact S.
  - unfold s_sub1. rewrite (proj1 (see_fields _ _ _ Si)). unfold bsub1 in E. pose proof (sub_see h s i c (blen i) Si Hc Ci) as V. destruct (bsub i c (blen i)) as [bv|]; [|discriminate]. destruct V as (v & Ev & Sv & Av). rewrite Ev. cbn [bind] in *.
    pose proof (r_see _ _ _ R None) as Sb. cbn [hget tget] in Sb. rewrite (push_see h (hp_buf t) v (tp_buf tp) bv Sb Sv) by (rewrite Av; intros X; exact (Far None (eq_sym X))).
    destruct (bpush (tp_buf tp) bv) as [(b' & k)|] eqn:Pu; [|discriminate]. cbn [bind] in *. destruct (store h (hp_buf t) b') as (h1, s1) eqn:Es.
    destruct (rel_store h t tp None b' h1 s1 R Es (bpush_sign _ _ _ _ Pu (proj2 (r_sign _ _ _ R None)))) as (R1 & K1). cbn [hput tput] in R1, K1.
    unfold h_processBuffer. unfold tp_processBuffer in E. rewrite (proj1 (rel_len _ _ _ None R1) : sb_len (hp_buf (hset_buf t s1)) = blen (tp_buf (set_buf tp b'))).
    pose proof (process_sim (Z.to_nat (blen (tp_buf (set_buf tp b')))) h1 _ _ 0 R1 ltac:(lia)) as S. unfold sim2 in S. destruct (tp_process _ (set_buf tp b') 0) as [((p2 & e2) & cc)|]; [|discriminate]. destruct S as (h2 & t2 & S & R2 & K2). rewrite S. cbn [bind] in *.
    pose proof (on_slot (fun b => bpop_front b cc) None h2 t2 p2 R2) as P. unfold slot_sim0 in P. cbn [tget hget] in P. destruct (bpop_front (tp_buf p2) cc) as [b3|] eqn:Po; [|discriminate].
    destruct P as (h3 & s3 & P & R3 & K3); [intros b Eb; injection Eb as <-; exact (bpop_sign _ _ _ Po (proj2 (r_sign _ _ _ R2 None)))|]. fold (s_pop cc) in P. rewrite P. cbn [bind] in *. cbn [hput tput] in R3, K3.
    pose proof (keeps_trans _ _ _ _ _ _ (keeps_trans _ _ _ _ _ _ K1 K2) K3) as K.
    destruct (tp_addLoop n (set_buf p2 b3) i (u8 (c + k))) as [(p4 & e4)|] eqn:Lp; [|discriminate]. injection E as <- <-.
    destruct (IH m h3 (hset_buf t2 s3) (set_buf p2 b3) s i (u8 (c + k)) p4 e4 R3) as (h4 & t4 & E4 & R4 & K4); try assumption; try lia.
    + rewrite <- Si. apply see_other. apply K. exact Far.
    + intros x. unfold array_of. rewrite (proj1 K x). apply Far.
    + apply Z.mod_pos_bound; lia.
    + rewrite E4. cbn [bind]. exists h4, t4. split; [reflexivity|]. split; [exact R4|]. eapply keeps_trans; [exact K|exact K4].
Qed.

(** ** In terms of what a heap shows *)
Lemma placed_see : forall h s, placed h s -> see h s = Ok (shown h s).
Proof. intros h s (_ & _ & m & N & O). unfold see, h_from, shown. rewrite N, (nth_error_nth _ _ _ N). replace (_ && _) with true by lia. reflexivity. Qed.
Lemma see_shown : forall h s b, see h s = Ok b -> shown h s = b /\ exists m, nth_error h (fst (sb_ptr s)) = Some m /\ 0 <= snd (sb_ptr s) <= zlen m.
Proof.
  intros h s b E. unfold see, h_from in E. destruct (nth_error h (fst (sb_ptr s))) as [m|] eqn:N; [|discriminate]. destruct (_ && _) eqn:O; [|discriminate]. injection E as <-. unfold shown. rewrite (nth_error_nth _ _ _ N). split; [reflexivity|]. exists m. split; [reflexivity|lia].
Qed.
Lemma arrays_slots : forall t j, In j (arrays t) <-> exists x, j = array_of (hget t x).
Proof.
  intros t j. unfold arrays. cbn [map In]. split; [intros [<-|[<-|[<-|[<-|[]]]]]; [exists None|exists (Some DSec)|exists (Some DKey)|exists (Some DVal)]; reflexivity|]. intros ([[]|] & ->); cbn; tauto.
Qed.
Lemma placed_rel : forall h t, well_placed h t -> Rel h t (parser_at h t).
Proof.
  intros h t (D & P). assert (Q : forall x, placed h (hget t x)) by (rewrite Forall_forall in P; intros [[]|]; apply P; cbn; tauto).
  split; [reflexivity|reflexivity| | |].
  - intros x. rewrite (placed_see h _ (Q x)). destruct x as [[]|]; reflexivity.
  - unfold arrays in D. cbn [map] in D. inversion D as [|? ? N1 D1]; subst. inversion D1 as [|? ? N2 D2]; subst. inversion D2 as [|? ? N3 _]; subst. cbn [In] in *. intros [[]|] [[]|] X; cbn [hget hdest_get]; try (exfalso; apply X; reflexivity); intros E; tauto || (symmetry in E; tauto).
  - intros x. specialize (Q x). destruct x as [[]|]; destruct Q as (Q1 & Q2 & _); split; assumption.
Qed.
Lemma rel_placed : forall h t tp, Rel h t tp -> parser_at h t = tp /\ well_placed h t.
Proof.
  intros h t tp R. assert (S : forall x, shown h (hget t x) = tget tp x) by (intros x; apply (see_shown h _ _ (r_see _ _ _ R x))).
  assert (P : forall x, placed h (hget t x)) by (intros x; destruct (rel_len _ _ _ x R) as (L & C); unfold placed; rewrite L, C; split; [apply R|split; [apply R|apply (see_shown h _ _ (r_see _ _ _ R x))]]).
  split; [destruct tp as [s c b1 b2 b3 b4]; unfold parser_at; rewrite (r_state _ _ _ R), (r_cons _ _ _ R); f_equal; [apply (S None)|apply (S (Some DSec))|apply (S (Some DKey))|apply (S (Some DVal))]|].
  split; [|exact (Forall_cons _ (P None) (Forall_cons _ (P (Some DSec)) (Forall_cons _ (P (Some DKey)) (Forall_cons _ (P (Some DVal)) (Forall_nil _)))))].
  unfold arrays. cbn [map]. pose proof (r_far _ _ _ R) as F.
  repeat constructor; cbn [In]; intros X; repeat destruct X as [X|X]; try contradiction.
  - exact (F (Some DSec) None ltac:(discriminate) X).
  - exact (F (Some DKey) None ltac:(discriminate) X).
  - exact (F (Some DVal) None ltac:(discriminate) X).
  - exact (F (Some DKey) (Some DSec) ltac:(discriminate) X).
  - exact (F (Some DVal) (Some DSec) ltac:(discriminate) X).
  - exact (F (Some DVal) (Some DKey) ltac:(discriminate) X).
Qed.
Lemma keeps_arrays : forall h t h' t', keeps h t h' t' -> arrays t' = arrays t /\ (forall j, ~ In j (arrays t) -> nth_error h' j = nth_error h j).
Proof.
  intros h t h' t' (K1 & K2 & _). split.
  - unfold arrays, array_of. cbn [map]. rewrite (K1 None : sb_ptr (hp_buf t') = _), (K1 (Some DSec) : sb_ptr (hp_sec t') = _), (K1 (Some DKey) : sb_ptr (hp_key t') = _), (K1 (Some DVal) : sb_ptr (hp_val t') = _). reflexivity.
  - intros j J. apply K2. intros x E. apply J. apply arrays_slots. exists x. exact E.
Qed.
Lemma addText_shared : forall h t s tp' e, well_placed h t -> placed h s -> ~ In (array_of s) (arrays t) -> tp_addText (parser_at h t) (shown h s) = Ok (tp', e) ->
  exists h' t', h_addText h t (Theirs s) = Ok (h', t', e) /\ parser_at h' t' = tp' /\ well_placed h' t' /\ arrays t' = arrays t /\ (forall j, ~ In j (arrays t) -> nth_error h' j = nth_error h j).
Proof.
  intros h t s tp' e W P N E. pose proof (placed_rel h t W) as R.
  cut (exists h' t', h_addText h t (Theirs s) = Ok (h', t', e) /\ Rel h' t' tp' /\ keeps h t h' t').
  { intros (h' & t' & E' & R' & K'). exists h', t'. split; [exact E'|]. destruct (rel_placed _ _ _ R') as (A & B). destruct (keeps_arrays _ _ _ _ K'). repeat (split; [assumption|]). assumption. }
  unfold h_addText. unfold tp_addText in E. cbn [iget]. change (blen (shown h s)) with (sb_len s) in E. change (tp_state (parser_at h t)) with (hp_state t) in E. destruct ((sb_len s >? kBufferLength) || _) eqn:X.
  - pose proof (error_sim h t _ R) as S. unfold sim1 in S. rewrite E in S. exact S.
  - apply (loop_sim (Z.to_nat (sb_len s)) 256 h t (parser_at h t) s (shown h s) 0 tp' e R (placed_see h s P)); try assumption; try lia; [apply P|intros x C; apply N; apply arrays_slots; exists x; exact C|unfold kBufferLength in X; lia].
Qed.
Lemma reset_shared : forall h t tp', well_placed h t -> tp_reset (parser_at h t) = Ok tp' ->
  exists h' t', h_reset h t = Ok (h', t') /\ parser_at h' t' = tp' /\ well_placed h' t' /\ arrays t' = arrays t /\ (forall j, ~ In j (arrays t) -> nth_error h' j = nth_error h j).
Proof.
  intros h t tp' W E. pose proof (placed_rel h t W) as R. set (tp := parser_at h t) in *. unfold tp_reset in E. unfold h_reset.
  assert (B0 : forall b, berase (tp_buf tp) = Ok b -> 0 <= blen b /\ 0 <= bcap b) by (intros b Eb; exact (berase_sign _ _ Eb (proj2 (r_sign _ _ _ R None)))).
  pose proof (on_slot berase None h t tp R B0) as S1. unfold slot_sim0 in S1. cbn [tget hget] in S1. destruct (berase (tp_buf tp)) as [b1|]; [|discriminate]. destruct S1 as (h1 & s1 & S1 & R1 & K1). fold s_erase in S1. rewrite S1. cbn [bind hput tput] in *.
  pose proof (erase_slot DSec _ _ _ R1) as S2. unfold slot_sim0 in S2. cbn [hdest_get dest_get set_buf hset_buf tp_sec hp_sec] in S2. destruct (berase (tp_sec tp)) as [b2|]; [|discriminate]. destruct S2 as (h2 & s2 & S2 & R2 & K2). rewrite S2. cbn [bind hput tput hdest_set dest_set] in *.
  pose proof (erase_slot DKey _ _ _ R2) as S3. unfold slot_sim0 in S3. cbn [hdest_get dest_get set_buf hset_buf set_sec hset_sec tp_key hp_key] in S3. destruct (berase (tp_key tp)) as [b3|]; [|discriminate]. destruct S3 as (h3 & s3 & S3 & R3 & K3). rewrite S3. cbn [bind hput tput hdest_set dest_set] in *.
  pose proof (erase_slot DVal _ _ _ R3) as S4. unfold slot_sim0 in S4. cbn [hdest_get dest_get set_buf hset_buf set_sec hset_sec set_key hset_key tp_val hp_val] in S4. destruct (berase (tp_val tp)) as [b4|]; [|discriminate]. destruct S4 as (h4 & s4 & S4 & R4 & K4). rewrite S4. cbn [bind hput tput hdest_set dest_set] in *.
  injection E as <-. eexists _, _. split; [reflexivity|].
  pose proof (keeps_trans _ _ _ _ _ _ (keeps_trans _ _ _ _ _ _ (keeps_trans _ _ _ _ _ _ K1 K2) K3) K4) as K. destruct (keeps_arrays _ _ _ _ K) as (A1 & A2).
  destruct (rel_placed _ _ _ R4) as (P1 & P2). split; [|split; [exact P2|split; [exact A1|exact A2]]]. unfold parser_at in *. cbn [hp_state hp_cons hp_buf hp_sec hp_key hp_val]. f_equal; [exact (f_equal tp_buf P1)|exact (f_equal tp_sec P1)|exact (f_equal tp_key P1)|exact (f_equal tp_val P1)].
Qed.
