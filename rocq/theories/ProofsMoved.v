(* ProofsMoved.v -- proofs for C135. *)
From Verif Require Import ZLib SpecMoved ProofsShared.

Lemma upd_hit : forall A i (x y : A) l, nth_error l i = Some y -> nth_error (upd i x l) i = Some x.
Proof. intros A. induction i; intros x y [|z l] H; cbn in *; try discriminate; eauto. Qed.
Lemma upd_miss : forall A i k (x : A) l, k <> i -> nth_error (upd i x l) k = nth_error l k.
Proof. intros A. induction i; intros k x [|y l] H; destruct k; cbn; try reflexivity; try congruence. apply IHi. congruence. Qed.
Lemma upd_none : forall A i (x : A) l, nth_error l i = None -> upd i x l = l.
Proof. intros A. induction i; intros x [|y l] H; cbn in *; try discriminate; try reflexivity. f_equal. auto. Qed.

(** managers ss, holding the queues managed by gs *)
Definition tied (ow : holders) (ss gs : list sbuf) : Prop :=
  List.length ow = List.length ss /\ (forall i x, holds ow i = Some x -> exists s, nth_error ss i = Some s /\ nth_error gs x = Some s) /\
  (forall i j x, holds ow i = Some x -> holds ow j = Some x -> i = j).
Lemma tied_sat : forall ow ss gs i x s, tied ow ss gs -> holds ow i = Some x -> sat gs x = Ok s -> sat ss i = Ok s.
Proof.
  intros ow ss gs i x s (_ & T & _) H E. destruct (T _ _ H) as (s' & A & B). unfold sat in *. rewrite B in E. rewrite A. exact E.
Qed.
Lemma tied_upd : forall ow ss gs i x s, tied ow ss gs -> holds ow i = Some x -> tied ow (upd i s ss) (upd x s gs).
Proof.
  intros ow ss gs i x s (L & T & J) H. split; [rewrite upd_length; exact L|]. split; [|exact J]. intros j y Y. destruct (T _ _ H) as (s1 & A1 & B1). destruct (T _ _ Y) as (s2 & A2 & B2).
  destruct (Nat.eq_dec j i) as [->|N].
  - assert (y = x) by congruence. subst y. exists s. split; eapply upd_hit; eassumption.
  - exists s2. split; [rewrite upd_miss by exact N; exact A2|]. rewrite upd_miss; [exact B2|]. intros ->. apply N. eapply J; eassumption.
Qed.
Lemma bind_ok : forall A B (x : res A) (f : A -> res B) r, (a <- x ;; f a) = Ok r -> exists a, x = Ok a /\ f a = Ok r.
Proof. intros A B [a|u] f r H; [eauto|discriminate]. Qed.
Lemma renamed : forall ow o o' h ss gs h' gs' n, tied ow ss gs -> on_queues ow o = Some o' -> shared_step o' (h, gs) = Ok (h', gs', n) ->
  exists ss', shared_step o (h, ss) = Ok (h', ss', n) /\ tied ow ss' gs'.
Proof.
  intros ow o o' h ss gs h' gs' n T R E. destruct o as [[i j|i c|i m|i|i s|i j|i k c]|i j a e| |]; cbn [on_queues] in R; try discriminate R; unfold both, option_map in R.
  all: destruct (holds ow i) as [x|] eqn:Hi; try discriminate R; try (destruct (holds ow j) as [y|] eqn:Hj; try discriminate R); injection R as <-; cbn [shared_step plain_step] in E |- *.
  all: repeat match goal with
    | H : bind _ _ = Ok _ |- _ => apply bind_ok in H; let a := fresh "a" in let X := fresh "X" in destruct H as (a & X & H); cbn beta iota in H
    | H : (let '(_, _) := ?p in _) = Ok _ |- _ => destruct p; cbn beta iota in H
    end.
  all: injection E as <- <- <-.
  all: match goal with Hi : holds _ ?i = Some ?x, T : tied _ _ ?gs, H : sat ?gs ?x = Ok ?s |- context [sat _ ?i] => rewrite (tied_sat _ _ _ _ _ _ T Hi H); cbn [bind] end.
  all: try match goal with Hj : holds _ ?j = Some ?y, T : tied _ _ ?gs, H : sat ?gs ?y = Ok ?s |- context [sat _ ?j] => rewrite (tied_sat _ _ _ _ _ _ T Hj H); cbn [bind] end.
  all: repeat match goal with H : ?f = Ok _ |- context [bind ?f _] => rewrite H; cbn [bind] end.
  all: try (eexists; split; [reflexivity|]; apply tied_upd; assumption).
  match goal with H : sat (upd x ?s gs) y = Ok _ |- _ => rewrite (tied_sat _ _ _ _ _ _ (tied_upd _ _ _ _ _ s T Hi) Hj H) end. cbn [bind].
  repeat match goal with H : ?f = Ok _ |- context [bind ?f _] => rewrite H; cbn [bind] end.
  eexists. split; [reflexivity|]. apply tied_upd; [apply tied_upd; assumption|exact Hj].
Qed.
Lemma holds_upd : forall ow i x j, holds (upd i x ow) j = if Nat.eqb j i then match nth_error ow i with Some _ => x | None => None end else holds ow j.
Proof.
  intros ow i x j. unfold holds. destruct (Nat.eqb_spec j i) as [->|N]; [|rewrite upd_miss by exact N; reflexivity].
  destruct (nth_error ow i) as [y|] eqn:E; [erewrite upd_hit by exact E; reflexivity|]. rewrite upd_none by exact E. rewrite E. reflexivity.
Qed.
Lemma holds_in : forall ow i x, holds ow i = Some x -> nth_error ow i = Some (Some x).
Proof. intros ow i x H. unfold holds in H. destruct (nth_error ow i); [subst; reflexivity|discriminate]. Qed.
Lemma moved_step : forall o ow qs ow' qs' n h ss gs, tied ow ss gs -> arranged h gs -> Forall2 (cleanly h) gs qs -> ideal_mv o (ow, qs) = Some (ow', qs', n) ->
  exists h' ss' gs', mv_step o (h, ss) = Ok (h', ss', n) /\ tied ow' ss' gs' /\ arranged h' gs' /\ Forall2 (cleanly h') gs' qs' /\ same_places gs gs' /\ frame gs h h'.
Proof.
  intros o ow qs ow' qs' n h ss gs T A C E. destruct o as [o|i j|j]; cbn [ideal_mv mv_step] in *.
  - destruct (on_queues ow o) as [o'|] eqn:R; [|discriminate]. destruct (ideal_shop o' qs) as [[q1 n1]|] eqn:I; [|discriminate]. injection E as <- <- <-.
    destruct (shop_step o' h gs qs q1 n1 A C I) as (h' & gs' & S & C' & A' & P & F). destruct (renamed _ _ _ _ _ _ _ _ _ T R S) as (ss' & S' & T'). exists h', ss', gs'. repeat (split; [assumption|]). exact F.
  - destruct (nth_error ow i) as [z|] eqn:Ni; [|discriminate]. destruct (holds ow j) as [q|] eqn:Hj; [|discriminate]. injection E as <- <- <-.
    destruct T as (L & T & J). destruct (T _ _ Hj) as (t & Sj & Gq). assert (Si : exists s, nth_error ss i = Some s).
    { destruct (nth_error ss i) as [s|] eqn:X; [eauto|]. exfalso. apply nth_error_None in X. rewrite <- L in X. apply nth_error_None in X. congruence. }
    destruct Si as (s & Si). unfold sat. rewrite Si, Sj. cbn [bind]. exists h, (upd i t ss), gs. split; [reflexivity|].
    split; [|split; [exact A|split; [exact C|split; [apply places_refl|apply frame_refl]]]].
    assert (HH : forall k x, holds (upd i (Some q) (upd j None ow)) k = Some x -> (k = i /\ x = q) \/ (k <> i /\ k <> j /\ holds ow k = Some x)).
    { intros k x. rewrite holds_upd. destruct (Nat.eqb_spec k i) as [->|K1]; [intros H; left; split; [reflexivity|]; destruct (nth_error (upd j None ow) i); congruence|].
      rewrite holds_upd. destruct (Nat.eqb_spec k j) as [->|K2]; [destruct (nth_error ow j); discriminate|]. right. auto. }
    split; [rewrite !upd_length; exact L|]. split.
    + intros k x H. destruct (HH k x H) as [(-> & ->)|(K1 & K2 & K3)]; [exists t; split; [eapply upd_hit; exact Si|exact Gq]|]. rewrite upd_miss by exact K1. apply T. exact K3.
    + intros k l x H1 H2. destruct (HH _ _ H1) as [(-> & ->)|(K1 & K2 & K3)]; destruct (HH _ _ H2) as [(-> & E2)|(K4 & K5 & K6)]; try reflexivity; try subst x.
      * exfalso. apply K5. eapply J; eassumption.
      * exfalso. apply K2. eapply J; eassumption.
      * eapply J; eassumption.
  - destruct (holds ow j) as [q|] eqn:Hj; [|discriminate]. injection E as <- <- <-. destruct T as (L & T & J). destruct (T _ _ Hj) as (t & Sj & Gq). unfold sat. rewrite Sj. cbn [bind].
    exists h, (ss ++ [t]), gs. split; [reflexivity|]. split; [|split; [exact A|split; [exact C|split; [apply places_refl|apply frame_refl]]]].
    assert (HH : forall k x, holds (upd j None ow ++ [Some q]) k = Some x -> (k = List.length ss /\ x = q) \/ ((k < List.length ss)%nat /\ k <> j /\ holds ow k = Some x)).
    { intros k x. unfold holds at 1. destruct (Nat.lt_ge_cases k (List.length ss)) as [K|K].
      - rewrite nth_error_app1 by (rewrite upd_length, L; exact K). fold (holds (upd j None ow) k). rewrite holds_upd. destruct (Nat.eqb_spec k j) as [->|K2]; [destruct (nth_error ow j); discriminate|]. right. auto.
      - rewrite nth_error_app2 by (rewrite upd_length, L; exact K). rewrite upd_length, L. destruct (k - List.length ss)%nat as [|[|d]] eqn:D; cbn; try discriminate. intros H. left. split; [lia|congruence]. }
    split; [rewrite !app_length, upd_length, L; reflexivity|]. split.
    + intros k x H. destruct (HH k x H) as [(-> & ->)|(K1 & K2 & K3)].
      * exists t. split; [|exact Gq]. rewrite nth_error_app2, Nat.sub_diag by lia. reflexivity.
      * rewrite nth_error_app1 by exact K1. apply T. exact K3.
    + intros k l x H1 H2. destruct (HH _ _ H1) as [(-> & ->)|(K1 & K2 & K3)]; destruct (HH _ _ H2) as [(-> & E2)|(K4 & K5 & K6)]; try reflexivity; try subst x.
      * exfalso. apply K5. eapply J; eassumption.
      * exfalso. apply K2. eapply J; eassumption.
      * eapply J; eassumption.
Qed.
Lemma moved_run : forall l ow qs ow' qs' ns h ss gs, tied ow ss gs -> arranged h gs -> Forall2 (cleanly h) gs qs -> ideal_mvs l (ow, qs) = Some (ow', qs', ns) ->
  exists h' ss' gs', mv_run l (h, ss) = Ok (h', ss', ns) /\ tied ow' ss' gs' /\ arranged h' gs' /\ Forall2 (cleanly h') gs' qs' /\ same_places gs gs' /\ frame gs h h'.
Proof.
  induction l as [|o l IH]; intros ow qs ow' qs' ns h ss gs T A C E; cbn [ideal_mvs mv_run] in *.
  - injection E as <- <- <-. exists h, ss, gs. repeat (split; [assumption||reflexivity|]). split; [apply places_refl|apply frame_refl].
  - destruct (ideal_mv o (ow, qs)) as [[[ow1 qs1] n]|] eqn:E1; [|discriminate]. destruct (ideal_mvs l (ow1, qs1)) as [[[ow2 qs2] ns2]|] eqn:E2; [|discriminate]. injection E as <- <- <-.
    destruct (moved_step _ _ _ _ _ _ _ _ _ T A C E1) as (h1 & ss1 & gs1 & S1 & T1 & A1 & C1 & P1 & F1).
    destruct (IH _ _ _ _ _ _ _ _ T1 A1 C1 E2) as (h2 & ss2 & gs2 & S2 & T2 & A2 & C2 & P2 & F2).
    exists h2, ss2, gs2. rewrite S1. cbn [bind]. rewrite S2. cbn [bind]. split; [reflexivity|]. split; [exact T2|]. split; [exact A2|]. split; [exact C2|].
    split; [eapply places_trans; eassumption|eapply frame_trans; eassumption].
Qed.
Lemma own_tied : forall ss, tied (own_queues (List.length ss)) ss ss.
Proof.
  intros ss. unfold own_queues. assert (H : forall i x, holds (map Some (seq 0 (List.length ss))) i = Some x -> x = i /\ (i < List.length ss)%nat).
  { intros i x H. apply holds_in in H. rewrite nth_error_map in H. destruct (nth_error (seq 0 (List.length ss)) i) as [y|] eqn:E; [|discriminate]. injection H as ->.
    assert (L : (i < List.length (seq 0 (List.length ss)))%nat) by (apply nth_error_Some; congruence). rewrite seq_length in L.
    pose proof (@seq_nth (List.length ss) 0%nat i 0%nat L) as S. rewrite (nth_error_nth _ _ 0%nat E) in S. split; [exact S|exact L]. }
  split; [rewrite map_length, seq_length; reflexivity|]. split.
  - intros i x X. destruct (H _ _ X) as (-> & L). destruct (nth_error ss i) as [s|] eqn:E; [eauto|]. apply nth_error_None in E. lia.
  - intros i j x X Y. destruct (H _ _ X), (H _ _ Y). congruence.
Qed.

Lemma moving : forall l h ss qs ow qs' ns, arranged h ss -> Forall2 (cleanly h) ss qs -> ideal_mvs l (own_queues (List.length ss), qs) = Some (ow, qs', ns) ->
  exists h' ss' gs, mv_run l (h, ss) = Ok (h', ss', ns) /\ (forall i x, holds ow i = Some x -> exists s, nth_error ss' i = Some s /\ nth_error gs x = Some s) /\
    Forall2 (cleanly h') gs qs' /\ map sb_ptr gs = map sb_ptr ss /\ map sb_cap gs = map sb_cap ss /\ arranged h' gs /\
    forall p, Forall (fun s => ~ covers s p) ss -> byte_at h' p = byte_at h p.
Proof.
  intros l h ss qs ow qs' ns A C E. destruct (moved_run _ _ _ _ _ _ h ss ss (own_tied ss) A C E) as (h' & ss' & gs & R & (_ & T & _) & A' & C' & (P1 & P2) & (F & _)).
  exists h', ss', gs. split; [exact R|]. split; [exact T|]. split; [exact C'|]. split; [exact P1|]. split; [exact P2|]. split; [exact A'|exact F].
Qed.
Lemma move_copies : forall h ss i j s t, nth_error ss i = Some s -> nth_error ss j = Some t ->
  exists ss', mv_run [MoveInto i j] (h, ss) = Ok (h, ss', [0]) /\ nth_error ss' i = Some t /\ nth_error ss' j = Some t /\ forall k, k <> i -> nth_error ss' k = nth_error ss k.
Proof.
  intros h ss i j s t I J. exists (upd i t ss). cbn [mv_run mv_step]. unfold sat. rewrite I, J. cbn [bind]. split; [reflexivity|]. split; [eapply upd_hit; exact I|]. split; [|intros k K; apply upd_miss; exact K].
  destruct (Nat.eq_dec j i) as [->|N]; [eapply upd_hit; exact I|]. rewrite upd_miss by exact N. exact J.
Qed.
Lemma swapped : forall h ss i j s t, nth_error ss i = Some s -> nth_error ss j = Some t ->
  exists ss', mv_run (swap_ops (List.length ss) i j) (h, ss) = Ok (h, ss', [0; 0; 0]) /\ nth_error ss' i = Some t /\ nth_error ss' j = Some s /\
    forall k, k <> i -> k <> j -> (k < List.length ss)%nat -> nth_error ss' k = nth_error ss k.
Proof.
  intros h ss i j s t I J. assert (LI : (i < List.length ss)%nat) by (apply nth_error_Some; congruence). assert (LJ : (j < List.length ss)%nat) by (apply nth_error_Some; congruence).
  set (s1 := ss ++ [s]). assert (I1 : nth_error s1 i = Some s) by (unfold s1; rewrite nth_error_app1 by exact LI; exact I). assert (J1 : nth_error s1 j = Some t) by (unfold s1; rewrite nth_error_app1 by exact LJ; exact J).
  assert (N1 : nth_error s1 (List.length ss) = Some s) by (unfold s1; rewrite nth_error_app2, Nat.sub_diag by lia; reflexivity).
  set (s2 := upd i t s1). assert (J2 : exists u, nth_error s2 j = Some u).
  { unfold s2. destruct (Nat.eq_dec j i) as [->|N]; [eexists; eapply upd_hit; exact I1|]. rewrite upd_miss by exact N. eauto. }
  destruct J2 as (u & J2). assert (N2 : nth_error s2 (List.length ss) = Some s) by (unfold s2; rewrite upd_miss by lia; exact N1).
  exists (upd j s s2). unfold swap_ops. cbn [mv_run mv_step]. unfold sat. rewrite I. cbn [bind]. fold s1. rewrite I1, J1. cbn [bind]. fold s2. rewrite J2, N2. cbn [bind]. split; [reflexivity|].
  split; [|split; [eapply upd_hit; exact J2|]].
  - destruct (Nat.eq_dec i j) as [->|N].
    + assert (s = t) by congruence. subst t. eapply upd_hit. exact J2.
    + rewrite upd_miss by exact N. unfold s2. eapply upd_hit. exact I1.
  - intros k K1 K2 K3. rewrite upd_miss by exact K2. unfold s2. rewrite upd_miss by exact K1. unfold s1. apply nth_error_app1. exact K3.
Qed.
