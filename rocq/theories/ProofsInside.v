(* ProofsInside.v -- lemmas for C118: a user consumer that calls back while it is handed a line. *)
From Verif Require Import ZLib SpecInside ProofsWorld ProofsCrc ProofsText ProofsStation ProofsStream ProofsSafe ProofsRequest ProofsReentry ProofsPassive ProofsCallback.

(** ** Sizes of the buffers never change *)
Definition sized (n : nat) (b : bufm) : Prop := List.length (mem b) = n /\ bcap b = Z.of_nat n /\ 0 <= blen b.
Definition shape (t : TP) : Prop := sized 31 (tp_buf t) /\ sized max_section (tp_sec t) /\ sized max_key (tp_key t) /\ sized max_value (tp_val t).
Lemma wr_len : forall m off y m', wr m off y = Ok m' -> List.length m' = List.length m.
Proof.
  intros m off y m' H. unfold wr in H. destruct ((0 <=? off) && (off + zlen y <=? zlen m)) eqn:E; [|discriminate]. injection H as <-.
  apply andb_prop in E. destruct E as [E1 E2]. unfold zlen in *. rewrite !app_length, firstn_length, skipn_length. lia.
Qed.
Lemma u8_pos : forall x, 0 <= u8 x. Proof. intros x. unfold u8. apply Z.mod_pos_bound. lia. Qed.
Lemma zb_sized : forall n l, (List.length l <= n)%nat -> sized n (zb n l).
Proof. intros n l H. unfold sized, zb. cbn [mem blen bcap]. rewrite app_length, repeat_length. unfold zlen. split; [lia|]. split; [reflexivity|lia]. Qed.
Lemma erase_sized : forall n b b', sized n b -> berase b = Ok b' -> b' = zb n [].
Proof.
  intros n b b' (L & C & _) H. unfold berase in H. rewrite C, Nat2Z.id in H. unfold wr in H. rewrite Z.leb_refl in H. cbn [andb] in H.
  replace (0 + zlen (repeat 0 n) <=? zlen (mem b)) with true in H by (symmetry; apply Z.leb_le; unfold zlen; rewrite repeat_length; lia).
  cbn [bind] in H. injection H as <-. unfold zb. rewrite repeat_length. rewrite skipn_all2 by (cbn; lia). cbn. rewrite app_nil_r, Nat.sub_0_r. reflexivity.
Qed.
Lemma sized_erase : forall n b, sized n b -> berase b = Ok (zb n []).
Proof.
  intros n b (L & C & P). destruct (berase b) as [b'|u] eqn:E; [f_equal; eapply erase_sized; [|exact E]; repeat split; assumption|].
  unfold berase in E. rewrite C, Nat2Z.id in E. unfold wr in E. rewrite Z.leb_refl in E. cbn [andb] in E.
  replace (0 + zlen (repeat 0 n) <=? zlen (mem b)) with true in E by (symmetry; apply Z.leb_le; unfold zlen; rewrite repeat_length; lia). discriminate.
Qed.
Lemma push_sized : forall n b o b' k, sized n b -> bpush b o = Ok (b', k) -> sized n b'.
Proof.
  intros n b o b' k (L & C & P) H. unfold bpush in H. destruct (rd_blk (mem o) 0 _) as [bs|]; cbn [bind] in H; [|discriminate].
  destruct (wr (mem b) (blen b) bs) as [m|] eqn:W; cbn [bind] in H; [|discriminate]. injection H as <- _. split; [cbn; rewrite (wr_len _ _ _ _ W); exact L|]. split; [exact C|apply u8_pos].
Qed.
Lemma set_sized : forall n b s b', sized n b -> bset b s = Ok b' -> sized n b'.
Proof.
  intros n b s b' D H. unfold bset in H. rewrite (sized_erase _ _ D) in H. cbn [bind] in H. unfold c_strncpy in H.
  destruct (zlen (mem (zb n [])) <? to_size_t (bcap b - 1)); [discriminate|]. destruct (strncpy_bytes s _) as [bs|]; cbn [bind] in H; [|discriminate].
  destruct (wr (mem (zb n [])) 0 bs) as [m|] eqn:W; cbn [bind] in H; [|discriminate]. destruct (c_strlen m) as [k|]; cbn [bind] in H; [|discriminate]. injection H as <-.
  split; [cbn [mem]; rewrite (wr_len _ _ _ _ W); apply (zb_sized n []); cbn; lia|]. split; [apply D|apply u8_pos].
Qed.
Lemma find_loop_pos : forall n m hit i f, 0 <= i -> bfind_loop m hit i n = Ok f -> 0 <= f.
Proof.
  induction n; intros m hit i f I H; cbn [bfind_loop] in H; [injection H as <-; unfold npos; lia|].
  destruct (rd m i) as [ch|]; cbn [bind] in H; [|discriminate]. destruct (hit ch); [injection H as <-; exact I|]. apply (IHn m hit (i + 1) f); [lia|exact H].
Qed.
Lemma find_pos : forall b cs o f, 0 <= o -> bfind_chars b cs o = Ok f -> 0 <= f.
Proof.
  intros b cs o f I H. unfold bfind_chars in H. destruct (o >=? blen b); [injection H as <-; unfold npos; lia|].
  destruct (c_strlen cs) as [n|]; cbn [bind] in H; [|discriminate]. eapply find_loop_pos; eassumption.
Qed.
Lemma reset_shape : forall t, shape t -> tp_reset t = Ok tp_new.
Proof. intros t (A & B & C & D). unfold tp_reset. rewrite (sized_erase _ _ A), (sized_erase _ _ B), (sized_erase _ _ C), (sized_erase _ _ D). reflexivity. Qed.
Lemma parser_shape : forall a c, fits a -> shape (parser a c).
Proof. intros a c (A & B & C). unfold shape, parser. cbn [tp_buf tp_sec tp_key tp_val]. repeat split; try (apply zb_sized; cbn; lia); try (apply zb_sized; assumption). Qed.

(** ** The text of a frame up to the first line *)
Section First.
Variable lw : Z.
Variable react : list event -> code.
Variable inner : code -> ract unit.
Variable p : nat.
Variable w : world.
Variable sp : SP.
Variable tr : list event.
Variable c : nat.
Hypothesis IN : inside w p.
Hypothesis UC : get_cons c w = Ok UserC.
Definition St (t : TP) : rst := mkR (wt w p sp t) tr.
(** the text parser is as after reset *)
Definition fresh (x : option nat) (s : rst) : Prop := rtp p s = (Ok (parser astart x), s) /\ rtp_put p (parser astart x) s = (Ok tt, s).
Definition tell (t : TP) : res unit * rst := ucall react inner (EvConsume c (tp_sec t) (tp_key t) (tp_val t)) (St t).
(** action h does the same as the pure function up to the first line it reports; a callback that
    leaves the text parser fresh is then the last thing to have an effect *)
Definition first {R} (G1 G2 : R -> Prop) (t : TP) (r : res (TP * list triple * R)) (h : ract R) : Prop :=
  forall t' evs y, shape t -> tp_cons t = Some c -> r = Ok (t', evs, y) ->
  (evs = [] /\ h (St t) = (Ok y, St t') /\ shape t' /\ tp_cons t' = Some c /\ G1 y) \/
  (exists t1 rest, evs = (tp_sec t1, tp_key t1, tp_val t1) :: rest /\ shape t1 /\ tp_cons t1 = Some c /\
    forall s1 x, fresh x s1 -> tell t1 = (Ok tt, s1) -> exists y', G2 y' /\ h (St t) = (Ok y', s1)).

Lemma fresh_read : forall A x s (k : TP -> ract A), fresh x s -> (t <~ rtp p ~; k t) s = k (parser astart x) s.
Proof. intros A x s k (F & _). unfold rbind. rewrite F. reflexivity. Qed.
Lemma fresh_write : forall A x s (k : ract A), fresh x s -> (rtp_put p (parser astart x) ~;; k) s = k s.
Proof. intros A x s k (_ & F). unfold rbind. rewrite F. reflexivity. Qed.
Lemma bind_ok : forall A B (a : ract A) (f : A -> ract B) s x s1, a s = (Ok x, s1) -> rbind a f s = f x s1.
Proof. intros A B a f s x s1 H. unfold rbind. rewrite H. reflexivity. Qed.
Lemma report_tell : forall t, tp_cons t = Some c -> rtp_report lw react inner p (St t) = tell t.
Proof.
  intros t C. unfold rtp_report, St. rewrite read_tp by exact IN. rewrite C. cbn [rwhen_some]. unfold rcons_consume, rbind at 1, rask at 1. cbn [r_w].
  change (get_cons c (wt w p sp t)) with (get_cons c w). rewrite UC. reflexivity.
Qed.
Lemma error_first : forall t, first (fun _ : unit => False) (fun _ => True) t (noval (tp_reportParseError t)) (rtp_reportParseError lw react inner p).
Proof.
  intros t t' evs y SH C H. right. unfold noval, tp_reportParseError in H. unfold rtp_reportParseError, St. rewrite read_tp by exact IN.
  destruct SH as (S0 & S1 & S2 & S3).
  destruct (bset (tp_sec (set_state t ERROR)) (lit "ERROR")) as [s|] eqn:E1; cbn [bind] in H; [|discriminate].
  destruct (bset (tp_key (set_state t ERROR)) (lit "ERROR")) as [k|] eqn:E2; cbn [bind] in H; [|discriminate].
  destruct (bset (tp_val (set_state t ERROR)) (lit "ERROR")) as [v|] eqn:E3; cbn [bind] in H; [|discriminate].
  set (t1 := set_val (set_key (set_sec (set_state t ERROR) s) k) v) in *.
  assert (C1 : tp_cons t1 = Some c) by exact C. unfold tp_emit in H. rewrite C1 in H. injection H as <- <- _.
  exists t1, []. split; [reflexivity|]. split; [split; [exact S0|]; split; [exact (set_sized _ _ _ _ S1 E1)|]; split; [exact (set_sized _ _ _ _ S2 E2)|exact (set_sized _ _ _ _ S3 E3)]|].
  split; [exact C1|]. intros s1 x F T. exists tt. split; [exact Logic.I|]. erewrite then_val by reflexivity. rewrite then_write by exact IN. fold t1. fold (St t1). rewrite report_tell by exact C1. exact T.
Qed.
Definition okf (r : FindTokenResult) : Prop := 0 <= ft_consumed r.
Definition failf (r : FindTokenResult) : Prop := 0 <= ft_consumed r /\ ft_success r = false.
Lemma find_first : forall t o cs d, 0 <= o -> first okf failf t (tp_findToken t o cs d) (rtp_findToken lw react inner p o cs d).
Proof.
  intros t o cs d O t' evs y SH C H. unfold tp_findToken in H. unfold rtp_findToken, St. rewrite read_tp by exact IN.
  destruct (bfind_chars (tp_buf t) cs o) as [found|] eqn:F; cbn [bind] in H; [|discriminate]. pose proof (find_pos _ _ _ _ O F) as FP.
  destruct (if found =? npos then Ok (blen (tp_buf t), false, 0) else ch <- bget (tp_buf t) found;; Ok (found, true, ch)) as [[[consumed success] mch]|] eqn:G; cbn [bind] in H; [|discriminate].
  assert (CP : 0 <= consumed).
  { destruct (found =? npos); [injection G as <- _ _; apply SH|]. destruct (bget (tp_buf t) found); [injection G as <- _ _; exact FP|discriminate]. }
  assert (P2 : forall b : bool, 0 <= (if b then u8 (consumed + 1) else consumed)) by (intros [|]; [apply u8_pos|exact CP]).
  erewrite then_val by (cbn [bind]; exact G). destruct d as [d|].
  - destruct (bsub (tp_buf t) o consumed) as [partial|] eqn:B; cbn [bind] in H; [|discriminate].
    destruct (bpush (dest_get t d) partial) as [[b' pushed]|] eqn:P; cbn [bind] in H; [|discriminate].
    rewrite bind_assoc. erewrite then_val by (cbn [bind]; rewrite P; cbn [bind]; reflexivity). cbn [fst snd].
    rewrite bind_assoc. rewrite then_write by exact IN. fold (St (dest_set t d b')).
    assert (SH1 : shape (dest_set t d b')).
    { destruct SH as (S0 & S1 & S2 & S3). destruct d; cbn [dest_get dest_set] in *; split; try exact S0; repeat split; try (apply S1); try apply S2; try apply S3; first [apply (push_sized _ _ _ _ _ S1 P)|apply (push_sized _ _ _ _ _ S2 P)|apply (push_sized _ _ _ _ _ S3 P)]. }
    assert (C1 : tp_cons (dest_set t d b') = Some c) by (destruct d; exact C).
    destruct (pushed <? blen partial) eqn:Q.
    + destruct (tp_reportParseError (dest_set t d b')) as [[t1 e1]|] eqn:RE; cbn [bind] in H; [|discriminate]. injection H as <- <- <-.
      assert (RE' : noval (tp_reportParseError (dest_set t d b')) = Ok (t1, e1, tt)) by (rewrite RE; reflexivity).
      destruct (error_first (dest_set t d b') t1 e1 tt SH1 C1 RE') as [(_ & _ & _ & _ & [])|(t2 & rest & -> & SH2 & C2 & K)]. right.
      exists t2, rest. split; [reflexivity|]. split; [exact SH2|]. split; [exact C2|]. intros s1 x FR T. destruct (K s1 x FR T) as ([] & _ & K1).
      eexists. split; [|rewrite bind_assoc; rewrite (bind_ok _ _ _ _ _ _ _ K1); reflexivity]. split; [exact CP|reflexivity].
    + cbn [bind] in H. injection H as <- <- <-. left. split; [reflexivity|]. split; [reflexivity|]. split; [exact SH1|]. split; [exact C1|]. apply P2.
  - cbn [bind] in H. injection H as <- <- <-. left. split; [reflexivity|]. split; [reflexivity|]. split; [exact SH|]. split; [exact C|]. apply P2.
Qed.
Lemma read_st : forall A t (k : TP -> ract A), (x <~ rtp p ~; k x) (St t) = k t (St t).
Proof. intros. apply read_tp. exact IN. Qed.
Lemma write_st : forall A t t' (k : ract A), (rtp_put p t' ~;; k) (St t) = k (St t').
Proof. intros. apply then_write. exact IN. Qed.
Lemma put_st : forall t t', rtp_put p t' (St t) = (Ok tt, St t').
Proof. intros. apply write_tp. exact IN. Qed.
Definition oki (r : Z * bool) : Prop := 0 <= fst r.
Ltac fin := split; [reflexivity|split; [reflexivity|]].
Lemma iteration_first : forall t n, 0 <= n -> first oki oki t ('(t, e, m, r) <- tp_iteration t n ;; Ok (t, e, (m, r))) (rtp_iteration lw react inner p n).
Proof.
  intros t n N t' evs y SH C E.
  destruct (tp_iteration t n) as [[[[t0 e0] c0] r0]|] eqn:H; cbn [bind] in E; [|discriminate]. injection E as -> -> <-.
  unfold tp_iteration in H. unfold rtp_iteration. rewrite read_st. destruct (tp_state t).
  - destruct (tp_findToken t n kKeyOrSectionStart None) as [[[t1 e1] r]|] eqn:E1; cbn [bind] in H; [|discriminate].
    assert (e1 = []).
    { unfold tp_findToken in E1. destruct (bfind_chars (tp_buf t) kKeyOrSectionStart n) as [f|]; cbn [bind] in E1; [|discriminate].
      destruct (if f =? npos then _ else _) as [[[? ?] ?]|]; cbn [bind] in E1; [|discriminate]. inversion E1; reflexivity. } subst e1.
    destruct (find_first t n kKeyOrSectionStart None N _ _ _ SH C E1) as [(_ & K & SH1 & C1 & G)|(? & ? & Q & _)]; [|discriminate].
    rewrite (bind_ok _ _ _ _ _ _ _ K). destruct (ft_success r).
    + rewrite read_st. destruct (bget (tp_buf t1) (u8 (ft_consumed r - 1))) as [ch|] eqn:B; cbn [bind] in H; [|discriminate].
      erewrite then_val by reflexivity. destruct SH1 as (S0 & S1 & S2 & S3). destruct (ch =? kSectionStart).
      * destruct (berase (tp_sec t1)) as [s|] eqn:BE; cbn [bind] in H; [|discriminate]. injection H as <- <- <- <-. left. split; [reflexivity|].
        erewrite then_val by reflexivity. rewrite write_st. split; [reflexivity|].
        pose proof (erase_sized _ _ _ S1 BE) as ->. split; [split; [exact S0|]; split; [apply zb_sized; cbn; lia|]; split; assumption|]. split; [exact C1|exact G].
      * cbn [bind] in H. destruct (ch =? kKeyStart).
        -- injection H as <- <- <- <-. left. split; [reflexivity|]. rewrite write_st. split; [reflexivity|].
           split; [split; [exact S0|]; split; [exact S1|]; split; assumption|]. split; [exact C1|exact G].
        -- destruct (tp_reportParseError t1) as [[t2 e2]|] eqn:RE; cbn [bind] in H; [|discriminate]. injection H as <- <- <- <-. cbn [app].
           assert (RE' : noval (tp_reportParseError t1) = Ok (t2, e2, tt)) by (rewrite RE; reflexivity).
           destruct (error_first t1 t2 e2 tt (conj S0 (conj S1 (conj S2 S3))) C1 RE') as [(_ & _ & _ & _ & [])|(t3 & rest & -> & SH2 & C2 & K2)]. right.
           exists t3, rest. split; [reflexivity|]. split; [exact SH2|]. split; [exact C2|]. intros s1 x FR T. destruct (K2 s1 x FR T) as ([] & _ & K3).
           exists (n, true). split; [exact N|]. rewrite (bind_ok _ _ _ _ _ _ _ K3). reflexivity.
    + injection H as <- <- <- <-. left. fin. split; [exact SH1|]. split; [exact C1|exact G].
  - destruct (tp_findToken t n kSectionStop (Some DSec)) as [[[t1 e1] r]|] eqn:E1; cbn [bind] in H; [|discriminate]. injection H as <- <- <- <-.
    destruct (find_first t n _ _ N _ _ _ SH C E1) as [(-> & K & SH1 & C1 & G)|(t2 & rest & -> & SH2 & C2 & K2)].
    + left. split; [reflexivity|]. rewrite (bind_ok _ _ _ _ _ _ _ K). destruct (ft_success r).
      * rewrite bind_assoc. rewrite read_st. rewrite write_st. split; [reflexivity|]. split; [exact SH1|]. split; [exact C1|exact G].
      * split; [reflexivity|]. split; [exact SH1|]. split; [exact C1|exact G].
    + right. exists t2, rest. split; [reflexivity|]. split; [exact SH2|]. split; [exact C2|]. intros s1 x FR T. destruct (K2 s1 x FR T) as (r' & (G & SF) & K3).
      exists (ft_consumed r', false). split; [exact G|]. rewrite (bind_ok _ _ _ _ _ _ _ K3), SF. reflexivity.
  - destruct (tp_findToken t n kKeyOrValueStop (Some DKey)) as [[[t1 e1] r]|] eqn:E1; cbn [bind] in H; [|discriminate].
    destruct (find_first t n _ _ N _ _ _ SH C E1) as [(-> & K & SH1 & C1 & G)|(t2 & rest & -> & SH2 & C2 & K2)].
    + rewrite (bind_ok _ _ _ _ _ _ _ K). destruct (ft_success r) eqn:SU.
      * destruct SH1 as (S0 & S1 & S2 & S3). destruct (ft_match r =? kKeyStop) eqn:M1.
        -- injection H as <- <- <- <-. left. split; [reflexivity|]. rewrite bind_assoc. rewrite read_st. rewrite ?M1. rewrite write_st.
           split; [reflexivity|]. split; [split; [exact S0|]; split; [exact S1|]; split; assumption|]. split; [exact C1|exact G].
        -- destruct (ft_match r =? kValueStop) eqn:M2.
           ++ rewrite (sized_erase _ _ S3) in H. cbn [bind] in H. cbn [tp_key set_val] in H. rewrite (sized_erase _ _ S2) in H. cbn [bind] in H. injection H as <- <- <- <-.
              set (t2 := set_val t1 (zb max_value [])). assert (C2 : tp_cons t2 = Some c) by exact C1. right.
              exists t2, []. split; [cbn [app]; unfold tp_emit; fold t2; rewrite C2; reflexivity|].
              split; [split; [exact S0|]; split; [exact S1|]; split; [exact S2|apply zb_sized; cbn; lia]|]. split; [exact C2|].
              intros s1 x FR T. exists (ft_consumed r, false). split; [exact G|]. rewrite bind_assoc. rewrite read_st. rewrite ?M1, ?M2.
              rewrite bind_assoc. erewrite then_val by exact (sized_erase _ _ S3). rewrite bind_assoc, write_st. fold t2. rewrite bind_assoc.
              rewrite <- (report_tell t2 C2) in T. rewrite (bind_ok _ _ _ _ _ _ _ T). rewrite bind_assoc, (fresh_read _ _ _ _ FR), bind_assoc.
              erewrite then_val by reflexivity. exact (fresh_write _ x s1 _ FR).
           ++ injection H as <- <- <- <-. left. split; [reflexivity|]. rewrite bind_assoc. rewrite read_st. rewrite ?M1, ?M2.
              split; [reflexivity|]. split; [split; [exact S0|]; split; [exact S1|]; split; assumption|]. split; [exact C1|exact G].
      * injection H as <- <- <- <-. left. fin. split; [exact SH1|]. split; [exact C1|exact G].
    + right. exists t2. assert (X : exists rest', evs = (tp_sec t2, tp_key t2, tp_val t2) :: rest').
      { destruct (ft_success r); [|injection H as _ <- _ _; eauto]. destruct (ft_match r =? kKeyStop); [injection H as _ <- _ _; eauto|].
        destruct (ft_match r =? kValueStop); [|injection H as _ <- _ _; eauto]. destruct (berase (tp_val t1)); cbn [bind] in H; [|discriminate].
        destruct (berase _); cbn [bind] in H; [|discriminate]. injection H as _ <- _ _. cbn [app]. eauto. }
      destruct X as (rest' & X). exists rest'. split; [exact X|]. split; [exact SH2|]. split; [exact C2|]. intros s1 x FR T. destruct (K2 s1 x FR T) as (r' & (G & SF) & K3).
      exists (ft_consumed r', false). split; [exact G|]. rewrite (bind_ok _ _ _ _ _ _ _ K3), SF. reflexivity.
  - destruct (tp_findToken t n kValueStop_str (Some DVal)) as [[[t1 e1] r]|] eqn:E1; cbn [bind] in H; [|discriminate].
    destruct (find_first t n _ _ N _ _ _ SH C E1) as [(-> & K & SH1 & C1 & G)|(t2 & rest & -> & SH2 & C2 & K2)].
    + rewrite (bind_ok _ _ _ _ _ _ _ K). destruct (ft_success r) eqn:SU.
      * destruct SH1 as (S0 & S1 & S2 & S3). rewrite (sized_erase _ _ S2) in H. cbn [bind] in H. rewrite (sized_erase _ _ S3) in H. cbn [bind] in H. injection H as <- <- <- <-. right.
        exists t1, []. split; [cbn [app]; unfold tp_emit; rewrite C1; reflexivity|]. split; [split; [exact S0|]; split; [exact S1|]; split; assumption|]. split; [exact C1|].
        intros s1 x FR T. exists (ft_consumed r, false). split; [exact G|]. rewrite bind_assoc. rewrite <- (report_tell t1 C1) in T. rewrite (bind_ok _ _ _ _ _ _ _ T).
        rewrite bind_assoc, (fresh_read _ _ _ _ FR), bind_assoc. erewrite then_val by reflexivity. rewrite bind_assoc. erewrite then_val by reflexivity. exact (fresh_write _ x s1 _ FR).
      * injection H as <- <- <- <-. left. fin. split; [exact SH1|]. split; [exact C1|exact G].
    + right. exists t2. assert (X : exists rest', evs = (tp_sec t2, tp_key t2, tp_val t2) :: rest').
      { destruct (ft_success r); [|injection H as _ <- _ _; eauto]. destruct (berase _); cbn [bind] in H; [|discriminate]. destruct (berase _); cbn [bind] in H; [|discriminate].
        injection H as _ <- _ _. cbn [app]. eauto. }
      destruct X as (rest' & X). exists rest'. split; [exact X|]. split; [exact SH2|]. split; [exact C2|]. intros s1 x FR T. destruct (K2 s1 x FR T) as (r' & (G & SF) & K3).
      exists (ft_consumed r', false). split; [exact G|]. rewrite (bind_ok _ _ _ _ _ _ _ K3), SF. reflexivity.
  - injection H as <- <- <- <-. left. fin. split; [exact SH|]. split; [exact C|]. apply SH.
Qed.
Lemma process_first : forall fuel t n, 0 <= n -> first (fun m => 0 <= m) (fun m => 0 <= m) t (tp_process fuel t n) (rtp_process lw react inner p fuel n).
Proof.
  induction fuel; intros t n N t' evs y SH C E; cbn [tp_process rtp_process] in *; rewrite read_st.
  - destruct (n <? blen (tp_buf t)); [discriminate|]. injection E as <- <- <-. left. fin. auto.
  - destruct (n <? blen (tp_buf t)).
    + destruct (tp_iteration t n) as [[[[t1 e1] c1] r1]|] eqn:H; cbn [bind] in E; [|discriminate].
      assert (H' : ('(t, e, m, r) <- tp_iteration t n ;; Ok (t, e, (m, r))) = Ok (t1, e1, (c1, r1))) by (rewrite H; reflexivity).
      destruct (iteration_first t n N _ _ _ SH C H') as [(-> & K & SH1 & C1 & G)|(t2 & rest & -> & SH2 & C2 & K2)].
      * rewrite (bind_ok _ _ _ _ _ _ _ K). cbn [fst snd]. cbn in G. destruct r1; [injection E as <- <- <-; left; fin; auto|].
        destruct (tp_process fuel t1 c1) as [[[t3 e3] c3]|] eqn:H2; cbn [bind] in E; [|discriminate]. injection E as <- <- <-. cbn [app].
        exact (IHfuel t1 c1 G _ _ _ SH1 C1 H2).
      * right. exists t2. assert (X : exists rest', evs = (tp_sec t2, tp_key t2, tp_val t2) :: rest').
        { destruct r1; [injection E as _ <- _; eauto|]. destruct (tp_process fuel t1 c1) as [[[t3 e3] c3]|]; cbn [bind] in E; [|discriminate]. injection E as _ <- _. cbn [app]. eauto. }
        destruct X as (rest' & X). exists rest'. split; [exact X|]. split; [exact SH2|]. split; [exact C2|]. intros s1 x FR T. destruct (K2 s1 x FR T) as (r' & G & K3).
        unfold oki in G. exists (fst r'). split; [exact G|]. rewrite (bind_ok _ _ _ _ _ _ _ K3). destruct (snd r'); [reflexivity|].
        assert (Z0 : fst r' <? 0 = false) by (apply Z.ltb_ge; exact G).
        destruct fuel; cbn [rtp_process]; rewrite (fresh_read _ _ _ _ FR); change (blen (tp_buf (parser astart x))) with 0; rewrite Z0; reflexivity.
    + injection E as <- <- <-. left. fin. auto.
Qed.
Lemma pop_empty : forall n, 0 <= n -> bpop_front (zb 31 []) n = Ok (zb 31 []).
Proof. intros n N. unfold bpop_front. change (blen (zb 31 [])) with 0. replace (n >=? 0) with true by (symmetry; apply Z.geb_le; exact N). reflexivity. Qed.
Lemma addText_first : forall t d, payload_ok d -> dlc d = 8 -> tp_buf t = zb 31 [] ->
  first (fun _ : unit => True) (fun _ => True) t (noval (tp_addText t (mkBuf (dbytes d) CanDataMaxLength (dlc d)))) (rtp_addText lw react inner p (mkBuf (dbytes d) CanDataMaxLength (dlc d))).
Proof.
  intros t d PD D B t' evs y SH C E. unfold tp_addText in E. unfold rtp_addText. rewrite read_st. rewrite D in *. change CanDataMaxLength with 8 in *. cbn [blen] in *.
  assert (ERR : noval (tp_reportParseError t) = Ok (t', evs, y) ->
    (evs = [] /\ rtp_reportParseError lw react inner p (St t) = (Ok y, St t') /\ shape t' /\ tp_cons t' = Some c /\ True) \/
    (exists t1 rest, evs = (tp_sec t1, tp_key t1, tp_val t1) :: rest /\ shape t1 /\ tp_cons t1 = Some c /\
      forall s1 x, fresh x s1 -> tell t1 = (Ok tt, s1) -> exists y', True /\ rtp_reportParseError lw react inner p (St t) = (Ok y', s1))).
  { intros H. destruct (error_first t _ _ _ SH C H) as [(_ & _ & _ & _ & [])|K]. right. exact K. }
  change (8 >? kBufferLength) with false in *. cbn [orb] in *. destruct (match tp_state t with ERROR => true | _ => false end) eqn:ST; [exact (ERR E)|].
  change (Z.to_nat 8) with 8%nat in *. unfold noval in E. cbn [tp_addLoop] in E. cbn [rtp_addLoop]. cbn [blen] in *. change (0 <? 8) with true in *. cbv iota in *.
  rewrite read_st. rewrite B in *. change (bfull (zb 31 [])) with false in *. rewrite ST in *. cbn [orb] in *.
  destruct (bsub1 _ 0) as [view|] eqn:V; cbn [bind] in E; [|discriminate].
  assert (VB : blen view = 8).
  { unfold bsub1, bsub in V. cbn [blen bcap mem] in V. cbn in V. destruct (_ <? 0); [discriminate|]. injection V as <-. reflexivity. }
  destruct (bpush (zb 31 []) view) as [[b n]|] eqn:PU; cbn [bind] in E; [|discriminate].
  assert (NN : n = 8).
  { unfold bpush in PU. rewrite VB in PU. change (bcap_rem (zb 31 []) <? 8) with false in PU. cbv iota in PU. destruct (rd_blk (mem view) 0 8); cbn [bind] in PU; [|discriminate].
    destruct (wr _ _ _); cbn [bind] in PU; [|discriminate]. injection PU as _ <-. reflexivity. } subst n.
  assert (SH1 : shape (set_buf t b)).
  { destruct SH as (S0 & S1 & S2 & S3). split; [|split; [exact S1|split; assumption]]. cbn [tp_buf set_buf]. rewrite B in S0. exact (push_sized _ _ _ _ _ S0 PU). }
  erewrite then_val by (cbn [bind]; exact PU). cbn [fst snd]. rewrite write_st.
  destruct (tp_processBuffer (set_buf t b)) as [[[t1 e1] cb]|] eqn:H; cbn [bind] in E; [|discriminate].
  destruct (bpop_front (tp_buf t1) cb) as [b3|] eqn:B3; cbn [bind] in E; [|discriminate]. change (u8 (0 + 8)) with 8 in *. cbn [tp_addLoop blen bind] in E. change (8 <? 8) with false in E. cbv iota in E. cbn [bind] in E.
  injection E as <- <- <-. rewrite app_nil_r. unfold tp_processBuffer in H. unfold rtp_processBuffer.
  destruct (process_first _ (set_buf t b) 0 (Z.le_refl 0) _ _ _ SH1 C H) as [(-> & K & SH2 & C2 & G)|(t2 & rest & -> & SH2 & C2 & K2)].
  - left. split; [reflexivity|]. rewrite bind_assoc. rewrite read_st. rewrite (bind_ok _ _ _ _ _ _ _ K).
    rewrite read_st. erewrite then_val by exact B3. rewrite write_st. split; [reflexivity|].
    split; [|split; [exact C2|exact Logic.I]]. destruct SH2 as (S0 & S1 & S2 & S3). split; [|split; [exact S1|split; assumption]]. cbn [tp_buf set_buf].
    unfold bpop_front in B3. destruct (cb >=? blen (tp_buf t1)); [rewrite (sized_erase _ _ S0) in B3; injection B3 as <-; apply zb_sized; cbn; lia|].
    destruct (rd_blk _ _ _) as [mv|]; cbn [bind] in B3; [|discriminate]. destruct (wr (mem (tp_buf t1)) 0 mv) as [m1|] eqn:W1; cbn [bind] in B3; [|discriminate].
    destruct (wr m1 _ _) as [m2|] eqn:W2; cbn [bind] in B3; [|discriminate]. injection B3 as <-. destruct S0 as (L & CA & _). split; [cbn [mem]; rewrite (wr_len _ _ _ _ W2), (wr_len _ _ _ _ W1); exact L|]. split; [exact CA|apply u8_pos].
  - right. exists t2, rest. split; [reflexivity|]. split; [exact SH2|]. split; [exact C2|]. intros s1 x FR T. destruct (K2 s1 x FR T) as (m & G & K3).
    exists tt. split; [exact Logic.I|]. rewrite bind_assoc. rewrite read_st. rewrite (bind_ok _ _ _ _ _ _ _ K3).
    rewrite (fresh_read _ _ _ _ FR). change (tp_buf (parser astart x)) with (zb 31 []). rewrite (then_val _ _ _ _ _ _ (pop_empty m G)).
    change (set_buf (parser astart x) (zb 31 [])) with (parser astart x). rewrite (fresh_write _ _ _ _ FR). reflexivity.
Qed.
End First.

(** ** One data frame *)
Definition ended (react : list event -> code) (inner : code -> ract unit) (p : nat) (x : option nat) (s : rst) : res unit * rst :=
  rwhen_some x (rcons_complete react inner) (mkR (with_parser (r_w s) p (LibP (fresh_parser SS_DONE x))) (r_t s)).
Lemma lib_put_id : forall w p sp, lib_at w p sp -> mkW (w_stations w) (upd p (LibP sp) (w_parsers w)) (w_conss w) (w_engines w) = w.
Proof. intros w p sp L. rewrite (ZLib.upd_same_id _ _ _ _ L). destruct w; reflexivity. Qed.
Lemma fresh_fresh : forall p s st x, lib_at (r_w s) p (fresh_parser st x) -> fresh p x s.
Proof.
  intros p [w t] st x L. cbn [r_w] in L. pose proof (proj1 (ProofsCallback.lib_get _ _ _ L)) as G. unfold fresh, rtp, rtp_put, rbind, rask, rret. cbn [r_w]. rewrite G. split; [reflexivity|].
  unfold rlift, put_lib, put_parser. cbn [r_w r_t]. change (mkSP _ _ _ _ _) with (fresh_parser st x). rewrite (lib_put_id _ _ _ L), app_nil_r. reflexivity.
Qed.
Lemma message_first : forall lw react inner w p c sp d r tr, receiving w p c sp -> payload_ok d -> dlc d = 8 -> first_line sp d r ->
  exists rem t1 crc, shape t1 /\ tp_cons t1 = Some c /\
    forall s1 st x, lib_at (r_w s1) p (fresh_parser st x) ->
      ucall react inner (line_event c r) (mkR (with_parser w p (LibP (mkSP SS_DATA rem t1 crc (Some c)))) tr) = (Ok tt, s1) ->
      rlib_addMessage lw react inner p d (mkR w tr) = ended react inner p x s1.
Proof.
  intros lw react inner w p c sp d r tr (L & ST & SC & UC & _ & CA) PD D (a & rest & F & T & R).
  destruct (feed_ok (content d) _ CA) as (crc & FE & _).
  assert (X1 : (bs <- data_visited d ;; crc_feed (sp_crc sp) bs) = Ok crc) by (rewrite (visited_data _ PD D); exact FE).
  assert (X2 : tp_addText (sp_text sp) (mkBuf (dbytes d) CanDataMaxLength (dlc d)) = Ok (parser (fst (aadd a (content d))) (sp_cons sp), SpecText.told (sp_cons sp) (snd (aadd a (content d))))).
  { rewrite T. rewrite (addText_spec _ _ _ _ F (holds_data _ PD D)). reflexivity. }
  rewrite SC, R in X2. cbn [SpecText.told map] in X2.
  assert (IN : inside w p) by (unfold inside; apply nth_error_Some; unfold lib_at in L; rewrite L; discriminate).
  assert (UG : get_cons c w = Ok UserC) by (unfold get_cons, at_; unfold consumer_at in UC; rewrite UC; reflexivity).
  set (sp1 := mkSP SS_DATA (u32 (sp_remaining sp - 8)) (sp_text sp) crc (Some c)).
  assert (SH : shape (sp_text sp)) by (rewrite T; apply parser_shape; exact F).
  assert (TC : tp_cons (sp_text sp) = Some c) by (rewrite T, SC; reflexivity).
  assert (TB : tp_buf (sp_text sp) = zb 31 []) by (rewrite T; reflexivity).
  assert (X3 : noval (tp_addText (sp_text sp) (mkBuf (dbytes d) CanDataMaxLength (dlc d))) = Ok (parser (fst (aadd a (content d))) (Some c), as_buffers r :: map as_buffers rest, tt)) by (rewrite X2; reflexivity).
  destruct (addText_first lw react inner p w sp1 tr c IN UG (sp_text sp) d PD D TB _ _ _ SH TC X3) as [(Q & _)|(t1 & rest' & Q & SH1 & C1 & K)]; [discriminate|].
  injection Q as Q _. exists (u32 (sp_remaining sp - 8)), t1, crc. split; [exact SH1|]. split; [exact C1|].
  intros s1 st x LF U. assert (U' : tell react inner p w sp1 tr c t1 = (Ok tt, s1)).
  { unfold tell, St, wt, sp1. cbn [sp_state sp_remaining sp_crc sp_cons]. unfold line_event in U. rewrite Q in U. exact U. }
  destruct (K s1 x (fresh_fresh _ _ _ _ LF) U') as ([] & _ & K1).
  pose proof (proj1 (ProofsCallback.lib_get _ _ _ L)) as G.
  unfold rlib_addMessage. unfold rbind at 1, rask at 1. cbn [r_w]. rewrite G, ST, D. change (negb (8 =? 8)) with false. cbv iota. erewrite then_val by exact X1. rewrite put_then.
  rewrite SC. fold sp1. rewrite D in K1.
  assert (SE : mkR (mkW (w_stations w) (upd p (LibP sp1) (w_parsers w)) (w_conss w) (w_engines w)) tr = St p w sp1 tr (sp_text sp)) by reflexivity. rewrite SE.
  rewrite (bind_ok _ _ _ _ _ _ _ K1). destruct s1 as [w1 u1]. cbn [r_w] in LF. pose proof (proj1 (ProofsCallback.lib_get _ _ _ LF)) as G1.
  unfold rbind at 1, rask at 1. cbn [r_w]. rewrite G1. change (sp_remaining (fresh_parser st x) =? 0) with true. cbv iota.
  erewrite then_val by reflexivity. rewrite Z.eqb_refl.
  assert (I1 : inside w1 p) by (unfold inside; apply nth_error_Some; unfold lib_at in LF; rewrite LF; discriminate).
  match goal with |- ?k _ = _ => replace (k (mkR w1 u1)) with (k (mkR (mkW (w_stations w1) (upd p (LibP (fresh_parser st x)) (w_parsers w1)) (w_conss w1) (w_engines w1)) u1)) by (rewrite (lib_put_id _ _ _ LF); reflexivity) end.
  rewrite put_state by exact I1. rewrite get_put by exact I1. reflexivity.
Qed.
Lemma over_message : forall lw react inner w o p d sp tr, hands_over w o p d -> lib_at w p sp -> sp_state sp = SS_DATA ->
  rstep lw react inner o (mkR w tr) = rlib_addMessage lw react inner p d (mkR w (tr ++ passed_on o p d)).
Proof.
  intros lw react inner w o p d sp tr H L ST. pose proof (proj2 (ProofsCallback.lib_get _ _ _ L)) as G.
  assert (X : forall s st, nth_error (w_stations w) s = Some st -> cb_cfg (st_cbs st) = Some p ->
    rst_handleConfigDataStream lw react inner s d (mkR w tr) = rlib_addMessage lw react inner p d (mkR w (tr ++ [EvCfg p (CAdd d)]))).
  { intros s st S C. unfold rst_handleConfigDataStream. unfold rbind at 1, rask at 1. cbn [r_w]. unfold get_station, at_. rewrite S, C. unfold rbind at 1, rask at 1. cbn [r_w].
    unfold cfg_isProcessing. rewrite G. cbn [bind pobj_state]. rewrite ST. cbn [ss_processing]. unfold rcfg_call. unfold rbind at 1, rask at 1. cbn [r_w]. rewrite G. reflexivity. }
  destruct H as [-> |(s & st & S & C & [-> |(f & -> & E & J)])].
  - cbn [rstep passed_on]. rewrite app_nil_r. reflexivity.
  - cbn [rstep rst_step passed_on]. eapply X; eassumption.
  - cbn [rstep rst_step passed_on]. unfold rst_handlePacket. cbv zeta. rewrite J. cbn -[rst_handleConfigDataStream rlib_addMessage]. rewrite E. eapply X; eassumption.
Qed.

(** ** Reactions *)
Section Reactions.
Variable lw : Z.
Variable react : list event -> code.
Variable n : nat.
Notation inner := (rexec lw react n).
Lemma call_ret : forall e w t, react (t ++ [e]) = Ret -> ucall react inner e (mkR w t) = (Ok tt, mkR w (t ++ [e])).
Proof. intros e w t H. unfold ucall, rbind, rlift, emit. cbn [r_w r_t]. rewrite H. apply rexec_ret. Qed.
Lemma finish_user : forall w s st p c rem t1 crc tr, nth_error (w_stations w) s = Some st -> cb_cfg (st_cbs st) = Some p -> inside w p -> consumer_at w c UserC -> shape t1 ->
  (forall h, react (h ++ [EvStreamAborted c]) = Ret) ->
  rst_finish lw react inner s (mkR (with_parser w p (LibP (mkSP SS_DATA rem t1 crc (Some c)))) tr)
  = (Ok tt, mkR (with_station (with_parser w p (LibP (fresh_parser SS_IDLE None))) s (now_using st None)) (tr ++ [EvCfg p CReset; EvStreamAborted c])).
Proof.
  intros w s st p c rem t1 crc tr S C IN UC SH Q. set (x := mkSP SS_DATA rem t1 crc (Some c)).
  assert (L : lib_at (with_parser w p (LibP x)) p x) by (unfold lib_at, with_parser; cbn [w_parsers]; apply nth_upd_in; exact IN).
  destruct (ProofsCallback.lib_get _ _ _ L) as (G1 & G2).
  unfold rst_finish. unfold rbind at 1, rask at 1. cbn [r_w]. unfold get_station at 1, at_ at 1, with_parser at 1. cbn [w_stations]. rewrite S, C. cbn [rwhen_some].
  unfold rcfg_call. rewrite bind_assoc. unfold rbind at 1, rask at 1. cbn [r_w]. rewrite G2. rewrite bind_assoc. unfold rbind at 1, rlift at 1, emit at 1. cbn [r_w r_t].
  unfold rlib_reset. rewrite bind_assoc. unfold rbind at 1, rask at 1. cbn [r_w]. rewrite G1. cbn [x sp_state ss_processing sp_cons rwhen_some]. rewrite bind_assoc.
  unfold rcons_aborted. rewrite bind_assoc. unfold rbind at 1, rask at 1. cbn [r_w]. change (get_cons c (with_parser w p (LibP x))) with (get_cons c w).
  assert (UG : get_cons c w = Ok UserC) by (unfold get_cons, at_; unfold consumer_at in UC; rewrite UC; reflexivity). rewrite UG.
  rewrite (bind_ok _ _ _ _ _ _ _ (call_ret (EvStreamAborted c) _ _ (Q _))). rewrite bind_assoc. unfold rbind at 1, rask at 1. cbn [r_w]. rewrite G1. rewrite bind_assoc.
  erewrite then_val by (apply reset_shape; exact SH). rewrite put_then. unfold rbind at 1, rask at 1. cbn [r_w]. unfold get_station at 1, at_ at 1. cbn [w_stations with_parser]. rewrite S.
  unfold rlift, put_station. cbn [r_w r_t]. unfold with_station, with_parser. cbn [w_stations w_parsers w_conss w_engines]. rewrite upd_twice, app_nil_r, <- app_assoc. reflexivity.
Qed.
(** asking for the list, with nothing pending *)
Lemma list_user : forall w s st p c' off tx tr, station_at w s st -> cb_tx (st_cbs st) = Some tx -> byte off -> lib_at w p (fresh_parser SS_IDLE c') -> cb_cfg (st_cbs st) = None ->
  (forall h f, react (h ++ [EvTx tx f]) = Ret) ->
  rst_requestEngineList lw react inner s off (Some p) (mkR w tr)
  = (Ok tt, mkR (with_station (with_parser w p (LibP (fresh_parser SS_FIRST c'))) s (now_using st (Some p)))
       (tr ++ EvCfg p CStart :: map (EvTx tx) [outgoing (st_hash st) CMD_REQUEST_CONFIG (zs "loknamen"); outgoing (st_hash st) CMD_REQUEST_CONFIG (decimal off ++ zs " 2")])).
Proof.
  intros w s st p c' off tx tr S T B L C Q. pose proof (get_st _ _ _ S) as GS.
  unfold rst_requestEngineList. unfold rst_finish. rewrite bind_assoc. unfold rbind at 1, rask at 1. cbn [r_w]. rewrite GS, C. cbn [rwhen_some]. rewrite then_ret.
  unfold rbind at 1, rask at 1. cbn [r_w]. rewrite GS. unfold rbind at 1, rlift at 1, put_station at 1. cbn [r_w r_t]. rewrite app_nil_r.
  erewrite then_val by exact list_frame1. destruct (list_frame2 (st_hash st) off B) as [F2 G2].
  destruct (snprintf9 (list_request_text off)) as [b2 k]. cbn [fst snd] in F2, G2. cbv zeta. rewrite G2, F2. cbn [rwhen_some].
  set (W := mkW (upd s (set_cfg st (Some p)) (w_stations w)) (w_parsers w) (w_conss w) (w_engines w)).
  assert (LW : lib_at W p (fresh_parser SS_IDLE c')) by exact L. destruct (ProofsCallback.lib_get _ _ _ LW) as (G3 & G4).
  unfold rcfg_call. rewrite bind_assoc. unfold rbind at 1, rask at 1. cbn [r_w]. rewrite G4. rewrite bind_assoc. unfold rbind at 1, rlift at 1, emit at 1. cbn [r_w r_t]. rewrite put_then.
  assert (GW : forall ps cs es, get_station s (mkW (upd s (set_cfg st (Some p)) (w_stations w)) ps cs es) = Ok (set_cfg st (Some p))).
  { intros. unfold get_station, at_. cbn [w_stations]. rewrite nth_upd_in by (apply nth_error_Some; rewrite (proj1 S); discriminate). reflexivity. }
  assert (TX : forall f ps cs es u, rtx_send react inner s f (mkR (mkW (upd s (set_cfg st (Some p)) (w_stations w)) ps cs es) u)
     = (Ok tt, mkR (mkW (upd s (set_cfg st (Some p)) (w_stations w)) ps cs es) (u ++ [EvTx tx f]))).
  { intros. unfold rtx_send. unfold rbind at 1, rask at 1. cbn [r_w]. rewrite GW. change (cb_tx (st_cbs (set_cfg st (Some p)))) with (cb_tx (st_cbs st)). rewrite T. erewrite then_val by reflexivity. apply call_ret. apply Q. }
  unfold W. cbn [w_stations w_parsers w_conss w_engines]. rewrite (bind_ok _ _ _ _ _ _ _ (TX _ _ _ _ _)). rewrite TX. rewrite <- !app_assoc. cbn [app map].
  unfold st_frame, outgoing. rewrite mkId_value by (unfold byte, kRequestConfigData; first [apply (proj2 S)|lia]). reflexivity.
Qed.
End Reactions.

Lemma inside_at : forall w p sp, lib_at w p sp -> inside w p.
Proof. intros w p sp L. unfold inside. apply nth_error_Some. unfold lib_at in L. rewrite L. discriminate. Qed.
Lemma exec_one : forall lw react n o k s s1 s2, rstep lw react (rexec lw react n) o s = (Ok tt, s1) -> rexec lw react (S n) (k (r_w s1) (r_t s1)) s1 = s2 ->
  rexec lw react (S n) (Call o k) s = s2.
Proof. intros lw react n o k s s1 s2 H K. cbn [rexec]. unfold rbind. rewrite H. exact K. Qed.

(** ** Finishing from inside *)
Theorem finish_inside : forall lw react n w t o s st p c sp d r o1,
  hands_over w o p d -> payload_ok d -> dlc d = 8 -> receiving w p c sp -> first_line sp d r ->
  nth_error (w_stations w) s = Some st -> cb_cfg (st_cbs st) = Some p ->
  finishes s o1 -> react (t ++ passed_on o p d ++ [line_event c r]) = Call o1 done -> (forall h, react (h ++ [EvStreamAborted c]) = Ret) ->
  rexec lw react (S (S n)) (Call o done) (mkR w t) =
  (Ok tt, mkR (with_station (with_parser w p (LibP (fresh_parser SS_DONE None))) s (now_using st None))
              (t ++ passed_on o p d ++ [line_event c r; EvCfg p CReset; EvStreamAborted c])).
Proof.
  intros lw react n w t o s st p c sp d r o1 H PD D RC FL S C FI R Q. pose proof RC as (L & ST & SC & UC & _). pose proof (inside_at _ _ _ L) as IN.
  destruct (message_first lw react (rexec lw react (Datatypes.S n)) w p c sp d r (t ++ passed_on o p d) RC PD D FL) as (rem & t1 & crc & SH & C1 & K).
  set (w2 := with_station (with_parser w p (LibP (fresh_parser SS_IDLE None))) s (now_using st None)).
  assert (U : ucall react (rexec lw react (Datatypes.S n)) (line_event c r) (mkR (with_parser w p (LibP (mkSP SS_DATA rem t1 crc (Some c)))) (t ++ passed_on o p d))
    = (Ok tt, mkR w2 ((t ++ passed_on o p d) ++ [line_event c r; EvCfg p CReset; EvStreamAborted c]))).
  { unfold ucall. unfold rbind at 1, rlift at 1, emit at 1. cbn [r_w r_t]. rewrite <- app_assoc, R. eapply exec_one; [|apply rexec_ret].
    assert (E : rstep lw react (rexec lw react n) o1 = rst_finish lw react (rexec lw react n) s) by (destruct FI as [-> |[-> | ->]]; reflexivity). rewrite E.
    rewrite (finish_user lw react n w s st p c rem t1 crc _ S C IN UC SH Q). rewrite <- !app_assoc. reflexivity. }
  assert (L2 : lib_at w2 p (fresh_parser SS_IDLE None)) by (unfold w2, lib_at, with_station, with_parser; cbn [w_parsers]; apply nth_upd_in; exact IN).
  eapply exec_one; [rewrite (over_message _ _ _ _ _ _ _ _ _ H L ST); rewrite (K (mkR w2 _) SS_IDLE None L2 U); reflexivity|].
  rewrite rexec_ret. unfold w2, with_station, with_parser. cbn [w_stations w_parsers w_conss w_engines r_w r_t]. rewrite upd_twice, <- app_assoc. reflexivity.
Qed.

(** ** A new request from inside *)
Lemma restart_inside : forall lw react n w t o s st p c sp d r off c' tx,
  hands_over w o p d -> payload_ok d -> dlc d = 8 -> receiving w p c sp -> first_line sp d r ->
  station_at w s st -> cb_cfg (st_cbs st) = Some p -> cb_tx (st_cbs st) = Some tx -> byte off ->
  react (t ++ passed_on o p d ++ [line_event c r]) = ops_code (restart_ops s p off c') ->
  (forall h, react (h ++ [EvStreamAborted c]) = Ret) -> (forall h f, react (h ++ [EvTx tx f]) = Ret) ->
  rstep lw react (rexec lw react (S n)) o (mkR w t) =
  rcons_complete react (rexec lw react (S n)) c' (mkR (with_parser w p (LibP (fresh_parser SS_DONE (Some c'))))
    (t ++ passed_on o p d ++ [line_event c r; EvCfg p CReset; EvStreamAborted c; EvCfg p CStart;
       EvTx tx (outgoing (st_hash st) CMD_REQUEST_CONFIG (zs "loknamen")); EvTx tx (outgoing (st_hash st) CMD_REQUEST_CONFIG (decimal off ++ zs " 2"))])).
Proof.
  intros lw react n w t o s st p c sp d r off c' tx H PD D RC FL S C T B R Q1 Q2. pose proof RC as (L & ST & SC & UC & _). pose proof (inside_at _ _ _ L) as IN.
  destruct (message_first lw react (rexec lw react (Datatypes.S n)) w p c sp d r (t ++ passed_on o p d) RC PD D FL) as (rem & t1 & crc & SH & C1 & K).
  set (w2 := with_parser w p (LibP (fresh_parser SS_FIRST (Some c')))).
  set (evs := [EvCfg p CReset; EvStreamAborted c; EvCfg p CStart; EvTx tx (outgoing (st_hash st) CMD_REQUEST_CONFIG (zs "loknamen")); EvTx tx (outgoing (st_hash st) CMD_REQUEST_CONFIG (decimal off ++ zs " 2"))]).
  assert (U : ucall react (rexec lw react (Datatypes.S n)) (line_event c r) (mkR (with_parser w p (LibP (mkSP SS_DATA rem t1 crc (Some c)))) (t ++ passed_on o p d))
    = (Ok tt, mkR w2 ((t ++ passed_on o p d) ++ line_event c r :: evs))).
  { unfold ucall. unfold rbind at 1, rlift at 1, emit at 1. cbn [r_w r_t]. rewrite <- app_assoc, R. unfold restart_ops. cbn [ops_code].
    eapply exec_one; [exact (finish_user lw react n w s st p c rem t1 crc _ (proj1 S) C IN UC SH Q1)|].
    set (wa := with_station (with_parser w p (LibP (fresh_parser SS_IDLE None))) s (now_using st None)).
    assert (La : lib_at wa p (fresh_parser SS_IDLE None)) by (unfold wa, lib_at, with_station, with_parser; cbn [w_parsers]; apply nth_upd_in; exact IN).
    assert (E1 : rstep lw react (rexec lw react n) (ParserSetConsumer p (Some c')) (mkR wa ((t ++ passed_on o p d ++ [line_event c r]) ++ [EvCfg p CReset; EvStreamAborted c]))
      = (Ok tt, mkR (with_parser wa p (LibP (fresh_parser SS_IDLE (Some c')))) ((t ++ passed_on o p d ++ [line_event c r]) ++ [EvCfg p CReset; EvStreamAborted c]))).
    { cbn [rstep step]. unfold rlift. cbn [r_w r_t]. unfold ask. rewrite (proj1 (ProofsCallback.lib_get _ _ _ La)). cbn [bind]. unfold put_lib, put_parser. rewrite app_nil_r. reflexivity. }
    eapply exec_one; [exact E1|]. set (wb := with_parser wa p (LibP (fresh_parser SS_IDLE (Some c')))).
    assert (Ib : inside wa p) by (eapply inside_at; exact La).
    assert (Lb : lib_at wb p (fresh_parser SS_IDLE (Some c'))) by (unfold wb, lib_at, with_parser; cbn [w_parsers]; apply nth_upd_in; exact Ib).
    assert (Sb : station_at wb s (now_using st None)).
    { split; [|exact (proj2 S)]. unfold wb, wa, with_parser, with_station. cbn [w_stations]. apply nth_upd_in. apply nth_error_Some. rewrite (proj1 S). discriminate. }
    eapply exec_one; [exact (list_user lw react n wb s (now_using st None) p (Some c') off tx _ Sb T B Lb eq_refl Q2)|]. cbn [r_w r_t ops_code]. rewrite rexec_ret. f_equal.
    assert (WE : with_station (with_parser wb p (LibP (fresh_parser SS_FIRST (Some c')))) s (now_using (now_using st None) (Some p)) = w2).
    { unfold wb, wa, w2, with_station, with_parser. cbn [w_stations w_parsers w_conss w_engines]. rewrite !upd_twice. f_equal.
      assert (NU : now_using (now_using st None) (Some p) = st) by (destruct st as [h [a1 a2 a3 a4 a5]]; cbn in C |- *; rewrite C; reflexivity). rewrite NU. apply ZLib.upd_same_id. exact (proj1 S). }
    rewrite WE. f_equal. rewrite <- !app_assoc. reflexivity. }
  assert (L2 : lib_at w2 p (fresh_parser SS_FIRST (Some c'))) by (unfold w2, lib_at, with_parser; cbn [w_parsers]; apply nth_upd_in; exact IN).
  rewrite (over_message _ _ _ _ _ _ _ _ _ H L ST). rewrite (K (mkR w2 _) SS_FIRST (Some c') L2 U). unfold ended. cbn [rwhen_some r_w r_t].
  unfold w2, with_parser. cbn [w_stations w_parsers w_conss w_engines]. rewrite upd_twice, <- app_assoc. reflexivity.
Qed.
Lemma reset_user : forall lw react n w p c rem t1 crc tr, inside w p -> consumer_at w c UserC -> shape t1 -> (forall h, react (h ++ [EvStreamAborted c]) = Ret) ->
  rlib_reset react (rexec lw react n) p (mkR (with_parser w p (LibP (mkSP SS_DATA rem t1 crc (Some c)))) tr)
  = (Ok tt, mkR (with_parser w p (LibP (fresh_parser SS_IDLE None))) (tr ++ [EvStreamAborted c])).
Proof.
  intros lw react n w p c rem t1 crc tr IN UC SH Q. set (x := mkSP SS_DATA rem t1 crc (Some c)).
  assert (L : lib_at (with_parser w p (LibP x)) p x) by (unfold lib_at, with_parser; cbn [w_parsers]; apply nth_upd_in; exact IN).
  destruct (ProofsCallback.lib_get _ _ _ L) as (G1 & G2).
  unfold rlib_reset. unfold rbind at 1, rask at 1. cbn [r_w]. rewrite G1. cbn [x sp_state ss_processing sp_cons rwhen_some].
  unfold rcons_aborted. rewrite bind_assoc. unfold rbind at 1, rask at 1. cbn [r_w]. change (get_cons c (with_parser w p (LibP x))) with (get_cons c w).
  assert (UG : get_cons c w = Ok UserC) by (unfold get_cons, at_; unfold consumer_at in UC; rewrite UC; reflexivity). rewrite UG.
  rewrite (bind_ok _ _ _ _ _ _ _ (call_ret lw react n (EvStreamAborted c) _ _ (Q _))). unfold rbind at 1, rask at 1. cbn [r_w]. rewrite G1.
  erewrite then_val by (apply reset_shape; exact SH). unfold rlift, put_lib, put_parser. cbn [r_w r_t]. unfold with_parser. cbn [w_stations w_parsers w_conss w_engines]. rewrite upd_twice, app_nil_r. reflexivity.
Qed.
Theorem reset_inside : forall lw react n w t o p c sp d r,
  hands_over w o p d -> payload_ok d -> dlc d = 8 -> receiving w p c sp -> first_line sp d r ->
  react (t ++ passed_on o p d ++ [line_event c r]) = Call (ParserReset p) done -> (forall h, react (h ++ [EvStreamAborted c]) = Ret) ->
  rexec lw react (S (S n)) (Call o done) (mkR w t) =
  (Ok tt, mkR (with_parser w p (LibP (fresh_parser SS_DONE None))) (t ++ passed_on o p d ++ [line_event c r; EvStreamAborted c])).
Proof.
  intros lw react n w t o p c sp d r H PD D RC FL R Q. pose proof RC as (L & ST & SC & UC & _). pose proof (inside_at _ _ _ L) as IN.
  destruct (message_first lw react (rexec lw react (S n)) w p c sp d r (t ++ passed_on o p d) RC PD D FL) as (rem & t1 & crc & SH & C1 & K).
  set (w2 := with_parser w p (LibP (fresh_parser SS_IDLE None))).
  assert (U : ucall react (rexec lw react (S n)) (line_event c r) (mkR (with_parser w p (LibP (mkSP SS_DATA rem t1 crc (Some c)))) (t ++ passed_on o p d))
    = (Ok tt, mkR w2 ((t ++ passed_on o p d) ++ [line_event c r; EvStreamAborted c]))).
  { unfold ucall. unfold rbind at 1, rlift at 1, emit at 1. cbn [r_w r_t]. rewrite <- app_assoc, R. eapply exec_one; [exact (reset_user lw react n w p c rem t1 crc _ IN UC SH Q)|].
    rewrite rexec_ret, <- !app_assoc. reflexivity. }
  assert (L2 : lib_at w2 p (fresh_parser SS_IDLE None)) by (unfold w2, lib_at, with_parser; cbn [w_parsers]; apply nth_upd_in; exact IN).
  eapply exec_one; [rewrite (over_message _ _ _ _ _ _ _ _ _ H L ST); rewrite (K (mkR w2 _) SS_IDLE None L2 U); reflexivity|].
  rewrite rexec_ret. unfold w2, with_parser. cbn [w_stations w_parsers w_conss w_engines r_w r_t]. rewrite upd_twice, <- app_assoc. reflexivity.
Qed.

Theorem list_inside : forall lw react n w t o s st p c sp d r off c' tx co i m off' cb,
  hands_over w o p d -> payload_ok d -> dlc d = 8 -> receiving w p c sp -> first_line sp d r ->
  station_at w s st -> cb_cfg (st_cbs st) = Some p -> cb_tx (st_cbs st) = Some tx -> byte off -> consumer_at w c' (ListC co i m off' (Def (Some cb))) ->
  react (t ++ passed_on o p d ++ [line_event c r]) = ops_code (restart_ops s p off c') ->
  (forall h, react (h ++ [EvStreamAborted c]) = Ret) -> (forall h f, react (h ++ [EvTx tx f]) = Ret) -> (forall h, react (h ++ [EvEndComplete cb c']) = Ret) ->
  rexec lw react (S (S n)) (Call o done) (mkR w t) =
  (Ok tt, mkR (mkW (w_stations w) (upd p (LibP (fresh_parser SS_DONE (Some c'))) (w_parsers w)) (upd c' (ListC (Def true) i m off' (Def (Some cb))) (w_conss w)) (w_engines w))
    (t ++ passed_on o p d ++ [line_event c r; EvCfg p CReset; EvStreamAborted c; EvCfg p CStart;
       EvTx tx (outgoing (st_hash st) CMD_REQUEST_CONFIG (zs "loknamen")); EvTx tx (outgoing (st_hash st) CMD_REQUEST_CONFIG (decimal off ++ zs " 2"));
       EvStreamComplete c'; EvEndComplete cb c'])).
Proof.
  intros lw react n w t o s st p c sp d r off c' tx co i m off' cb H PD D RC FL S C T B CC R Q1 Q2 Q3.
  eapply exec_one; [|apply rexec_ret]. rewrite (restart_inside lw react n w t o s st p c sp d r off c' tx H PD D RC FL S C T B R Q1 Q2).
  unfold rcons_complete. unfold rbind at 1, rask at 1. cbn [r_w]. unfold get_cons, at_. cbn [with_parser w_conss]. unfold consumer_at in CC. rewrite CC.
  unfold rbind at 1, rlift at 1, emit at 1. cbn [r_w r_t]. unfold rbind at 1, rlift at 1, put_cons at 1. cbn [r_w r_t]. erewrite then_val by reflexivity. cbn [rwhen_some].
  rewrite call_ret by apply Q3. rewrite app_nil_r, <- !app_assoc. reflexivity.
Qed.
Theorem user_inside : forall lw react n w t o s st p c sp d r off c' tx,
  hands_over w o p d -> payload_ok d -> dlc d = 8 -> receiving w p c sp -> first_line sp d r ->
  station_at w s st -> cb_cfg (st_cbs st) = Some p -> cb_tx (st_cbs st) = Some tx -> byte off -> consumer_at w c' UserC ->
  react (t ++ passed_on o p d ++ [line_event c r]) = ops_code (restart_ops s p off c') ->
  (forall h, react (h ++ [EvStreamAborted c]) = Ret) -> (forall h f, react (h ++ [EvTx tx f]) = Ret) -> (forall h, react (h ++ [EvStreamComplete c']) = Ret) ->
  rexec lw react (S (S n)) (Call o done) (mkR w t) =
  (Ok tt, mkR (with_parser w p (LibP (fresh_parser SS_DONE (Some c'))))
    (t ++ passed_on o p d ++ [line_event c r; EvCfg p CReset; EvStreamAborted c; EvCfg p CStart;
       EvTx tx (outgoing (st_hash st) CMD_REQUEST_CONFIG (zs "loknamen")); EvTx tx (outgoing (st_hash st) CMD_REQUEST_CONFIG (decimal off ++ zs " 2"));
       EvStreamComplete c'])).
Proof.
  intros lw react n w t o s st p c sp d r off c' tx H PD D RC FL S C T B CC R Q1 Q2 Q3.
  eapply exec_one; [|apply rexec_ret]. rewrite (restart_inside lw react n w t o s st p c sp d r off c' tx H PD D RC FL S C T B R Q1 Q2).
  unfold rcons_complete. unfold rbind at 1, rask at 1. cbn [r_w]. unfold get_cons, at_. cbn [with_parser w_conss]. unfold consumer_at in CC. rewrite CC.
  rewrite call_ret by apply Q3. rewrite <- !app_assoc. reflexivity.
Qed.
