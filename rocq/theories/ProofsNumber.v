(* ProofsNumber.v -- lemmas behind PropsNumber.v. *)
From Verif Require Import ZLib SpecNumber ProofsBuffer ProofsConsumer.

Lemma blank_spec : forall c, c_isspace c = true <-> whitespace c.
Proof. intros c. unfold c_isspace, whitespace. rewrite orb_true_iff, andb_true_iff. lia. Qed.
Lemma not_blank : forall c, ~ whitespace c -> c_isspace c = false.
Proof. intros c H. destruct (c_isspace c) eqn:E; [|reflexivity]. apply blank_spec in E. contradiction. Qed.
Lemma hex_spec : forall c, is_hexdigit c <-> exists d, c_digit c = Some d /\ d <? 16 = true.
Proof.
  intros c. split.
  - intros (d & H). destruct (hexdigit_digit _ _ H) as (A & B & _). eauto.
  - intros (d & A & B). exists d. unfold c_digit in A. unfold hexdigit.
    destruct ((48 <=? c) && (c <=? 57)) eqn:E1; [apply andb_true_iff in E1; injection A as <-; lia|].
    destruct ((97 <=? c) && (c <=? 122)) eqn:E2; [apply andb_true_iff in E2; injection A as <-; lia|].
    destruct ((65 <=? c) && (c <=? 90)) eqn:E3; [apply andb_true_iff in E3; injection A as <-; lia|discriminate].
Qed.
Lemma dec_spec : forall c, is_decdigit c <-> exists d, c_digit c = Some d /\ d <? 10 = true.
Proof.
  intros c. split.
  - intros (d & H & ->). exists (c - 48). unfold c_digit. replace ((48 <=? c) && (c <=? 57)) with true by (symmetry; rewrite andb_true_iff; lia). split; [reflexivity|lia].
  - intros (d & A & B). exists d. unfold c_digit in A. unfold decdigit.
    destruct ((48 <=? c) && (c <=? 57)) eqn:E1; [apply andb_true_iff in E1; injection A as <-; lia|].
    destruct ((97 <=? c) && (c <=? 122)) eqn:E2; [apply andb_true_iff in E2; injection A as <-; lia|].
    destruct ((65 <=? c) && (c <=? 90)) eqn:E3; [apply andb_true_iff in E3; injection A as <-; lia|discriminate].
Qed.
Lemma hexdigits_go : forall acc ds x rest, hexdigits acc ds x -> stops is_hexdigit rest -> c_digits 16 acc (ds ++ rest ++ [0]) = Ok x.
Proof.
  intros acc ds x rest H S. induction H as [acc|acc c d r x HD H IH].
  - cbn [app]. destruct rest as [|c rest]; [reflexivity|]. cbn [app c_digits stops] in *. destruct (c_digit c) as [d|] eqn:E; [|reflexivity].
    destruct (d <? 16) eqn:L; [|reflexivity]. exfalso. apply S. apply hex_spec. eauto.
  - cbn [app c_digits]. destruct (hexdigit_digit _ _ HD) as (E1 & E2 & _). rewrite E1, E2. exact IH.
Qed.
Lemma decdigits_go : forall acc ds x rest, decdigits acc ds x -> stops is_decdigit rest -> c_digits 10 acc (ds ++ rest ++ [0]) = Ok x.
Proof.
  intros acc ds x rest H S. induction H as [acc|acc c d r x HD H IH].
  - cbn [app]. destruct rest as [|c rest]; [reflexivity|]. cbn [app c_digits stops] in *. destruct (c_digit c) as [d|] eqn:E; [|reflexivity].
    destruct (d <? 10) eqn:L; [|reflexivity]. exfalso. apply S. apply dec_spec. eauto.
  - cbn [app c_digits]. assert (I : is_decdigit c) by (exists d; exact HD). apply dec_spec in I. destruct I as (d' & E1 & E2). rewrite E1, E2.
    assert (d' = d); [|subst; exact IH]. destruct HD as (HD & ->). unfold c_digit in E1. replace ((48 <=? c) && (c <=? 57)) with true in E1 by (symmetry; rewrite andb_true_iff; lia). congruence.
Qed.
Lemma skip_go : forall ws t, Forall whitespace ws -> stops whitespace t -> c_skip_space (ws ++ t ++ [0]) = Ok (t ++ [0]).
Proof.
  intros ws t H S. induction H as [|c ws HB H IH].
  - cbn [app]. destruct t as [|c t]; [reflexivity|]. cbn [app c_skip_space stops] in *. rewrite not_blank by exact S. reflexivity.
  - cbn [app c_skip_space]. rewrite (proj2 (blank_spec c) HB). exact IH.
Qed.
Lemma sign_go : forall sg minus t, sign sg minus -> (sg = [] -> stops (fun c => c = 43 \/ c = 45) t) -> c_sign ((sg ++ t) ++ [0]) = Ok (minus, t ++ [0]).
Proof.
  intros sg minus t H S. destruct H; [|reflexivity|reflexivity]. specialize (S eq_refl). destruct t as [|c t]; [reflexivity|]. cbn [app c_sign stops] in *.
  replace (c =? 45) with false by lia. replace (c =? 43) with false by lia. reflexivity.
Qed.
Lemma mark_spec : forall t, (marked t -> exists m c r, hexmark m /\ is_hexdigit c /\ t = m ++ c :: r /\ c_hexprefix (t ++ [0]) = Ok ((c :: r) ++ [0])) /\
  (~ marked t -> c_hexprefix (t ++ [0]) = Ok (t ++ [0])).
Proof.
  intros t. split.
  - intros (m & c & r & M & H & ->). exists m, c, r. split; [exact M|]. split; [exact H|]. split; [reflexivity|]. apply hex_spec in H. destruct H as (d & E1 & E2).
    destruct M as [-> | ->]; cbn [zs app c_hexprefix]; cbn; unfold is_digit_of; rewrite E1, E2; reflexivity.
  - intros N. destruct t as [|z [|y [|c r]]]; [reflexivity|cbn; rewrite andb_false_r; reflexivity| |].
    + cbn [app c_hexprefix]. destruct ((z =? 48) && ((y =? 120) || (y =? 88))); reflexivity.
    + cbn [app c_hexprefix]. destruct ((z =? 48) && ((y =? 120) || (y =? 88))) eqn:E; [|reflexivity]. destruct (is_digit_of 16 c) eqn:D; [|reflexivity].
      exfalso. apply N. apply andb_true_iff in E. destruct E as (Z0 & X). apply Z.eqb_eq in Z0. subst z. exists [48; y], c, r. split.
      * apply orb_true_iff in X. rewrite !Z.eqb_eq in X. unfold hexmark. destruct X as [-> | ->]; [left|right]; reflexivity.
      * split; [|reflexivity]. apply hex_spec. unfold is_digit_of in D. destruct (c_digit c) as [d|]; [eauto|discriminate].
Qed.
Lemma hex_reads : forall lw v minus x, hex_reading v minus x -> hex_value lw v = unsigned_long lw minus x.
Proof.
  intros lw v minus x (ws & sg & mk & ds & rest & -> & B & SB & SG & SS & MK & D & SD). unfold hex_value, c_strtoul16.
  rewrite <- app_assoc. rewrite (skip_go _ _ B SB). cbn [bind]. rewrite (sign_go _ _ _ SG SS). cbn [bind].
  assert (P : c_hexprefix ((mk ++ ds ++ rest) ++ [0]) = Ok ((ds ++ rest) ++ [0])).
  { destruct MK as [(-> & N)|(M & NE)].
    - apply (proj2 (mark_spec _)). exact N.
    - destruct ds as [|c ds]; [congruence|]. assert (I : is_hexdigit c) by (inversion D; subst; eexists; eassumption). apply hex_spec in I. destruct I as (d & E1 & E2).
      destruct M as [-> | ->]; cbn [zs app c_hexprefix]; cbn; unfold is_digit_of; rewrite E1, E2; reflexivity. }
  rewrite P. cbn [bind]. rewrite <- app_assoc. rewrite (hexdigits_go _ _ _ _ D SD). cbn [bind]. unfold unsigned_long.
  destruct (2 ^ lw <=? x) eqn:L; [replace (2 ^ lw - 1 <? x) with true by lia|replace (2 ^ lw - 1 <? x) with false by lia]; reflexivity.
Qed.
Lemma decdigits_nn : forall acc ds x, decdigits acc ds x -> 0 <= acc -> 0 <= x.
Proof. intros acc ds x H. induction H; intros; [assumption|]. apply IHdecdigits. unfold decdigit in H. lia. Qed.
Lemma dec_reads : forall lw v minus x, 1 <= lw -> dec_reading v minus x -> dec_value lw v = signed_long lw minus x.
Proof.
  intros lw v minus x LW (ws & sg & ds & rest & -> & B & SB & SG & SS & D & SD). unfold dec_value, c_strtol10.
  rewrite <- app_assoc. rewrite (skip_go _ _ B SB). cbn [bind]. rewrite (sign_go _ _ _ SG SS). cbn [bind].
  rewrite <- app_assoc. rewrite (decdigits_go _ _ _ _ D SD). cbn [bind]. pose proof (decdigits_nn _ _ _ D ltac:(lia)). unfold signed_long.
  assert (1 <= 2 ^ (lw - 1)) by (change 1 with (2 ^ 0); apply Z.pow_le_mono_r; lia). destruct minus; lia.
Qed.

(** every text can be read *)
Lemma span : forall (P : Z -> Prop), (forall c, P c \/ ~ P c) -> forall v, exists a b, v = a ++ b /\ Forall P a /\ stops P b.
Proof.
  intros P D. induction v as [|c v IH]; [exists [], []; repeat split; constructor|]. destruct (D c) as [H|H].
  - destruct IH as (a & b & -> & A & S). exists (c :: a), b. split; [reflexivity|]. split; [constructor; assumption|exact S].
  - exists [], (c :: v). split; [reflexivity|]. split; [constructor|exact H].
Qed.
Lemma blank_dec : forall c, whitespace c \/ ~ whitespace c.
Proof. intros c. unfold whitespace. lia. Qed.
Lemma hexdigit_dec : forall c, is_hexdigit c \/ ~ is_hexdigit c.
Proof.
  intros c. destruct (c_digit c) as [d|] eqn:E; [destruct (d <? 16) eqn:L|].
  - left. apply hex_spec. eauto.
  - right. intros H. apply hex_spec in H. destruct H as (d' & E' & L'). congruence.
  - right. intros H. apply hex_spec in H. destruct H as (d' & E' & L'). congruence.
Qed.
Lemma decdigit_dec : forall c, is_decdigit c \/ ~ is_decdigit c.
Proof.
  intros c. destruct (Z_le_dec 48 c); [destruct (Z_le_dec c 57)|]; [left; exists (c - 48); split; [lia|reflexivity]|right|right]; intros (d & H & _); lia.
Qed.
Lemma hex_number : forall ds, Forall is_hexdigit ds -> forall acc, exists x, hexdigits acc ds x.
Proof. intros ds H. induction H as [|c ds (d & D) H IH]; intros acc; [eexists; constructor|]. destruct (IH (acc * 16 + d)) as (x & X). exists x. econstructor; eassumption. Qed.
Lemma dec_number : forall ds, Forall is_decdigit ds -> forall acc, exists x, decdigits acc ds x.
Proof. intros ds H. induction H as [|c ds (d & D) H IH]; intros acc; [eexists; constructor|]. destruct (IH (acc * 10 + d)) as (x & X). exists x. econstructor; eassumption. Qed.
Lemma sign_split : forall t, exists sg minus r, t = sg ++ r /\ sign sg minus /\ (sg = [] -> stops (fun c => c = 43 \/ c = 45) r).
Proof.
  intros [|c t]; [exists [], false, []; repeat split; constructor|]. destruct (Z.eqb_spec c 43) as [E|N1]; [|destruct (Z.eqb_spec c 45) as [E|N2]].
  - subst c. exists (zs "+"), false, t. split; [reflexivity|]. split; [constructor|discriminate].
  - subst c. exists (zs "-"), true, t. split; [reflexivity|]. split; [constructor|discriminate].
  - exists [], false, (c :: t). split; [reflexivity|]. split; [constructor|]. intros _. cbn. lia.
Qed.
Lemma marked_dec : forall t, marked t \/ ~ marked t.
Proof.
  intros [|z [|y [|c r]]]; try (right; intros (m & c' & r' & [-> | ->] & _ & E); discriminate).
  destruct (hexdigit_dec c) as [H|H].
  - destruct (list_eq_dec Z.eq_dec [z; y] (zs "0x")) as [E|N1]; [left; exists [z; y], c, r; split; [left; exact E|split; [exact H|reflexivity]]|].
    destruct (list_eq_dec Z.eq_dec [z; y] (zs "0X")) as [E|N2]; [left; exists [z; y], c, r; split; [right; exact E|split; [exact H|reflexivity]]|].
    right. intros (m & c' & r' & [-> | ->] & _ & E); [apply N1|apply N2]; cbn in E; injection E as -> -> _ _; reflexivity.
  - right. intros (m & c' & r' & [-> | ->] & I & E); cbn in E; injection E as _ _ -> _; contradiction.
Qed.
Lemma hex_total : forall v, exists minus x, hex_reading v minus x.
Proof.
  intros v. destruct (span whitespace blank_dec v) as (ws & t & -> & B & SB). destruct (sign_split t) as (sg & minus & u & -> & SG & SS).
  destruct (marked_dec u) as [(m & c & r & M & H & ->)|N].
  - destruct (span is_hexdigit hexdigit_dec r) as (ds & rest & -> & DS & SD). destruct (hex_number (c :: ds) (Forall_cons _ H DS) 0) as (x & X).
    exists minus, x, ws, sg, m, (c :: ds), rest. split; [reflexivity|]. split; [exact B|]. split; [exact SB|]. split; [exact SG|]. split; [exact SS|].
    split; [right; split; [exact M|discriminate]|]. split; assumption.
  - destruct (span is_hexdigit hexdigit_dec u) as (ds & rest & -> & DS & SD). destruct (hex_number ds DS 0) as (x & X).
    exists minus, x, ws, sg, [], ds, rest. split; [reflexivity|]. split; [exact B|]. split; [exact SB|]. split; [exact SG|]. split; [exact SS|].
    split; [left; split; [reflexivity|exact N]|]. split; assumption.
Qed.
Lemma dec_total : forall v, exists minus x, dec_reading v minus x.
Proof.
  intros v. destruct (span whitespace blank_dec v) as (ws & t & -> & B & SB). destruct (sign_split t) as (sg & minus & u & -> & SG & SS).
  destruct (span is_decdigit decdigit_dec u) as (ds & rest & -> & DS & SD). destruct (dec_number ds DS 0) as (x & X).
  exists minus, x, ws, sg, ds, rest. repeat (split; [assumption || reflexivity|]). assumption.
Qed.
(** only one reading, up to the sign of 0 *)
Lemma hex_reading_nn : forall v minus x, hex_reading v minus x -> 0 <= x.
Proof. intros v minus x (? & ? & ? & ? & ? & _ & _ & _ & _ & _ & _ & D & _). eapply hexdigits_nonneg; [exact D|lia]. Qed.
Lemma hex_unique : forall v minus x minus' x', hex_reading v minus x -> hex_reading v minus' x' -> x = x' /\ (minus = minus' \/ x = 0).
Proof.
  intros v m x m' x' H H'. pose proof (hex_reading_nn _ _ _ H) as P. pose proof (hex_reading_nn _ _ _ H') as P'.
  set (lw := 2 + x + x'). pose proof (hex_reads lw _ _ _ H) as E. rewrite (hex_reads lw _ _ _ H') in E.
  assert (L : 2 * x + 2 * x' + 1 < 2 ^ lw).
  { unfold lw. replace (2 + x + x') with (2 + (x + x')) by lia. rewrite Z.pow_add_r by lia. change (2 ^ 2) with 4. assert (x + x' < 2 ^ (x + x')) by (apply Z.pow_gt_lin_r; lia). lia. }
  unfold unsigned_long in E. replace (2 ^ lw - 1 <? x) with false in E by lia. replace (2 ^ lw - 1 <? x') with false in E by lia.
  assert (MM : forall y, 0 < y < 2 ^ lw -> (- y) mod 2 ^ lw = 2 ^ lw - y) by (intros y Y; symmetry; apply (Z.mod_unique (- y) (2 ^ lw) (-1)); lia).
  assert (M0 : (- 0) mod 2 ^ lw = 0) by (apply Z.mod_0_l; lia).
  destruct (Z.eq_dec x 0) as [X0|X0]; destruct (Z.eq_dec x' 0) as [X1|X1].
  - subst. lia.
  - subst x. destruct m, m'; rewrite ?M0 in E; rewrite ?MM in E by lia; lia.
  - subst x'. destruct m, m'; rewrite ?M0 in E; rewrite ?MM in E by lia; lia.
  - destruct m, m'; rewrite ?MM in E by lia; (split; [lia|]); first [left; reflexivity|exfalso; lia].
Qed.
Lemma uid_line : forall lw w c e cb l s k v minus x,
  consumer_at w c (LocoC (Def (Some e)) cb) -> engine_at w e l -> List.length (lo_proto l) = 8%nat -> (List.length v < 26)%nat ->
  hex_reading v minus x -> attribute_of s k = Some Uid ->
  exists l' t, cons_consume lw c (zb max_section s) (zb max_key k) (zb max_value v) w = Ok (with_engine w e l', t) /\
    ld_uid (lo_data l') = unsigned_long lw minus x mod 2 ^ 32.
Proof.
  intros lw w c e cb l s k v minus x C E P V R A. destruct (line_effect lw w c e cb l s k v C E P V) as (l' & EQ & _ & _ & _ & _ & U & _).
  rewrite A in U. exists l'. eexists. split; [exact EQ|]. rewrite U, (hex_reads lw _ _ _ R). reflexivity.
Qed.
Lemma address_line : forall lw w c e cb l s k v minus x,
  consumer_at w c (LocoC (Def (Some e)) cb) -> engine_at w e l -> List.length (lo_proto l) = 8%nat -> (List.length v < 26)%nat ->
  hex_reading v minus x -> attribute_of s k = Some Address ->
  exists l' t, cons_consume lw c (zb max_section s) (zb max_key k) (zb max_value v) w = Ok (with_engine w e l', t) /\
    ld_addr (lo_data l') = unsigned_long lw minus x mod 2 ^ 32.
Proof.
  intros lw w c e cb l s k v minus x C E P V R A. destruct (line_effect lw w c e cb l s k v C E P V) as (l' & EQ & _ & _ & _ & _ & _ & U & _).
  rewrite A in U. exists l'. eexists. split; [exact EQ|]. rewrite U, (hex_reads lw _ _ _ R). reflexivity.
Qed.
Lemma platforms : forall minus x, 0 <= x -> (unsigned_long 32 minus x mod 2 ^ 32 = unsigned_long 64 minus x mod 2 ^ 32 <-> x < 2 ^ 32 \/ x mod 2 ^ 32 = (if minus then 1 else 2 ^ 32 - 1) \/ 2 ^ 64 <= x).
Proof.
  intros minus x X. unfold unsigned_long. change (2 ^ 64) with (2 ^ 32 * 2 ^ 32). set (M := 2 ^ 32) in *. assert (MP : 1 < M) by reflexivity.
  assert (MM : M < M * M) by nia.
  assert (NN : forall y, ((- y) mod (M * M)) mod M = (- y) mod M).
  { intros y. rewrite Z.rem_mul_r by lia. rewrite Z.mul_comm, Z.mod_add by lia. apply Z.mod_mod. lia. }
  destruct (Z_lt_dec x M) as [L|L].
  - replace (M - 1 <? x) with false by lia. replace (M * M - 1 <? x) with false by lia. split; [auto|]. intros _.
    destruct minus; [rewrite NN; apply Z.mod_mod; lia|reflexivity].
  - replace (M - 1 <? x) with true by lia. rewrite (Z.mod_small (M - 1) M) by lia. destruct (Z_lt_dec x (M * M)) as [L2|L2].
    + replace (M * M - 1 <? x) with false by lia. pose proof (Z.mod_pos_bound x M ltac:(lia)) as B. pose proof (Z.div_mod x M ltac:(lia)) as D. destruct minus.
      * rewrite NN. assert (E : (- x) mod M = if x mod M =? 0 then 0 else M - x mod M).
        { destruct (Z.eqb_spec (x mod M) 0) as [Z0|Z0]; [apply Z.mod_opp_l_z; lia|apply Z.mod_opp_l_nz; lia]. }
        rewrite E. destruct (Z.eqb_spec (x mod M) 0); lia.
      * lia.
    + replace (M * M - 1 <? x) with true by lia. replace ((M * M - 1) mod M) with (M - 1); [lia|]. apply (Z.mod_unique _ M (M - 1)); nia.
Qed.
