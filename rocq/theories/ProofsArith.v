(* ProofsArith.v -- the arithmetic of the model is what the integer rules of C++ make of the code's
   expressions, for an int of 32 bits. *)
From Verif Require Import CBase CTypes Messages Frames Loco Buffer Crc World ZLib SpecArith Arith.

Definition int32 : cty := (true, 32).
Definition okt (t : cty) : Prop := t = u8t \/ t = u16t \/ t = u32t \/ t = int32.
(** [e] evaluates to a value that is not negative *)
Definition ev (e : cexpr) (t : cty) (v : Z) : Prop := eval 32 e = Some (t, v) /\ okt t /\ 0 <= v <= greatest t.
Definition joined (s t : cty) : cty := common (promoted 32 s) (promoted 32 t).

Ltac types := repeat match goal with H : okt _ |- _ => destruct H as [-> | [-> | [-> | ->]]] end.

Lemma greatest_u8 : greatest u8t = 255. Proof. reflexivity. Qed.
Lemma greatest_u16 : greatest u16t = 65535. Proof. reflexivity. Qed.
Lemma greatest_u32 : greatest u32t = 4294967295. Proof. reflexivity. Qed.
Lemma greatest_int : greatest int32 = 2147483647. Proof. reflexivity. Qed.
Lemma okt_ones t : okt t -> exists k, 0 <= k <= 32 /\ greatest t = 2 ^ k - 1.
Proof.
  intros H. types; [exists 8|exists 16|exists 32|exists 31]; split; try lia; reflexivity.
Qed.
Lemma okt_joined s t : okt s -> okt t -> okt (joined s t) /\ greatest s <= greatest (joined s t) /\ greatest t <= greatest (joined s t).
Proof.
  intros A B. types; (split; [vm_compute; intuition congruence|split; vm_compute; discriminate]).
Qed.
Lemma okt_promoted s : okt s -> okt (promoted 32 s) /\ greatest s <= greatest (promoted 32 s) /\ snd (promoted 32 s) = 32.
Proof.
  intros A. types; (split; [vm_compute; intuition congruence|split; [vm_compute; discriminate|reflexivity]]).
Qed.
Lemma conv_id t v : okt t -> 0 <= v <= greatest t -> conv t v = v.
Proof.
  intros A B. unfold conv. types; cbn [snd u8t u16t u32t int32].
  - change (least u8t) with 0. change (2 ^ 8) with 256. rewrite greatest_u8 in B. rewrite Z.mod_small; lia.
  - change (least u16t) with 0. change (2 ^ 16) with 65536. rewrite greatest_u16 in B. rewrite Z.mod_small; lia.
  - change (least u32t) with 0. change (2 ^ 32) with 4294967296. rewrite greatest_u32 in B. rewrite Z.mod_small; lia.
  - change (least int32) with (-2147483648). change (2 ^ 32) with 4294967296. rewrite greatest_int in B.
    rewrite Z.mod_small; lia.
Qed.
Lemma conv_u8 v : conv u8t v = u8 v.
Proof. unfold conv, u8. change (least u8t) with 0. change (2 ^ snd u8t) with 256. rewrite Z.sub_0_r, Z.add_0_r. reflexivity. Qed.
Lemma conv_u16 v : conv u16t v = u16 v.
Proof. unfold conv, u16. change (least u16t) with 0. change (2 ^ snd u16t) with 65536. rewrite Z.sub_0_r, Z.add_0_r. reflexivity. Qed.
Lemma conv_u32 v : conv u32t v = u32 v.
Proof. unfold conv, u32. change (least u32t) with 0. change (2 ^ snd u32t) with 4294967296. rewrite Z.sub_0_r, Z.add_0_r. reflexivity. Qed.

Lemma is_of_u8 v : is_of u8t v -> 0 <= v <= 255. Proof. intros H; exact H. Qed.

(* --- building up values --- *)
Lemma ev_val t v : okt t -> 0 <= v <= greatest t -> ev (Val t v) t v.
Proof. intros A B. split; [reflexivity|split; assumption]. Qed.
Lemma ev_u8 v : is_of u8t v -> ev (Val u8t v) u8t v.
Proof. intros H. apply ev_val; [left; reflexivity|exact H]. Qed.
Lemma ev_u16 v : is_of u16t v -> ev (Val u16t v) u16t v.
Proof. intros H. apply ev_val; [right; left; reflexivity|exact H]. Qed.
Lemma ev_u32 v : is_of u32t v -> ev (Val u32t v) u32t v.
Proof. intros H. apply ev_val; [right; right; left; reflexivity|exact H]. Qed.
Lemma ev_lit v : 0 <= v <= 2147483647 -> ev (Lit v) int32 v.
Proof.
  intros H. split; [|split; [right; right; right; reflexivity|exact H]]. cbn [eval]. unfold lit_type, is_ofb.
  change (least (intt 32)) with (-2147483648). change (greatest (intt 32)) with 2147483647.
  replace (-2147483648 <=? v) with true by (symmetry; apply Z.leb_le; lia).
  replace (v <=? 2147483647) with true by (symmetry; apply Z.leb_le; lia). reflexivity.
Qed.
Lemma ev_cast t e s v : okt t -> ev e s v -> v <= greatest t -> ev (Cast t e) t v.
Proof.
  intros T (E & S & B) L. split; [|split; [exact T|lia]]. cbn [eval]. rewrite E, conv_id by (try assumption; lia).
  reflexivity.
Qed.
Lemma ev_or a b s t x y : ev a s x -> ev b t y -> ev (Or a b) (joined s t) (Z.lor x y).
Proof.
  intros (A & S & X) (B & T & Y). destruct (okt_joined s t S T) as (J & J1 & J2).
  split; [|split; [exact J|]].
  - cbn [eval]. rewrite A, B. unfold both, with_common. cbn [fst snd]. fold (joined s t).
    rewrite !conv_id by (try assumption; lia). reflexivity.
  - destruct (okt_ones _ J) as (k & K & E). rewrite E in *.
    pose proof (lor_range x y k ltac:(lia) ltac:(lia) ltac:(lia)). lia.
Qed.
Lemma ev_and a b s t x y : ev a s x -> ev b t y -> ev (And a b) (joined s t) (Z.land x y).
Proof.
  intros (A & S & X) (B & T & Y). destruct (okt_joined s t S T) as (J & J1 & J2).
  split; [|split; [exact J|]].
  - cbn [eval]. rewrite A, B. unfold both, with_common. cbn [fst snd]. fold (joined s t).
    rewrite !conv_id by (try assumption; lia). reflexivity.
  - destruct (okt_ones _ J) as (k & K & E). rewrite E in *.
    pose proof (land_range x y k ltac:(lia) ltac:(lia) ltac:(lia)). lia.
Qed.
Lemma ev_xor a b s t x y : ev a s x -> ev b t y -> ev (Xor a b) (joined s t) (Z.lxor x y).
Proof.
  intros (A & S & X) (B & T & Y). destruct (okt_joined s t S T) as (J & J1 & J2).
  split; [|split; [exact J|]].
  - cbn [eval]. rewrite A, B. unfold both, with_common. cbn [fst snd]. fold (joined s t).
    rewrite !conv_id by (try assumption; lia). reflexivity.
  - destruct (okt_ones _ J) as (k & K & E). rewrite E in *.
    pose proof (lxor_range x y k ltac:(lia) ltac:(lia) ltac:(lia)). lia.
Qed.
Lemma shift_ok s y : okt s -> 0 <= y < 32 -> (0 <=? y) && (y <? snd (promoted 32 s)) = true.
Proof.
  intros S Y. destruct (okt_promoted s S) as (_ & _ & W). rewrite W.
  apply andb_true_iff; split; [apply Z.leb_le|apply Z.ltb_lt]; lia.
Qed.
Lemma ev_shr a b s t x y : ev a s x -> ev b t y -> y < 32 -> ev (Shr a b) (promoted 32 s) (Z.shiftr x y).
Proof.
  intros (A & S & X) (B & T & Y) L. destruct (okt_promoted s S) as (P & P1 & W).
  split; [|split; [exact P|]].
  - cbn [eval]. rewrite A, B. unfold both, shifting. cbn [fst snd]. rewrite shift_ok by (try assumption; lia).
    rewrite shr by lia. reflexivity.
  - rewrite shr by lia. assert (0 < 2 ^ y) by (apply Z.pow_pos_nonneg; lia).
    split; [apply Z.div_pos; lia|]. transitivity x; [|lia]. apply Z.div_le_upper_bound; nia.
Qed.
Lemma ev_shl a b s t x y : ev a s x -> ev b t y -> y < 32 -> x * 2 ^ y <= greatest (promoted 32 s) ->
  ev (Shl a b) (promoted 32 s) (Z.shiftl x y).
Proof.
  intros (A & S & X) (B & T & Y) L U. destruct (okt_promoted s S) as (P & P1 & W).
  assert (Q : 0 <= x * 2 ^ y) by (apply Z.mul_nonneg_nonneg; [lia|apply Z.pow_nonneg; lia]).
  split; [|split; [exact P|rewrite shl by lia; lia]].
  cbn [eval]. rewrite A, B. unfold both, shifting. cbn [fst snd]. rewrite shift_ok by (try assumption; lia).
  replace (x <? 0) with false by (symmetry; apply Z.ltb_ge; lia). rewrite shl by lia. unfold result.
  destruct (fst (promoted 32 s)) eqn:F.
  - replace (is_ofb (promoted 32 s) (x * 2 ^ y)) with true; [reflexivity|]. symmetry.
    unfold is_ofb. apply andb_true_iff. split; apply Z.leb_le; [|lia].
    unfold least. rewrite F. assert (0 <= 2 ^ (snd (promoted 32 s) - 1)) by (apply Z.pow_nonneg; lia). lia.
  - rewrite conv_id by (try assumption; lia). reflexivity.
Qed.
Lemma not32_eq y : 0 <= y < 4294967296 -> u32 (Z.lnot y) = Z.lxor 0xFFFFFFFF y.
Proof.
  intros Y. unfold u32. change 4294967296 with (2 ^ 32). change 0xFFFFFFFF with (Z.ones 32).
  rewrite <- Z.land_ones by lia. apply Z.bits_inj'. intros n N.
  rewrite Z.land_spec, Z.lxor_spec, Z.lnot_spec by lia. rewrite Z.testbit_ones_nonneg by lia.
  destruct (Z.ltb_spec n 32) as [L|L].
  - rewrite andb_true_r. destruct (Z.testbit y n); reflexivity.
  - rewrite andb_false_r. destruct (Z.eq_dec y 0) as [-> | ]; [rewrite Z.bits_0; reflexivity|].
    rewrite (Z.bits_above_log2 y n); [reflexivity|lia|].
    assert (Z.log2 y < 32) by (apply Z.log2_lt_pow2; lia). lia.
Qed.
Lemma ev_not a y : ev a u32t y -> ev (Not a) u32t (Z.lxor 0xFFFFFFFF y).
Proof.
  intros (A & T & Y). rewrite greatest_u32 in Y. rewrite <- not32_eq by lia. split; [|split; [exact T|]].
  - cbn [eval]. rewrite A. change (promoted 32 u32t) with u32t. rewrite conv_u32. reflexivity.
  - rewrite greatest_u32. pose proof (Z.mod_pos_bound (Z.lnot y) 4294967296). unfold u32. lia.
Qed.
Lemma ev_cond c a b s x y : ev a s x -> ev b s y -> ev (Cond c a b) s (if c then x else y).
Proof.
  intros (A & S & X) (B & _ & Y). split; [|split; [exact S|destruct c; assumption]].
  cbn [eval]. rewrite A, B. unfold both. cbn [fst snd].
  replace (cty_eqb s s) with true; [destruct c; reflexivity|]. unfold cty_eqb. rewrite Bool.eqb_reflx, Z.eqb_refl. reflexivity.
Qed.

Lemma store_u8 e t v : ev e t v -> store 32 u8t e = Some (u8 v).
Proof. intros (E & _ & _). unfold store. rewrite E, conv_u8. reflexivity. Qed.
Lemma store_u16 e t v : ev e t v -> store 32 u16t e = Some (u16 v).
Proof. intros (E & _ & _). unfold store. rewrite E, conv_u16. reflexivity. Qed.
Lemma store_u32 e t v : ev e t v -> store 32 u32t e = Some v.
Proof.
  intros (E & T & B). unfold store. rewrite E. f_equal.
  rewrite conv_u32. unfold u32. apply Z.mod_small.
  destruct (okt_ones t T) as (k & K & G). rewrite G in B. assert (2 ^ k <= 2 ^ 32) by (apply Z.pow_le_mono_r; lia).
  change (2 ^ 32) with 4294967296 in *. lia.
Qed.

Ltac ev := repeat match goal with
  | H : ev ?e _ _ |- ev ?e _ _ => exact H
  | |- ev (Val u8t _) _ _ => apply ev_u8
  | |- ev (Val u16t _) _ _ => apply ev_u16
  | |- ev (Val u32t _) _ _ => apply ev_u32
  | |- ev (Lit _) _ _ => apply ev_lit; lia
  | |- ev (Not _) _ _ => eapply ev_not
  | |- ev (Or _ _) _ _ => eapply ev_or
  | |- ev (And _ _) _ _ => eapply ev_and
  | |- ev (Xor _ _) _ _ => eapply ev_xor
  | |- ev (Shr _ _) _ _ => eapply ev_shr; [|apply ev_lit; lia|lia]
  | |- ev (Shl _ _) _ _ => eapply ev_shl; [|apply ev_lit; lia|lia|]
  | |- ev (Cast _ _) _ _ => eapply ev_cast; [unfold okt; tauto| |]
  | |- ev (Cond _ _ _) _ _ => eapply ev_cond
  end.

Lemma u16_small v : 0 <= v <= 65535 -> u16 v = v.
Proof. intros. unfold u16. apply Z.mod_small. lia. Qed.
Lemma u8_small v : 0 <= v <= 255 -> u8 v = v.
Proof. intros. unfold u8. apply Z.mod_small. lia. Qed.

(* --- Identifier --- *)
Lemma m_hash : c_kHashBitMask 32 = Some kHashBitMask. Proof. reflexivity. Qed.
Lemma m_response : c_kResponseBitMask 32 = Some kResponseBitMask. Proof. reflexivity. Qed.
Lemma m_command : c_kCommandBitMask 32 = Some kCommandBitMask. Proof. reflexivity. Qed.
Lemma ev_mask m : 0 <= m <= 4294967295 -> ev (Val u32t m) u32t m.
Proof. intros. apply ev_u32. exact H. Qed.
Lemma of_hash : is_of u32t kHashBitMask. Proof. split; vm_compute; discriminate. Qed.
Lemma of_response : is_of u32t kResponseBitMask. Proof. split; vm_compute; discriminate. Qed.
Lemma of_command : is_of u32t kCommandBitMask. Proof. split; vm_compute; discriminate. Qed.

Lemma isResponse_ok i : is_of u32t i -> c_isResponse 32 i = Some (id_isResponse i).
Proof.
  intros I. unfold c_isResponse. rewrite m_response. cbn [obind].
  destruct (ev_and _ _ _ _ _ _ (ev_u32 i I) (ev_u32 _ of_response)) as (E & _ & _). rewrite E. reflexivity.
Qed.
Lemma setResponse_ok i r : is_of u32t i -> c_setResponse 32 i r = Some (id_setResponse i r).
Proof.
  intros I. unfold c_setResponse, id_setResponse, not32. rewrite m_response. cbn [obind]. pose proof of_response.
  destruct r; eapply store_u32; ev; assumption.
Qed.
Lemma getPriority_ok i : is_of u32t i -> c_getPriority 32 i = Some (id_getPriority i).
Proof. intros I. unfold c_getPriority, id_getPriority. eapply store_u8. ev; assumption. Qed.
Lemma getCommand_ok i : is_of u32t i -> c_getCommand 32 i = Some (id_getCommand i).
Proof.
  intros I. unfold c_getCommand, id_getCommand. erewrite store_u8; [|ev; assumption]. f_equal. apply u8_small.
  assert (0 <= Z.shiftr i 17) by (apply Z.shiftr_nonneg; apply I).
  rewrite Z.land_comm. pose proof (land_range 0xFF (Z.shiftr i 17) 8 ltac:(lia) ltac:(lia) ltac:(lia)). lia.
Qed.
Lemma range32 e t v : ev e t v -> is_of u32t v.
Proof.
  intros (_ & T & B). destruct (okt_ones t T) as (k & K & G). rewrite G in B.
  assert (2 ^ k <= 2 ^ 32) by (apply Z.pow_le_mono_r; lia). change (2 ^ 32) with 4294967296 in *.
  unfold is_of. change (least u32t) with 0. change (greatest u32t) with 4294967295. lia.
Qed.
Lemma is_of_8_32 v : is_of u8t v -> is_of u32t v.
Proof.
  unfold is_of. change (least u32t) with 0. change (greatest u32t) with 4294967295.
  change (least u8t) with 0. change (greatest u8t) with 255. lia.
Qed.
Lemma setCommand_ok i c : is_of u32t i -> is_of u8t c -> c_setCommand 32 i c = Some (id_setCommand i c).
Proof.
  intros I C. unfold c_setCommand, id_setCommand, not32. rewrite m_command. cbn [obind].
  pose proof (is_of_8_32 c C) as C2. pose proof of_command as OC.
  assert (CB : 0 <= c <= 255) by exact C.
  rewrite (store_u32 (Cast u8t (Val u8t c)) u8t c) by (ev; try assumption; exact (proj2 CB)). cbn [obind].
  assert (E1 : ev (Shl (Val u32t c) (Lit 17)) u32t (Z.shiftl c 17)).
  { change u32t with (promoted 32 u32t) at 2. ev; try assumption. change (promoted 32 u32t) with u32t.
    rewrite greatest_u32. change (2 ^ 17) with 131072. lia. }
  rewrite (store_u32 _ _ _ E1). cbn [obind].
  assert (E2 : ev (And (Val u32t i) (Not (Val u32t kCommandBitMask))) u32t (Z.land i (Z.lxor 0xFFFFFFFF kCommandBitMask))).
  { change u32t with (joined u32t u32t) at 3. ev; assumption. }
  rewrite (store_u32 _ _ _ E2). cbn [obind].
  pose proof (range32 _ _ _ E1) as R1. pose proof (range32 _ _ _ E2) as R2.
  rewrite (store_u32 _ _ _ (ev_or _ _ _ _ _ _ (ev_u32 _ R2) (ev_u32 _ R1))).
  f_equal. f_equal. unfold u32. symmetry. apply Z.mod_small.
  destruct R1 as (R1 & R1'). change (least u32t) with 0 in R1. rewrite greatest_u32 in R1'. lia.
Qed.
Lemma getHash_ok i : is_of u32t i -> c_getHash 32 i = Some (id_getHash i).
Proof.
  intros I. unfold c_getHash, id_getHash. rewrite m_hash. cbn [obind]. pose proof of_hash.
  eapply store_u16. ev; assumption.
Qed.
Lemma setHash_ok i h : is_of u32t i -> is_of u16t h -> c_setHash 32 i h = Some (id_setHash i h).
Proof.
  intros I H. unfold c_setHash, id_setHash, not32. rewrite m_hash. cbn [obind]. pose proof of_hash as OH.
  assert (E2 : ev (And (Val u32t i) (Not (Val u32t kHashBitMask))) u32t (Z.land i (Z.lxor 0xFFFFFFFF kHashBitMask))).
  { change u32t with (joined u32t u32t) at 3. ev; assumption. }
  rewrite (store_u32 _ _ _ E2). cbn [obind]. pose proof (range32 _ _ _ E2) as R2.
  eapply store_u32. ev; assumption.
Qed.
Lemma lit_high : ev (Lit 0xFFFFFF00) u32t 0xFFFFFF00.
Proof. split; [reflexivity|split; [right; right; left; reflexivity|split; vm_compute; discriminate]]. Qed.
Lemma u16_range v : is_of u16t (u16 v).
Proof.
  unfold is_of, u16. change (least u16t) with 0. rewrite greatest_u16. pose proof (Z.mod_pos_bound v 65536). lia.
Qed.
Lemma computeSenderHash_ok uid : is_of u32t uid -> c_computeSenderHash 32 uid = Some (computeSenderHash uid).
Proof.
  intros I. unfold c_computeSenderHash, computeSenderHash. pose proof lit_high as LH.
  assert (E : exists t, ev (Or (And (Shr (Val u32t uid) (Lit 3)) (Lit 4294967040)) (And (Val u32t uid) (Lit 127))) t
             (Z.lor (Z.land (Z.shiftr uid 3) 4294967040) (Z.land uid 127))).
  { eexists. eapply ev_or; [eapply ev_and; [|exact LH]|]; ev; assumption. }
  destruct E as (t & E). rewrite (store_u32 _ _ _ E). cbn [obind]. pose proof (range32 _ _ _ E) as R.
  replace (u32 (Z.lor (Z.land (Z.shiftr uid 3) 4294967040) (Z.land uid 127)))
    with (Z.lor (Z.land (Z.shiftr uid 3) 4294967040) (Z.land uid 127)).
  2:{ symmetry. unfold u32. apply Z.mod_small. destruct R as (R & R'). change (least u32t) with 0 in R.
      rewrite greatest_u32 in R'. lia. }
  set (x := Z.lor _ _) in *.
  rewrite (store_u16 _ _ _ (ev_u32 x R)). cbn [obind].
  assert (E3 : ev (Shr (Val u32t x) (Lit 16)) u32t (Z.shiftr x 16)).
  { change u32t with (promoted 32 u32t) at 2. ev; assumption. }
  rewrite (store_u16 _ _ _ E3). cbn [obind]. pose proof (u16_range x). pose proof (u16_range (Z.shiftr x 16)).
  cbn zeta. eapply store_u16. ev; assumption.
Qed.
Lemma small8 v k : is_of u8t v -> 0 <= k <= 24 -> v * 2 ^ k <= 4294967295.
Proof.
  intros V K. assert (0 <= v <= 255) by exact V. assert (2 ^ k <= 2 ^ 24) by (apply Z.pow_le_mono_r; lia).
  assert (0 < 2 ^ k) by (apply Z.pow_pos_nonneg; lia). change (2 ^ 24) with 16777216 in *. nia.
Qed.
Lemma ev_byte v k : is_of u8t v -> 0 <= k <= 24 -> ev (Shl (Cast u32t (Val u8t v)) (Lit k)) u32t (Z.shiftl v k).
Proof.
  intros V K. change u32t with (promoted 32 u32t) at 2. assert (B : 0 <= v <= 255) by exact V.
  eapply ev_shl; [| |lia|].
  - eapply ev_cast; [unfold okt; tauto|apply ev_u8; exact V|rewrite greatest_u32; lia].
  - apply ev_lit; lia.
  - change (promoted 32 u32t) with u32t. rewrite greatest_u32. apply small8; assumption.
Qed.
Lemma GetIdentifier_ok a b c d : is_of u8t a -> is_of u8t b -> is_of u8t c -> is_of u8t d ->
  c_GetIdentifier 32 a b c d = Some (id_fromBuffer a b c d).
Proof.
  intros A B C D. unfold c_GetIdentifier, id_fromBuffer, id_fromRaw. eapply store_u32.
  eapply ev_or; [eapply ev_or; [eapply ev_or|]|]; try (apply ev_byte; [assumption|lia]). apply ev_u8; assumption.
Qed.

(* --- Data --- *)
Definition bytes (d : Data) : Prop := forall k, is_of u8t (dget d k).
Lemma getLocid_ok d : bytes d -> c_getLocid 32 d = Some (getLocid d).
Proof.
  intros D. unfold c_getLocid, getLocid, at_. eapply store_u32.
  eapply ev_or; [eapply ev_or; [eapply ev_or|]|]; try (apply ev_byte; [apply D|lia]).
  eapply ev_cast; [unfold okt; tauto|apply ev_u8; apply D|]. pose proof (D 3%nat) as B.
  assert (0 <= dget d 3 <= 255) by exact B. rewrite greatest_u32. lia.
Qed.
Lemma put8_ok d k e t v : ev e t v -> put8 32 d k e = Some (dset d k v).
Proof. intros E. unfold put8. rewrite (store_u8 _ _ _ E). reflexivity. Qed.
Lemma setLocid_ok d l : is_of u32t l -> c_setLocid 32 d l = Some (setLocid d l).
Proof.
  intros L. unfold c_setLocid, setLocid.
  repeat (erewrite put8_ok; [cbn [obind]|ev; assumption]). reflexivity.
Qed.
Lemma two_ok d hi lo : bytes d -> c_two 32 d hi lo = Some (u16 (Z.lor (Z.shiftl (dget d hi) 8) (dget d lo))).
Proof.
  intros D. unfold c_two, at_. eapply store_u16. eapply ev_or; [|apply ev_u8; apply D].
  eapply ev_shl; [apply ev_u8; apply D|apply ev_lit; lia|lia|].
  pose proof (D hi) as B. assert (0 <= dget d hi <= 255) by exact B.
  change (greatest (promoted 32 u8t)) with 2147483647. change (2 ^ 8) with 256. lia.
Qed.
Lemma s88_id_ok d hi lo : bytes d -> c_s88_id 32 d hi lo = Some (u16 (Z.lor (Z.shiftl (dget d hi) 8) (dget d lo))).
Proof.
  intros D. unfold c_s88_id. rewrite two_ok by exact D. cbn [obind]. eapply store_u32. apply ev_u16. apply u16_range.
Qed.
Lemma s88_setId_ok d hi lo v : is_of u32t v -> c_s88_setId 32 d hi lo v = Some (dset (dset d lo v) hi (Z.shiftr v 8)).
Proof.
  intros L. unfold c_s88_setId. erewrite put8_ok; [cbn [obind]|ev; assumption]. eapply put8_ok. ev; assumption.
Qed.
Lemma setTime_ok d t : is_of u16t t -> c_setTime 32 d t = Some (s88_setTime d t).
Proof.
  intros L. unfold c_setTime, s88_setTime. erewrite put8_ok; [cbn [obind]|ev; assumption]. eapply put8_ok. ev; assumption.
Qed.

(* --- constexpr.h --- *)
Lemma speed_ok d v : is_of u16t v -> c_speed_bytes 32 d v =
  let l := if v >? kMaxEngineVelocity then kMaxEngineVelocity else v in Some (dset (dset d 4 (Z.shiftr l 8)) 5 l).
Proof.
  intros L. unfold c_speed_bytes. cbn zeta.
  assert (M : is_of u16t kMaxEngineVelocity) by (split; vm_compute; discriminate).
  pose proof (ev_cond (v >? kMaxEngineVelocity) _ _ _ _ _ (ev_u16 _ M) (ev_u16 _ L)) as E.
  rewrite (store_u16 _ _ _ E). cbn [obind]. destruct E as (_ & _ & B). rewrite greatest_u16 in B.
  set (l := if v >? kMaxEngineVelocity then kMaxEngineVelocity else v) in *.
  rewrite (u16_small l) by lia. assert (Hl : is_of u16t l) by exact B.
  erewrite put8_ok; [cbn [obind]|ev; assumption]. unfold put8, store. cbn [eval obind].
  unfold dset, put. cbn [dlc]. repeat f_equal. rewrite !conv_u8. unfold u8. rewrite Z.mod_mod by lia. reflexivity.
Qed.
Lemma limit_ok v : is_of u8t v -> c_limitToCANDataLength 32 v = Some (limitToCANDataLength v).
Proof.
  intros L. unfold c_limitToCANDataLength, limitToCANDataLength.
  assert (M : is_of u8t CanDataMaxLength) by (split; vm_compute; discriminate).
  erewrite store_u8; [|eapply ev_cond; apply ev_u8; eassumption]. destruct (v >? CanDataMaxLength); reflexivity.
Qed.
Lemma header_bytes_ok d n c : is_of u32t n -> is_of u16t c -> c_header_bytes 32 d n c =
  Some (dset (dset (dset (dset (dset (dset d 0 (Z.shiftr n 24)) 1 (Z.shiftr n 16)) 2 (Z.shiftr n 8)) 3 n)
         4 (Z.shiftr c 8)) 5 (Z.land c 0xFF)).
Proof.
  intros N C. unfold c_header_bytes.
  repeat (erewrite put8_ok; [cbn [obind]|ev; assumption]). reflexivity.
Qed.
Lemma decoder_ok a : is_of u32t a -> c_DecoderBaseAddress 32 a = Some (DecoderBaseAddress a).
Proof.
  intros A. unfold c_DecoderBaseAddress, DecoderBaseAddress, store. cbn [eval].
  change (lit_type 32 3) with int32. change (promoted 32 int32) with int32.
  change (conv int32 (Z.lnot 3)) with (-4). unfold both, with_common. cbn [fst snd].
  change (common (promoted 32 u32t) (promoted 32 int32)) with u32t.
  change (conv u32t (-4)) with 0xFFFFFFFC. rewrite conv_id; [|unfold okt; tauto|exact A].
  change (is_ofb u32t (least u32t) && is_ofb u32t (greatest u32t)) with true. cbv match. f_equal. apply conv_id; [unfold okt; tauto|].
  destruct (ev_and _ _ _ _ _ _ (ev_u32 a A) (ev_mask 0xFFFFFFFC ltac:(lia))) as (_ & _ & B). exact B.
Qed.

(* --- addresses --- *)
Lemma to_human_ok a : is_of u32t a -> c_to_human 32 a = Some (u32 (a + 1)).
Proof.
  intros A. unfold c_to_human, store. cbn [eval]. change (lit_type 32 1) with int32. unfold both, with_common. cbn [fst snd].
  change (common (promoted 32 u32t) (promoted 32 int32)) with u32t. change (conv u32t 1) with 1.
  rewrite conv_id; [|unfold okt; tauto|exact A]. unfold result. cbn [fst u32t]. fold u32t. rewrite !conv_u32.
  unfold u32. rewrite Z.mod_mod by lia. reflexivity.
Qed.
Lemma to_machine_ok a : is_of u32t a -> c_to_machine 32 a = Some (u32 (a - 1)).
Proof.
  intros A. unfold c_to_machine, store. cbn [eval]. change (lit_type 32 1) with int32. unfold both, with_common. cbn [fst snd].
  change (common (promoted 32 u32t) (promoted 32 int32)) with u32t. change (conv u32t 1) with 1.
  rewrite conv_id; [|unfold okt; tauto|exact A]. unfold result. cbn [fst u32t]. fold u32t. rewrite !conv_u32.
  unfold u32. rewrite Z.mod_mod by lia. reflexivity.
Qed.
Lemma numeric_ok a : is_of u32t a -> c_getNumericAddress 32 a = Some (turnout_getNumericAddress a).
Proof. intros A. unfold c_getNumericAddress. eapply store_u32. ev; assumption. Qed.
Lemma or_into_ok a b : is_of u32t a -> is_of u32t b -> c_or_into 32 a b = Some (Z.lor a b).
Proof. intros A B. unfold c_or_into. eapply store_u32. ev; assumption. Qed.
Lemma or_ok a b : is_of u32t a -> is_of u32t b -> c_or 32 a b = Some (Z.lor a b).
Proof.
  intros A B. unfold c_or. pose proof (ev_or _ _ _ _ _ _ (ev_u32 a A) (ev_u32 b B)) as E.
  pose proof (store_u32 _ _ _ E) as S. destruct E as (E & _ & _). unfold store in *. change (eval 32 (Brace u32t (Or (Val u32t a) (Val u32t b)))) with
    (match eval 32 (Or (Val u32t a) (Val u32t b)) with
        | Some (s, v) => if is_ofb u32t (least s) && is_ofb u32t (greatest s) then Some (u32t, v) else None
        | None => None end). rewrite E in *. exact S.
Qed.

(* --- Locomotive.h --- *)
Lemma masked_ok d : is_of u32t (ld_uid d) -> c_getUidMasked 32 (ld_uid d) = Some (ld_getUidMasked d).
Proof. intros A. unfold c_getUidMasked. eapply store_u32. ev; assumption. Qed.
Lemma mask_ok f : is_of u8t f -> c_mask 32 f = match fmask f with Ok m => Some m | UB _ => None end.
Proof.
  intros F. assert (B : 0 <= f <= 255) by exact F. unfold c_mask, fmask.
  change (store 32 u32t (Lit 1)) with (Some 1). cbn [obind]. destruct (Z.ltb_spec f 32) as [L|L].
  - assert (P : 2 ^ f <= 2 ^ 31) by (apply Z.pow_le_mono_r; lia). change (2 ^ 31) with 2147483648 in P.
    assert (0 < 2 ^ f) by (apply Z.pow_pos_nonneg; lia).
    assert (E : ev (Shl (Val u32t 1) (Val u8t f)) u32t (Z.shiftl 1 f)).
    { change u32t with (promoted 32 u32t) at 2. eapply ev_shl; [apply ev_mask; lia|apply ev_u8; exact F|lia|].
      change (greatest (promoted 32 u32t)) with 4294967295. lia. }
    rewrite (store_u32 _ _ _ E). f_equal. unfold u32. symmetry. apply Z.mod_small. rewrite shl by lia. lia.
  - unfold store. cbn [eval]. unfold both, shifting. cbn [fst snd]. change (snd (promoted 32 u32t)) with 32.
    replace (f <? 32) with false by (symmetry; apply Z.ltb_ge; lia). rewrite andb_false_r. reflexivity.
Qed.
Lemma fmask_range f m : 0 <= f -> fmask f = Ok m -> is_of u32t m.
Proof.
  intros F. unfold fmask. destruct (Z.ltb_spec f 32); [|discriminate]. intros E; inversion E; subst.
  unfold is_of, u32. change (least u32t) with 0. rewrite greatest_u32. pose proof (Z.mod_pos_bound (Z.shiftl 1 f) 4294967296). lia.
Qed.
Lemma setFunction_ok d f on : is_of u32t (ld_fbits d) -> is_of u8t f ->
  c_setFunction 32 (ld_fbits d) f on = match ld_setFunction d f on with Ok d' => Some (ld_fbits d') | UB _ => None end.
Proof.
  intros A F. unfold c_setFunction, ld_setFunction. rewrite mask_ok by exact F.
  destruct (fmask f) as [m|u] eqn:E; [|reflexivity]. cbn [obind bind ld_fbits].
  pose proof (fmask_range f m (proj1 F) E) as M. destruct on; eapply store_u32; ev; assumption.
Qed.
Lemma getFunction_ok d f : is_of u32t (ld_fbits d) -> is_of u8t f ->
  c_getFunction 32 (ld_fbits d) f = match ld_getFunction d f with Ok b => Some b | UB _ => None end.
Proof.
  intros A F. unfold c_getFunction, ld_getFunction. rewrite mask_ok by exact F.
  destruct (fmask f) as [m|u] eqn:E; [|reflexivity]. cbn [obind bind].
  pose proof (fmask_range f m (proj1 F) E) as M.
  destruct (ev_and _ _ _ _ _ _ (ev_u32 _ A) (ev_u32 m M)) as (E2 & _ & _). rewrite E2. reflexivity.
Qed.

(* --- Crc --- *)
Lemma ev_double a : is_of u16t a -> ev (Shl (Val u16t a) (Lit 1)) int32 (Z.shiftl a 1).
Proof.
  intros A. assert (B : 0 <= a <= 65535) by exact A. change int32 with (promoted 32 u16t).
  eapply ev_shl; [apply ev_u16; exact A|apply ev_lit; lia|lia|]. change (greatest (promoted 32 u16t)) with 2147483647.
  change (2 ^ 1) with 2. lia.
Qed.
Lemma round_ok a : is_of u16t a -> c_crc_round 32 a = Some (crc_bit a) /\ is_of u16t (crc_bit a).
Proof.
  intros A. unfold c_crc_round, crc_bit.
  destruct (ev_and _ _ _ _ _ _ (ev_u16 a A) (ev_lit 0x8000 ltac:(lia))) as (E & _ & _). rewrite E.
  destruct (negb (Z.land a 0x8000 =? 0)).
  - rewrite (store_u16 _ _ _ (ev_double a A)). cbn [obind].
    assert (P : is_of u16t crc_polynomial) by (split; vm_compute; discriminate).
    pose proof (ev_xor _ _ _ _ _ _ (ev_u16 _ (u16_range (Z.shiftl a 1))) (ev_u16 _ P)) as X.
    pose proof (u16_range (Z.shiftl a 1)) as R. assert (R' : 0 <= u16 (Z.shiftl a 1) <= 65535) by exact R.
    assert (Q : is_of u16t (Z.lxor (u16 (Z.shiftl a 1)) crc_polynomial)).
    { pose proof (lxor_range (u16 (Z.shiftl a 1)) crc_polynomial 16 ltac:(lia) ltac:(lia)
        ltac:(unfold crc_polynomial; lia)) as L. change (2 ^ 16) with 65536 in L.
      unfold is_of. change (least u16t) with 0. rewrite greatest_u16. lia. }
    rewrite (store_u16 _ _ _ X). rewrite u16_small by exact Q. split; [reflexivity|exact Q].
  - rewrite (store_u16 _ _ _ (ev_double a A)). split; [reflexivity|apply u16_range].
Qed.
Lemma rounds_ok n : forall a, is_of u16t a -> rounds 32 n a = Some (Crc.iter n crc_bit a).
Proof.
  induction n as [|n IH]; intros a A; [reflexivity|]. cbn [rounds Crc.iter]. destruct (round_ok a A) as (E & R).
  rewrite E. cbn [obind]. apply IH. exact R.
Qed.
Lemma updateCrc_ok a i : is_of u16t a -> is_of u8t i -> c_updateCrc 32 a i = Some (crc_update a i).
Proof.
  intros A I. unfold c_updateCrc, crc_update. assert (AB : 0 <= a <= 65535) by exact A. assert (IB : 0 <= i <= 255) by exact I.
  assert (E : ev (Shl (Val u8t i) (Lit 8)) int32 (Z.shiftl i 8)).
  { change int32 with (promoted 32 u8t). eapply ev_shl; [apply ev_u8; exact I|apply ev_lit; lia|lia|].
    change (greatest (promoted 32 u8t)) with 2147483647. change (2 ^ 8) with 256. lia. }
  assert (S : 0 <= Z.shiftl i 8 <= 65280) by (rewrite shl by lia; change (2 ^ 8) with 256; lia).
  assert (X : is_of u16t (Z.lxor a (Z.shiftl i 8))).
  { pose proof (lxor_range a (Z.shiftl i 8) 16 ltac:(lia) ltac:(lia) ltac:(lia)) as L. change (2 ^ 16) with 65536 in L.
    unfold is_of. change (least u16t) with 0. rewrite greatest_u16. lia. }
  rewrite (store_u16 _ _ _ (ev_xor _ _ _ _ _ _ (ev_u16 a A) E)). rewrite u16_small by exact X. cbn [obind].
  rewrite (u16_small (Z.shiftl i 8)) by lia. apply rounds_ok. exact X.
Qed.

(* --- buffers --- *)
Lemma sub_int a b x y : eval 32 a = Some (u8t, x) -> (eval 32 b = Some (u8t, y) \/ eval 32 b = Some (int32, y)) ->
  0 <= x <= 255 -> 0 <= y <= 255 -> eval 32 (Sub a b) = Some (int32, x - y).
Proof.
  intros A B X Y. cbn [eval]. rewrite A. destruct B as [-> | ->]; unfold both, with_common; cbn [fst snd];
    [change (common (promoted 32 u8t) (promoted 32 u8t)) with int32
    |change (common (promoted 32 u8t) (promoted 32 int32)) with int32];
    rewrite !conv_id by (try (unfold okt; tauto); rewrite greatest_int; lia); unfold result;
    change (fst int32) with true; cbv match; unfold is_ofb; change (least int32) with (-2147483648); rewrite greatest_int;
    replace (-2147483648 <=? x - y) with true by (symmetry; apply Z.leb_le; lia);
    replace (x - y <=? 2147483647) with true by (symmetry; apply Z.leb_le; lia); reflexivity.
Qed.
Lemma add_int a b x y : eval 32 a = Some (u8t, x) -> (eval 32 b = Some (u8t, y) \/ eval 32 b = Some (int32, y)) ->
  0 <= x <= 255 -> 0 <= y <= 255 -> eval 32 (Add a b) = Some (int32, x + y).
Proof.
  intros A B X Y. cbn [eval]. rewrite A. destruct B as [-> | ->]; unfold both, with_common; cbn [fst snd];
    [change (common (promoted 32 u8t) (promoted 32 u8t)) with int32
    |change (common (promoted 32 u8t) (promoted 32 int32)) with int32];
    rewrite !conv_id by (try (unfold okt; tauto); rewrite greatest_int; lia); unfold result;
    change (fst int32) with true; cbv match; unfold is_ofb; change (least int32) with (-2147483648); rewrite greatest_int;
    replace (-2147483648 <=? x + y) with true by (symmetry; apply Z.leb_le; lia);
    replace (x + y <=? 2147483647) with true by (symmetry; apply Z.leb_le; lia); reflexivity.
Qed.
Lemma less8_ok a b : is_of u8t a -> is_of u8t b -> c_less8 32 a b = Some (u8 (a - b)).
Proof.
  intros A B. unfold c_less8, store. rewrite (sub_int (Val u8t a) (Val u8t b) a b eq_refl (or_introl eq_refl) A B), conv_u8. reflexivity.
Qed.
Lemma more8_ok a b : is_of u8t a -> is_of u8t b -> c_more8 32 a b = Some (u8 (a + b)).
Proof.
  intros A B. unfold c_more8, store. rewrite (add_int (Val u8t a) (Val u8t b) a b eq_refl (or_introl eq_refl) A B), conv_u8. reflexivity.
Qed.
Lemma next8_ok a : is_of u8t a -> c_next8 32 a = Some (u8 (a + 1)).
Proof.
  intros A. unfold c_next8, store.
  rewrite (add_int (Val u8t a) (Lit 1) a 1 eq_refl (or_intror eq_refl) A ltac:(lia)), conv_u8. reflexivity.
Qed.
Lemma previous8_ok a : is_of u8t a -> c_previous8 32 a = Some (u8 (a - 1)).
Proof.
  intros A. unfold c_previous8, store.
  rewrite (sub_int (Val u8t a) (Lit 1) a 1 eq_refl (or_intror eq_refl) A ltac:(lia)), conv_u8. reflexivity.
Qed.
Lemma limitIndex_ok b i : is_of u8t (blen b) -> is_of u8t i -> c_limitIndex 32 b i = Some (limitIndex b i).
Proof.
  intros B I. assert (BB : 0 <= blen b <= 255) by exact B. assert (IB : 0 <= i <= 255) by exact I.
  unfold c_limitIndex, limitIndex, store.
  assert (E : eval 32 (Cond (i >=? blen b) (Sub (Val u8t (blen b)) (Lit 1)) (Val u8t i)) =
              Some (int32, if i >=? blen b then blen b - 1 else i)).
  { pose proof (sub_int (Val u8t (blen b)) (Lit 1) _ 1 eq_refl (or_intror eq_refl) BB ltac:(lia)) as E.
    change (eval 32 (Cond (i >=? blen b) (Sub (Val u8t (blen b)) (Lit 1)) (Val u8t i))) with
      (both (eval 32 (Sub (Val u8t (blen b)) (Lit 1))) (eval 32 (Val u8t i)) (fun x y =>
          if cty_eqb (fst x) (fst y) then Some (if i >=? blen b then x else y)
          else with_common 32 (fun t x y => Some (t, if i >=? blen b then x else y)) x y)).
    rewrite E. change (eval 32 (Val u8t i)) with (Some (u8t, i)). unfold both. cbn [fst snd].
    change (cty_eqb int32 u8t) with false. cbv match. unfold with_common. cbn [fst snd].
    change (common (promoted 32 int32) (promoted 32 u8t)) with int32.
    rewrite (conv_id int32 i) by (try (unfold okt; tauto); rewrite greatest_int; lia).
    replace (conv int32 (blen b - 1)) with (blen b - 1); [reflexivity|].
    unfold conv. change (least int32) with (-2147483648). change (2 ^ snd int32) with 4294967296.
    rewrite Z.mod_small; lia. }
  rewrite E, conv_u8. destruct (i >=? blen b); [reflexivity|]. rewrite u8_small by lia. reflexivity.
Qed.
Lemma capacity_ok b : is_of u8t (bcap b) -> is_of u8t (blen b) -> c_capacity_remaining 32 b = Some (bcap_rem b).
Proof. intros A B. apply (less8_ok (bcap b) (blen b) A B). Qed.
Lemma u8_range v : is_of u8t (u8 v).
Proof. unfold is_of, u8. change (least u8t) with 0. rewrite greatest_u8. pose proof (Z.mod_pos_bound v 256). lia. Qed.
Lemma bytesToCopy_ok b o : is_of u8t (bcap b) -> is_of u8t (blen b) -> is_of u8t (blen o) ->
  c_bytesToCopy 32 b o = Some (if bcap_rem b <? blen o then bcap_rem b else blen o).
Proof.
  intros A B O. unfold c_bytesToCopy. rewrite capacity_ok by assumption. cbn [obind].
  pose proof (u8_range (bcap b - blen b)) as R. fold (bcap_rem b) in R.
  erewrite store_u8; [|eapply ev_cond; apply ev_u8; eassumption]. f_equal.
  destruct (bcap_rem b <? blen o); apply u8_small; assumption.
Qed.

(* --- the stream parser --- *)
Lemma header_length_ok d : bytes d -> c_header_length 32 d = Some (header_length d).
Proof. intros D. apply GetIdentifier_ok; apply D. Qed.
Lemma remaining_ok r n : is_of u32t r -> is_of u8t n -> c_remaining 32 r n = Some (u32 (r - n)).
Proof.
  intros A N. assert (NB : 0 <= n <= 255) by exact N. unfold c_remaining, store. cbn [eval].
  unfold both, with_common. cbn [fst snd].
  change (common (promoted 32 u32t) (promoted 32 u8t)) with u32t.
  rewrite (conv_id u32t r); [|unfold okt; tauto|exact A].
  rewrite (conv_id u32t n); [|unfold okt; tauto|rewrite greatest_u32; lia].
  unfold result. change (fst u32t) with false. cbv match. rewrite !conv_u32.
  unfold u32. rewrite Z.mod_mod by lia. reflexivity.
Qed.

(* --- which widths of int the library can be compiled for --- *)
Lemma small_lit iw v : 16 <= iw -> 0 <= v <= 255 -> lit_type iw v = intt iw.
Proof.
  intros W V. unfold lit_type, is_ofb, least, greatest. cbn [fst snd intt].
  assert (P : 2 ^ 15 <= 2 ^ (iw - 1)) by (apply Z.pow_le_mono_r; lia). change (2 ^ 15) with 32768 in P.
  replace (- 2 ^ (iw - 1) <=? v) with true by (symmetry; apply Z.leb_le; lia).
  replace (v <=? 2 ^ (iw - 1) - 1) with true by (symmetry; apply Z.leb_le; lia). reflexivity.
Qed.
Lemma small_shift iw v k : 16 <= iw -> 0 <= v <= 255 -> 0 <= k <= 255 -> 2 ^ k <= v * 2 ^ k ->
  store iw u32t (Shl (Lit v) (Lit k)) <> None <-> v * 2 ^ k < 2 ^ (iw - 1).
Proof.
  intros W V K V1. unfold store. cbn [eval]. rewrite !small_lit by lia. unfold both, shifting. cbn [fst snd].
  unfold promoted. cbn [snd intt]. rewrite Z.ltb_irrefl. cbn [snd intt].
  replace (0 <=? k) with true by (symmetry; apply Z.leb_le; lia). cbn [andb].
  replace (v <? 0) with false by (symmetry; apply Z.ltb_ge; lia).
  assert (0 < 2 ^ (iw - 1)) by (apply Z.pow_pos_nonneg; lia).
  destruct (Z.ltb_spec k iw) as [L|L].
  - unfold result. cbn [fst intt]. unfold is_ofb, least, greatest. cbn [fst snd intt].
    assert (0 < 2 ^ k) by (apply Z.pow_pos_nonneg; lia).
    replace (- 2 ^ (iw - 1) <=? v * 2 ^ k) with true by (symmetry; apply Z.leb_le; lia). cbn [andb].
    destruct (Z.leb_spec (v * 2 ^ k) (2 ^ (iw - 1) - 1)) as [Q|Q].
    + split; [lia|discriminate].
    + split; [congruence|lia].
  - split; [congruence|]. intros Q. exfalso. assert (2 ^ (iw - 1) <= 2 ^ k) by (apply Z.pow_le_mono_r; lia). lia.
Qed.
Lemma or_width iw a b : 16 <= iw -> (c_or iw a b <> None <-> iw <= 32).
Proof.
  intros W. unfold c_or, store. cbn [eval]. unfold both, with_common. cbn [fst snd].
  unfold promoted. cbn [snd u32t]. fold u32t. destruct (Z.ltb_spec 32 iw) as [L|L].
  - unfold common. cbn [snd intt]. rewrite Z.ltb_irrefl. cbn [fst snd intt andb].
    assert (0 < 2 ^ (iw - 1)) by (apply Z.pow_pos_nonneg; lia).
    replace (is_ofb u32t (least (true, iw))) with false; [cbn [andb]; split; [congruence|lia]|].
    symmetry. unfold is_ofb. apply andb_false_iff. left. apply Z.leb_gt. change (least u32t) with 0.
    unfold least. cbn [fst snd]. lia.
  - change (common u32t u32t) with u32t. split; [lia|]. intros _. change (is_ofb u32t (least u32t) && is_ofb u32t (greatest u32t)) with true. discriminate.
Qed.
Lemma width_iff iw : 16 <= iw ->
  (c_kResponseBitMask iw <> None /\ c_kCommandBitMask iw <> None /\
   (forall a b, is_of u32t a -> is_of u32t b -> c_or iw a b <> None)) <-> 26 <= iw <= 32.
Proof.
  intros W. unfold c_kResponseBitMask, c_kCommandBitMask.
  rewrite (small_shift iw 1 16), (small_shift iw 0xFF 17) by (try lia; change (2 ^ 17) with 131072; lia).
  change (1 * 2 ^ 16) with 65536. change (0xFF * 2 ^ 17) with 33423360.
  assert (Z0 : is_of u32t 0) by (split; vm_compute; discriminate).
  split.
  - intros (_ & C & O). pose proof (proj1 (or_width iw 0 0 W) (O 0 0 Z0 Z0)) as L. split; [|exact L].
    destruct (Z_le_gt_dec 26 iw) as [?|G]; [assumption|]. exfalso.
    assert (2 ^ (iw - 1) <= 2 ^ 24) by (apply Z.pow_le_mono_r; lia). change (2 ^ 24) with 16777216 in *. lia.
  - intros (L & U). assert (P : 2 ^ 25 <= 2 ^ (iw - 1)) by (apply Z.pow_le_mono_r; lia). change (2 ^ 25) with 33554432 in P.
    split; [lia|]. split; [lia|]. intros a b _ _. apply or_width; lia.
Qed.
