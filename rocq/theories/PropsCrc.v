(* PropsCrc.v -- property theorems about the checksum: C29-C32.  Vocabulary: SpecCrc.v. *)
From Verif Require Import SpecCrc ProofsCrc.

(** ** C29: the checksum is the polynomial remainder *)
Theorem C29_checksum_is_remainder : forall bs r, Forall byte bs ->
  (checksum_is bs r <->
   is_u16 r /\ pcong (Z.lxor (Z.shiftl (message bs) 16) (Z.shiftl 0xFFFF (8 * zlen bs))) r).
Proof. exact checksum_spec. Qed.
Print Assumptions C29_checksum_is_remainder.
Theorem C29_checksum_always_defined : forall bs, Forall byte bs -> exists r, checksum_is bs r /\ is_u16 r.
Proof. exact checksum_total. Qed.
Print Assumptions C29_checksum_always_defined.
(** isValid compares the checksum with the loaded reference *)
Theorem C29_is_valid : forall bs ref, Forall byte bs -> exists r, checksum_is bs r /\
  (c <- crc_feed crc_reset bs ;; crc_isValid (crc_loadReference c ref)) = Ok (r =? ref).
Proof. exact valid_spec. Qed.
Print Assumptions C29_is_valid.
(** [clmul] is the product of polynomials: it is additive and 2^k acts as x^k *)
Theorem C29_product_additive : forall c, 0 <= c -> forall a, 0 <= a -> forall b, 0 <= b ->
  clmul (Z.lxor a b) c = Z.lxor (clmul a c) (clmul b c).
Proof. exact clmul_lxor_l. Qed.
Print Assumptions C29_product_additive.
Theorem C29_product_monomial : forall k c, 0 <= k -> clmul (2 ^ k) c = Z.shiftl c k.
Proof. exact clmul_pow. Qed.
Print Assumptions C29_product_monomial.
(** the catalogue check value of this CRC ("123456789" -> 0x29B1) *)
Example C29_case : Forall byte (zs "123456789") /\ checksum_is (zs "123456789") 0x29B1.
Proof. split; [repeat constructor; discriminate|]. eexists. split; reflexivity. Qed.

(** ** C30: burst errors *)
Theorem C30_burst_errors_detected : forall bs bs' r r' e k,
  Forall byte bs -> Forall byte bs' -> zlen bs = zlen bs' ->
  checksum_is bs r -> checksum_is bs' r' ->
  0 <= k -> 0 < e < 2 ^ 16 -> difference bs bs' = Z.shiftl e k -> r <> r'.
Proof. exact burst. Qed.
Print Assumptions C30_burst_errors_detected.
Example C30_case_checksums : Forall byte [1; 0x80; 3; 7] /\ Forall byte [1; 0; 0; 7] /\ zlen [1; 0x80; 3; 7] = zlen [1; 0; 0; 7] /\
  checksum_is [1; 0x80; 3; 7] (crc_of 0xFFFF [1; 0x80; 3; 7]) /\ checksum_is [1; 0; 0; 7] (crc_of 0xFFFF [1; 0; 0; 7]) /\
  crc_of 0xFFFF [1; 0x80; 3; 7] <> crc_of 0xFFFF [1; 0; 0; 7].
Proof.
  split; [repeat constructor; discriminate|]. split; [repeat constructor; discriminate|]. split; [reflexivity|].
  split; [apply checksum_exists|]. split; [apply checksum_exists|]. vm_compute. discriminate.
Qed.
Example C30_case : difference [1; 0x80; 3; 7] [1; 0; 0; 7] = Z.shiftl 0x8003 8 /\ 0 < 0x8003 < 2 ^ 16.
Proof. repeat split. Qed.

(** ** C31: odd numbers of bit errors *)
Theorem C31_odd_errors_detected : forall bs bs' r r',
  Forall byte bs -> Forall byte bs' -> zlen bs = zlen bs' ->
  checksum_is bs r -> checksum_is bs' r' -> Z.odd (ones (difference bs bs')) = true -> r <> r'.
Proof. exact odd_errors. Qed.
Print Assumptions C31_odd_errors_detected.
Example C31_case : ones (difference [1; 0x80; 3; 7] [0; 0; 3; 3]) = 3.
Proof. reflexivity. Qed.

(** ** C32: double bit errors at bit positions i < j *)
Theorem C32_double_errors : forall bs bs' r r' i j,
  Forall byte bs -> Forall byte bs' -> zlen bs = zlen bs' ->
  checksum_is bs r -> checksum_is bs' r' -> 0 <= i < j ->
  difference bs bs' = Z.lxor (2 ^ i) (2 ^ j) -> (r = r' <-> (32767 | j - i)).
Proof. exact double_error. Qed.
Print Assumptions C32_double_errors.
(** the general criterion behind C30-C32: equal checksums exactly when the
    difference is a multiple of the polynomial *)
Theorem C32_same_checksum_iff : forall bs bs' r r',
  Forall byte bs -> Forall byte bs' -> zlen bs = zlen bs' ->
  checksum_is bs r -> checksum_is bs' r' ->
  (r = r' <-> exists q, 0 <= q /\ difference bs bs' = clmul q ccitt).
Proof. exact same_checksum. Qed.
Print Assumptions C32_same_checksum_iff.
Example C32_case : difference [1; 0x80; 3; 7] [1; 0; 3; 3] = Z.lxor (2 ^ 2) (2 ^ 23).
Proof. reflexivity. Qed.
(** an undetected difference of four bits *)
Example C32_collision : exists bs bs' r, Forall byte bs /\ Forall byte bs' /\ bs <> bs' /\ zlen bs = zlen bs' /\
  checksum_is bs r /\ checksum_is bs' r /\ ones (difference bs bs') = 4.
Proof.
  exists [0; 0; 0], [1; 0x10; 0x21], 0xCC9C.
  split; [repeat constructor; discriminate|]. split; [repeat constructor; discriminate|].
  split; [discriminate|]. split; [reflexivity|]. split; [eexists; split; reflexivity|].
  split; [eexists; split; reflexivity|reflexivity].
Qed.
