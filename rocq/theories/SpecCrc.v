(* SpecCrc.v -- specification vocabulary for the checksum: polynomials over GF(2).

   A non-negative integer stands for the polynomial whose coefficients are its
   bits; addition is [Z.lxor], multiplication by x^k is [Z.shiftl _ k]. *)
From Verif Require Export SpecCodec Crc.

(** product of polynomials over GF(2) (carry-less multiplication) *)
Fixpoint clmul_pos (p : positive) (b : Z) : Z :=
  match p with
  | xH => b
  | xO p' => Z.shiftl (clmul_pos p' b) 1
  | xI p' => Z.lxor b (Z.shiftl (clmul_pos p' b) 1)
  end.
Definition clmul (a b : Z) : Z := match a with Zpos p => clmul_pos p b | _ => 0 end.

(** x^16 + x^12 + x^5 + 1, the CCITT polynomial *)
Definition ccitt : Z := 2 ^ 16 + 2 ^ 12 + 2 ^ 5 + 1.

(** congruence modulo the polynomial *)
Definition pcong (a b : Z) : Prop := exists q, 0 <= q /\ Z.lxor a b = clmul q ccitt.

(** the checksum the Crc object holds after reset() and updateCrc of each byte *)
Definition checksum_is (bs : list Z) (r : Z) : Prop :=
  exists c, crc_feed crc_reset bs = Ok c /\ crc_acc c = Def r.

(** number of one bits *)
Fixpoint ones_pos (p : positive) : Z :=
  match p with xH => 1 | xO p' => ones_pos p' | xI p' => 1 + ones_pos p' end.
Definition ones (a : Z) : Z := match a with Zpos p => ones_pos p | _ => 0 end.

(** a byte string read as one big-endian number, first byte most significant *)
Definition message (bs : list Z) : Z := fold_left (fun m b => m * 256 + b) bs 0.

(** The bits in which two byte strings of equal length differ, as a number;
    bit 0 is the lowest
    bit of the last byte. *)
Definition difference (bs bs' : list Z) : Z := Z.lxor (message bs) (message bs').
