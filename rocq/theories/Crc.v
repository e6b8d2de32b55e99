(* Crc.v -- RR32CanEngineDb/util/Crc.{h,cpp} *)
From Verif Require Export CBase.

(** Crc.h:18-19 *)
Definition crc_polynomial := 0x1021.
Definition crc_initialValue := 0xFFFF.

(** Crc.cpp:8-13, one round of the loop on the uint16_t accumulator *)
Definition crc_bit (a : Z) : Z :=
  if negb (Z.land a 0x8000 =? 0) then Z.lxor (u16 (Z.shiftl a 1)) crc_polynomial
  else u16 (Z.shiftl a 1).

(** [f] iterated n times (for loops with a constant bound) *)
Fixpoint iter {A} (n : nat) (f : A -> A) (x : A) : A :=
  match n with O => x | S n' => iter n' f (f x) end.

(** Crc.cpp:5-15 updateCrc on the accumulator *)
Definition crc_update (a input : Z) : Z := iter 8 crc_bit (Z.lxor a (u16 (Z.shiftl input 8))).

(** Crc.h:33-35: both members are uninitialised until reset() *)
Record Crc : Type := mkCrc { crc_acc : mu Z; crc_ref : mu Z }.
Definition crc_new : Crc := mkCrc Undef Undef.
(** Crc.h:21-24 *)
Definition crc_reset : Crc := mkCrc (Def crc_initialValue) (Def crc_initialValue).
(** Crc.cpp:5-15 *)
Definition crc_updateCrc (c : Crc) (input : Z) : res Crc :=
  a <- mread (crc_acc c) ;; Ok (mkCrc (Def (crc_update a input)) (crc_ref c)).
(** Crc.h:28 *)
Definition crc_loadReference (c : Crc) (r : Z) : Crc := mkCrc (crc_acc c) (Def r).
(** Crc.h:31 *)
Definition crc_isValid (c : Crc) : res bool :=
  a <- mread (crc_acc c) ;; r <- mread (crc_ref c) ;; Ok (a =? r).

(** ConfigDataStreamParser.cpp:75-77, the loop feeding bytes to updateCrc *)
Fixpoint crc_feed (c : Crc) (bs : list Z) : res Crc :=
  match bs with [] => Ok c | b :: r => c' <- crc_updateCrc c b ;; crc_feed c' r end.
