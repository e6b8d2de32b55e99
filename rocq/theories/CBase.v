(* CBase.v -- vocabulary shared by all model files.

   C++ integers are modelled as [Z]; every store into an unsigned type of
   width 8/16/32 is written out as [u8]/[u16]/[u32] (reduction mod 2^w).
   Arrays are lists of fixed length.  Undefined behaviour is a distinct outcome. *)
From Coq Require Export ZArith List Bool Lia String Ascii.
Export ListNotations.
Global Open Scope Z_scope.

(** Reasons for undefined behaviour. *)
Inductive ub : Set :=
| NullDeref      (* call through / access via a null pointer *)
| OutOfBounds    (* array access outside the array *)
| UninitRead     (* read of a member that was never initialised *)
| BadShift       (* shift by >= width of the promoted type *)
| Dangling       (* pointer to an object that does not exist *)
| OutOfFuel      (* a loop of the model ran out of fuel: never reached, see the *_no_ub theorems *)
| TooDeep        (* calls nested deeper than the bound given to the interpreter of Reentry.v *)
| Overlap.       (* memcpy or strncpy between overlapping memory, see Shared.v *)

Inductive res (A : Type) : Type :=
| Ok (a : A)
| UB (u : ub).
Arguments Ok {A} a.
Arguments UB {A} u.

Definition bind {A B} (r : res A) (f : A -> res B) : res B :=
  match r with Ok a => f a | UB u => UB u end.
Notation "x <- a ;; b" := (bind a (fun x => b)) (at level 61, a at next level, right associativity).
Notation "' p <- a ;; b" := (bind a (fun x => let p := x in b))
  (at level 61, p pattern, a at next level, right associativity).

(** Unsigned integer conversions, [uint8_t], [uint16_t], [uint32_t]. *)
Definition u8  (x : Z) : Z := x mod 256.
Definition u16 (x : Z) : Z := x mod 65536.
Definition u32 (x : Z) : Z := x mod 4294967296.

(** Reinterpretation of a 32-bit pattern as a (two's complement) int. *)
Definition s32 (x : Z) : Z := if x <? 2147483648 then x else x - 4294967296.

(** Members without initialiser: reading them before the first write is UB. *)
Inductive mu (A : Type) : Type := Undef | Def (a : A).
Arguments Undef {A}.
Arguments Def {A} a.
Definition mread {A} (m : mu A) : res A := match m with Def a => Ok a | Undef => UB UninitRead end.

Definition zlen {A} (l : list A) : Z := Z.of_nat (List.length l).

(** Array element read; UB outside the array. *)
Definition rd (m : list Z) (i : Z) : res Z :=
  if (0 <=? i) && (i <? zlen m) then Ok (nth (Z.to_nat i) m 0) else UB OutOfBounds.

(** Write a block of bytes at an offset; UB unless it fits. *)
Definition wr (m : list Z) (off : Z) (bs : list Z) : res (list Z) :=
  if (0 <=? off) && (off + zlen bs <=? zlen m)
  then Ok (firstn (Z.to_nat off) m ++ bs ++ skipn (Z.to_nat off + List.length bs) m)
  else UB OutOfBounds.

(** Read a block of n bytes at an offset; UB unless it is inside the array. *)
Definition rd_blk (m : list Z) (off n : Z) : res (list Z) :=
  if (0 <=? off) && (0 <=? n) && (off + n <=? zlen m)
  then Ok (firstn (Z.to_nat n) (skipn (Z.to_nat off) m))
  else UB OutOfBounds.

(** In-range element update at a constant index (used for [data[k] = v], k < 9). *)
Fixpoint upd {A} (n : nat) (v : A) (l : list A) : list A :=
  match l, n with
  | [], _ => []
  | _ :: r, O => v :: r
  | x :: r, S n' => x :: upd n' v r
  end.

(** Bytes of a string literal, without and with the terminating NUL. *)
Definition zs (s : string) : list Z := map (fun a => Z.of_N (N_of_ascii a)) (list_ascii_of_string s).
Definition lit (s : string) : list Z := zs s ++ [0].
