(* CString.v -- the libc functions used by the library, on arrays modelled as lists.
   A [char*] is the list of bytes from the pointer to the end of its array;
   walking past the end is UB.  char is treated as an unsigned byte (the code only
   tests characters for equality). *)
From Coq Require Import DecimalString HexadecimalString.
From Verif Require Export CBase.

(** strlen (C11 7.24.6.3). *)
Fixpoint c_strlen (m : list Z) : res Z :=
  match m with
  | [] => UB OutOfBounds
  | c :: r => if c =? 0 then Ok 0 else n <- c_strlen r ;; Ok (1 + n)
  end.

(** The characters a %s conversion prints: up to the NUL. *)
Fixpoint c_str (m : list Z) : res (list Z) :=
  match m with
  | [] => UB OutOfBounds
  | c :: r => if c =? 0 then Ok [] else s <- c_str r ;; Ok (c :: s)
  end.

(** The n bytes strncpy writes: src up to its NUL, then NUL padding (C11 7.24.2.4). *)
Fixpoint strncpy_bytes (src : list Z) (n : nat) : res (list Z) :=
  match n with
  | O => Ok []
  | S n' => match src with
            | [] => UB OutOfBounds
            | c :: r => if c =? 0 then Ok (repeat 0 n) else bs <- strncpy_bytes r n' ;; Ok (c :: bs)
            end
  end.

(** strncpy(dst, src, n).  It always writes exactly n bytes, so n > sizeof dst is UB;
    that test comes first only to keep huge n computable. *)
Definition c_strncpy (dst src : list Z) (n : Z) : res (list Z) :=
  if zlen dst <? n then UB OutOfBounds
  else bs <- strncpy_bytes src (Z.to_nat n) ;; wr dst 0 bs.

(** strncmp(a, b, n) == 0 (C11 7.24.4.4). *)
Fixpoint strncmp_eq (a b : list Z) (n : nat) : res bool :=
  match n with
  | O => Ok true
  | S n' => match a, b with
            | x :: a', y :: b' =>
                if x =? y then (if x =? 0 then Ok true else strncmp_eq a' b' n') else Ok false
            | _, _ => UB OutOfBounds
            end
  end.

(** memcmp(a, b, n) == 0. *)
Definition c_memcmp_eq (a b : list Z) (n : Z) : res bool :=
  x <- rd_blk a 0 n ;; y <- rd_blk b 0 n ;;
  Ok (if list_eq_dec Z.eq_dec x y then true else false).

(** isspace in the "C" locale: space, \t \n \v \f \r. *)
Definition c_isspace (c : Z) : bool := (c =? 32) || ((9 <=? c) && (c <=? 13)).

(** Value of an alphanumeric character as a digit, as in strtol (C11 7.22.1.4). *)
Definition c_digit (c : Z) : option Z :=
  if (48 <=? c) && (c <=? 57) then Some (c - 48)
  else if (97 <=? c) && (c <=? 122) then Some (c - 97 + 10)
  else if (65 <=? c) && (c <=? 90) then Some (c - 65 + 10)
  else None.

Definition is_digit_of (base c : Z) : bool :=
  match c_digit c with Some d => d <? base | None => false end.

Fixpoint c_skip_space (m : list Z) : res (list Z) :=
  match m with
  | [] => UB OutOfBounds
  | c :: r => if c_isspace c then c_skip_space r else Ok m
  end.

(** Optional sign: (negative?, rest). *)
Definition c_sign (m : list Z) : res (bool * list Z) :=
  match m with
  | [] => UB OutOfBounds
  | c :: r => if c =? 45 then Ok (true, r) else if c =? 43 then Ok (false, r) else Ok (false, m)
  end.

(** Optional "0x"/"0X" prefix for base 16, taken only if a hex digit follows. *)
Definition c_hexprefix (m : list Z) : res (list Z) :=
  match m with
  | z :: x :: r =>
      if (z =? 48) && ((x =? 120) || (x =? 88))
      then match r with
           | [] => UB OutOfBounds
           | c :: _ => if is_digit_of 16 c then Ok r else Ok m
           end
      else Ok m
  | _ => Ok m
  end.

(** Accumulate digits until the first non-digit. *)
Fixpoint c_digits (base acc : Z) (m : list Z) : res Z :=
  match m with
  | [] => UB OutOfBounds
  | c :: r =>
      match c_digit c with
      | Some d => if d <? base then c_digits base (acc * base + d) r else Ok acc
      | None => Ok acc
      end
  end.

(** strtoul(s, NULL, 16) for an unsigned long of [lw] bits (32 on the AVR/ARM/ESP32
    targets and Windows, 64 on Linux). *)
Definition c_strtoul16 (lw : Z) (s : list Z) : res Z :=
  m <- c_skip_space s ;;
  '(neg, m) <- c_sign m ;;
  m <- c_hexprefix m ;;
  v <- c_digits 16 0 m ;;
  Ok (if 2 ^ lw <=? v then 2 ^ lw - 1 else if neg then (- v) mod 2 ^ lw else v).

(** strtol(s, NULL, 10) for a long of [lw] bits. *)
Definition c_strtol10 (lw : Z) (s : list Z) : res Z :=
  m <- c_skip_space s ;;
  '(neg, m) <- c_sign m ;;
  v <- c_digits 10 0 m ;;
  let v := if neg then - v else v in
  Ok (Z.max (- 2 ^ (lw - 1)) (Z.min (2 ^ (lw - 1) - 1) v)).

(** printf conversions. [fmt_d]: %d / %i. *)
Definition fmt_d (x : Z) : list Z := zs (DecimalString.NilZero.string_of_int (Z.to_int x)).

Definition hex_lower (x : Z) : list Z :=
  zs (HexadecimalString.NilZero.string_of_uint (N.to_hex_uint (Z.to_N x))).

Definition to_upper (c : Z) : Z := if (97 <=? c) && (c <=? 122) then c - 32 else c.

(** %#0<w>x : "0x" prefix unless the value is 0; zero padding after the prefix. *)
Definition fmt_alt0x (w : nat) (x : Z) : list Z :=
  let h := hex_lower x in
  if x =? 0 then repeat 48 (w - List.length h) ++ h
  else zs "0x" ++ repeat 48 (w - (2 + List.length h)) ++ h.

(** %#<w>x : same, but padded with blanks on the left. *)
Definition fmt_altx (w : nat) (x : Z) : list Z :=
  let h := hex_lower x in
  let t := if x =? 0 then h else zs "0x" ++ h in
  repeat 32 (w - List.length t) ++ t.

(** %#0<w>X : upper case. *)
Definition fmt_alt0X (w : nat) (x : Z) : list Z := map to_upper (fmt_alt0x w x).

Definition nl : list Z := [10].
