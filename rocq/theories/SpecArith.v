(* SpecArith.v -- the integer rules of C++ (C++14, [conv.prom], [expr], [expr.shift], [conv.integral],
   [dcl.init.list]), for a platform whose int has [iw] bits.  Nothing here refers to the library.

   An integer type is a pair (signed?, width).  An expression evaluates to its type and its value;
   [None] is an expression without a meaning: signed overflow, a shift by a negative amount or by
   the width of the promoted left operand or more, a left shift of a negative number or out of the
   range of a signed type (C++14 has a meaning for some of these; C++11 does not), or a narrowing
   conversion between braces. *)
From Verif Require Import CBase.

Definition cty : Type := (bool * Z)%type.
Definition u8t : cty := (false, 8).
Definition u16t : cty := (false, 16).
Definition u32t : cty := (false, 32).

Definition cty_eqb (s t : cty) : bool := Bool.eqb (fst s) (fst t) && (snd s =? snd t).

(** the values of a type *)
Definition least (t : cty) : Z := if fst t then - 2 ^ (snd t - 1) else 0.
Definition greatest (t : cty) : Z := if fst t then 2 ^ (snd t - 1) - 1 else 2 ^ snd t - 1.
Definition is_of (t : cty) (v : Z) : Prop := least t <= v <= greatest t.
Definition is_ofb (t : cty) (v : Z) : bool := (least t <=? v) && (v <=? greatest t).

(** [conv.integral]: conversion to a type, modulo 2^width *)
Definition conv (t : cty) (v : Z) : Z := (v - least t) mod 2 ^ snd t + least t.

Inductive cexpr : Type :=
| Val (t : cty) (v : Z)            (* a variable of type t with value v *)
| Lit (v : Z)                      (* a literal without suffix, 0x... or 0b... or below 2^15 *)
| Cast (t : cty) (e : cexpr)       (* static_cast<t>(e), or e converted to t on initialisation *)
| Brace (t : cty) (e : cexpr)      (* t{e} *)
| Or (a b : cexpr) | And (a b : cexpr) | Xor (a b : cexpr) | Not (a : cexpr)
| Shl (a b : cexpr) | Shr (a b : cexpr)
| Add (a b : cexpr) | Sub (a b : cexpr)
| Cond (c : bool) (a b : cexpr).   (* c ? a : b *)

Section Width.
  Variable iw : Z.
  Definition intt : cty := (true, iw).

  (** [lex.icon], table 5: the first of int, unsigned, long, unsigned long (32 bits at least) *)
  Definition lit_type (v : Z) : cty :=
    if is_ofb intt v then intt
    else if is_ofb (false, iw) v then (false, iw)
    else if is_ofb (true, 32) v then (true, 32) else u32t.

  (** [conv.prom]: to int if the type is narrower than int *)
  Definition promoted (t : cty) : cty := if snd t <? iw then intt else t.
  (** [expr]/10 on promoted types: the wider one; of equal width the unsigned one *)
  Definition common (s t : cty) : cty :=
    if snd s <? snd t then t else if snd t <? snd s then s else (andb (fst s) (fst t), snd s).

  (** a result of + or -: modulo 2^width if unsigned, without meaning if it overflows a signed type *)
  Definition result (t : cty) (v : Z) : option (cty * Z) :=
    if fst t then (if is_ofb t v then Some (t, v) else None) else Some (t, conv t v).

  Definition with_common (f : cty -> Z -> Z -> option (cty * Z)) (x y : cty * Z) : option (cty * Z) :=
    let t := common (promoted (fst x)) (promoted (fst y)) in f t (conv t (snd x)) (conv t (snd y)).
  (** the shift's type is that of the promoted left operand *)
  Definition shifting (f : cty -> Z -> Z -> option (cty * Z)) (x y : cty * Z) : option (cty * Z) :=
    let t := promoted (fst x) in
    if (0 <=? snd y) && (snd y <? snd t) then f t (snd x) (snd y) else None.

  Definition both (a b : option (cty * Z)) (f : cty * Z -> cty * Z -> option (cty * Z)) :=
    match a, b with Some x, Some y => f x y | _, _ => None end.

  Fixpoint eval (e : cexpr) : option (cty * Z) :=
    match e with
    | Val t v => Some (t, v)
    | Lit v => Some (lit_type v, v)
    | Cast t a => match eval a with Some (_, v) => Some (t, conv t v) | None => None end
    | Brace t a =>
        (* narrowing unless every value of the source type is one of the target type *)
        match eval a with
        | Some (s, v) => if is_ofb t (least s) && is_ofb t (greatest s) then Some (t, v) else None
        | None => None
        end
    | Or a b => both (eval a) (eval b) (with_common (fun t x y => Some (t, Z.lor x y)))
    | And a b => both (eval a) (eval b) (with_common (fun t x y => Some (t, Z.land x y)))
    | Xor a b => both (eval a) (eval b) (with_common (fun t x y => Some (t, Z.lxor x y)))
    | Not a => match eval a with Some (t, v) => Some (promoted t, conv (promoted t) (Z.lnot v)) | None => None end
    | Shl a b => both (eval a) (eval b) (shifting (fun t x n => if x <? 0 then None else result t (x * 2 ^ n)))
    | Shr a b => both (eval a) (eval b) (shifting (fun t x n => Some (t, x / 2 ^ n)))
    | Add a b => both (eval a) (eval b) (with_common (fun t x y => result t (x + y)))
    | Sub a b => both (eval a) (eval b) (with_common (fun t x y => result t (x - y)))
    | Cond c a b =>
        (* [expr.cond]: no conversion when the two have the same type *)
        both (eval a) (eval b) (fun x y =>
          if cty_eqb (fst x) (fst y) then Some (if c then x else y)
          else with_common (fun t x y => Some (t, if c then x else y)) x y)
    end.

  (** the value of a variable of type [t] initialised with, or assigned, [e] *)
  Definition store (t : cty) (e : cexpr) : option Z :=
    match eval e with Some (_, v) => Some (conv t v) | None => None end.
End Width.
