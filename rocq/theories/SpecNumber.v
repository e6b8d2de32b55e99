(* SpecNumber.v -- specification vocabulary: how arbitrary texts are read as numbers (C83). *)
From Verif Require Export SpecConsumer.

(** white space of the "C" locale *)
Definition whitespace (c : Z) : Prop := c = 32 \/ 9 <= c <= 13.
(** a sign, and whether it is a minus *)
Inductive sign : list Z -> bool -> Prop :=
| NoSign : sign [] false | Plus : sign (zs "+") false | Minus : sign (zs "-") true.
(** the text t does not go on with a character in P *)
Definition stops (P : Z -> Prop) (t : list Z) : Prop := match t with [] => True | c :: _ => ~ P c end.
Definition is_hexdigit (c : Z) : Prop := exists d, hexdigit c d.
Definition is_decdigit (c : Z) : Prop := exists d, decdigit c d.
Definition hexmark (m : list Z) : Prop := m = zs "0x" \/ m = zs "0X".
(** t starts with 0x or 0X and a hexadecimal digit *)
Definition marked (t : list Z) : Prop := exists m c r, hexmark m /\ is_hexdigit c /\ t = m ++ c :: r.

(** The text v is blanks, a sign, 0x, hexadecimal digits of number x, and something else; each part as
    long as possible. *)
Definition hex_reading (v : list Z) (minus : bool) (x : Z) : Prop :=
  exists blanks sg mark digits rest, v = blanks ++ sg ++ mark ++ digits ++ rest /\
    Forall whitespace blanks /\ stops whitespace (sg ++ mark ++ digits ++ rest) /\
    sign sg minus /\ (sg = [] -> stops (fun c => c = 43 \/ c = 45) (mark ++ digits ++ rest)) /\
    ((mark = [] /\ ~ marked (digits ++ rest)) \/ (hexmark mark /\ digits <> [])) /\
    hexdigits 0 digits x /\ stops is_hexdigit rest.
(** The text v is blanks, a sign, decimal digits of number x, and something else. *)
Definition dec_reading (v : list Z) (minus : bool) (x : Z) : Prop :=
  exists blanks sg digits rest, v = blanks ++ sg ++ digits ++ rest /\
    Forall whitespace blanks /\ stops whitespace (sg ++ digits ++ rest) /\
    sign sg minus /\ (sg = [] -> stops (fun c => c = 43 \/ c = 45) (digits ++ rest)) /\
    decdigits 0 digits x /\ stops is_decdigit rest.
(** what strtoul and strtol make of them if long has lw bits *)
Definition unsigned_long (lw : Z) (minus : bool) (x : Z) : Z :=
  if 2 ^ lw - 1 <? x then 2 ^ lw - 1 else if minus then (- x) mod 2 ^ lw else x.
Definition signed_long (lw : Z) (minus : bool) (x : Z) : Z :=
  if minus then Z.max (- x) (- 2 ^ (lw - 1)) else Z.min x (2 ^ (lw - 1) - 1).
