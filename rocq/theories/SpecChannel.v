(* SpecChannel.v -- specification vocabulary for C72-C74: streams whose frames are lost, doubled or
   swapped on the way. *)
From Verif Require Export SpecStream.

(** a stream as sent: a header announcing 8*n bytes, and n data frames whose checksum it carries *)
Definition stream_of (hd : Data) (ds : list Data) : Prop :=
  exists n crc, header_for hd (8 * n) crc /\ 0 < n /\ 8 * n < 2 ^ 32 /\ zlen ds = n /\ Forall data_frame ds /\
    checksum_is (received ds) crc.
(** more frames arriving at parser p *)
Definition arriving_at (p : nat) (ds : list Data) : list op := map (ParserAddMessage p) ds.
(** [small] is [big] with some elements left out, at least one *)
Inductive left_out {A} : list A -> list A -> Prop :=
| out_one : forall x l, left_out l (x :: l)
| out_more : forall x s l, left_out s l -> left_out s (x :: l)
| out_keep : forall x s l, left_out s l -> left_out (x :: s) (x :: l).
(** the polynomials that are multiples of g *)
Definition multiple_of (g x : Z) : Prop := exists q, 0 <= q /\ x = clmul q g.
(** the CCITT polynomial divided by x + 1:  x^15 + x^14 + x^13 + x^12 + x^4 + x^3 + x^2 + x + 1 *)
Definition ccitt_cofactor : Z := 2 ^ 15 + 2 ^ 14 + 2 ^ 13 + 2 ^ 12 + 2 ^ 4 + 2 ^ 3 + 2 ^ 2 + 2 + 1.
(** the outcome of a download as told to consumer c *)
Definition outcome_is (good : Prop) (c : nat) (t : list event) : Prop :=
  (good -> ends t = [EvStreamComplete c]) /\ (~ good -> ends t = [EvStreamAborted c]).
