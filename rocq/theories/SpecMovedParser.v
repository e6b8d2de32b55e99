(* SpecMovedParser.v -- what a user expects of text parsers that are moved: the text continues in the
   object moved to.  The parsers are the automata of SpecText.v. *)
From Verif Require Export SpecText SpecShared MovedParser.

(** a parser: its automaton and its consumer *)
Definition iparser : Type := auto * option nat.
(** One cell per object.  [c_here] is the parser that was constructed in this object (as long as this
    object's memory still has it); [c_stands] says which parser the object stands for now, named by the
    object it was constructed in, if any: an object moved from stands for none. *)
Record cell : Type := mkCell { c_alive : bool; c_stands : option nat; c_here : option iparser }.

Definition stands (cs : list cell) (i : nat) : option nat :=
  match nth_error cs i with Some c => c_stands c | None => None end.
Definition here (cs : list cell) (x : nat) : option iparser :=
  match nth_error cs x with Some c => c_here c | None => None end.
Definition alive (cs : list cell) (i : nat) : bool :=
  match nth_error cs i with Some c => c_alive c | None => false end.
(** the parser object i stands for: where it was constructed, and its state *)
Definition the_parser (cs : list cell) (i : nat) : option (nat * iparser) :=
  if alive cs i then match stands cs i with
                     | Some x => match here cs x with Some p => Some (x, p) | None => None end
                     | None => None
                     end
  else None.
Definition set_here (cs : list cell) (x : nat) (p : iparser) : list cell :=
  match nth_error cs x with Some c => upd x (mkCell (c_alive c) (c_stands c) (Some p)) cs | None => cs end.
Definition moved_from (cs : list cell) (j : nat) : list cell :=
  match nth_error cs j with Some c => upd j (mkCell (c_alive c) None (c_here c)) cs | None => cs end.
(** no other object stands for the parser constructed in object i *)
Definition only_own (cs : list cell) (i : nat) : bool :=
  forallb (fun k => Nat.eqb k i || negb (match stands cs k with Some x => Nat.eqb x i | None => false end)) (seq 0 (List.length cs)).

(** The expected effect.  [None]: the program uses an object that was moved from, or it ends or
    overwrites an object in which a parser was constructed that another object stands for. *)
Definition ideal_pstep (o : mpop) (cs : list cell) : option (list cell * list triple) :=
  match o with
  | PNew => Some (cs ++ [mkCell true (Some (List.length cs)) (Some (astart, None))], [])
  | PConsumer i c => match the_parser cs i with Some (x, (a, _)) => Some (set_here cs x (a, c), []) | None => None end
  | PText i bs =>
      match the_parser cs i with
      | Some (x, (a, c)) => if 255 <? zlen bs then None else Some (set_here cs x (fst (aadd a bs), c), told c (snd (aadd a bs)))
      | None => None
      end
  | PReset i => match the_parser cs i with Some (x, _) => Some (set_here cs x (astart, None), []) | None => None end
  | PMoveNew j => match the_parser cs j with Some (x, _) => Some (moved_from cs j ++ [mkCell true (Some x) None], []) | None => None end
  | PMoveInto i j =>
      if alive cs i && negb (Nat.eqb i j) && only_own cs i
      then match the_parser cs j with Some (x, _) => Some (upd i (mkCell true (Some x) None) (moved_from cs j), []) | None => None end
      else None
  | PEnd i => if alive cs i && only_own cs i then Some (upd i (mkCell false None None) cs, []) else None
  end.
Fixpoint ideal_prun (l : list mpop) (cs : list cell) : option (list cell * list (list triple)) :=
  match l with
  | [] => Some (cs, [])
  | o :: r => match ideal_pstep o cs with
              | None => None
              | Some (cs1, e) => match ideal_prun r cs1 with Some (cs2, es) => Some (cs2, e :: es) | None => None end
              end
  end.
(** the texts in the buffers a consumer is called with *)
Definition contents (b : bufm) : list Z := firstn (Z.to_nat (blen b)) (mem b).
Definition report_of (x : triple) : report := let '(s, k, v) := x in (contents s, contents k, contents v).
