(* SpecTouch.v -- vocabulary for user code that calls the library and changes the parsers' buffers (C130-C132). *)
From Verif Require Export Touch SpecFatal SpecAgain SpecConsumer.

(** all buffer operations are allowed, whatever the section, key and value are: the capacities of the
    buffers are those of the parser, and the ideal queues of SpecBuffer.v can perform them *)
Definition proper_visit (v : triple -> visit) : Prop := exists f, leaves (fun _ => v) (fun _ => f).
(** all calls of a piece of code satisfy P, and what it does to buffers is allowed and done to
    parsers of w, whatever it observes *)
Inductive does_only (w : world) (P : op -> Prop) : tcode -> Prop :=
| does_ret : does_only w P TRet
| does_call : forall o k, P o -> (forall w' t, does_only w P (k w' t)) -> does_only w P (TCall o k)
| does_touch : forall p sp v k, lib_at w p sp -> proper_visit v -> (forall w' t, does_only w P (k w' t)) -> does_only w P (TTouch p v k).

(** ** A user consumer that uses the buffers of its parser while it is handed a line *)
(** the lines consumer c has been handed *)
Definition handed_lines (c : nat) (h : list event) : list triple :=
  flat_map (fun e => match e with EvConsume c' s k v => if Nat.eqb c' c then [(s, k, v)] else [] | _ => [] end) h.
(** what consumer c does when called: handed a line, it does what [q] says, knowing all lines before;
    otherwise it does nothing.  No other user object does anything. *)
Definition meddles (p c : nat) (q : consumer) (h : list event) : tcode :=
  match rev h with
  | EvConsume c' _ _ _ :: before => if Nat.eqb c' c then TTouch p (q (handed_lines c (rev before))) (fun _ _ => TRet) else TRet
  | _ => TRet
  end.
(** calls, one after the other *)
Fixpoint calls_of (l : list op) : tcode := match l with [] => TRet | o :: r => TCall o (fun _ _ => calls_of r) end.
