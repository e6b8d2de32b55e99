(* Moved.v -- programs that, besides the operations of Shared.v, move BufferManager objects:
   RR32CanEngineDb/util/BufferManager.h:30-31. *)
From Verif Require Export Shared.

Inductive mvop : Type :=
| Use (o : shop)                 (* an operation of Shared.v *)
| MoveInto (i j : nat)           (* manager i = std::move(manager j) *)
| MoveNew (j : nat).             (* a further manager, constructed from std::move(manager j) *)
(** BufferManager.h:31 and :30: both are defaulted, so they copy the members, a pointer and two numbers
    (BufferManager.h:122-125), and leave the manager moved from as it is *)
Definition mv_step (o : mvop) (x : heap * list sbuf) : res (heap * list sbuf * Z) :=
  match o with
  | Use o => shared_step o x
  | MoveInto i j => let '(h, ss) := x in _ <- sat ss i ;; t <- sat ss j ;; Ok (h, upd i t ss, 0)
  | MoveNew j => let '(h, ss) := x in t <- sat ss j ;; Ok (h, ss ++ [t], 0)
  end.
Fixpoint mv_run (l : list mvop) (x : heap * list sbuf) : res (heap * list sbuf * list Z) :=
  match l with
  | [] => Ok (x, [])
  | o :: r => '(x, n) <- mv_step o x ;; '(x, ns) <- mv_run r x ;; Ok (x, n :: ns)
  end.
(** std::swap of two managers: T tmp = move(a); a = move(b); b = move(tmp).  (The temporary remains as a
    further manager here.) *)
Definition swap_ops (n i j : nat) : list mvop := [MoveNew i; MoveInto i j; MoveInto j n].
