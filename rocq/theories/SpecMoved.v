(* SpecMoved.v -- vocabulary for programs that move buffer managers (C135). *)
From Verif Require Export Moved SpecShared.

(** which of the queues a manager holds, if any: a manager that was moved from holds none *)
Definition holders : Type := list (option nat).
Definition holds (ow : holders) (i : nat) : option nat := match nth_error ow i with Some x => x | None => None end.
Definition both {A B} (f : nat -> nat -> A) (x y : option nat) (g : A -> B) : option B :=
  match x, y with Some a, Some b => Some (g (f a b)) | _, _ => None end.
(** an operation on managers, as an operation on the queues they hold; none if one of them holds none *)
Definition on_queues (ow : holders) (o : shop) : option shop :=
  match o with
  | Plain (BPush i j) => both BPush (holds ow i) (holds ow j) Plain
  | Plain (BMove i j) => both BMove (holds ow i) (holds ow j) Plain
  | Plain (BPushChar i c) => option_map (fun x => Plain (BPushChar x c)) (holds ow i)
  | Plain (BPop i n) => option_map (fun x => Plain (BPop x n)) (holds ow i)
  | Plain (BErase i) => option_map (fun x => Plain (BErase x)) (holds ow i)
  | Plain (BSet i s) => option_map (fun x => Plain (BSet x s)) (holds ow i)
  | Plain (BPut i k c) => option_map (fun x => Plain (BPut x k c)) (holds ow i)
  | PushPart i j a e => both (fun x y => PushPart x y a e) (holds ow i) (holds ow j) (fun o => o)
  | SetFrom _ _ | View _ _ _ => None
  end.
(** one step of the ideal program: an operation changes the queues, a move hands the queue of one
    manager to another, which lets go of its own; moving a manager to itself changes nothing *)
Definition ideal_mv (o : mvop) (x : holders * list queue) : option (holders * list queue * Z) :=
  let '(ow, qs) := x in
  match o with
  | Use o => match on_queues ow o with
             | Some o' => match ideal_shop o' qs with Some (qs', n) => Some (ow, qs', n) | None => None end
             | None => None
             end
  | MoveInto i j => match nth_error ow i, holds ow j with Some _, Some q => Some (upd i (Some q) (upd j None ow), qs, 0) | _, _ => None end
  | MoveNew j => match holds ow j with Some q => Some (upd j None ow ++ [Some q], qs, 0) | None => None end
  end.
Fixpoint ideal_mvs (l : list mvop) (x : holders * list queue) : option (holders * list queue * list Z) :=
  match l with
  | [] => Some (x, [])
  | o :: r => match ideal_mv o x with
              | None => None
              | Some (x1, n) => match ideal_mvs r x1 with None => None | Some (x2, ns) => Some (x2, n :: ns) end
              end
  end.
(** at first, every manager holds its own queue *)
Definition own_queues (n : nat) : holders := map Some (seq 0 n).
