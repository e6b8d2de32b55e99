(* SpecBuffer.v -- specification vocabulary for BufferManager: an ideal bounded byte queue. *)
From Verif Require Export Buffer.

(** [b] is a buffer of at most 255 bytes inside its array whose visible content is [c] *)
Definition holds (b : bufm) (c : list Z) : Prop :=
  0 <= blen b <= bcap b /\ bcap b <= 255 /\ bcap b <= zlen (mem b) /\
  c = firstn (Z.to_nat (blen b)) (mem b).
(** the bytes of the underlying array behind the buffer's capacity *)
Definition beyond (b : bufm) : list Z := skipn (Z.to_nat (bcap b)) (mem b).

(** a string without embedded NUL *)
Definition nulfree (s : list Z) : Prop := Forall (fun c => c <> 0) s.

(** ** The ideal queue *)
Record queue : Type := mkQ { q_cap : Z; q_items : list Z }.

(** operations on a collection of buffers, addressed by position *)
Inductive bop : Type :=
| BPush (i j : nat)          (* buffer i: push_back(buffer j), j = i allowed *)
| BPushChar (i : nat) (c : Z)
| BPop (i : nat) (n : Z)
| BErase (i : nat)
| BSet (i : nat) (s : list Z)
| BMove (i j : nat)          (* buffer i: move_back(buffer j), j = i allowed *)
| BPut (i : nat) (k c : Z).  (* at(k) = c *)

(** what fits: the longest prefix *)
Definition fit (q : queue) (x : list Z) : list Z := firstn (Z.to_nat (q_cap q) - List.length (q_items q)) x.
Definition with_items (q : queue) (l : list Z) : queue := mkQ (q_cap q) l.

(** one operation on the ideal queues: new queues and returned number (0 if the method returns
    nothing); None if the operation is not allowed *)
Definition ideal_step (o : bop) (qs : list queue) : option (list queue * Z) :=
  match o with
  | BPush i j =>
      match nth_error qs i, nth_error qs j with
      | Some q, Some r => Some (upd i (with_items q (q_items q ++ fit q (q_items r))) qs, zlen (fit q (q_items r)))
      | _, _ => None
      end
  | BPushChar i c =>
      match nth_error qs i with
      | Some q => Some (upd i (with_items q (q_items q ++ fit q [c])) qs, zlen (fit q [c]))
      | None => None
      end
  | BPop i n =>
      match nth_error qs i with
      | Some q => if (0 <=? n) && (n <=? 255) then Some (upd i (with_items q (skipn (Z.to_nat n) (q_items q))) qs, 0) else None
      | None => None
      end
  | BErase i =>
      match nth_error qs i with
      | Some q => Some (upd i (with_items q []) qs, 0)
      | None => None
      end
  | BSet i s =>
      match nth_error qs i with
      | Some q => if (1 <=? q_cap q) && forallb (fun c => negb (c =? 0)) s
                  then Some (upd i (with_items q (firstn (Z.to_nat (q_cap q - 1)) s)) qs, 0) else None
      | None => None
      end
  | BMove i j =>
      match nth_error qs i, nth_error qs j with
      | Some q, Some r =>
          let x := fit q (q_items r) in
          let qs1 := upd i (with_items q (q_items q ++ x)) qs in
          match nth_error qs1 j with
          | Some r1 => Some (upd j (with_items r1 (skipn (List.length x) (q_items r1))) qs1, zlen x)
          | None => None
          end
      | _, _ => None
      end
  | BPut i k c =>
      match nth_error qs i with
      | Some q => match q_items q with
                  | [] => None
                  | _ :: _ => if 0 <=? k
                              then Some (upd i (with_items q (upd (Z.to_nat (Z.min k (zlen (q_items q) - 1))) c (q_items q))) qs, 0)
                              else None
                  end
      | None => None
      end
  end.

Fixpoint ideal_run (l : list bop) (qs : list queue) : option (list queue * list Z) :=
  match l with
  | [] => Some (qs, [])
  | o :: r => match ideal_step o qs with
              | None => None
              | Some (qs1, n) => match ideal_run r qs1 with
                                 | None => None
                                 | Some (qs2, ns) => Some (qs2, n :: ns)
                                 end
              end
  end.

(** ** The same operations performed by the code.  The buffers do not share storage. *)
Definition bat (bs : list bufm) (i : nat) : res bufm :=
  match nth_error bs i with Some b => Ok b | None => UB Dangling end.
Definition code_step (o : bop) (bs : list bufm) : res (list bufm * Z) :=
  match o with
  | BPush i j => b <- bat bs i ;; o <- bat bs j ;; '(b', n) <- bpush b o ;; Ok (upd i b' bs, n)
  | BPushChar i c => b <- bat bs i ;; '(b', n) <- bpush_char b c ;; Ok (upd i b' bs, n)
  | BPop i n => b <- bat bs i ;; b' <- bpop_front b n ;; Ok (upd i b' bs, 0)
  | BErase i => b <- bat bs i ;; b' <- berase b ;; Ok (upd i b' bs, 0)
  | BSet i s => b <- bat bs i ;; b' <- bset b (s ++ [0]) ;; Ok (upd i b' bs, 0)
  | BMove i j =>
      b <- bat bs i ;; o <- bat bs j ;;
      if Nat.eqb i j
      then '(b1, n) <- bpush b b ;; b2 <- bpop_front b1 n ;; Ok (upd i b2 bs, n)
      else '(b', o', n) <- bmove b o ;; Ok (upd j o' (upd i b' bs), n)
  | BPut i k c => b <- bat bs i ;; b' <- bput b k c ;; Ok (upd i b' bs, 0)
  end.
Fixpoint code_run (l : list bop) (bs : list bufm) : res (list bufm * list Z) :=
  match l with
  | [] => Ok (bs, [])
  | o :: r => '(bs1, n) <- code_step o bs ;; '(bs2, ns) <- code_run r bs1 ;; Ok (bs2, n :: ns)
  end.

(** buffer b is a correct image of queue q *)
Definition represents (b : bufm) (q : queue) : Prop := bcap b = q_cap q /\ holds b (q_items q).

(** ** Searching *)
(** k is the first position from [off] on whose byte satisfies P *)
Definition first_from (P : Z -> Prop) (c : list Z) (off k : Z) : Prop :=
  off <= k < zlen c /\ P (nth (Z.to_nat k) c 0) /\
  forall j, off <= j < k -> ~ P (nth (Z.to_nat j) c 0).
Definition none_from (P : Z -> Prop) (c : list Z) (off : Z) : Prop :=
  forall j, off <= j < zlen c -> ~ P (nth (Z.to_nat j) c 0).
