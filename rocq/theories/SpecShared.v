(* SpecShared.v -- vocabulary for buffers that share memory (C108-C112). *)
From Verif Require Export Shared SpecBuffer.

(** ** Memory *)
Definition byte_at (h : heap) (p : ptr) : option Z :=
  match nth_error h (fst p) with
  | Some m => if 0 <=? snd p then nth_error m (Z.to_nat (snd p)) else None
  | None => None
  end.
(** the buffer's memory is inside its array, and its length inside its capacity *)
Definition within (h : heap) (s : sbuf) : Prop :=
  0 <= sb_len s <= sb_cap s /\ sb_cap s <= 255 /\ 0 <= snd (sb_ptr s) /\
  exists m, nth_error h (fst (sb_ptr s)) = Some m /\ snd (sb_ptr s) + sb_cap s <= zlen m.
(** the byte p belongs to the buffer *)
Definition covers (s : sbuf) (p : ptr) : Prop := fst p = fst (sb_ptr s) /\ snd (sb_ptr s) <= snd p < snd (sb_ptr s) + sb_cap s.
(** buffers without a common byte, possibly in the same array *)
Definition apart (s t : sbuf) : Prop := forall p, covers s p -> covers t p -> False.
Definition arranged (h : heap) (ss : list sbuf) : Prop :=
  Forall (within h) ss /\ forall i j s t, i <> j -> nth_error ss i = Some s -> nth_error ss j = Some t -> apart s t.

(** all bytes of a buffer, and its content *)
Definition window (h : heap) (s : sbuf) : list Z :=
  firstn (Z.to_nat (sb_cap s)) (skipn (Z.to_nat (snd (sb_ptr s))) (nth (fst (sb_ptr s)) h [])).
Definition content_of (h : heap) (s : sbuf) : list Z := firstn (Z.to_nat (sb_len s)) (window h s).

(** ** Buffers as queues *)
Definition stands_for (h : heap) (s : sbuf) (q : queue) : Prop := sb_cap s = q_cap q /\ content_of h s = q_items q.
(** content, then zeros up to the capacity *)
Definition filled_up (q : queue) : list Z := q_items q ++ repeat 0 (Z.to_nat (q_cap q) - List.length (q_items q)).
Definition cleanly (h : heap) (s : sbuf) (q : queue) : Prop := stands_for h s q /\ window h s = filled_up q.

(** from position a up to, but excluding, position e *)
Definition between (a e : Z) (l : list Z) : list Z := firstn (Z.to_nat (e - a)) (skipn (Z.to_nat a) l).

(** ** Operations on the ideal queues, with parts of buffers *)
(** what subBufferManager(a, e) of a zero-padded buffer shows: its bytes from a to e, but not beyond
    its capacity; behind the content there are zeros *)
Definition part_of (q : queue) (a e : Z) : list Z := between (Z.min a (q_cap q)) (Z.min e (q_cap q)) (filled_up q).
(** the bytes from position a of a buffer on, as many as x has, overlap the place behind the content
    where x would go *)
Definition collides (q : queue) (a : Z) (x : list Z) : bool :=
  let l := zlen (q_items q) in (0 <? zlen x) && (a <? l + zlen x) && (l <? a + zlen x).
Definition ideal_shop (o : shop) (qs : list queue) : option (list queue * Z) :=
  match o with
  | Plain o => ideal_step o qs
  | PushPart i j a e =>
      match nth_error qs i, nth_error qs j with
      | Some q, Some r =>
          let x := fit q (part_of r a e) in
          if (a <? 0) || (e <? 0) || (Nat.eqb i j && collides q (Z.min a (q_cap q)) x) then None
          else Some (upd i (with_items q (q_items q ++ x)) qs, zlen x)
      | _, _ => None
      end
  | SetFrom _ _ | View _ _ _ => None
  end.
Fixpoint ideal_shops (l : list shop) (qs : list queue) : option (list queue * list Z) :=
  match l with
  | [] => Some (qs, [])
  | o :: r => match ideal_shop o qs with
              | None => None
              | Some (qs1, n) => match ideal_shops r qs1 with
                                 | None => None
                                 | Some (qs2, ns) => Some (qs2, n :: ns)
                                 end
              end
  end.

(** ** Strings in memory *)
(** the bytes from p on are l *)
Definition spelled (h : heap) (p : ptr) (l : list Z) : Prop := forall i x, nth_error l i = Some x -> byte_at h (fst p, snd p + Z.of_nat i) = Some x.
(** p points to the C string str *)
Definition string_at (h : heap) (p : ptr) (str : list Z) : Prop := nulfree str /\ spelled h p (str ++ [0]).

(** ** The text parser *)
(** a buffer as Buffer.v sees it: the memory from its pointer to the end of the array *)
Definition shown (h : heap) (s : sbuf) : bufm := mkBuf (skipn (Z.to_nat (snd (sb_ptr s))) (nth (fst (sb_ptr s)) h [])) (sb_len s) (sb_cap s).
Definition parser_at (h : heap) (t : HP) : TP := mkTP (hp_state t) (hp_cons t) (shown h (hp_buf t)) (shown h (hp_sec t)) (shown h (hp_key t)) (shown h (hp_val t)).
(** the pointer is valid, length and capacity are not negative *)
Definition placed (h : heap) (s : sbuf) : Prop :=
  0 <= sb_len s /\ 0 <= sb_cap s /\ exists m, nth_error h (fst (sb_ptr s)) = Some m /\ 0 <= snd (sb_ptr s) <= zlen m.
Definition array_of (s : sbuf) : nat := fst (sb_ptr s).
(** the arrays the parser writes to *)
Definition arrays (t : HP) : list nat := map array_of [hp_buf t; hp_sec t; hp_key t; hp_val t].
Definition well_placed (h : heap) (t : HP) : Prop := NoDup (arrays t) /\ Forall (placed h) [hp_buf t; hp_sec t; hp_key t; hp_val t].
