(* MovedParser.v -- programs that construct, use, move and destroy TextParser objects:
   RR32CanEngineDb/util/TextParser.h:37-120.  TextParser declares no copy or move operations; since
   BufferManager can be moved but not copied (BufferManager.h:28-31), it has the implicit move
   operations, member by member: the arrays are copied, and so are the pointers of the four
   BufferManagers, which go on pointing to the arrays of the object moved from.
   (ConfigDataStreamParser.h:17-50 has a TextParser as a member and the same implicit moves.) *)
From Verif Require Export Shared.

(** an object: whether its lifetime has not ended, where its four arrays rawbuffer, rawsection, rawkey,
    rawvalue are (they are four consecutive arrays of the heap), and its other members;
    TextParser.h:103-116 *)
Record pobj : Type := mkPobj { po_alive : bool; po_raw : nat; po_tp : HP }.

Inductive mpop : Type :=
| PNew                              (* TextParser p; *)
| PConsumer (i : nat) (c : option nat)  (* object i: setConsumer(c) *)
| PText (i : nat) (bs : list Z)     (* object i: addText(text), the text in an array of the caller *)
| PReset (i : nat)                  (* object i: reset() *)
| PMoveNew (j : nat)                (* TextParser p(std::move(object j)) *)
| PMoveInto (i j : nat)             (* object i = std::move(object j) *)
| PEnd (i : nat).                   (* the lifetime of object i ends *)

(** TextParser.cpp:7-13; the constructor's reset() zeroes the arrays *)
Definition new_arrays : heap := [repeat 0 31; repeat 0 11; repeat 0 11; repeat 0 26].
Definition fresh_parser (r : nat) : HP :=
  mkHP LOOKING None (mkS (r, 0) 0 31) (mkS (S r, 0) 0 11) (mkS (S (S r), 0) 0 11) (mkS (S (S (S r)), 0) 0 26).
(** the contents of the four arrays of an object *)
Definition raw_of (h : heap) (r : nat) : heap := [nth r h []; nth (S r) h []; nth (S (S r)) h []; nth (S (S (S r))) h []].
Definition put_raw (h : heap) (r : nat) (l : heap) : heap :=
  upd r (nth 0 l []) (upd (S r) (nth 1 l []) (upd (S (S r)) (nth 2 l []) (upd (S (S (S r))) (nth 3 l []) h))).
(** using an object whose lifetime has ended is undefined *)
Definition living (os : list pobj) (i : nat) : res pobj :=
  match nth_error os i with
  | Some p => if po_alive p then Ok p else UB Dangling
  | None => UB Dangling
  end.
(** an array without bytes, of which nothing can be read or written, stands for one whose lifetime has
    ended *)
Definition p_step (o : mpop) (x : heap * list pobj) : res (heap * list pobj * list triple) :=
  let '(h, os) := x in
  match o with
  | PNew => Ok (h ++ new_arrays, os ++ [mkPobj true (List.length h) (fresh_parser (List.length h))], [])
  | PConsumer i c =>
      p <- living os i ;;
      let t := po_tp p in
      Ok (h, upd i (mkPobj true (po_raw p) (mkHP (hp_state t) c (hp_buf t) (hp_sec t) (hp_key t) (hp_val t))) os, [])
  | PText i bs =>
      p <- living os i ;;
      '(h', t, e) <- h_addText (h ++ [bs]) (po_tp p) (Theirs (mkS (List.length h, 0) (zlen bs) (zlen bs))) ;;
      Ok (firstn (List.length h) h', upd i (mkPobj true (po_raw p) t) os, e)
  | PReset i => p <- living os i ;; '(h, t) <- h_reset h (po_tp p) ;; Ok (h, upd i (mkPobj true (po_raw p) t) os, [])
  | PMoveNew j => q <- living os j ;; Ok (h ++ raw_of h (po_raw q), os ++ [mkPobj true (List.length h) (po_tp q)], [])
  | PMoveInto i j =>
      p <- living os i ;; q <- living os j ;;
      Ok (put_raw h (po_raw p) (raw_of h (po_raw q)), upd i (mkPobj true (po_raw p) (po_tp q)) os, [])
  | PEnd i =>
      p <- living os i ;;
      Ok (put_raw h (po_raw p) [[]; []; []; []], upd i (mkPobj false (po_raw p) (po_tp p)) os, [])
  end.
(** what is reported during each operation *)
Fixpoint p_run (l : list mpop) (x : heap * list pobj) : res (heap * list pobj * list (list triple)) :=
  match l with
  | [] => Ok (x, [])
  | o :: r => '(x, e) <- p_step o x ;; '(x, es) <- p_run r x ;; Ok (x, e :: es)
  end.
(** std::swap(object i, object j) when there are n objects: tmp(move(i)), i = move(j), j = move(tmp), and
    the temporary ends *)
Definition swap_parsers (n i j : nat) : list mpop := [PMoveNew i; PMoveInto i j; PMoveInto j n; PEnd n].
