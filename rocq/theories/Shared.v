(* Shared.v -- RR32CanEngineDb/util/BufferManager.{h,cpp} and TextParser.{h,cpp} once more, with
   pointers into arrays that several buffers may share.  Buffer.v and TextParser.v give every buffer
   an array of its own and treat sub-buffers as copies; here nothing is copied that the code does
   not copy. *)
From Verif Require Export TextParser SpecBuffer.

(* ------------------------------------------------------------------ *)
(** * Memory *)

(** the arrays of the program; a pointer is an array and an index into it *)
Definition heap : Type := list (list Z).
Definition ptr : Type := nat * Z.

(** the memory from a pointer to the end of its array; a pointer outside the array (or not just
    behind it) is undefined behaviour *)
Definition h_from (h : heap) (p : ptr) : res (list Z) :=
  match nth_error h (fst p) with
  | None => UB Dangling
  | Some m => if (0 <=? snd p) && (snd p <=? zlen m) then Ok (skipn (Z.to_nat (snd p)) m) else UB OutOfBounds
  end.
(** replaces the memory from a pointer to the end of its array *)
Definition h_put (h : heap) (p : ptr) (bytes : list Z) : heap :=
  match nth_error h (fst p) with
  | None => h
  | Some m => upd (fst p) (firstn (Z.to_nat (snd p)) m ++ bytes) h
  end.
(** [n] bytes from p on and [n'] bytes from q on have a byte in common *)
Definition overlap (p : ptr) (n : Z) (q : ptr) (n' : Z) : bool :=
  Nat.eqb (fst p) (fst q) && (0 <? n) && (0 <? n') && (snd p <? snd q + n') && (snd q <? snd p + n).

(* ------------------------------------------------------------------ *)
(** * BufferManager *)

(** BufferManager.h:122-125; a null pointer is a pointer to an empty array *)
Record sbuf : Type := mkS { sb_ptr : ptr; sb_len : Z; sb_cap : Z }.

(** a buffer together with the memory its pointer can reach, as in Buffer.v *)
Definition see (h : heap) (s : sbuf) : res bufm := m <- h_from h (sb_ptr s) ;; Ok (mkBuf m (sb_len s) (sb_cap s)).
(** ... and back *)
Definition store (h : heap) (s : sbuf) (b : bufm) : heap * sbuf := (h_put h (sb_ptr s) (mem b), mkS (sb_ptr s) (blen b) (bcap b)).
(** the functions that use nothing but the buffer's own pointer are those of Buffer.v *)
Definition on_seen {A} (f : bufm -> res (bufm * A)) (h : heap) (s : sbuf) : res (heap * sbuf * A) :=
  b <- see h s ;; '(b', x) <- f b ;; Ok (store h s b', x).
Definition on_seen0 (f : bufm -> res bufm) (h : heap) (s : sbuf) : res (heap * sbuf) :=
  b <- see h s ;; b' <- f b ;; Ok (store h s b').

(** BufferManager.cpp:42-45 *)
Definition s_erase := on_seen0 berase.
(** BufferManager.cpp:51-59; memmove allows overlapping memory *)
Definition s_pop (n : Z) := on_seen0 (fun b => bpop_front b n).
(** BufferManager.h:49, write through the reference returned by at() *)
Definition s_put (i c : Z) := on_seen0 (fun b => bput b i c).
(** BufferManager.h:93-101 *)
Definition s_push_char (c : Z) := on_seen (fun b => bpush_char b c).
(** BufferManager.cpp:61-67: memcpy requires that source and destination do not overlap *)
Definition s_push (h : heap) (s o : sbuf) : res (heap * sbuf * Z) :=
  b <- see h s ;;
  o' <- see h o ;;
  let n := if bcap_rem b <? blen o' then bcap_rem b else blen o' in
  if overlap (fst (sb_ptr s), snd (sb_ptr s) + sb_len s) n (sb_ptr o) n then UB Overlap
  else '(b', n) <- bpush b o' ;; Ok (store h s b', n).
(** the number of bytes strncpy(_, str, n) reads: up to n, or up to and including the NUL *)
Fixpoint str_read (str : list Z) (n : nat) : Z :=
  match n, str with
  | S n', c :: r => if c =? 0 then 1 else 1 + str_read r n'
  | _, _ => 0
  end.
(** BufferManager.cpp:69-73 with a pointer; strncpy requires that source and destination do not
    overlap.  The erasure comes first, so it also acts on the string if that is in the buffer. *)
Definition s_set (h : heap) (s : sbuf) (p : ptr) : res (heap * sbuf) :=
  '(h, s) <- s_erase h s ;;
  b <- see h s ;;
  str <- h_from h p ;;
  let n := to_size_t (sb_cap s - 1) in
  if zlen (mem b) <? n then UB OutOfBounds
  else if overlap (sb_ptr s) n p (str_read str (Z.to_nat n)) then UB Overlap
  else m <- c_strncpy (mem b) str n ;; l <- c_strlen m ;; Ok (store h s (mkBuf m (u8 l) (sb_cap s))).
(** BufferManager.cpp:69-73 with a string that is not in the memory considered here (a literal) *)
Definition s_set_lit (str : list Z) := on_seen0 (fun b => bset b str).
(** BufferManager.cpp:85-101: the result shares the memory *)
Definition s_sub (h : heap) (s : sbuf) (start_offset end_offset : Z) : res sbuf :=
  b <- see h s ;;
  v <- bsub b start_offset end_offset ;;
  let start := if start_offset >? sb_cap s then sb_cap s else start_offset in
  Ok (mkS (fst (sb_ptr s), snd (sb_ptr s) + start) (blen v) (bcap v)).
(** BufferManager.cpp:81-83 *)
Definition s_sub1 (h : heap) (s : sbuf) (start_offset : Z) : res sbuf := s_sub h s start_offset (sb_len s).

(** ** Programs using several buffers *)
(** the operations of SpecBuffer.v, and those that need pointers *)
Inductive shop : Type :=
| Plain (o : bop)                       (* the string of BSet is a literal *)
| PushPart (i j : nat) (s e : Z)        (* buffer i: push_back(buffer j .subBufferManager(s, e)) *)
| SetFrom (i : nat) (p : ptr)           (* buffer i: set(p) *)
| View (i : nat) (s e : Z).             (* a further buffer, buffer i .subBufferManager(s, e) *)
Definition sat (ss : list sbuf) (i : nat) : res sbuf := match nth_error ss i with Some s => Ok s | None => UB Dangling end.
(** BufferManager.h:81, 93, 42-45, 51-59, 109, 111, 49 and BufferManager.cpp:75-79 move_back *)
Definition plain_step (o : bop) (x : heap * list sbuf) : res (heap * list sbuf * Z) :=
  let '(h, ss) := x in
  match o with
  | BPush i j => s <- sat ss i ;; t <- sat ss j ;; '(h, s, n) <- s_push h s t ;; Ok (h, upd i s ss, n)
  | BPushChar i c => s <- sat ss i ;; '(h, s, n) <- s_push_char c h s ;; Ok (h, upd i s ss, n)
  | BPop i n => s <- sat ss i ;; '(h, s) <- s_pop n h s ;; Ok (h, upd i s ss, 0)
  | BErase i => s <- sat ss i ;; '(h, s) <- s_erase h s ;; Ok (h, upd i s ss, 0)
  | BSet i str => s <- sat ss i ;; '(h, s) <- s_set_lit (str ++ [0]) h s ;; Ok (h, upd i s ss, 0)
  | BMove i j =>
      s <- sat ss i ;; t <- sat ss j ;; '(h, s, n) <- s_push h s t ;;
      let ss := upd i s ss in
      t <- sat ss j ;; '(h, t) <- s_pop n h t ;; Ok (h, upd j t ss, n)
  | BPut i k c => s <- sat ss i ;; '(h, s) <- s_put k c h s ;; Ok (h, upd i s ss, 0)
  end.
Definition shared_step (o : shop) (x : heap * list sbuf) : res (heap * list sbuf * Z) :=
  match o with
  | Plain o => plain_step o x
  | PushPart i j a e =>
      let '(h, ss) := x in
      s <- sat ss i ;; t <- sat ss j ;; v <- s_sub h t a e ;; '(h, s, n) <- s_push h s v ;; Ok (h, upd i s ss, n)
  | SetFrom i p => let '(h, ss) := x in s <- sat ss i ;; '(h, s) <- s_set h s p ;; Ok (h, upd i s ss, 0)
  | View i a e => let '(h, ss) := x in s <- sat ss i ;; v <- s_sub h s a e ;; Ok (h, ss ++ [v], 0)
  end.
Fixpoint shared_run (l : list shop) (x : heap * list sbuf) : res (heap * list sbuf * list Z) :=
  match l with
  | [] => Ok (x, [])
  | o :: r => '(x, n) <- shared_step o x ;; '(x, ns) <- shared_run r x ;; Ok (x, n :: ns)
  end.

(* ------------------------------------------------------------------ *)
(** * TextParser *)

(** TextParser.h:103-116: the member buffers, pointing to arrays *)
Record HP : Type := mkHP { hp_state : PState; hp_cons : option nat; hp_buf : sbuf; hp_sec : sbuf; hp_key : sbuf; hp_val : sbuf }.
Definition hset_state (t : HP) (x : PState) := mkHP x (hp_cons t) (hp_buf t) (hp_sec t) (hp_key t) (hp_val t).
Definition hset_buf (t : HP) (b : sbuf) := mkHP (hp_state t) (hp_cons t) b (hp_sec t) (hp_key t) (hp_val t).
Definition hset_sec (t : HP) (b : sbuf) := mkHP (hp_state t) (hp_cons t) (hp_buf t) b (hp_key t) (hp_val t).
Definition hset_key (t : HP) (b : sbuf) := mkHP (hp_state t) (hp_cons t) (hp_buf t) (hp_sec t) b (hp_val t).
Definition hset_val (t : HP) (b : sbuf) := mkHP (hp_state t) (hp_cons t) (hp_buf t) (hp_sec t) (hp_key t) b.
Definition hdest_get (t : HP) (d : Dest) : sbuf := match d with DSec => hp_sec t | DKey => hp_key t | DVal => hp_val t end.
Definition hdest_set (t : HP) (d : Dest) (b : sbuf) : HP :=
  match d with DSec => hset_sec t b | DKey => hset_key t b | DVal => hset_val t b end.

(** TextParser.cpp:15-22 *)
Definition h_reset (h : heap) (t : HP) : res (heap * HP) :=
  '(h, b) <- s_erase h (hp_buf t) ;; '(h, s) <- s_erase h (hp_sec t) ;; '(h, k) <- s_erase h (hp_key t) ;; '(h, v) <- s_erase h (hp_val t) ;;
  Ok (h, mkHP LOOKING None b s k v).
(** the consumer sees the parser's own buffers at the time of the call; TextParser.cpp:31, 99, 126 *)
Definition h_emit (h : heap) (t : HP) : res (list triple) :=
  match hp_cons t with
  | None => Ok []
  | Some _ => s <- see h (hp_sec t) ;; k <- see h (hp_key t) ;; v <- see h (hp_val t) ;; Ok [(s, k, v)]
  end.
(** TextParser.cpp:24-33 *)
Definition h_reportParseError (h : heap) (t : HP) : res (heap * HP * list triple) :=
  let t := hset_state t ERROR in
  '(h, s) <- s_set_lit (lit "ERROR") h (hp_sec t) ;;
  '(h, k) <- s_set_lit (lit "ERROR") h (hp_key t) ;;
  '(h, v) <- s_set_lit (lit "ERROR") h (hp_val t) ;;
  let t := hset_val (hset_key (hset_sec t s) k) v in
  e <- h_emit h t ;; Ok (h, t, e).
(** TextParser.cpp:144-172; [partial] is a view of the parser's buffer *)
Definition h_findToken (h : heap) (t : HP) (offset : Z) (chars : list Z) (dest : option Dest) : res (heap * HP * list triple * FindTokenResult) :=
  b <- see h (hp_buf t) ;;
  found <- bfind_chars b chars offset ;;
  '(consumed, success, mch) <- (if found =? npos then Ok (sb_len (hp_buf t), false, 0) else c <- bget b found ;; Ok (found, true, c)) ;;
  '(h, t, evs, success) <-
     (match dest with
      | None => Ok (h, t, [], success)
      | Some d =>
          partial <- s_sub h (hp_buf t) offset consumed ;;
          '(h, b', pushed) <- s_push h (hdest_get t d) partial ;;
          let t := hdest_set t d b' in
          if pushed <? sb_len partial
          then '(h, t, evs) <- h_reportParseError h t ;; Ok (h, t, evs, false)
          else Ok (h, t, [], success)
      end) ;;
  let consumed := if success : bool then u8 (consumed + 1) else consumed in
  Ok (h, t, evs, mkFT consumed success mch).
(** TextParser.cpp:64-138 *)
Definition h_iteration (h : heap) (t : HP) (consumedBytes : Z) : res (heap * HP * list triple * Z * bool) :=
  match hp_state t with
  | LOOKING =>
      '(h, t, e, r) <- h_findToken h t consumedBytes kKeyOrSectionStart None ;;
      if ft_success r then
        b <- see h (hp_buf t) ;;
        c <- bget b (u8 (ft_consumed r - 1)) ;;
        if c =? kSectionStart then
          '(h, s) <- s_erase h (hp_sec t) ;;
          Ok (h, hset_state (hset_sec t s) PARSING_SECTION, e, ft_consumed r, false)
        else
          c <- bget b (u8 (ft_consumed r - 1)) ;;
          if c =? kKeyStart then Ok (h, hset_state t PARSING_KEY, e, ft_consumed r, false)
          else '(h, t, e2) <- h_reportParseError h t ;; Ok (h, t, e ++ e2, consumedBytes, true)
      else Ok (h, t, e, ft_consumed r, false)
  | PARSING_SECTION =>
      '(h, t, e, r) <- h_findToken h t consumedBytes kSectionStop (Some DSec) ;;
      Ok (h, if ft_success r then hset_state t LOOKING else t, e, ft_consumed r, false)
  | PARSING_KEY =>
      '(h, t, e, r) <- h_findToken h t consumedBytes kKeyOrValueStop (Some DKey) ;;
      if ft_success r then
        if ft_match r =? kKeyStop then Ok (h, hset_state t PARSING_VALUE, e, ft_consumed r, false)
        else if ft_match r =? kValueStop then
          '(h, v) <- s_erase h (hp_val t) ;;
          let t := hset_val t v in
          e2 <- h_emit h t ;;
          '(h, k) <- s_erase h (hp_key t) ;;
          Ok (h, hset_state (hset_key t k) LOOKING, e ++ e2, ft_consumed r, false)
        else Ok (h, t, e, ft_consumed r, false)
      else Ok (h, t, e, ft_consumed r, false)
  | PARSING_VALUE =>
      '(h, t, e, r) <- h_findToken h t consumedBytes kValueStop_str (Some DVal) ;;
      if ft_success r then
        e2 <- h_emit h t ;;
        '(h, k) <- s_erase h (hp_key t) ;;
        '(h, v) <- s_erase h (hp_val t) ;;
        Ok (h, hset_state (hset_val (hset_key t k) v) LOOKING, e ++ e2, ft_consumed r, false)
      else Ok (h, t, e, ft_consumed r, false)
  | ERROR => Ok (h, t, [], sb_len (hp_buf t), false)
  end.
(** TextParser.cpp:60-142 *)
Fixpoint h_process (fuel : nat) (h : heap) (t : HP) (consumedBytes : Z) : res (heap * HP * list triple * Z) :=
  if consumedBytes <? sb_len (hp_buf t) then
    match fuel with
    | O => UB OutOfFuel
    | S fuel' =>
        '(h, t, e, c, ret) <- h_iteration h t consumedBytes ;;
        if ret : bool then Ok (h, t, e, c)
        else '(h, t, e2, c) <- h_process fuel' h t c ;; Ok (h, t, e ++ e2, c)
    end
  else Ok (h, t, [], consumedBytes).
Definition h_processBuffer (h : heap) (t : HP) : res (heap * HP * list triple * Z) := h_process (Z.to_nat (sb_len (hp_buf t))) h t 0.

(** the argument of addText is a reference: to a buffer of the caller, or to one of the parser's
    own buffers, which consumers receive by reference (TextParser.h:26) *)
Inductive iref : Type := Theirs (s : sbuf) | Ours (d : Dest).
Definition iget (t : HP) (r : iref) : sbuf := match r with Theirs s => s | Ours d => hdest_get t d end.
(** TextParser.cpp:45-57; the fuel bounds the rounds *)
Fixpoint h_addLoop (fuel : nat) (h : heap) (t : HP) (input : iref) (inputConsumed : Z) : res (heap * HP * list triple) :=
  if inputConsumed <? sb_len (iget t input) then
    match fuel with
    | O => UB OutOfFuel
    | S fuel' =>
        if (u8 (sb_cap (hp_buf t) - sb_len (hp_buf t)) =? 0) || (match hp_state t with ERROR => true | _ => false end)
        then h_reportParseError h t
        else
          view <- s_sub1 h (iget t input) inputConsumed ;;
          '(h, b, n) <- s_push h (hp_buf t) view ;;
          let t := hset_buf t b in
          '(h, t, e, consumedBufferBytes) <- h_processBuffer h t ;;
          '(h, b) <- s_pop consumedBufferBytes h (hp_buf t) ;;
          '(h, t, e2) <- h_addLoop fuel' h (hset_buf t b) input (u8 (inputConsumed + n)) ;;
          Ok (h, t, e ++ e2)
    end
  else Ok (h, t, []).
(** TextParser.cpp:35-58 *)
Definition h_addText (h : heap) (t : HP) (input : iref) : res (heap * HP * list triple) :=
  if (sb_len (iget t input) >? kBufferLength) || (match hp_state t with ERROR => true | _ => false end)
  then h_reportParseError h t
  else h_addLoop 256 h t input 0.
