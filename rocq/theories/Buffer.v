(* Buffer.v -- RR32CanEngineDb/util/BufferManager.{h,cpp} *)
From Verif Require Export CBase CString.

(** A BufferManager: [mem] is the memory from [buffer_] to the end of the array it
    points into (a null pointer is the empty array), [blen] = currentBufferLength_,
    [bcap] = maxBufferLength_ (BufferManager.h:122-125).
    Simplification: two BufferManagers never alias except through subBufferManager, whose
    result is a read-only view (BufferManager.h:113-118) and is modelled as a copy.  Shared.v
    models the same functions with pointers into memory that buffers may share. *)
Record bufm : Type := mkBuf { mem : list Z; blen : Z; bcap : Z }.

(** BufferManager.h:19 *)
Definition npos := 255.

(** BufferManager.h:35-37 (uint8_t arithmetic, so 255 on an empty buffer) *)
Definition limitIndex (b : bufm) (index : Z) : Z :=
  if index >=? blen b then u8 (blen b - 1) else index.
(** BufferManager.h:39 operator[] *)
Definition bget (b : bufm) (index : Z) : res Z := rd (mem b) (limitIndex b index).
(** BufferManager.h:49, write through the reference returned by at() *)
Definition bput (b : bufm) (index c : Z) : res bufm :=
  m <- wr (mem b) (limitIndex b index) [c] ;; Ok (mkBuf m (blen b) (bcap b)).
(** BufferManager.h:41 strncmp(other) *)
Definition bstrncmp (b : bufm) (other : list Z) : res bool := strncmp_eq (mem b) other (Z.to_nat (blen b)).
(** BufferManager.h:64-70 *)
Definition bcap_rem (b : bufm) : Z := u8 (bcap b - blen b).
Definition bfull (b : bufm) : bool := bcap_rem b =? 0.
Definition bempty (b : bufm) : bool := blen b =? 0.
(** BufferManager.h:74 asUint8 *)
Definition basUint8 (lw : Z) (b : bufm) : res Z := v <- c_strtol10 lw (mem b) ;; Ok (u8 v).

(** the loops of BufferManager.cpp:17-21 and 32-38: test indices i, i+1, ..., n of them *)
Fixpoint bfind_loop (m : list Z) (hit : Z -> bool) (i : Z) (n : nat) : res Z :=
  match n with
  | O => Ok npos
  | S n' => c <- rd m i ;; if hit c then Ok i else bfind_loop m hit (i + 1) n'
  end.
(** BufferManager.cpp:13-23 *)
Definition bfind_char (b : bufm) (character offset : Z) : res Z :=
  if offset >=? blen b then Ok npos
  else bfind_loop (mem b) (fun c => c =? character) offset (Z.to_nat (blen b - offset)).
(** BufferManager.cpp:25-40; numChars is strlen(chars) as uint8_t *)
Definition bfind_chars (b : bufm) (chars : list Z) (offset : Z) : res Z :=
  if offset >=? blen b then Ok npos
  else n <- c_strlen chars ;;
       let set := firstn (Z.to_nat (u8 n)) chars in
       bfind_loop (mem b) (fun c => existsb (fun x => c =? x) set) offset (Z.to_nat (blen b - offset)).
(** BufferManager.cpp:42-45 *)
Definition berase (b : bufm) : res bufm :=
  m <- wr (mem b) 0 (repeat 0 (Z.to_nat (bcap b))) ;; Ok (mkBuf m 0 (bcap b)).
(** BufferManager.cpp:51-59 *)
Definition bpop_front (b : bufm) (num : Z) : res bufm :=
  if num >=? blen b then berase b
  else let len := u8 (blen b - num) in
       moved <- rd_blk (mem b) num len ;;
       m <- wr (mem b) 0 moved ;;
       m <- wr m len (repeat 0 (Z.to_nat (u8 (bcap b - len)))) ;;
       Ok (mkBuf m len (bcap b)).
(** BufferManager.cpp:61-67 push_back(const BufferManager&): (new buffer, number of bytes) *)
Definition bpush (b o : bufm) : res (bufm * Z) :=
  let n := if bcap_rem b <? blen o then bcap_rem b else blen o in
  bs <- rd_blk (mem o) 0 n ;;
  m <- wr (mem b) (blen b) bs ;;
  Ok (mkBuf m (u8 (blen b + n)) (bcap b), n).
(** BufferManager.h:93-101 push_back(char) *)
Definition bpush_char (b : bufm) (c : Z) : res (bufm * Z) :=
  if blen b <? bcap b
  then m <- wr (mem b) (blen b) [c] ;; Ok (mkBuf m (u8 (blen b + 1)) (bcap b), 1)
  else Ok (b, 0).
(** conversion of the int [maxBufferLength_ - 1] to size_t (at least 32 bits; -1 becomes huge) *)
Definition to_size_t (x : Z) : Z := u32 x.
(** BufferManager.cpp:69-73 *)
Definition bset (b : bufm) (str : list Z) : res bufm :=
  b1 <- berase b ;;
  m <- c_strncpy (mem b1) str (to_size_t (bcap b - 1)) ;;
  n <- c_strlen m ;;
  Ok (mkBuf m (u8 n) (bcap b)).
(** BufferManager.cpp:75-79: (this, other, moved) *)
Definition bmove (b o : bufm) : res (bufm * bufm * Z) :=
  '(b', n) <- bpush b o ;; o' <- bpop_front o n ;; Ok (b', o', n).
(** BufferManager.cpp:85-101 *)
Definition bsub (b : bufm) (start_offset end_offset : Z) : res bufm :=
  let s := if start_offset >? bcap b then bcap b else start_offset in
  let e := if end_offset >? bcap b then bcap b else end_offset in
  let e := if e <? s then s else e in
  if zlen (mem b) <? s then UB OutOfBounds
  else Ok (mkBuf (skipn (Z.to_nat s) (mem b)) (u8 (e - s)) (u8 (bcap b - s))).
(** BufferManager.cpp:81-83 *)
Definition bsub1 (b : bufm) (start_offset : Z) : res bufm := bsub b start_offset (blen b).
