(* TextParser.v -- RR32CanEngineDb/util/TextParser.{h,cpp} *)
From Verif Require Export Buffer.

(** TextParser.h:41-48 (LOOKING_FOR_VALUE_START is never entered) *)
Inductive PState : Set := LOOKING | PARSING_SECTION | PARSING_KEY | PARSING_VALUE | ERROR.

(** TextParser.h:53-57 *)
Definition kBufferLength := 30.
Definition kSectionLength := 10.
Definition kKeyLength := 10.
Definition kValueLength := 25.
(** TextParser.h:59-65 *)
Definition kKeyOrSectionStart : list Z := lit ".[".
Definition kSectionStart := 91. (* [ *)
Definition kSectionStop : list Z := lit "]".
Definition kKeyStart := 46.     (* . *)
Definition kKeyStop := 61.      (* = *)
Definition kValueStop := 10.    (* newline *)
Definition kValueStop_str : list Z := [kValueStop; 0].
(** TextParser.cpp:91 matchString *)
Definition kKeyOrValueStop : list Z := [kKeyStop; kValueStop; 0].

(** what consumeConfigData(section, key, value) is called with *)
Definition triple : Type := bufm * bufm * bufm.

(** TextParser.h:103-116.  [tp_cons] is the consumer pointer (None = nullptr). *)
Record TP : Type := mkTP {
  tp_state : PState; tp_cons : option nat;
  tp_buf : bufm; tp_sec : bufm; tp_key : bufm; tp_val : bufm }.

Definition set_state (t : TP) (s : PState) := mkTP s (tp_cons t) (tp_buf t) (tp_sec t) (tp_key t) (tp_val t).
Definition set_buf (t : TP) (b : bufm) := mkTP (tp_state t) (tp_cons t) b (tp_sec t) (tp_key t) (tp_val t).
Definition set_sec (t : TP) (b : bufm) := mkTP (tp_state t) (tp_cons t) (tp_buf t) b (tp_key t) (tp_val t).
Definition set_key (t : TP) (b : bufm) := mkTP (tp_state t) (tp_cons t) (tp_buf t) (tp_sec t) b (tp_val t).
Definition set_val (t : TP) (b : bufm) := mkTP (tp_state t) (tp_cons t) (tp_buf t) (tp_sec t) (tp_key t) b.

(** TextParser.h:69 *)
Definition tp_setConsumer (t : TP) (c : option nat) :=
  mkTP (tp_state t) c (tp_buf t) (tp_sec t) (tp_key t) (tp_val t).

(** TextParser.cpp:15-22 *)
Definition tp_reset (t : TP) : res TP :=
  b <- berase (tp_buf t) ;; s <- berase (tp_sec t) ;; k <- berase (tp_key t) ;; v <- berase (tp_val t) ;;
  Ok (mkTP LOOKING None b s k v).

(** TextParser.h:103-116: an array of [n] zeros and its BufferManager *)
Definition raw (n : Z) : bufm := mkBuf (repeat 0 (Z.to_nat n)) 0 n.
(** TextParser.cpp:7-13 constructor.  The arrays are uninitialised, but reset() zeroes all of them
    (C37_constructor). *)
Definition tp_new : TP :=
  mkTP LOOKING None (raw (kBufferLength + 1)) (raw (kSectionLength + 1)) (raw (kKeyLength + 1)) (raw (kValueLength + 1)).

(** the call consumer_->consumeConfigData(section, key, value), made only if consumer_ is set *)
Definition tp_emit (t : TP) : list triple :=
  match tp_cons t with Some _ => [(tp_sec t, tp_key t, tp_val t)] | None => [] end.

(** TextParser.cpp:24-33 *)
Definition tp_reportParseError (t : TP) : res (TP * list triple) :=
  let t := set_state t ERROR in
  s <- bset (tp_sec t) (lit "ERROR") ;;
  k <- bset (tp_key t) (lit "ERROR") ;;
  v <- bset (tp_val t) (lit "ERROR") ;;
  let t := set_val (set_key (set_sec t s) k) v in
  Ok (t, tp_emit t).

(** TextParser.h:86-97 *)
Record FindTokenResult : Type := mkFT { ft_consumed : Z; ft_success : bool; ft_match : Z }.

(** which of the member buffers findToken's destinationBuffer pointer designates *)
Inductive Dest : Set := DSec | DKey | DVal.
Definition dest_get (t : TP) (d : Dest) : bufm := match d with DSec => tp_sec t | DKey => tp_key t | DVal => tp_val t end.
Definition dest_set (t : TP) (d : Dest) (b : bufm) : TP :=
  match d with DSec => set_sec t b | DKey => set_key t b | DVal => set_val t b end.

(** TextParser.cpp:144-172 *)
Definition tp_findToken (t : TP) (offset : Z) (chars : list Z) (dest : option Dest)
  : res (TP * list triple * FindTokenResult) :=
  found <- bfind_chars (tp_buf t) chars offset ;;
  '(consumed, success, mch) <-
     (if found =? npos then Ok (blen (tp_buf t), false, 0)
      else c <- bget (tp_buf t) found ;; Ok (found, true, c)) ;;
  '(t, evs, success) <-
     (match dest with
      | None => Ok (t, [], success)
      | Some d =>
          partial <- bsub (tp_buf t) offset consumed ;;
          '(b', pushed) <- bpush (dest_get t d) partial ;;
          let t := dest_set t d b' in
          if pushed <? blen partial
          then '(t, evs) <- tp_reportParseError t ;; Ok (t, evs, false)
          else Ok (t, [], success)
      end) ;;
  let consumed := if success : bool then u8 (consumed + 1) else consumed in
  Ok (t, evs, mkFT consumed success mch).

(** One pass of the switch of TextParser.cpp:64-138.
    Result: new parser, events, new consumedBytes, and whether the function returns here
    (line 76). *)
Definition tp_iteration (t : TP) (consumedBytes : Z) : res (TP * list triple * Z * bool) :=
  match tp_state t with
  | LOOKING =>
      '(t, e, r) <- tp_findToken t consumedBytes kKeyOrSectionStart None ;;
      if ft_success r then
        c <- bget (tp_buf t) (u8 (ft_consumed r - 1)) ;;
        if c =? kSectionStart then
          s <- berase (tp_sec t) ;;
          Ok (set_state (set_sec t s) PARSING_SECTION, e, ft_consumed r, false)
        else
          c <- bget (tp_buf t) (u8 (ft_consumed r - 1)) ;;
          if c =? kKeyStart then Ok (set_state t PARSING_KEY, e, ft_consumed r, false)
          else '(t, e2) <- tp_reportParseError t ;; Ok (t, e ++ e2, consumedBytes, true)
      else Ok (t, e, ft_consumed r, false)
  | PARSING_SECTION =>
      '(t, e, r) <- tp_findToken t consumedBytes kSectionStop (Some DSec) ;;
      Ok (if ft_success r then set_state t LOOKING else t, e, ft_consumed r, false)
  | PARSING_KEY =>
      '(t, e, r) <- tp_findToken t consumedBytes kKeyOrValueStop (Some DKey) ;;
      if ft_success r then
        if ft_match r =? kKeyStop then Ok (set_state t PARSING_VALUE, e, ft_consumed r, false)
        else if ft_match r =? kValueStop then
          v <- berase (tp_val t) ;;
          let t := set_val t v in
          let e2 := tp_emit t in
          k <- berase (tp_key t) ;;
          Ok (set_state (set_key t k) LOOKING, e ++ e2, ft_consumed r, false)
        else Ok (t, e, ft_consumed r, false)
      else Ok (t, e, ft_consumed r, false)
  | PARSING_VALUE =>
      '(t, e, r) <- tp_findToken t consumedBytes kValueStop_str (Some DVal) ;;
      if ft_success r then
        let e2 := tp_emit t in
        k <- berase (tp_key t) ;;
        v <- berase (tp_val t) ;;
        Ok (set_state (set_val (set_key t k) v) LOOKING, e ++ e2, ft_consumed r, false)
      else Ok (t, e, ft_consumed r, false)
  | ERROR => Ok (t, [], blen (tp_buf t), false)
  end.

(** TextParser.cpp:60-142; the while loop has fuel (UB OutOfFuel is proved unreachable) *)
Fixpoint tp_process (fuel : nat) (t : TP) (consumedBytes : Z) : res (TP * list triple * Z) :=
  if consumedBytes <? blen (tp_buf t) then
    match fuel with
    | O => UB OutOfFuel
    | S fuel' =>
        '(t, e, c, ret) <- tp_iteration t consumedBytes ;;
        if ret : bool then Ok (t, e, c)
        else '(t, e2, c) <- tp_process fuel' t c ;; Ok (t, e ++ e2, c)
    end
  else Ok (t, [], consumedBytes).

Definition tp_processBuffer (t : TP) : res (TP * list triple * Z) :=
  tp_process (Z.to_nat (blen (tp_buf t))) t 0.

(** TextParser.cpp:45-57, the while loop *)
Fixpoint tp_addLoop (fuel : nat) (t : TP) (input : bufm) (inputConsumed : Z) : res (TP * list triple) :=
  if inputConsumed <? blen input then
    match fuel with
    | O => UB OutOfFuel
    | S fuel' =>
        if bfull (tp_buf t) || (match tp_state t with ERROR => true | _ => false end)
        then tp_reportParseError t
        else
          view <- bsub1 input inputConsumed ;;
          '(b, n) <- bpush (tp_buf t) view ;;
          let t := set_buf t b in
          '(t, e, consumedBufferBytes) <- tp_processBuffer t ;;
          b <- bpop_front (tp_buf t) consumedBufferBytes ;;
          '(t, e2) <- tp_addLoop fuel' (set_buf t b) input (u8 (inputConsumed + n)) ;;
          Ok (t, e ++ e2)
    end
  else Ok (t, []).

(** TextParser.cpp:35-58.  The consumer is called from inside; because neither the library's
    consumers nor any modelled user consumer calls back into the parser, the calls are
    returned as a list, in order. *)
Definition tp_addText (t : TP) (input : bufm) : res (TP * list triple) :=
  if (blen input >? kBufferLength) || (match tp_state t with ERROR => true | _ => false end)
  then tp_reportParseError t
  else tp_addLoop (Z.to_nat (blen input)) t input 0.
