(* Meddle.v -- RR32CanEngineDb/util/TextParser.cpp once more, for consumers that change the buffers
   they are handed: TextParser.h:26 passes section, key and value as BufferManager&.  TextParser.v
   models consumers that leave them alone; C102_leaving_them_alone relates the two. *)
From Verif Require Export TextParser.

(** what the consumer's code does with the three buffers of a call, knowing all earlier calls *)
Definition handler : Type := list triple -> triple -> res triple.
(** a parser, and the calls of its consumer so far (as the buffers were on entry) *)
Definition mtp : Type := TP * list triple.

(** the call consumer_->consumeConfigData(section, key, value), made only if consumer_ is set:
    TextParser.cpp:30-32, 99-101, 125-127 *)
Definition m_tell (h : handler) (x : mtp) : res mtp :=
  let '(t, log) := x in
  match tp_cons t with
  | None => Ok x
  | Some _ =>
      let call := (tp_sec t, tp_key t, tp_val t) in
      '(s, k, v) <- h log call ;; Ok (set_val (set_key (set_sec t s) k) v, log ++ [call])
  end.

(** TextParser.cpp:24-33 *)
Definition m_reportParseError (h : handler) (x : mtp) : res mtp :=
  let '(t, log) := x in
  let t := set_state t ERROR in
  s <- bset (tp_sec t) (lit "ERROR") ;;
  k <- bset (tp_key t) (lit "ERROR") ;;
  v <- bset (tp_val t) (lit "ERROR") ;;
  m_tell h (set_val (set_key (set_sec t s) k) v, log).

(** TextParser.cpp:144-172 *)
Definition m_findToken (h : handler) (x : mtp) (offset : Z) (chars : list Z) (dest : option Dest) : res (mtp * FindTokenResult) :=
  let '(t, log) := x in
  found <- bfind_chars (tp_buf t) chars offset ;;
  '(consumed, success, mch) <-
     (if found =? npos then Ok (blen (tp_buf t), false, 0)
      else c <- bget (tp_buf t) found ;; Ok (found, true, c)) ;;
  '(x, success) <-
     (match dest with
      | None => Ok (x, success)
      | Some d =>
          partial <- bsub (tp_buf t) offset consumed ;;
          '(b', pushed) <- bpush (dest_get t d) partial ;;
          let t := dest_set t d b' in
          if pushed <? blen partial
          then x <- m_reportParseError h (t, log) ;; Ok (x, false)
          else Ok ((t, log), success)
      end) ;;
  let consumed := if success : bool then u8 (consumed + 1) else consumed in
  Ok (x, mkFT consumed success mch).

(** one pass of the switch of TextParser.cpp:64-138: parser and calls, consumedBytes, whether the
    function returns here (line 76) *)
Definition m_iteration (h : handler) (x : mtp) (consumedBytes : Z) : res (mtp * Z * bool) :=
  match tp_state (fst x) with
  | LOOKING =>
      '(t, log, r) <- m_findToken h x consumedBytes kKeyOrSectionStart None ;;
      if ft_success r then
        c <- bget (tp_buf t) (u8 (ft_consumed r - 1)) ;;
        if c =? kSectionStart then
          s <- berase (tp_sec t) ;;
          Ok ((set_state (set_sec t s) PARSING_SECTION, log), ft_consumed r, false)
        else
          c <- bget (tp_buf t) (u8 (ft_consumed r - 1)) ;;
          if c =? kKeyStart then Ok ((set_state t PARSING_KEY, log), ft_consumed r, false)
          else x <- m_reportParseError h (t, log) ;; Ok (x, consumedBytes, true)
      else Ok ((t, log), ft_consumed r, false)
  | PARSING_SECTION =>
      '(t, log, r) <- m_findToken h x consumedBytes kSectionStop (Some DSec) ;;
      Ok ((if ft_success r then set_state t LOOKING else t, log), ft_consumed r, false)
  | PARSING_KEY =>
      '(t, log, r) <- m_findToken h x consumedBytes kKeyOrValueStop (Some DKey) ;;
      if ft_success r then
        if ft_match r =? kKeyStop then Ok ((set_state t PARSING_VALUE, log), ft_consumed r, false)
        else if ft_match r =? kValueStop then
          v <- berase (tp_val t) ;;
          '(t, log) <- m_tell h (set_val t v, log) ;;
          k <- berase (tp_key t) ;;
          Ok ((set_state (set_key t k) LOOKING, log), ft_consumed r, false)
        else Ok ((t, log), ft_consumed r, false)
      else Ok ((t, log), ft_consumed r, false)
  | PARSING_VALUE =>
      '(t, log, r) <- m_findToken h x consumedBytes kValueStop_str (Some DVal) ;;
      if ft_success r then
        '(t, log) <- m_tell h (t, log) ;;
        k <- berase (tp_key t) ;;
        v <- berase (tp_val t) ;;
        Ok ((set_state (set_val (set_key t k) v) LOOKING, log), ft_consumed r, false)
      else Ok ((t, log), ft_consumed r, false)
  | ERROR => Ok (x, blen (tp_buf (fst x)), false)
  end.

(** TextParser.cpp:60-142 *)
Fixpoint m_process (h : handler) (fuel : nat) (x : mtp) (consumedBytes : Z) : res (mtp * Z) :=
  if consumedBytes <? blen (tp_buf (fst x)) then
    match fuel with
    | O => UB OutOfFuel
    | S fuel' =>
        '(x, c, ret) <- m_iteration h x consumedBytes ;;
        if ret : bool then Ok (x, c) else m_process h fuel' x c
    end
  else Ok (x, consumedBytes).

(** TextParser.cpp:45-57 *)
Fixpoint m_addLoop (h : handler) (fuel : nat) (x : mtp) (input : bufm) (inputConsumed : Z) : res mtp :=
  if inputConsumed <? blen input then
    match fuel with
    | O => UB OutOfFuel
    | S fuel' =>
        let '(t, log) := x in
        if bfull (tp_buf t) || (match tp_state t with ERROR => true | _ => false end)
        then m_reportParseError h x
        else
          view <- bsub1 input inputConsumed ;;
          '(b, n) <- bpush (tp_buf t) view ;;
          '(t, log, consumedBufferBytes) <- m_process h (Z.to_nat (blen b)) (set_buf t b, log) 0 ;;
          b <- bpop_front (tp_buf t) consumedBufferBytes ;;
          m_addLoop h fuel' (set_buf t b, log) input (u8 (inputConsumed + n))
    end
  else Ok x.

(** TextParser.cpp:35-58 *)
Definition m_addText (h : handler) (x : mtp) (input : bufm) : res mtp :=
  if (blen input >? kBufferLength) || (match tp_state (fst x) with ERROR => true | _ => false end)
  then m_reportParseError h x
  else m_addLoop h (Z.to_nat (blen input)) x input 0.
