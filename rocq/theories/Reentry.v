(* Reentry.v -- the stateful part again, now with user callbacks that call back into the library.

   World.v treats user callbacks as passive.  Here every call to a user object (TxCbk, SystemCbk,
   EngineCbk, AccessoryCbk, ConfigDataEndStreamCallback, a user-defined ConfigDataCbk or
   ConfigDataConsumer) runs user code, which may issue any sequence of public operations, each one
   chosen after looking at the whole state and everything that happened so far.  All members are
   read at the point where the C++ reads them, in particular after a callback has returned, and
   the text parser works on the object in the heap instead of a local copy.

   Simplifications: user consumers do not modify the BufferManagers they are handed (the
   parameters of consumeConfigData are non-const references), objects are neither created nor
   destroyed inside callbacks. *)
From Verif Require Export World.

(** ** User code *)
(** finite interactive programs: return, or call an operation and continue *)
Inductive code : Type :=
| Ret
| Call (o : op) (k : world -> list event -> code).
(** straight-line code *)
Fixpoint ops_code (l : list op) : code :=
  match l with [] => Ret | o :: r => Call o (fun _ _ => ops_code r) end.

(** ** State, with the trace so far, and actions with a result; undefined behaviour leaves the state
    in which it happened *)
Record rst : Type := mkR { r_w : world; r_t : list event }.
Definition ract (A : Type) : Type := rst -> res A * rst.
Definition rret {A} (a : A) : ract A := fun s => (Ok a, s).
Definition rbind {A B} (x : ract A) (f : A -> ract B) : ract B := fun s =>
  match x s with (Ok a, s') => f a s' | (UB u, s') => (UB u, s') end.
Notation "x <~ a ~; b" := (rbind a (fun x => b)) (at level 63, a at next level, right associativity).
Notation "a ~;; b" := (rbind a (fun _ => b)) (at level 63, right associativity).
Definition rask {A} (f : world -> res A) : ract A := fun s => (f (r_w s), s).
Definition rval {A} (r : res A) : ract A := rask (fun _ => r).
(** an action of World.v that calls no user code: the put_ actions, console output, the log *)
Definition rlift (a : act) : ract unit := fun s =>
  match a (r_w s) with Ok (w, t) => (Ok tt, mkR w (r_t s ++ t)) | UB u => (UB u, s) end.
Definition rwhen_some {A} (p : option A) (k : A -> ract unit) : ract unit :=
  match p with Some x => k x | None => rret tt end.

Section Reentrant.
Variable lw : Z.
(** what a user object does when called: it is given the trace up to and including the call *)
Variable react : list event -> code.
(** runs user code called from inside an operation *)
Variable inner : code -> ract unit.

(** a call of a user object *)
Definition ucall (e : event) : ract unit :=
  rlift (emit e) ~;; (fun s => inner (react (r_t s)) s).

(* ------------------------------------------------------------------ *)
(** ** Consumers *)

(** virtual consumeConfigData: the library's consumers call nobody *)
Definition rcons_consume (c : nat) (section key value : bufm) : ract unit :=
  o <~ rask (get_cons c) ~;
  match o with
  | LocoC engine endcb =>
      rlift (emit (EvConsume c section key value)) ~;; rlift (loco_consume lw engine section key value)
  | ListC complete infos num offset endcb =>
      rlift (emit (EvConsume c section key value)) ~;;
      rlift (list_consume lw c complete infos num offset endcb section key value)
  | UserC => ucall (EvConsume c section key value)
  end.

(** virtual setStreamComplete: LocoConsumer.cpp:58-72, LocoListConsumer.h:31-36 *)
Definition rcons_complete (c : nat) : ract unit :=
  o <~ rask (get_cons c) ~;
  match o with
  | LocoC engine endcb =>
      rlift (emit (EvStreamComplete c)) ~;;
      cur <~ rval (mread engine) ~;
      match cur with
      | None => rret tt
      | Some e =>
          l <~ rask (get_engine e) ~;
          rlift (put_engine e (lo_setAvailability l FULL_DETAILS)) ~;;
          rlift (puts "Downloaded Engine: ") ~;;
          rlift (print_res (lo_print (lo_setAvailability l FULL_DETAILS))) ~;;
          rlift (print nl) ~;;
          cb <~ rval (mread endcb) ~;
          rwhen_some cb (fun cb => ucall (EvEndComplete cb c))
      end
  | ListC complete infos num offset endcb =>
      rlift (emit (EvStreamComplete c)) ~;;
      rlift (put_cons c (ListC (Def true) infos num offset endcb)) ~;;
      cb <~ rval (mread endcb) ~;
      rwhen_some cb (fun cb => ucall (EvEndComplete cb c))
  | UserC => ucall (EvStreamComplete c)
  end.

(** virtual setStreamAborted: LocoConsumer.cpp:74-78, LocoListConsumer.h:38-43 *)
Definition rcons_aborted (c : nat) : ract unit :=
  o <~ rask (get_cons c) ~;
  match o with
  | LocoC engine endcb =>
      rlift (emit (EvStreamAborted c)) ~;;
      cb <~ rval (mread endcb) ~;
      rwhen_some cb (fun cb => ucall (EvEndAborted cb c))
  | ListC complete infos num offset endcb =>
      rlift (emit (EvStreamAborted c)) ~;;
      rlift (put_cons c (list_reset_obj infos endcb)) ~;;
      cb <~ rval (mread endcb) ~;
      rwhen_some cb (fun cb => ucall (EvEndAborted cb c))
  | UserC => ucall (EvStreamAborted c)
  end.

(* ------------------------------------------------------------------ *)
(** ** TextParser, as a member of the stream parser object p *)

Definition rtp (p : nat) : ract TP := sp <~ rask (get_lib p) ~; rret (sp_text sp).
(** write back the text parser, leaving the other members of the stream parser alone *)
Definition rtp_put (p : nat) (t : TP) : ract unit :=
  sp <~ rask (get_lib p) ~;
  rlift (put_lib p (mkSP (sp_state sp) (sp_remaining sp) t (sp_crc sp) (sp_cons sp))).

(** if (consumer_ != nullptr) consumer_->consumeConfigData(section, key, value) *)
Definition rtp_report (p : nat) : ract unit :=
  t <~ rtp p ~;
  rwhen_some (tp_cons t) (fun c => rcons_consume c (tp_sec t) (tp_key t) (tp_val t)).

(** TextParser.cpp:24-33 *)
Definition rtp_reportParseError (p : nat) : ract unit :=
  t <~ rtp p ~;
  t <~ rval (let t := set_state t ERROR in
             s <- bset (tp_sec t) (lit "ERROR") ;;
             k <- bset (tp_key t) (lit "ERROR") ;;
             v <- bset (tp_val t) (lit "ERROR") ;;
             Ok (set_val (set_key (set_sec t s) k) v)) ~;
  rtp_put p t ~;;
  rtp_report p.

(** TextParser.cpp:144-172 *)
Definition rtp_findToken (p : nat) (offset : Z) (chars : list Z) (dest : option Dest) : ract FindTokenResult :=
  t <~ rtp p ~;
  r <~ rval (found <- bfind_chars (tp_buf t) chars offset ;;
             if found =? npos then Ok (blen (tp_buf t), false, 0)
             else c <- bget (tp_buf t) found ;; Ok (found, true, c)) ~;
  let '(consumed, success, mch) := r in
  success <~
    match dest with
    | None => rret success
    | Some d =>
        r <~ rval (partial <- bsub (tp_buf t) offset consumed ;;
                   '(b', pushed) <- bpush (dest_get t d) partial ;;
                   Ok (dest_set t d b', pushed <? blen partial)) ~;
        rtp_put p (fst r) ~;;
        if snd r : bool then rtp_reportParseError p ~;; rret false
        else rret success
    end ~;
  rret (mkFT (if success : bool then u8 (consumed + 1) else consumed) success mch).

(** TextParser.cpp:64-138: new consumedBytes, and whether the function returns here (line 76) *)
Definition rtp_iteration (p : nat) (consumedBytes : Z) : ract (Z * bool) :=
  t <~ rtp p ~;
  match tp_state t with
  | LOOKING =>
      r <~ rtp_findToken p consumedBytes kKeyOrSectionStart None ~;
      if ft_success r then
        t <~ rtp p ~;
        c <~ rval (bget (tp_buf t) (u8 (ft_consumed r - 1))) ~;
        if c =? kSectionStart then
          s <~ rval (berase (tp_sec t)) ~;
          rtp_put p (set_state (set_sec t s) PARSING_SECTION) ~;;
          rret (ft_consumed r, false)
        else
          if c =? kKeyStart then rtp_put p (set_state t PARSING_KEY) ~;; rret (ft_consumed r, false)
          else rtp_reportParseError p ~;; rret (consumedBytes, true)
      else rret (ft_consumed r, false)
  | PARSING_SECTION =>
      r <~ rtp_findToken p consumedBytes kSectionStop (Some DSec) ~;
      (if ft_success r then t <~ rtp p ~; rtp_put p (set_state t LOOKING) else rret tt) ~;;
      rret (ft_consumed r, false)
  | PARSING_KEY =>
      r <~ rtp_findToken p consumedBytes kKeyOrValueStop (Some DKey) ~;
      (if ft_success r then
         t <~ rtp p ~;
         if ft_match r =? kKeyStop then rtp_put p (set_state t PARSING_VALUE)
         else if ft_match r =? kValueStop then
           v <~ rval (berase (tp_val t)) ~;
           rtp_put p (set_val t v) ~;;
           rtp_report p ~;;
           t <~ rtp p ~;
           k <~ rval (berase (tp_key t)) ~;
           rtp_put p (set_state (set_key t k) LOOKING)
         else rret tt
       else rret tt) ~;;
      rret (ft_consumed r, false)
  | PARSING_VALUE =>
      r <~ rtp_findToken p consumedBytes kValueStop_str (Some DVal) ~;
      (if ft_success r then
         rtp_report p ~;;
         t <~ rtp p ~;
         k <~ rval (berase (tp_key t)) ~;
         v <~ rval (berase (tp_val t)) ~;
         rtp_put p (set_state (set_val (set_key t k) v) LOOKING)
       else rret tt) ~;;
      rret (ft_consumed r, false)
  | ERROR => rret (blen (tp_buf t), false)
  end.

(** TextParser.cpp:60-142; the bound of World.v's loop is enough here too, because the buffer is
    either untouched or empty after a callback *)
Fixpoint rtp_process (p : nat) (fuel : nat) (consumedBytes : Z) : ract Z :=
  t <~ rtp p ~;
  if consumedBytes <? blen (tp_buf t) then
    match fuel with
    | O => rval (UB OutOfFuel)
    | S fuel' =>
        r <~ rtp_iteration p consumedBytes ~;
        if snd r : bool then rret (fst r) else rtp_process p fuel' (fst r)
    end
  else rret consumedBytes.

Definition rtp_processBuffer (p : nat) : ract Z :=
  t <~ rtp p ~; rtp_process p (Z.to_nat (blen (tp_buf t))) 0.

(** TextParser.cpp:45-57 *)
Fixpoint rtp_addLoop (p : nat) (fuel : nat) (input : bufm) (inputConsumed : Z) : ract unit :=
  if inputConsumed <? blen input then
    match fuel with
    | O => rval (UB OutOfFuel)
    | S fuel' =>
        t <~ rtp p ~;
        if bfull (tp_buf t) || (match tp_state t with ERROR => true | _ => false end)
        then rtp_reportParseError p
        else
          r <~ rval (view <- bsub1 input inputConsumed ;; bpush (tp_buf t) view) ~;
          rtp_put p (set_buf t (fst r)) ~;;
          consumedBufferBytes <~ rtp_processBuffer p ~;
          t <~ rtp p ~;
          b <~ rval (bpop_front (tp_buf t) consumedBufferBytes) ~;
          rtp_put p (set_buf t b) ~;;
          rtp_addLoop p fuel' input (u8 (inputConsumed + snd r))
    end
  else rret tt.

(** TextParser.cpp:35-58 *)
Definition rtp_addText (p : nat) (input : bufm) : ract unit :=
  t <~ rtp p ~;
  if (blen input >? kBufferLength) || (match tp_state t with ERROR => true | _ => false end)
  then rtp_reportParseError p
  else rtp_addLoop p (Z.to_nat (blen input)) input 0.

(* ------------------------------------------------------------------ *)
(** ** ConfigDataStreamParser *)

(** ConfigDataStreamParser.h:31-43 *)
Definition rlib_reset (p : nat) : ract unit :=
  sp <~ rask (get_lib p) ~;
  (if ss_processing (sp_state sp) then rwhen_some (sp_cons sp) rcons_aborted else rret tt) ~;;
  sp <~ rask (get_lib p) ~;
  t <~ rval (tp_reset (sp_text sp)) ~;
  rlift (put_lib p (mkSP SS_IDLE 0 t crc_reset None)).

(** assignments to single members *)
Definition rput_state (p : nat) (x : SState) : ract unit :=
  sp <~ rask (get_lib p) ~; rlift (put_lib p (mkSP x (sp_remaining sp) (sp_text sp) (sp_crc sp) (sp_cons sp))).

(** ConfigDataStreamParser.cpp:13-112 *)
Definition rlib_addMessage (p : nat) (d : Data) : ract unit :=
  sp <~ rask (get_lib p) ~;
  match sp_state sp with
  | SS_IDLE => rlift (print (zs "Received uninteresting config data (IDLE)." ++ nl))
  | SS_DONE => rlift (print (zs "Received uninteresting config data (STREAM_DONE)." ++ nl))
  | SS_FIRST =>
      if (dlc d =? 6) || (dlc d =? 7) then
        rlift (put_lib p (mkSP (sp_state sp) (header_length d) (sp_text sp)
                               (crc_loadReference (sp_crc sp) (header_crc d)) (sp_cons sp))) ~;;
        if header_length d >? 0 then rput_state p SS_DATA
        else
          rput_state p SS_DONE ~;;
          sp <~ rask (get_lib p) ~;
          rwhen_some (sp_cons sp) rcons_complete
      else if dlc d >=? 8 then
        rlift (print (zs "Oversized first packet! Aborting parse." ++ nl)) ~;; rlib_reset p
      else
        rlift (print (zs "Undersized first packet! Aborting parse." ++ nl)) ~;; rlib_reset p
  | SS_DATA =>
      if negb (dlc d =? 8) then
        rlift (print (zs "Undersized data packet! Aborting parse." ++ nl)) ~;; rlib_reset p
      else
        crc <~ rval (bs <- data_visited d ;; crc_feed (sp_crc sp) bs) ~;
        rlift (put_lib p (mkSP (sp_state sp) (u32 (sp_remaining sp - dlc d)) (sp_text sp) crc (sp_cons sp))) ~;;
        rtp_addText p (mkBuf (dbytes d) CanDataMaxLength (dlc d)) ~;;
        sp <~ rask (get_lib p) ~;
        if sp_remaining sp =? 0 then
          valid <~ rval (crc_isValid (sp_crc sp)) ~;
          if valid : bool then
            rput_state p SS_DONE ~;;
            sp <~ rask (get_lib p) ~;
            rwhen_some (sp_cons sp) rcons_complete
          else
            rput_state p SS_IDLE ~;;
            sp <~ rask (get_lib p) ~;
            rwhen_some (sp_cons sp) rcons_aborted
        else rret tt
  end.

(** virtual calls on a ConfigDataCbk object; a user object has noted the call before its code runs *)
Definition rcfg_call (p : nat) (c : cfgcall) : ract unit :=
  o <~ rask (get_parser p) ~;
  match o with
  | UserP beh h =>
      rlift (put_parser p (UserP beh (h ++ [c]))) ~;; ucall (EvCfg p c)
  | LibP sp =>
      rlift (emit (EvCfg p c)) ~;;
      match c with
      | CStart => rlift (put_lib p (sp_startStream sp))
      | CAdd d => rlib_addMessage p d
      | CReset => rlib_reset p
      end
  end.

(* ------------------------------------------------------------------ *)
(** ** Station *)

(** callbacks_.tx->SendPacket(frame), callbacks_ read now *)
Definition rtx_send (s : nat) (f : CanFrame) : ract unit :=
  st <~ rask (get_station s) ~;
  tx <~ rval (deref (cb_tx (st_cbs st))) ~;
  ucall (EvTx tx f).

(** Station.cpp:29-34, 36; Station.h:96 *)
Definition rst_finish (s : nat) : ract unit :=
  st <~ rask (get_station s) ~;
  rwhen_some (cb_cfg (st_cbs st)) (fun p =>
    rcfg_call p CReset ~;;
    st <~ rask (get_station s) ~;
    rlift (put_station s (set_cfg st None))).

(** Station.cpp:21-25 *)
Definition rst_begin (s : nat) (stationUUID : Z) (callbacks : Cbs) : ract unit :=
  rst_finish s ~;;
  st <~ rask (get_station s) ~;
  rlift (put_station s (mkStation (st_hash st) callbacks)) ~;;
  rlift (put_station s (mkStation (computeSenderHash stationUUID) callbacks)).

(** Station.cpp:38-53 *)
Definition rst_handleConfigDataStream (s : nat) (d : Data) : ract unit :=
  st <~ rask (get_station s) ~;
  target <~ rask (fun w => match cb_cfg (st_cbs st) with None => Ok None
                | Some p => b <- cfg_isProcessing p w ;; Ok (if b : bool then Some p else None) end) ~;
  match target with
  | Some p => rcfg_call p (CAdd d)
  | None => rlift (puts "Ignoring ConfigData Stream: ") ~;; rlift (print_res (printAsText d))
  end.

(** Station.cpp:55-108 *)
Definition rst_handleSystemCommand (s : nat) (i : Z) (d : Data) : ract unit :=
  st <~ rask (get_station s) ~;
  let cb := st_cbs st in
  rlift (puts "System Command. ") ~;;
  if dlc d >=? 5 then
    rlift (puts " Subcommand: ") ~;;
    let sub := sys_getSubcommand d in
    if sub =? kSubcommandSystemGo then
      rlift (print (zs "GO!" ++ nl)) ~;; rwhen_some (cb_sys cb) (fun o => ucall (EvSystem o true (id_isResponse i)))
    else if sub =? kSubcommandSystemHalt then
      rlift (print (zs "Halt!" ++ nl)) ~;; rwhen_some (cb_eng cb) (fun o => ucall (EvVelocityAll o 0))
    else if sub =? kSubcommandSystemStop then
      rlift (print (zs "STOP!" ++ nl)) ~;; rwhen_some (cb_sys cb) (fun o => ucall (EvSystem o false (id_isResponse i)))
    else if sub =? kSubcommandLocoEmergencyStop then
      rwhen_some (cb_eng cb) (fun o => ucall (EvVelocity o (sys_getLocid d) 0))
    else if sub =? kSubcommandSystemIdentifier then rlift (print (zs "Identifier." ++ nl))
    else if sub =? kSubcommandSystemOverload then rlift (print (zs "OVERLOAD!" ++ nl))
    else if sub =? kSubcommandSystemReset then rlift (print (zs "Reset." ++ nl))
    else if sub =? kSubcommandSystemStatus then rlift (print (zs "Status." ++ nl))
    else rlift (print (zs "unknown." ++ nl))
  else rlift (print (zs "Invalid command." ++ nl)).

(** Station.cpp:110-134 *)
Definition rst_requestEngineList (s : nat) (offset : Z) (configDataConsumer : option nat) : ract unit :=
  rst_finish s ~;;
  st <~ rask (get_station s) ~;
  rlift (put_station s (set_cfg st configDataConsumer)) ~;;
  b1 <~ rval (c_strncpy (dbytes data0) kEngineNames kDataBufferLength) ~;
  let frame1 := st_frame st kRequestConfigData (mkData 8 b1) in
  let '(b2, n) := snprintf9 (list_request_text offset) in
  let frame2 := st_frame st kRequestConfigData (mkData (u8 n) b2) in
  if u8 n <=? CanDataMaxLength then
    rwhen_some configDataConsumer (fun p => rcfg_call p CStart) ~;;
    rtx_send s frame1 ~;;
    rtx_send s frame2
  else rret tt.

(** Station.cpp:136-183.  The name is read through the same pointer again for the third frame;
    its length is the one computed before the second. *)
Definition rst_requestEngine (s : nat) (engine : sref) (configDataConsumer : option nat) : ract unit :=
  si <~ rask (get_short engine) ~;
  if negb (si_isNameKnown si) then rret tt
  else
  st <~ rask (get_station s) ~;
  busy <~ rask (fun w => match cb_cfg (st_cbs st) with None => Ok false | Some p => cfg_isProcessing p w end) ~;
  if busy : bool then rret tt
  else
    rst_finish s ~;;
    st <~ rask (get_station s) ~;
    rlift (put_station s (set_cfg st configDataConsumer)) ~;;
    rwhen_some configDataConsumer (fun p => rcfg_call p CStart) ~;;
    st <~ rask (get_station s) ~;
    b1 <~ rval (c_strncpy (dbytes data0) kEngine kDataBufferLength) ~;
    rtx_send s (st_frame st kRequestConfigData (mkData 8 b1)) ~;;
    si <~ rask (get_short engine) ~;
    engineNameLength <~ rval (c_strlen (si_name si)) ~;
    b2 <~ rval (c_strncpy (dbytes data0) (si_name si) CanDataMaxLength) ~;
    rtx_send s (st_frame st kRequestConfigData (mkData 8 b2)) ~;;
    si <~ rask (get_short engine) ~;
    b3 <~ rval (if engineNameLength >? CanDataMaxLength
                then c_strncpy (dbytes data0) (skipn (Z.to_nat CanDataMaxLength) (si_name si)) CanDataMaxLength
                else Ok (dbytes data0)) ~;
    rtx_send s (st_frame st kRequestConfigData (mkData 8 b3)).

(** Station.cpp:281-284 *)
Definition rst_sendPacket (s : nat) (f : CanFrame) : ract unit :=
  st <~ rask (get_station s) ~;
  rtx_send s (mkFrame (id_setHash (fid f) (st_hash st)) (fdata f)).

(** a frame of the station's own: CanFrame frame{{cmd, senderHash_}, ...}; callbacks_.tx->SendPacket(frame) *)
Definition rst_sendOwn (s : nat) (cmd : Z) (d : Data) : ract unit :=
  st <~ rask (get_station s) ~; rtx_send s (st_frame st cmd d).

(** Station.cpp:224-232: the frame keeps the hash read at the start, callbacks_ is read each time *)
Fixpoint rsend_functions (s : nat) (st : Station) (uid : Z) (i : Z) (n : nat) : ract unit :=
  match n with
  | O => rret tt
  | S n' => rtx_send s (st_frame st kLocoFunction (dset (setLocid (set_dlc data0 5) uid) 4 i)) ~;;
            rsend_functions s st uid (i + 1) n'
  end.

(** Station.cpp:262-279 *)
Definition accessory_data (address : Z) (protocol : RailProtocol) (direction power : Z) : Data :=
  let d := to_initData data0 in
  let d := to_setLocid d (turnout_or address (getAccessoryLocIdMask protocol)) in
  let d := to_setDirection d direction in
  to_setPower d (negb (power =? 0)).

(** Station.cpp:353-361 *)
Definition rst_handleAccessoryPacket (s : nat) (d : Data) (request : bool) : ract unit :=
  rlift (print (to_printAll d)) ~;;
  st <~ rask (get_station s) ~;
  rwhen_some (cb_acc (st_cbs st)) (fun o => ucall (EvAccessory o d request)).

(** Station.cpp:363-375 *)
Definition rst_handleLocoDirection (s : nat) (d : Data) : ract unit :=
  st <~ rask (get_station s) ~;
  if dlc d =? 5 then
    let uid := getLocid d in
    let direction := dget d 4 in
    if (direction =? DIR_FORWARD) || (direction =? DIR_REVERSE) then
      o <~ rval (deref (cb_eng (st_cbs st))) ~; ucall (EvDirection o uid direction)
    else if direction =? DIR_CHANGE then
      o <~ rval (deref (cb_eng (st_cbs st))) ~; ucall (EvChangeDirection o uid)
    else rret tt
  else rret tt.

(** Station.cpp:377-385 *)
Definition rst_handleLocoSpeed (s : nat) (d : Data) : ract unit :=
  st <~ rask (get_station s) ~;
  if dlc d =? 6 then
    rwhen_some (cb_eng (st_cbs st)) (fun o =>
      ucall (EvVelocity o (getLocid d) (u16 (Z.lor (Z.shiftl (dget d 4) 8) (dget d 5)))))
  else rret tt.

(** Station.cpp:387-392 *)
Definition rst_handleLocoFunction (s : nat) (d : Data) : ract unit :=
  st <~ rask (get_station s) ~;
  if dlc d =? 6 then
    o <~ rval (deref (cb_eng (st_cbs st))) ~;
    ucall (EvFunction o (getLocid d) (dget d 4) (negb (dget d 5 =? 0)))
  else rret tt.

(** Station.cpp:286-351 *)
Definition rst_handlePacket (s : nat) (f : CanFrame) : ract unit :=
  let cmd := id_getCommand (fid f) in
  let d := fdata f in
  if cmd =? kSystemCommand then rst_handleSystemCommand s (fid f) d
  else if cmd =? kPing then rret tt
  else if cmd =? kAccessorySwitch then
    rlift (puts "Accessory Switch. Details: ") ~;;
    rst_handleAccessoryPacket s d (id_isResponse (fid f)) ~;;
    rlift (print nl)
  else if cmd =? kLocoDirection then rst_handleLocoDirection s d
  else if cmd =? kLocoSpeed then rst_handleLocoSpeed s d
  else if cmd =? kLocoFunction then rst_handleLocoFunction s d
  else if cmd =? kRequestConfigData then rret tt
  else if cmd =? kConfigDataStream then rst_handleConfigDataStream s d
  else if cmd =? kDebugText then
    rlift (puts "Debug Text: '") ~;; rlift (print_res (printAsText d)) ~;; rlift (print (zs "'" ++ nl))
  else
    rlift (print (zs "Unknown or not implemented. Dump: " ++ fmt_alt0x 2 cmd ++ nl)) ~;;
    rlift (print_res (printAsHex d)) ~;; rlift (print nl).

Definition rst_step (s : nat) (o : sop) : ract unit :=
  match o with
  | Begin uuid callbacks => rst_begin s uuid callbacks
  | Loop => rret tt
  | HandlePacket f => rst_handlePacket s f
  | HandleAccessoryPacket d r => rst_handleAccessoryPacket s d r
  | HandleConfigDataStream d => rst_handleConfigDataStream s d
  | HandleSystemCommand i d => rst_handleSystemCommand s i d
  | HandleLocoDirection d => rst_handleLocoDirection s d
  | HandleLocoSpeed d => rst_handleLocoSpeed s d
  | HandleLocoFunction d => rst_handleLocoFunction s d
  | SendAccessoryPacket a p d pw => rst_sendOwn s kAccessorySwitch (accessory_data a p d pw)
  | FinishCurrentConfigRequest => rst_finish s
  | AbortCurrentConfigRequest => rst_finish s
  | NotifyConfigStreamReceived => rst_finish s
  | RequestEngine e p => rst_requestEngine s e p
  | RequestEngineList off p => rst_requestEngineList s off p
  (* Station.cpp:185-191, 201-207, 215-222, 224-232 *)
  | RequestEngineDirection u => rst_sendOwn s kLocoDirection (setLocid (set_dlc data0 4) u)
  | RequestEngineVelocity u => rst_sendOwn s kLocoSpeed (setLocid (set_dlc data0 4) u)
  | RequestEngineFunction u f => rst_sendOwn s kLocoFunction (dset (setLocid (set_dlc data0 5) u) 4 f)
  | RequestEngineAllFunctions u => st <~ rask (get_station s) ~; rsend_functions s st u 0 16
  (* Station.cpp:193-199, 209-213, 234-237 *)
  | SendEngineDirection u d =>
      if (d =? DIR_FORWARD) || (d =? DIR_REVERSE) || (d =? DIR_CHANGE)
      then rst_sendPacket s (fr_LocoDirection false u d) else rret tt
  | SendEngineVelocity u v => rst_sendPacket s (fr_LocoSpeed false u v)
  | SendEngineFunction u f v => rst_sendPacket s (fr_LocoFunction false u f v)
  (* Station.cpp:239-246, 248-253, 255-260 *)
  | SendEmergencyStop u =>
      rst_sendOwn s kSystemCommand (sys_setLocid (sys_setSubcommand (sys_initData data0) kSubcommandLocoEmergencyStop) u)
  | SendSystemStop => rst_sendOwn s kSystemCommand (dset (set_dlc data0 5) 4 kSubcommandSystemStop)
  | SendSystemGo => rst_sendOwn s kSystemCommand (dset (set_dlc data0 5) 4 kSubcommandSystemGo)
  | SendPacket f => rst_sendPacket s f
  end.

(** the operations on consumers and engines call no user code *)
Definition rstep (o : op) : ract unit :=
  match o with
  | OnStation s o => rst_step s o
  | ParserAddMessage p d => rlib_addMessage p d
  | ParserReset p => rlib_reset p
  | _ => rlift (step lw o)
  end.

End Reentrant.

(** ** Running user code with at most n nested levels of calls into the library *)
Fixpoint rexec (lw : Z) (react : list event -> code) (n : nat) : code -> ract unit :=
  match n with
  | O => fun c => match c with Ret => rret tt | Call _ _ => rval (UB TooDeep) end
  | S n' =>
      fix go (c : code) : ract unit :=
        match c with
        | Ret => rret tt
        | Call o k => rstep lw react (rexec lw react n') o ~;; (fun s => go (k (r_w s) (r_t s)) s)
        end
  end.
