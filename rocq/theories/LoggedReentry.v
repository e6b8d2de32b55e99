(* LoggedReentry.v -- the logging builds of Logged.v with the callbacks of Reentry.v.

   Every #if (LOG_...) section of the library, in its place, in the model in which user objects call
   back into the library.  Functions without such a section, and which call none that has one, are
   those of Reentry.v; the text parser is repeated because it calls the consumers. *)
From Verif Require Export Reentry Logged.

Section Reentrant.
Variable lw : Z.
(** the compile time setting *)
Variable g : logcfg.
Variable react : list event -> code.
Variable inner : code -> ract unit.

(** #if (b) a #endif, where a only prints *)
Definition vlog (b : bool) (a : act) : ract unit := rlift (log_if b a).

(** LocoConsumer.cpp:24-56; LocoListConsumer.cpp:15-40; a user's consumer *)
Definition vcons_consume (c : nat) (section key value : bufm) : ract unit :=
  o <~ rask (get_cons c) ~;
  match o with
  | LocoC engine endcb =>
      rlift (emit (EvConsume c section key value)) ~;;
      vlog (events g) (log_line "EngineControl" section key value) ~;;
      cur <~ rval (mread engine) ~;
      rwhen_some cur (fun _ =>
        rlift (loco_consume lw engine section key value) ~;;
        vlog (events g) (log_setting section key))
  | ListC complete infos num offset endcb =>
      rlift (emit (EvConsume c section key value)) ~;;
      vlog (events g) (log_line "EngineBrowser" section key value) ~;;
      rlift (list_consume lw c complete infos num offset endcb section key value)
  | UserC => ucall react inner (EvConsume c section key value)
  end.

(** ** TextParser.cpp, as in Reentry.v *)
(** if (consumer_ != nullptr) consumer_->consumeConfigData(section, key, value) *)
Definition vtp_report (p : nat) : ract unit :=
  t <~ rtp p ~;
  rwhen_some (tp_cons t) (fun c => vcons_consume c (tp_sec t) (tp_key t) (tp_val t)).

(** TextParser.cpp:24-33 *)
Definition vtp_reportParseError (p : nat) : ract unit :=
  t <~ rtp p ~;
  t <~ rval (let t := set_state t ERROR in
             s <- bset (tp_sec t) (lit "ERROR") ;;
             k <- bset (tp_key t) (lit "ERROR") ;;
             v <- bset (tp_val t) (lit "ERROR") ;;
             Ok (set_val (set_key (set_sec t s) k) v)) ~;
  rtp_put p t ~;;
  vtp_report p.

(** TextParser.cpp:144-172 *)
Definition vtp_findToken (p : nat) (offset : Z) (chars : list Z) (dest : option Dest) : ract FindTokenResult :=
  t <~ rtp p ~;
  r <~ rval (found <- bfind_chars (tp_buf t) chars offset ;;
             if found =? npos then Ok (blen (tp_buf t), false, 0)
             else c <- bget (tp_buf t) found ;; Ok (found, true, c)) ~;
  let '(consumed, success, mch) := r in
  success <~
    match dest with
    | None => rret success
    | Some d =>
        r <~ rval (partial <- bsub (tp_buf t) offset consumed ;;
                   '(b', pushed) <- bpush (dest_get t d) partial ;;
                   Ok (dest_set t d b', pushed <? blen partial)) ~;
        rtp_put p (fst r) ~;;
        if snd r : bool then vtp_reportParseError p ~;; rret false
        else rret success
    end ~;
  rret (mkFT (if success : bool then u8 (consumed + 1) else consumed) success mch).

(** TextParser.cpp:64-138: new consumedBytes, and whether the function returns here (line 76) *)
Definition vtp_iteration (p : nat) (consumedBytes : Z) : ract (Z * bool) :=
  t <~ rtp p ~;
  match tp_state t with
  | LOOKING =>
      r <~ vtp_findToken p consumedBytes kKeyOrSectionStart None ~;
      if ft_success r then
        t <~ rtp p ~;
        c <~ rval (bget (tp_buf t) (u8 (ft_consumed r - 1))) ~;
        if c =? kSectionStart then
          s <~ rval (berase (tp_sec t)) ~;
          rtp_put p (set_state (set_sec t s) PARSING_SECTION) ~;;
          rret (ft_consumed r, false)
        else
          if c =? kKeyStart then rtp_put p (set_state t PARSING_KEY) ~;; rret (ft_consumed r, false)
          else vtp_reportParseError p ~;; rret (consumedBytes, true)
      else rret (ft_consumed r, false)
  | PARSING_SECTION =>
      r <~ vtp_findToken p consumedBytes kSectionStop (Some DSec) ~;
      (if ft_success r then t <~ rtp p ~; rtp_put p (set_state t LOOKING) else rret tt) ~;;
      rret (ft_consumed r, false)
  | PARSING_KEY =>
      r <~ vtp_findToken p consumedBytes kKeyOrValueStop (Some DKey) ~;
      (if ft_success r then
         t <~ rtp p ~;
         if ft_match r =? kKeyStop then rtp_put p (set_state t PARSING_VALUE)
         else if ft_match r =? kValueStop then
           v <~ rval (berase (tp_val t)) ~;
           rtp_put p (set_val t v) ~;;
           vtp_report p ~;;
           t <~ rtp p ~;
           k <~ rval (berase (tp_key t)) ~;
           rtp_put p (set_state (set_key t k) LOOKING)
         else rret tt
       else rret tt) ~;;
      rret (ft_consumed r, false)
  | PARSING_VALUE =>
      r <~ vtp_findToken p consumedBytes kValueStop_str (Some DVal) ~;
      (if ft_success r then
         vtp_report p ~;;
         t <~ rtp p ~;
         k <~ rval (berase (tp_key t)) ~;
         v <~ rval (berase (tp_val t)) ~;
         rtp_put p (set_state (set_val (set_key t k) v) LOOKING)
       else rret tt) ~;;
      rret (ft_consumed r, false)
  | ERROR => rret (blen (tp_buf t), false)
  end.

(** TextParser.cpp:60-142; the bound of World.v's loop is enough here too, because the buffer is
    either untouched or empty after a callback *)
Fixpoint vtp_process (p : nat) (fuel : nat) (consumedBytes : Z) : ract Z :=
  t <~ rtp p ~;
  if consumedBytes <? blen (tp_buf t) then
    match fuel with
    | O => rval (UB OutOfFuel)
    | S fuel' =>
        r <~ vtp_iteration p consumedBytes ~;
        if snd r : bool then rret (fst r) else vtp_process p fuel' (fst r)
    end
  else rret consumedBytes.

Definition vtp_processBuffer (p : nat) : ract Z :=
  t <~ rtp p ~; vtp_process p (Z.to_nat (blen (tp_buf t))) 0.

(** TextParser.cpp:45-57 *)
Fixpoint vtp_addLoop (p : nat) (fuel : nat) (input : bufm) (inputConsumed : Z) : ract unit :=
  if inputConsumed <? blen input then
    match fuel with
    | O => rval (UB OutOfFuel)
    | S fuel' =>
        t <~ rtp p ~;
        if bfull (tp_buf t) || (match tp_state t with ERROR => true | _ => false end)
        then vtp_reportParseError p
        else
          r <~ rval (view <- bsub1 input inputConsumed ;; bpush (tp_buf t) view) ~;
          rtp_put p (set_buf t (fst r)) ~;;
          consumedBufferBytes <~ vtp_processBuffer p ~;
          t <~ rtp p ~;
          b <~ rval (bpop_front (tp_buf t) consumedBufferBytes) ~;
          rtp_put p (set_buf t b) ~;;
          vtp_addLoop p fuel' input (u8 (inputConsumed + snd r))
    end
  else rret tt.

(** TextParser.cpp:35-58 *)
Definition vtp_addText (p : nat) (input : bufm) : ract unit :=
  t <~ rtp p ~;
  if (blen input >? kBufferLength) || (match tp_state t with ERROR => true | _ => false end)
  then vtp_reportParseError p
  else vtp_addLoop p (Z.to_nat (blen input)) input 0.

(** ** ConfigDataStreamParser.cpp:13-112 *)
Definition vlib_addMessage (p : nat) (d : Data) : ract unit :=
  sp <~ rask (get_lib p) ~;
  match sp_state sp with
  | SS_IDLE => rlift (print (zs "Received uninteresting config data (IDLE)." ++ nl))
  | SS_DONE => rlift (print (zs "Received uninteresting config data (STREAM_DONE)." ++ nl))
  | SS_FIRST =>
      if (dlc d =? 6) || (dlc d =? 7) then
        rlift (put_lib p (mkSP (sp_state sp) (header_length d) (sp_text sp)
                               (crc_loadReference (sp_crc sp) (header_crc d)) (sp_cons sp))) ~;;
        vlog (packets g) (log_header d (header_length d) (crc_loadReference (sp_crc sp) (header_crc d))) ~;;
        if header_length d >? 0 then rput_state p SS_DATA
        else
          rput_state p SS_DONE ~;;
          sp <~ rask (get_lib p) ~;
          rwhen_some (sp_cons sp) (rcons_complete react inner)
      else if dlc d >=? 8 then
        rlift (print (zs "Oversized first packet! Aborting parse." ++ nl)) ~;; rlib_reset react inner p
      else
        rlift (print (zs "Undersized first packet! Aborting parse." ++ nl)) ~;; rlib_reset react inner p
  | SS_DATA =>
      if negb (dlc d =? 8) then
        rlift (print (zs "Undersized data packet! Aborting parse." ++ nl)) ~;; rlib_reset react inner p
      else
        vlog (lg_dump g) (print_res (printAsText d)) ~;;
        crc <~ rval (bs <- data_visited d ;; crc_feed (sp_crc sp) bs) ~;
        rlift (put_lib p (mkSP (sp_state sp) (u32 (sp_remaining sp - dlc d)) (sp_text sp) crc (sp_cons sp))) ~;;
        vtp_addText p (mkBuf (dbytes d) CanDataMaxLength (dlc d)) ~;;
        sp <~ rask (get_lib p) ~;
        if sp_remaining sp =? 0 then
          valid <~ rval (crc_isValid (sp_crc sp)) ~;
          if valid : bool then
            rput_state p SS_DONE ~;;
            vlog (events g) (print (zs "Stream complete!" ++ nl)) ~;;
            sp <~ rask (get_lib p) ~;
            rwhen_some (sp_cons sp) (rcons_complete react inner)
          else
            rput_state p SS_IDLE ~;;
            vlog (events g) (log_crc_error (sp_crc sp)) ~;;
            sp <~ rask (get_lib p) ~;
            rwhen_some (sp_cons sp) (rcons_aborted react inner)
        else vlog (packets g) (log_continues (sp_remaining sp) (sp_crc sp))
  end.

(** virtual addMessage on a ConfigDataCbk object *)
Definition vcfg_add (p : nat) (d : Data) : ract unit :=
  o <~ rask (get_parser p) ~;
  match o with
  | UserP beh h => rlift (put_parser p (UserP beh (h ++ [CAdd d]))) ~;; ucall react inner (EvCfg p (CAdd d))
  | LibP sp => rlift (emit (EvCfg p (CAdd d))) ~;; vlib_addMessage p d
  end.

(** ** Station.cpp:38-53 *)
Definition vst_handleConfigDataStream (s : nat) (d : Data) : ract unit :=
  st <~ rask (get_station s) ~;
  target <~ rask (fun w => match cb_cfg (st_cbs st) with None => Ok None
                | Some p => b <- cfg_isProcessing p w ;; Ok (if b : bool then Some p else None) end) ~;
  match target with
  | Some p =>
      vlog (everything g) (print_res (printAsHex d) ;;; puts " '" ;;; print_res (printAsText d) ;;; puts "' ") ~;;
      vcfg_add p d
  | None => rlift (puts "Ignoring ConfigData Stream: ") ~;; rlift (print_res (printAsText d))
  end.

(** Station.cpp:136-183: the messages of lines 139 and 147, printed just before the function returns *)
Definition log_dropped (s : nat) (engine : sref) : act :=
  ask (get_short engine) (fun si =>
  if negb (si_isNameKnown si) then
    print (zs "Station::RequestEngine: No Engine Name given, dropping request." ++ nl)
  else
  ask (get_station s) (fun st =>
  ask (fun w => match cb_cfg (st_cbs st) with None => Ok false | Some p => cfg_isProcessing p w end) (fun busy =>
  if busy : bool then print (zs "Station::RequestEngine: Request in progress, dropping request." ++ nl)
  else skip))).
Definition vst_requestEngine (s : nat) (engine : sref) (configDataConsumer : option nat) : ract unit :=
  vlog (lg_out g) (log_dropped s engine) ~;;
  rst_requestEngine lw react inner s engine configDataConsumer.

(** Station.cpp:262-279 *)
Definition vst_sendAccessoryPacket (s : nat) (address : Z) (protocol : RailProtocol) (direction power : Z) : ract unit :=
  st <~ rask (get_station s) ~;
  let d := accessory_data address protocol direction power in
  vlog (lg_out g) (print (
    zs "Setting turnout " ++ fmt_d (Z.land (to_getLocid d) 0xFFFFCFFF) ++ zs " to position " ++
    (if to_getDirection d =? TD_RED then zs "RED " else zs "GREEN") ++ zs " " ++
    (if to_getPower d then zs "(ON) " else zs "(OFF)") ++ nl)) ~;;
  rtx_send react inner s (st_frame st kAccessorySwitch d).

(** Station.cpp:286-351; the cases of the switch are distinct, and those without logging are Reentry.v's *)
Definition vst_handlePacket (s : nat) (f : CanFrame) : ract unit :=
  let cmd := id_getCommand (fid f) in
  let d := fdata f in
  vlog (lg_raw g) (print (id_printAll (fid f)) ;;; print nl) ~;;
  if cmd =? kRequestConfigData then
    vlog (everything g) (puts "Request Config Data. Payload: " ;;; print_res (printAsText d) ;;; print nl)
  else if cmd =? kConfigDataStream then
    vlog (everything g) (print (zs "Config Data Stream." ++ nl)) ~;;
    vst_handleConfigDataStream s d
  else rst_handlePacket lw react inner s f.

(** the public operations; those not listed have no logging section *)
Definition vstep (o : op) : ract unit :=
  match o with
  | OnStation s (HandlePacket f) => vst_handlePacket s f
  | OnStation s (HandleConfigDataStream d) => vst_handleConfigDataStream s d
  | OnStation s (SendAccessoryPacket a p d pw) => vst_sendAccessoryPacket s a p d pw
  | OnStation s (RequestEngine e p) => vst_requestEngine s e p
  | ParserAddMessage p d => vlib_addMessage p d
  | _ => rstep lw react inner o
  end.

End Reentrant.

(** ** Running user code with at most n nested levels of calls into the library *)
Fixpoint vexec (lw : Z) (g : logcfg) (react : list event -> code) (n : nat) : code -> ract unit :=
  match n with
  | O => fun c => match c with Ret => rret tt | Call _ _ => rval (UB TooDeep) end
  | S n' =>
      fix go (c : code) : ract unit :=
        match c with
        | Ret => rret tt
        | Call o k => vstep lw g react (vexec lw g react n') o ~;; (fun s => go (k (r_w s) (r_t s)) s)
        end
  end.
