(* Logged.v -- the logging builds of the library.

   _RR32Can_config.h selects at compile time, by #define, how much the library prints.  World.v
   models the template's setting (everything off).  Here every #if (LOG_...) section of the
   library is modelled, for any setting; functions without such a section are those of World.v.

   LOG_PING is not part of the setting: with LOG_PING == STD_ON, Station.cpp:301 names an
   undeclared variable and does not compile.  LOG_CAN_IN_MSG, LOG_S88_BITS, LOG_BUTTON_PRESS,
   LOG_ACTIONLIST and LOG_BUTTON_MAPPING occur in no #if of the library. *)
From Verif Require Export World.

(** _RR32Can_config.h:29-30, 41-42.  test/RR32Can_config.h defines no LOG_CONFIG_DATA_STREAM_...
    macro, so that all of them are 0 in its #if lines: there every "level >= ..." holds, which is
    the level 10 here. *)
Record logcfg : Type := mkLog { lg_level : Z; lg_dump : bool; lg_out : bool; lg_raw : bool }.
(** _RR32Can_config.h:35-39 *)
Definition LEVEL_EVENTS := 2.
Definition LEVEL_PACKETS := 3.
Definition LEVEL_ALL := 10.

(** #if (b) a #endif *)
Definition log_if (b : bool) (a : act) : act := if b then a else skip.

(** printf("%i", x) with a uint32_t x: the bits taken as an int.  Simplification: for x >= 2^31
    the C++ standard leaves this undefined; every platform prints the two's complement value *)
Definition fmt_i_u32 (x : Z) : list Z := fmt_d (if x >=? 0x80000000 then x - 0x100000000 else x).

Section Logging.
(** width of long in bits, as in World.v *)
Variable lw : Z.
(** the compile time setting *)
Variable g : logcfg.
Definition events : bool := lg_level g >=? LEVEL_EVENTS.
Definition packets : bool := lg_level g >=? LEVEL_PACKETS.
Definition everything : bool := lg_level g >=? LEVEL_ALL.

(** LocoConsumer.cpp:26 and LocoListConsumer.cpp:17; %s reads up to the first NUL *)
Definition log_line (who : string) (section key value : bufm) : act :=
  ask (fun _ => c_str (mem section)) (fun s =>
  ask (fun _ => c_str (mem key)) (fun k =>
  ask (fun _ => c_str (mem value)) (fun v =>
  print (zs who ++ zs "::consumeConfigData(""" ++ s ++ zs """, """ ++ k ++ zs """, """ ++ v ++ zs """)" ++ nl)))).

(** LocoConsumer.cpp:38-40, 44-46, 51-53: which of the three lines is printed *)
Definition log_setting (section key : bufm) : act :=
  ask (fun _ => lit_strncmp kEngineResult section) (fun isLoco => if isLoco : bool then
  ask (fun _ => lit_strncmp kEngineKeyUid key) (fun isUid => if isUid : bool then print (zs "Setting UID" ++ nl) else
  ask (fun _ => lit_strncmp kEngineKeyProtocol key) (fun isTyp => if isTyp : bool then print (zs "Setting protocol" ++ nl) else
  ask (fun _ => lit_strncmp kEngineKeyAddress key) (fun isAddr => if isAddr : bool then print (zs "Setting Address" ++ nl) else skip)))
  else skip).

(** LocoConsumer.cpp:24-56 *)
Definition g_loco_consume (engine : mu (option nat)) (section key value : bufm) : act :=
  log_if events (log_line "EngineControl" section key value) ;;;
  ask (fun _ => mread engine) (fun cur =>
  match cur with
  | None => skip
  | Some e => ask (get_engine e) (fun l =>
              ask (fun _ => loco_line lw l section key value) (fun l' => put_engine e l') ;;;
              log_if events (log_setting section key))
  end).

(** LocoListConsumer.cpp:15-40 *)
Definition g_list_consume (c : nat) (complete : mu bool) (infos : list ShortInfo) (num offset : mu Z)
                          (endcb : mu (option nat)) (section key value : bufm) : act :=
  log_if events (log_line "EngineBrowser" section key value) ;;;
  list_consume lw c complete infos num offset endcb section key value.

(** virtual consumeConfigData on consumer object c *)
Definition g_cons_consume (c : nat) (section key value : bufm) : act :=
  emit (EvConsume c section key value) ;;;
  ask (get_cons c) (fun o =>
  match o with
  | LocoC engine endcb => g_loco_consume engine section key value
  | ListC complete infos num offset endcb => g_list_consume c complete infos num offset endcb section key value
  | UserC => skip
  end).

(** all calls one addText makes, in order *)
Fixpoint g_cons_consume_all (c : nat) (l : list triple) : act :=
  match l with
  | [] => skip
  | (s, k, v) :: r => g_cons_consume c s k v ;;; g_cons_consume_all c r
  end.

(** ConfigDataStreamParser.cpp:32-40; Crc.h:26, 29 *)
Definition log_header (d : Data) (remaining : Z) (crc : Crc) : act :=
  ask (fun _ => mread (crc_ref crc)) (fun r =>
  ask (fun _ => mread (crc_acc crc)) (fun a =>
  print (zs " Stream length: " ++ fmt_i_u32 remaining ++ zs " Bytes. CRC requested: " ++ fmt_alt0x 4 r ++
         zs " CRC actual: " ++ fmt_alt0x 4 a ++ zs "." ++ nl) ;;;
  if dlc d =? 7 then print (zs "Compressed Data!" ++ nl) else skip)).
(** ConfigDataStreamParser.cpp:95-98 *)
Definition log_crc_error (crc : Crc) : act :=
  ask (fun _ => mread (crc_ref crc)) (fun r =>
  ask (fun _ => mread (crc_acc crc)) (fun a =>
  print (zs "CRC Error - Stream aborted. CRC requested: " ++ fmt_alt0x 4 r ++ zs ", CRC actual: " ++
         fmt_alt0x 4 a ++ zs "." ++ nl))).
(** ConfigDataStreamParser.cpp:106 *)
Definition log_continues (remaining : Z) (crc : Crc) : act :=
  ask (fun _ => mread (crc_acc crc)) (fun a =>
  print (zs "Stream continues. Bytes remaining: " ++ fmt_i_u32 remaining ++ zs ", Current CRC: " ++ fmt_alt0x 4 a ++ nl)).

(** ConfigDataStreamParser.cpp:13-112 addMessage *)
Definition g_addMessage (p : nat) (d : Data) : act :=
  ask (get_lib p) (fun sp =>
  match sp_state sp with
  | SS_IDLE => print (zs "Received uninteresting config data (IDLE)." ++ nl)
  | SS_DONE => print (zs "Received uninteresting config data (STREAM_DONE)." ++ nl)
  | SS_FIRST =>
      if (dlc d =? 6) || (dlc d =? 7) then
        let sp1 := mkSP (sp_state sp) (header_length d) (sp_text sp)
                        (crc_loadReference (sp_crc sp) (header_crc d)) (sp_cons sp) in
        log_if packets (log_header d (sp_remaining sp1) (sp_crc sp1)) ;;;
        if sp_remaining sp1 >? 0 then
          put_lib p (mkSP SS_DATA (sp_remaining sp1) (sp_text sp1) (sp_crc sp1) (sp_cons sp1))
        else
          put_lib p (mkSP SS_DONE (sp_remaining sp1) (sp_text sp1) (sp_crc sp1) (sp_cons sp1)) ;;;
          when_some (sp_cons sp1) cons_complete
      else if dlc d >=? 8 then
        print (zs "Oversized first packet! Aborting parse." ++ nl) ;;; lib_reset p
      else
        print (zs "Undersized first packet! Aborting parse." ++ nl) ;;; lib_reset p
  | SS_DATA =>
      if negb (dlc d =? 8) then
        print (zs "Undersized data packet! Aborting parse." ++ nl) ;;; lib_reset p
      else
        log_if (lg_dump g) (print_res (printAsText d)) ;;;
        let remaining := u32 (sp_remaining sp - dlc d) in
        ask (fun _ => bs <- data_visited d ;; crc_feed (sp_crc sp) bs) (fun crc =>
        ask (fun _ => tp_addText (sp_text sp) (mkBuf (dbytes d) CanDataMaxLength (dlc d))) (fun te =>
        put_lib p (mkSP SS_DATA remaining (fst te) crc (sp_cons sp)) ;;;
        when_some (tp_cons (sp_text sp)) (fun c => g_cons_consume_all c (snd te)) ;;;
        if remaining =? 0 then
          ask (fun _ => crc_isValid crc) (fun valid =>
          if valid : bool then
            put_lib p (mkSP SS_DONE remaining (fst te) crc (sp_cons sp)) ;;;
            log_if events (print (zs "Stream complete!" ++ nl)) ;;;
            when_some (sp_cons sp) cons_complete
          else
            put_lib p (mkSP SS_IDLE remaining (fst te) crc (sp_cons sp)) ;;;
            log_if events (log_crc_error crc) ;;;
            when_some (sp_cons sp) cons_aborted)
        else log_if packets (log_continues remaining crc)))
  end).

(** virtual addMessage on a ConfigDataCbk object *)
Definition g_cfg_add (p : nat) (d : Data) : act :=
  emit (EvCfg p (CAdd d)) ;;;
  ask (get_parser p) (fun o =>
  match o with
  | UserP beh h => put_parser p (UserP beh (h ++ [CAdd d]))
  | LibP sp => g_addMessage p d
  end).

(** Station.cpp:38-53 *)
Definition g_handleConfigDataStream (s : nat) (d : Data) : act :=
  ask (get_station s) (fun st =>
  ask (fun w => match cb_cfg (st_cbs st) with None => Ok None
                | Some p => b <- cfg_isProcessing p w ;; Ok (if b : bool then Some p else None) end) (fun target =>
  match target with
  | Some p =>
      log_if everything (print_res (printAsHex d) ;;; puts " '" ;;; print_res (printAsText d) ;;; puts "' ") ;;;
      g_cfg_add p d
  | None => puts "Ignoring ConfigData Stream: " ;;; print_res (printAsText d)
  end)).

(** Station.cpp:136-183: the two messages are printed just before the function returns *)
Definition g_requestEngine (s : nat) (engine : sref) (configDataConsumer : option nat) : act :=
  log_if (lg_out g) (
    ask (get_short engine) (fun si =>
    if negb (si_isNameKnown si) then
      print (zs "Station::RequestEngine: No Engine Name given, dropping request." ++ nl)
    else
    ask (get_station s) (fun st =>
    ask (fun w => match cb_cfg (st_cbs st) with None => Ok false | Some p => cfg_isProcessing p w end) (fun busy =>
    if busy : bool then print (zs "Station::RequestEngine: Request in progress, dropping request." ++ nl)
    else skip)))) ;;;
  st_requestEngine lw s engine configDataConsumer.

(** Station.cpp:262-279 *)
Definition g_sendAccessoryPacket (s : nat) (address : Z) (protocol : RailProtocol) (direction power : Z) : act :=
  ask (get_station s) (fun st =>
  let d := to_initData data0 in
  let d := to_setLocid d (turnout_or address (getAccessoryLocIdMask protocol)) in
  let d := to_setDirection d direction in
  let d := to_setPower d (negb (power =? 0)) in
  log_if (lg_out g) (print (
    zs "Setting turnout " ++ fmt_d (Z.land (to_getLocid d) 0xFFFFCFFF) ++ zs " to position " ++
    (if to_getDirection d =? TD_RED then zs "RED " else zs "GREEN") ++ zs " " ++
    (if to_getPower d then zs "(ON) " else zs "(OFF)") ++ nl)) ;;;
  tx_send (st_cbs st) (st_frame st kAccessorySwitch d)).

(** Station.cpp:286-351 *)
Definition g_handlePacket (s : nat) (f : CanFrame) : act :=
  let cmd := id_getCommand (fid f) in
  let d := fdata f in
  log_if (lg_raw g) (print (id_printAll (fid f)) ;;; print nl) ;;;
  if cmd =? kSystemCommand then st_handleSystemCommand s (fid f) d
  else if cmd =? kPing then skip
  else if cmd =? kAccessorySwitch then
    puts "Accessory Switch. Details: " ;;;
    st_handleAccessoryPacket s d (id_isResponse (fid f)) ;;;
    print nl
  else if cmd =? kLocoDirection then st_handleLocoDirection s d
  else if cmd =? kLocoSpeed then st_handleLocoSpeed s d
  else if cmd =? kLocoFunction then st_handleLocoFunction s d
  else if cmd =? kRequestConfigData then
    log_if everything (puts "Request Config Data. Payload: " ;;; print_res (printAsText d) ;;; print nl)
  else if cmd =? kConfigDataStream then
    log_if everything (print (zs "Config Data Stream." ++ nl)) ;;;
    g_handleConfigDataStream s d
  else if cmd =? kDebugText then
    puts "Debug Text: '" ;;; print_res (printAsText d) ;;; print (zs "'" ++ nl)
  else
    print (zs "Unknown or not implemented. Dump: " ++ fmt_alt0x 2 cmd ++ nl) ;;;
    print_res (printAsHex d) ;;; print nl.

(** the public operations; those not listed have no logging section *)
Definition lstep (o : op) : act :=
  match o with
  | OnStation s (HandlePacket f) => g_handlePacket s f
  | OnStation s (HandleConfigDataStream d) => g_handleConfigDataStream s d
  | OnStation s (SendAccessoryPacket a p d pw) => g_sendAccessoryPacket s a p d pw
  | OnStation s (RequestEngine e p) => g_requestEngine s e p
  | ParserAddMessage p d => g_addMessage p d
  | _ => step lw o
  end.

(** a history *)
Fixpoint lrun (l : list op) : act :=
  match l with [] => skip | o :: r => lstep o ;;; lrun r end.

End Logging.
