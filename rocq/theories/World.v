(* World.v -- the stateful part: LocoConsumer, LocoListConsumer, ConfigDataStreamParser, the
   callback interfaces and Station.

   All objects live in a heap of four lists; a pointer is an [option nat] (None = nullptr) into
   the list for its class.  User supplied callback objects (TxCbk, SystemCbk, EngineCbk,
   AccessoryCbk, ConfigDataEndStreamCallback) are opaque identities: calling one appends an event
   to the trace.  Simplification: user callbacks do not call back into the library (re-entrancy
   of the end-of-stream callback is modelled separately in Reentry.v). *)
From Verif Require Export CTypes Messages Frames Loco Buffer Crc TextParser.

(* ------------------------------------------------------------------ *)
(** * Objects *)

(** callback/ConfigDataCbk.h:12 *)
Inductive SState : Set := SS_IDLE | SS_FIRST | SS_DATA | SS_DONE.

(** callback/ConfigDataCbk.h:22 *)
Definition ss_processing (s : SState) : bool :=
  match s with SS_IDLE | SS_DONE => false | SS_FIRST | SS_DATA => true end.

(** util/ConfigDataStreamParser.h:45-49 and the base's streamState *)
Record SP : Type := mkSP {
  sp_state : SState; sp_remaining : Z; sp_text : TP; sp_crc : Crc; sp_cons : option nat }.

(** default construction *)
Definition sp_new : SP := mkSP SS_IDLE 0 tp_new crc_new None.

(** the virtual calls of callback/ConfigDataCbk.h:14-18 *)
Inductive cfgcall : Type := CStart | CAdd (d : Data) | CReset.

(** An object implementing ConfigDataCbk: the library's ConfigDataStreamParser, or a user class,
    whose streamState is an arbitrary function of the calls it has received so far. *)
Inductive PObj : Type :=
| LibP (sp : SP)
| UserP (beh : list cfgcall -> SState) (hist : list cfgcall).

Definition pobj_state (p : PObj) : SState :=
  match p with LibP sp => sp_state sp | UserP beh h => beh h end.

(** An object implementing ConfigDataConsumer: LocoConsumer (LocoConsumer.h:45,
    ConfigDataConsumer.h:21), LocoListConsumer (LocoListConsumer.h:62-72), or a user class
    (opaque; calls are only recorded).  Members without initialiser are [mu]. *)
Inductive CObj : Type :=
| LocoC (engine : mu (option nat)) (endcb : mu (option nat))
| ListC (complete : mu bool) (infos : list ShortInfo) (num : mu Z) (offset : mu Z) (endcb : mu (option nat))
| UserC.

(** Station::CallbackStruct, Station.h:29-35 *)
Record Cbs : Type := mkCbs {
  cb_tx : option nat; cb_sys : option nat; cb_eng : option nat; cb_acc : option nat; cb_cfg : option nat }.

(** Station.h:98-103 *)
Record Station : Type := mkStation { st_hash : Z; st_cbs : Cbs }.

Definition set_cfg (s : Station) (p : option nat) : Station :=
  let c := st_cbs s in mkStation (st_hash s) (mkCbs (cb_tx c) (cb_sys c) (cb_eng c) (cb_acc c) p).

Record world : Type := mkW {
  w_stations : list Station; w_parsers : list PObj; w_conss : list CObj; w_engines : list Loco }.

(** calls to objects outside the library, virtual calls to consumers/parsers, console output *)
Inductive event : Type :=
| EvTx (tx : nat) (f : CanFrame)
| EvSystem (o : nat) (onOff response : bool)
| EvVelocity (o : nat) (uid velocity : Z)
| EvVelocityAll (o : nat) (velocity : Z)
| EvFunction (o : nat) (uid function : Z) (on : bool)
| EvDirection (o : nat) (uid direction : Z)
| EvChangeDirection (o : nat) (uid : Z)
| EvAccessory (o : nat) (payload : Data) (response : bool)
| EvCfg (p : nat) (c : cfgcall)
| EvConsume (c : nat) (section key value : bufm)
| EvStreamComplete (c : nat)
| EvStreamAborted (c : nat)
| EvEndComplete (cb c : nat)
| EvEndAborted (cb c : nat)
| EvPrint (bytes : list Z).

(* ------------------------------------------------------------------ *)
(** * Actions: state transformers that may be undefined and emit events *)

Definition act : Type := world -> res (world * list event).
Definition skip : act := fun w => Ok (w, []).
Definition emit (e : event) : act := fun w => Ok (w, [e]).
Definition fail (u : ub) : act := fun _ => UB u.
Definition seq (a b : act) : act := fun w =>
  '(w1, t1) <- a w ;; '(w2, t2) <- b w1 ;; Ok (w2, t1 ++ t2).
Notation "a ;;; b" := (seq a b) (at level 62, right associativity).
(** evaluate a (possibly undefined) expression in the current state *)
Definition ask {A} (f : world -> res A) (k : A -> act) : act := fun w => x <- f w ;; k x w.
Definition print (bs : list Z) : act := emit (EvPrint bs).
Definition puts (s : string) : act := print (zs s).
(** print bytes whose computation may be undefined *)
Definition print_res (r : res (list Z)) : act := ask (fun _ => r) print.

(** dereference a pointer value / an object index *)
Definition deref {A} (p : option A) : res A := match p with Some x => Ok x | None => UB NullDeref end.
Definition at_ {A} (l : list A) (i : nat) : res A :=
  match nth_error l i with Some x => Ok x | None => UB Dangling end.

Definition get_station (s : nat) : world -> res Station := fun w => at_ (w_stations w) s.
Definition get_parser (p : nat) : world -> res PObj := fun w => at_ (w_parsers w) p.
Definition get_cons (c : nat) : world -> res CObj := fun w => at_ (w_conss w) c.
Definition get_engine (e : nat) : world -> res Loco := fun w => at_ (w_engines w) e.

Definition put_station (s : nat) (x : Station) : act := fun w =>
  Ok (mkW (upd s x (w_stations w)) (w_parsers w) (w_conss w) (w_engines w), []).
Definition put_parser (p : nat) (x : PObj) : act := fun w =>
  Ok (mkW (w_stations w) (upd p x (w_parsers w)) (w_conss w) (w_engines w), []).
Definition put_cons (c : nat) (x : CObj) : act := fun w =>
  Ok (mkW (w_stations w) (w_parsers w) (upd c x (w_conss w)) (w_engines w), []).
Definition put_engine (e : nat) (x : Loco) : act := fun w =>
  Ok (mkW (w_stations w) (w_parsers w) (w_conss w) (upd e x (w_engines w)), []).

Definition when_some {A} (p : option A) (k : A -> act) : act :=
  match p with Some x => k x | None => skip end.

(* ------------------------------------------------------------------ *)
(** * LocoConsumer *)

(** LocoConsumer.cpp:16, 19, 20 *)
Definition kEngineKeyUid : list Z := lit "uid".
Definition kEngineKeyProtocol : list Z := lit "typ".
Definition kEngineKeyAddress : list Z := lit "adresse".

(** strncmp(literal, b.data(), b.length()) == 0 *)
Definition lit_strncmp (literal : list Z) (b : bufm) : res bool :=
  strncmp_eq literal (mem b) (Z.to_nat (blen b)).

Section LongWidth.
(** width of long in bits, a parameter of the platform: see CString.v *)
Variable lw : Z.

(** LocoConsumer.cpp:33-55: the effect of one line on the engine *)
Definition loco_line (e : Loco) (section key value : bufm) : res Loco :=
  isLoco <- lit_strncmp kEngineResult section ;;
  if isLoco : bool then
    isUid <- lit_strncmp kEngineKeyUid key ;;
    if isUid : bool then
      v <- c_strtoul16 lw (mem value) ;; Ok (lo_upd_data e (ld_setUid (lo_data e) (u32 v)))
    else
      isTyp <- lit_strncmp kEngineKeyProtocol key ;;
      if isTyp : bool then lo_setProtocolString e (mem value)
      else
        isAddr <- lit_strncmp kEngineKeyAddress key ;;
        if isAddr : bool then
          v <- c_strtoul16 lw (mem value) ;; Ok (lo_upd_data e (ld_setAddress (lo_data e) (u32 v)))
        else Ok e
  else Ok e.

(** LocoConsumer.cpp:24-56 *)
Definition loco_consume (engine : mu (option nat)) (section key value : bufm) : act :=
  ask (fun _ => mread engine) (fun cur =>
  match cur with
  | None => skip
  | Some e => ask (get_engine e) (fun l =>
              ask (fun _ => loco_line l section key value) (fun l' => put_engine e l'))
  end).

(* ------------------------------------------------------------------ *)
(** * LocoListConsumer *)

(** LocoListConsumer.cpp:12-13 *)
Definition kSectionNumEngines : list Z := lit "numloks".
Definition kGenericValue : list Z := lit "wert".

(** LocoListConsumer.h:74-81 *)
Fixpoint findFirstFreeEntry (l : list ShortInfo) : option nat :=
  match l with
  | [] => None
  | i :: r => if si_isFree i then Some O
              else match findFirstFreeEntry r with Some k => Some (S k) | None => None end
  end.

(** LocoListConsumer.cpp:15-40; [c] is the consumer's own index *)
Definition list_consume (c : nat) (complete : mu bool) (infos : list ShortInfo) (num offset : mu Z)
                        (endcb : mu (option nat)) (section key value : bufm) : act :=
  ask (fun _ => bstrncmp section kEngineNames) (fun isNames =>
  if isNames : bool then
    match findFirstFreeEntry infos with
    | None => print (zs "No free Engine buffer found." ++ nl)
    | Some k =>
        ask (fun _ => c_str (mem value)) (fun text =>
        print (zs "Storing Engine " ++ text ++ nl) ;;;
        ask (fun _ => si_setName (nth k infos si_reset) (mem value)) (fun si =>
        put_cons c (ListC complete (upd k si infos) num offset endcb)))
    end
  else
    ask (fun _ => bstrncmp section kSectionNumEngines) (fun isNum =>
    if isNum : bool then
      ask (fun _ => bstrncmp key kGenericValue) (fun isVal =>
      if isVal : bool then
        ask (fun _ => basUint8 lw value) (fun n => put_cons c (ListC complete infos (Def n) offset endcb))
      else skip)
    else
      ask (fun _ => c_str (mem section)) (fun text =>
      print (zs "Received config data for uninteresting section '" ++ text ++ zs "'." ++ nl)))).

(** LocoListConsumer.cpp:42-46 *)
Definition list_cleared (infos : list ShortInfo) : list ShortInfo := map (fun _ => si_reset) infos.
(** LocoListConsumer.cpp:48-53 *)
Definition list_reset_obj (infos : list ShortInfo) (endcb : mu (option nat)) : CObj :=
  ListC (Def false) (list_cleared infos) (Def 0) (Def 0) endcb.
(** LocoListConsumer.cpp:55-60 printAll *)
Fixpoint list_print (infos : list ShortInfo) : res (list Z) :=
  match infos with
  | [] => Ok []
  | i :: r => a <- si_print i ;; b <- list_print r ;; Ok (a ++ b)
  end.

(* ------------------------------------------------------------------ *)
(** * ConfigDataConsumer virtual calls *)

(** virtual consumeConfigData on consumer object c *)
Definition cons_consume (c : nat) (section key value : bufm) : act :=
  emit (EvConsume c section key value) ;;;
  ask (get_cons c) (fun o =>
  match o with
  | LocoC engine endcb => loco_consume engine section key value
  | ListC complete infos num offset endcb => list_consume c complete infos num offset endcb section key value
  | UserC => skip
  end).

(** all calls one addText makes, in order *)
Fixpoint cons_consume_all (c : nat) (l : list triple) : act :=
  match l with
  | [] => skip
  | (s, k, v) :: r => cons_consume c s k v ;;; cons_consume_all c r
  end.

(** virtual setStreamComplete: LocoConsumer.cpp:58-72, LocoListConsumer.h:31-36 *)
Definition cons_complete (c : nat) : act :=
  emit (EvStreamComplete c) ;;;
  ask (get_cons c) (fun o =>
  match o with
  | LocoC engine endcb =>
      ask (fun _ => mread engine) (fun cur =>
      match cur with
      | None => skip
      | Some e =>
          ask (get_engine e) (fun l =>
          put_engine e (lo_setAvailability l FULL_DETAILS) ;;;
          puts "Downloaded Engine: " ;;;
          print_res (lo_print (lo_setAvailability l FULL_DETAILS)) ;;;
          print nl ;;;
          ask (fun _ => mread endcb) (fun cb => when_some cb (fun cb => emit (EvEndComplete cb c))))
      end)
  | ListC complete infos num offset endcb =>
      put_cons c (ListC (Def true) infos num offset endcb) ;;;
      ask (fun _ => mread endcb) (fun cb => when_some cb (fun cb => emit (EvEndComplete cb c)))
  | UserC => skip
  end).

(** virtual setStreamAborted: LocoConsumer.cpp:74-78, LocoListConsumer.h:38-43 *)
Definition cons_aborted (c : nat) : act :=
  emit (EvStreamAborted c) ;;;
  ask (get_cons c) (fun o =>
  match o with
  | LocoC engine endcb =>
      ask (fun _ => mread endcb) (fun cb => when_some cb (fun cb => emit (EvEndAborted cb c)))
  | ListC complete infos num offset endcb =>
      put_cons c (list_reset_obj infos endcb) ;;;
      ask (fun _ => mread endcb) (fun cb => when_some cb (fun cb => emit (EvEndAborted cb c)))
  | UserC => skip
  end).

(* ------------------------------------------------------------------ *)
(** * ConfigDataStreamParser *)

(** ConfigDataStreamParser.h:19-22 startStream() *)
Definition sp_startStream (sp : SP) : SP :=
  mkSP SS_FIRST (sp_remaining sp) (sp_text sp) crc_reset (sp_cons sp).
(** ConfigDataStreamParser.h:24-27 startStream(consumer) *)
Definition sp_setConsumer (sp : SP) (c : option nat) : SP :=
  mkSP (sp_state sp) (sp_remaining sp) (tp_setConsumer (sp_text sp) c) (sp_crc sp) c.

Definition get_lib (p : nat) : world -> res SP := fun w =>
  o <- get_parser p w ;; match o with LibP sp => Ok sp | UserP _ _ => UB Dangling end.
Definition put_lib (p : nat) (sp : SP) : act := put_parser p (LibP sp).

(** ConfigDataStreamParser.h:31-43 reset() of library parser p *)
Definition lib_reset (p : nat) : act :=
  ask (get_lib p) (fun sp =>
  (if ss_processing (sp_state sp) then when_some (sp_cons sp) cons_aborted else skip) ;;;
  ask (get_lib p) (fun sp =>
  ask (fun _ => tp_reset (sp_text sp)) (fun t => put_lib p (mkSP SS_IDLE 0 t crc_reset None)))).

(** 32-bit big-endian number in bytes 0..3, ConfigDataStreamParser.cpp:26-27 *)
Definition header_length (d : Data) : Z :=
  Z.lor (Z.lor (Z.lor (Z.shiftl (dget d 0) 24) (Z.shiftl (dget d 1) 16)) (Z.shiftl (dget d 2) 8)) (dget d 3).
(** ConfigDataStreamParser.cpp:28 *)
Definition header_crc (d : Data) : Z := u16 (Z.lor (Z.shiftl (dget d 4) 8) (dget d 5)).

(** ConfigDataStreamParser.cpp:13-112 addMessage *)
Definition lib_addMessage (p : nat) (d : Data) : act :=
  ask (get_lib p) (fun sp =>
  match sp_state sp with
  | SS_IDLE => print (zs "Received uninteresting config data (IDLE)." ++ nl)
  | SS_DONE => print (zs "Received uninteresting config data (STREAM_DONE)." ++ nl)
  | SS_FIRST =>
      if (dlc d =? 6) || (dlc d =? 7) then
        let sp1 := mkSP (sp_state sp) (header_length d) (sp_text sp)
                        (crc_loadReference (sp_crc sp) (header_crc d)) (sp_cons sp) in
        if sp_remaining sp1 >? 0 then
          put_lib p (mkSP SS_DATA (sp_remaining sp1) (sp_text sp1) (sp_crc sp1) (sp_cons sp1))
        else
          put_lib p (mkSP SS_DONE (sp_remaining sp1) (sp_text sp1) (sp_crc sp1) (sp_cons sp1)) ;;;
          when_some (sp_cons sp1) cons_complete
      else if dlc d >=? 8 then
        print (zs "Oversized first packet! Aborting parse." ++ nl) ;;; lib_reset p
      else
        print (zs "Undersized first packet! Aborting parse." ++ nl) ;;; lib_reset p
  | SS_DATA =>
      if negb (dlc d =? 8) then
        print (zs "Undersized data packet! Aborting parse." ++ nl) ;;; lib_reset p
      else
        let remaining := u32 (sp_remaining sp - dlc d) in
        ask (fun _ => bs <- data_visited d ;; crc_feed (sp_crc sp) bs) (fun crc =>
        ask (fun _ => tp_addText (sp_text sp) (mkBuf (dbytes d) CanDataMaxLength (dlc d))) (fun te =>
        put_lib p (mkSP SS_DATA remaining (fst te) crc (sp_cons sp)) ;;;
        when_some (tp_cons (sp_text sp)) (fun c => cons_consume_all c (snd te)) ;;;
        if remaining =? 0 then
          ask (fun _ => crc_isValid crc) (fun valid =>
          if valid : bool then
            put_lib p (mkSP SS_DONE remaining (fst te) crc (sp_cons sp)) ;;;
            when_some (sp_cons sp) cons_complete
          else
            put_lib p (mkSP SS_IDLE remaining (fst te) crc (sp_cons sp)) ;;;
            when_some (sp_cons sp) cons_aborted)
        else skip))
  end).

(** virtual calls on a ConfigDataCbk object *)
Definition cfg_call (p : nat) (c : cfgcall) : act :=
  emit (EvCfg p c) ;;;
  ask (get_parser p) (fun o =>
  match o with
  | UserP beh h => put_parser p (UserP beh (h ++ [c]))
  | LibP sp =>
      match c with
      | CStart => put_lib p (sp_startStream sp)
      | CAdd d => lib_addMessage p d
      | CReset => lib_reset p
      end
  end).

(** isProcessing() of a ConfigDataCbk object, callback/ConfigDataCbk.h:22 *)
Definition cfg_isProcessing (p : nat) : world -> res bool := fun w =>
  o <- get_parser p w ;; Ok (ss_processing (pobj_state o)).

(* ------------------------------------------------------------------ *)
(** * Station *)

(** callbacks_.tx->SendPacket(frame) *)
Definition tx_send (c : Cbs) (f : CanFrame) : act := ask (fun _ => deref (cb_tx c)) (fun tx => emit (EvTx tx f)).

(** Station.cpp:29-34, 36; Station.h:96 *)
Definition st_finish (s : nat) : act :=
  ask (get_station s) (fun st =>
  when_some (cb_cfg (st_cbs st)) (fun p =>
  cfg_call p CReset ;;;
  ask (get_station s) (fun st => put_station s (set_cfg st None)))).
Definition st_abort : nat -> act := st_finish.

(** Station.cpp:21-25; stationUUID is a uint16_t *)
Definition st_begin (s : nat) (stationUUID : Z) (callbacks : Cbs) : act :=
  st_abort s ;;;
  ask (get_station s) (fun st =>
  put_station s (mkStation (st_hash st) callbacks) ;;;
  put_station s (mkStation (computeSenderHash stationUUID) callbacks)).

(** Station.cpp:38-53 *)
Definition st_handleConfigDataStream (s : nat) (d : Data) : act :=
  ask (get_station s) (fun st =>
  ask (fun w => match cb_cfg (st_cbs st) with None => Ok None
                | Some p => b <- cfg_isProcessing p w ;; Ok (if b : bool then Some p else None) end) (fun target =>
  match target with
  | Some p => cfg_call p (CAdd d)
  | None => puts "Ignoring ConfigData Stream: " ;;; print_res (printAsText d)
  end)).

(** Station.cpp:55-108 *)
Definition st_handleSystemCommand (s : nat) (i : Z) (d : Data) : act :=
  ask (get_station s) (fun st =>
  let cb := st_cbs st in
  puts "System Command. " ;;;
  if dlc d >=? 5 then
    puts " Subcommand: " ;;;
    let sub := sys_getSubcommand d in
    if sub =? kSubcommandSystemGo then
      print (zs "GO!" ++ nl) ;;; when_some (cb_sys cb) (fun o => emit (EvSystem o true (id_isResponse i)))
    else if sub =? kSubcommandSystemHalt then
      print (zs "Halt!" ++ nl) ;;; when_some (cb_eng cb) (fun o => emit (EvVelocityAll o 0))
    else if sub =? kSubcommandSystemStop then
      print (zs "STOP!" ++ nl) ;;; when_some (cb_sys cb) (fun o => emit (EvSystem o false (id_isResponse i)))
    else if sub =? kSubcommandLocoEmergencyStop then
      when_some (cb_eng cb) (fun o => emit (EvVelocity o (sys_getLocid d) 0))
    else if sub =? kSubcommandSystemIdentifier then print (zs "Identifier." ++ nl)
    else if sub =? kSubcommandSystemOverload then print (zs "OVERLOAD!" ++ nl)
    else if sub =? kSubcommandSystemReset then print (zs "Reset." ++ nl)
    else if sub =? kSubcommandSystemStatus then print (zs "Status." ++ nl)
    else print (zs "unknown." ++ nl)
  else print (zs "Invalid command." ++ nl)).

(** the sending station's frame: CanFrame{Identifier{cmd, senderHash_}, {}} with payload *)
Definition st_frame (st : Station) (cmd : Z) (d : Data) : CanFrame := mkFrame (mkId cmd (st_hash st)) d.

(** snprintf(buf, 9, "%d %d", offset, 2): (buffer, return value), Station.cpp:121-122 *)
Definition list_request_text (offset : Z) : list Z := fmt_d offset ++ [32] ++ fmt_d kNumEngineNamesDownload.
Definition snprintf9 (text : list Z) : list Z * Z :=
  let shown := firstn 8 text in
  (shown ++ repeat 0 (9 - List.length shown), zlen text).

(** Station.cpp:110-134 *)
Definition st_requestEngineList (s : nat) (offset : Z) (configDataConsumer : option nat) : act :=
  st_abort s ;;;
  ask (get_station s) (fun st =>
  put_station s (set_cfg st configDataConsumer) ;;;
  ask (fun _ => c_strncpy (dbytes data0) kEngineNames kDataBufferLength) (fun b1 =>
  let frame1 := st_frame st kRequestConfigData (mkData 8 b1) in
  let '(b2, n) := snprintf9 (list_request_text offset) in
  let frame2 := st_frame st kRequestConfigData (mkData (u8 n) b2) in
  if u8 n <=? CanDataMaxLength then
    when_some configDataConsumer (fun p => cfg_call p CStart) ;;;
    tx_send (st_cbs st) frame1 ;;;
    tx_send (st_cbs st) frame2
  else skip)).

(** a const LocomotiveShortInfo&: a full locomotive, an entry of a list consumer, or some other
    object of the user's *)
Inductive sref : Type := RefEngine (e : nat) | RefEntry (c k : nat) | RefValue (s : ShortInfo).
Definition get_short (r : sref) : world -> res ShortInfo := fun w =>
  match r with
  | RefEngine e => l <- get_engine e w ;; Ok (lo_info l)
  | RefEntry c k => o <- get_cons c w ;;
                    match o with ListC _ infos _ _ _ => at_ infos k | _ => UB Dangling end
  | RefValue s => Ok s
  end.

(** Station.cpp:136-183 *)
Definition st_requestEngine (s : nat) (engine : sref) (configDataConsumer : option nat) : act :=
  ask (get_short engine) (fun si =>
  if negb (si_isNameKnown si) then skip
  else
  ask (get_station s) (fun st =>
  ask (fun w => match cb_cfg (st_cbs st) with None => Ok false | Some p => cfg_isProcessing p w end) (fun busy =>
  if busy : bool then skip
  else
    st_abort s ;;;
    ask (get_station s) (fun st =>
    put_station s (set_cfg st configDataConsumer) ;;;
    when_some configDataConsumer (fun p => cfg_call p CStart) ;;;
    ask (fun _ => c_strncpy (dbytes data0) kEngine kDataBufferLength) (fun b1 =>
    tx_send (st_cbs st) (st_frame st kRequestConfigData (mkData 8 b1)) ;;;
    ask (get_short engine) (fun si =>
    ask (fun _ => c_strlen (si_name si)) (fun engineNameLength =>
    ask (fun _ => c_strncpy (dbytes data0) (si_name si) CanDataMaxLength) (fun b2 =>
    tx_send (st_cbs st) (st_frame st kRequestConfigData (mkData 8 b2)) ;;;
    ask (fun _ => if engineNameLength >? CanDataMaxLength
                  then c_strncpy (dbytes data0) (skipn (Z.to_nat CanDataMaxLength) (si_name si)) CanDataMaxLength
                  else Ok (dbytes data0)) (fun b3 =>
    tx_send (st_cbs st) (st_frame st kRequestConfigData (mkData 8 b3))))))))))).

(** Station.cpp:281-284 *)
Definition st_sendPacket (s : nat) (f : CanFrame) : act :=
  ask (get_station s) (fun st => tx_send (st_cbs st) (mkFrame (id_setHash (fid f) (st_hash st)) (fdata f))).

(** frames built by hand: Station.cpp:185-191, 201-207, 215-222, 239-246, 248-253, 255-260, 262-279 *)
Definition st_requestEngineDirection (s : nat) (uid : Z) : act :=
  ask (get_station s) (fun st =>
  tx_send (st_cbs st) (st_frame st kLocoDirection (setLocid (set_dlc data0 4) uid))).
Definition st_requestEngineVelocity (s : nat) (uid : Z) : act :=
  ask (get_station s) (fun st =>
  tx_send (st_cbs st) (st_frame st kLocoSpeed (setLocid (set_dlc data0 4) uid))).
Definition st_requestEngineFunction (s : nat) (uid function : Z) : act :=
  ask (get_station s) (fun st =>
  tx_send (st_cbs st) (st_frame st kLocoFunction (dset (setLocid (set_dlc data0 5) uid) 4 function))).
(** Station.cpp:224-232: the loop over i *)
Fixpoint send_functions (st : Station) (uid : Z) (i : Z) (n : nat) : act :=
  match n with
  | O => skip
  | S n' => tx_send (st_cbs st) (st_frame st kLocoFunction (dset (setLocid (set_dlc data0 5) uid) 4 i)) ;;;
            send_functions st uid (i + 1) n'
  end.
Definition st_requestEngineAllFunctions (s : nat) (uid : Z) : act :=
  ask (get_station s) (fun st => send_functions st uid 0 16).
(** Station.cpp:193-199, 209-213, 234-237 *)
Definition st_sendEngineDirection (s : nat) (uid direction : Z) : act :=
  if (direction =? DIR_FORWARD) || (direction =? DIR_REVERSE) || (direction =? DIR_CHANGE)
  then st_sendPacket s (fr_LocoDirection false uid direction) else skip.
Definition st_sendEngineVelocity (s : nat) (uid velocity : Z) : act :=
  st_sendPacket s (fr_LocoSpeed false uid velocity).
Definition st_sendEngineFunction (s : nat) (uid function : Z) (value : bool) : act :=
  st_sendPacket s (fr_LocoFunction false uid function value).
(** Station.cpp:239-246 *)
Definition st_sendEmergencyStop (s : nat) (uid : Z) : act :=
  ask (get_station s) (fun st =>
  tx_send (st_cbs st) (st_frame st kSystemCommand
    (sys_setLocid (sys_setSubcommand (sys_initData data0) kSubcommandLocoEmergencyStop) uid))).
(** Station.cpp:248-253 *)
Definition st_sendSystemStop (s : nat) : act :=
  ask (get_station s) (fun st =>
  tx_send (st_cbs st) (st_frame st kSystemCommand (dset (set_dlc data0 5) 4 kSubcommandSystemStop))).
(** Station.cpp:255-260 *)
Definition st_sendSystemGo (s : nat) : act :=
  ask (get_station s) (fun st =>
  tx_send (st_cbs st) (st_frame st kSystemCommand (dset (set_dlc data0 5) 4 kSubcommandSystemGo))).
(** Station.cpp:262-279; power is a uint8_t converted to bool *)
Definition st_sendAccessoryPacket (s : nat) (address : Z) (protocol : RailProtocol) (direction power : Z) : act :=
  ask (get_station s) (fun st =>
  let d := to_initData data0 in
  let d := to_setLocid d (turnout_or address (getAccessoryLocIdMask protocol)) in
  let d := to_setDirection d direction in
  let d := to_setPower d (negb (power =? 0)) in
  tx_send (st_cbs st) (st_frame st kAccessorySwitch d)).

(** Station.cpp:353-361 *)
Definition st_handleAccessoryPacket (s : nat) (d : Data) (request : bool) : act :=
  ask (get_station s) (fun st =>
  print (to_printAll d) ;;;
  when_some (cb_acc (st_cbs st)) (fun o => emit (EvAccessory o d request))).

(** Station.cpp:363-375 (no null check on callbacks_.engine) *)
Definition st_handleLocoDirection (s : nat) (d : Data) : act :=
  ask (get_station s) (fun st =>
  if dlc d =? 5 then
    let uid := getLocid d in
    let direction := dget d 4 in
    if (direction =? DIR_FORWARD) || (direction =? DIR_REVERSE) then
      ask (fun _ => deref (cb_eng (st_cbs st))) (fun o => emit (EvDirection o uid direction))
    else if direction =? DIR_CHANGE then
      ask (fun _ => deref (cb_eng (st_cbs st))) (fun o => emit (EvChangeDirection o uid))
    else skip
  else skip).

(** Station.cpp:377-385 *)
Definition st_handleLocoSpeed (s : nat) (d : Data) : act :=
  ask (get_station s) (fun st =>
  if dlc d =? 6 then
    let uid := getLocid d in
    let velocity := u16 (Z.lor (Z.shiftl (dget d 4) 8) (dget d 5)) in
    when_some (cb_eng (st_cbs st)) (fun o => emit (EvVelocity o uid velocity))
  else skip).

(** Station.cpp:387-392 (no null check on callbacks_.engine) *)
Definition st_handleLocoFunction (s : nat) (d : Data) : act :=
  ask (get_station s) (fun st =>
  if dlc d =? 6 then
    ask (fun _ => deref (cb_eng (st_cbs st))) (fun o =>
      emit (EvFunction o (getLocid d) (dget d 4) (negb (dget d 5 =? 0))))
  else skip).

(** Station.cpp:286-351, template logging configuration (_RR32Can_config.h: everything off) *)
Definition st_handlePacket (s : nat) (f : CanFrame) : act :=
  let cmd := id_getCommand (fid f) in
  let d := fdata f in
  if cmd =? kSystemCommand then st_handleSystemCommand s (fid f) d
  else if cmd =? kPing then skip
  else if cmd =? kAccessorySwitch then
    puts "Accessory Switch. Details: " ;;;
    st_handleAccessoryPacket s d (id_isResponse (fid f)) ;;;
    print nl
  else if cmd =? kLocoDirection then st_handleLocoDirection s d
  else if cmd =? kLocoSpeed then st_handleLocoSpeed s d
  else if cmd =? kLocoFunction then st_handleLocoFunction s d
  else if cmd =? kRequestConfigData then skip
  else if cmd =? kConfigDataStream then st_handleConfigDataStream s d
  else if cmd =? kDebugText then
    puts "Debug Text: '" ;;; print_res (printAsText d) ;;; print (zs "'" ++ nl)
  else
    print (zs "Unknown or not implemented. Dump: " ++ fmt_alt0x 2 cmd ++ nl) ;;;
    print_res (printAsHex d) ;;; print nl.

(* ------------------------------------------------------------------ *)
(** * The public operations *)

(** operations on a Locomotive object, Locomotive.h *)
Inductive eop : Type :=
| ESetName (name : list Z)
| ESetNameConditional (name : list Z)
| EReset
| ESetAvailability (a : Availability)
| ESetUid (u : Z) | ESetVelocity (v : Z) | ESetDirection (d : Z) | EChangeDirection
| ESetAddress (a : Z)
| ESetFunction (f : Z) (on : bool)
| ESetProtocolString (s : list Z).

Definition eop_apply (l : Loco) (o : eop) : res Loco :=
  match o with
  | ESetName n => lo_setName l n
  | ESetNameConditional n => '(l', _) <- lo_setNameConditional l n ;; Ok l'
  | EReset => Ok lo_reset
  | ESetAvailability a => Ok (lo_setAvailability l a)
  | ESetUid u => Ok (lo_upd_data l (ld_setUid (lo_data l) u))
  | ESetVelocity v => Ok (lo_upd_data l (ld_setVelocity (lo_data l) v))
  | ESetDirection d => Ok (lo_upd_data l (ld_setDirection (lo_data l) d))
  | EChangeDirection => Ok (lo_upd_data l (ld_changeDirection (lo_data l)))
  | ESetAddress a => Ok (lo_upd_data l (ld_setAddress (lo_data l) a))
  | ESetFunction f on => d <- ld_setFunction (lo_data l) f on ;; Ok (lo_upd_data l d)
  | ESetProtocolString s => lo_setProtocolString l s
  end.

(** operations of one station (arguments as in Station.h; engines are passed by their uid where
    only getUid() is used) *)
Inductive sop : Type :=
| Begin (uuid : Z) (callbacks : Cbs)
| Loop
| HandlePacket (f : CanFrame)
| HandleAccessoryPacket (d : Data) (response : bool)
| HandleConfigDataStream (d : Data)
| HandleSystemCommand (i : Z) (d : Data)
| HandleLocoDirection (d : Data)
| HandleLocoSpeed (d : Data)
| HandleLocoFunction (d : Data)
| SendAccessoryPacket (address : Z) (protocol : RailProtocol) (direction power : Z)
| FinishCurrentConfigRequest
| AbortCurrentConfigRequest
| NotifyConfigStreamReceived
| RequestEngine (engine : sref) (p : option nat)
| RequestEngineList (offset : Z) (p : option nat)
| RequestEngineDirection (uid : Z)
| SendEngineDirection (uid direction : Z)
| RequestEngineVelocity (uid : Z)
| SendEngineVelocity (uid velocity : Z)
| RequestEngineFunction (uid function : Z)
| RequestEngineAllFunctions (uid : Z)
| SendEngineFunction (uid function : Z) (value : bool)
| SendEmergencyStop (uid : Z)
| SendSystemStop
| SendSystemGo
| SendPacket (f : CanFrame).

(** operations on parser and consumer objects *)
Inductive op : Type :=
| OnStation (s : nat) (o : sop)
| ParserStartStream (p : nat)                         (* startStream() *)
| ParserSetConsumer (p : nat) (c : option nat)        (* startStream(consumer) *)
| ParserAddMessage (p : nat) (d : Data)
| ParserReset (p : nat)
| ConsumerSetEndCallback (c : nat) (cb : option nat)
| LocoSetEngine (c : nat) (e : option nat)
| ListSetOffset (c : nat) (o : Z)
| ListReset (c : nat)
| ListClearTable (c : nat)
| ListPrintAll (c : nat)
| OnEngine (e : nat) (o : eop).

Definition st_step (s : nat) (o : sop) : act :=
  match o with
  | Begin uuid callbacks => st_begin s uuid callbacks
  | Loop => skip
  | HandlePacket f => st_handlePacket s f
  | HandleAccessoryPacket d r => st_handleAccessoryPacket s d r
  | HandleConfigDataStream d => st_handleConfigDataStream s d
  | HandleSystemCommand i d => st_handleSystemCommand s i d
  | HandleLocoDirection d => st_handleLocoDirection s d
  | HandleLocoSpeed d => st_handleLocoSpeed s d
  | HandleLocoFunction d => st_handleLocoFunction s d
  | SendAccessoryPacket a p d pw => st_sendAccessoryPacket s a p d pw
  | FinishCurrentConfigRequest => st_finish s
  | AbortCurrentConfigRequest => st_abort s
  | NotifyConfigStreamReceived => st_finish s
  | RequestEngine e p => st_requestEngine s e p
  | RequestEngineList off p => st_requestEngineList s off p
  | RequestEngineDirection u => st_requestEngineDirection s u
  | SendEngineDirection u d => st_sendEngineDirection s u d
  | RequestEngineVelocity u => st_requestEngineVelocity s u
  | SendEngineVelocity u v => st_sendEngineVelocity s u v
  | RequestEngineFunction u f => st_requestEngineFunction s u f
  | RequestEngineAllFunctions u => st_requestEngineAllFunctions s u
  | SendEngineFunction u f v => st_sendEngineFunction s u f v
  | SendEmergencyStop u => st_sendEmergencyStop s u
  | SendSystemStop => st_sendSystemStop s
  | SendSystemGo => st_sendSystemGo s
  | SendPacket f => st_sendPacket s f
  end.

Definition step (o : op) : act :=
  match o with
  | OnStation s o => st_step s o
  | ParserStartStream p => ask (get_lib p) (fun sp => put_lib p (sp_startStream sp))
  | ParserSetConsumer p c => ask (get_lib p) (fun sp => put_lib p (sp_setConsumer sp c))
  | ParserAddMessage p d => lib_addMessage p d
  | ParserReset p => lib_reset p
  | ConsumerSetEndCallback c cb =>
      ask (get_cons c) (fun o =>
      match o with
      | LocoC e _ => put_cons c (LocoC e (Def cb))
      | ListC co i n off _ => put_cons c (ListC co i n off (Def cb))
      | UserC => skip
      end)
  | LocoSetEngine c e =>
      ask (get_cons c) (fun o => match o with LocoC _ cb => put_cons c (LocoC (Def e) cb) | _ => fail Dangling end)
  | ListSetOffset c off =>
      ask (get_cons c) (fun o => match o with ListC co i n _ cb => put_cons c (ListC co i n (Def off) cb) | _ => fail Dangling end)
  | ListReset c =>
      ask (get_cons c) (fun o => match o with ListC _ i _ _ cb => put_cons c (list_reset_obj i cb) | _ => fail Dangling end)
  | ListClearTable c =>
      ask (get_cons c) (fun o => match o with ListC co i n off cb => put_cons c (ListC co (list_cleared i) n off cb) | _ => fail Dangling end)
  | ListPrintAll c =>
      ask (get_cons c) (fun o =>
      match o with
      | ListC _ i n _ _ =>
          ask (fun _ => mread n) (fun n =>
          print (zs "EngineBrowser: " ++ fmt_d n ++ zs " total engines." ++ nl) ;;;
          print_res (list_print i))
      | _ => fail Dangling
      end)
  | OnEngine e o => ask (get_engine e) (fun l => ask (fun _ => eop_apply l o) (fun l' => put_engine e l'))
  end.

(** a history *)
Fixpoint run (l : list op) : act :=
  match l with [] => skip | o :: r => step o ;;; run r end.

End LongWidth.

(** projections of a trace *)
Definition is_print (e : event) : bool := match e with EvPrint _ => true | _ => false end.
Definition calls (t : list event) : list event := filter (fun e => negb (is_print e)) t.
Definition console (t : list event) : list Z :=
  List.concat (map (fun e => match e with EvPrint b => b | _ => [] end) t).
Definition sent (t : list event) : list CanFrame :=
  List.concat (map (fun e => match e with EvTx _ f => [f] | _ => [] end) t).
