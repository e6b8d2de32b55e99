(* SpecStation.v -- specification vocabulary for the station: what goes over the wire and which
   callbacks a received frame leads to, written down as tables. *)
From Verif Require Export World SpecCodec SpecLoco.

(** a received frame as the C++ types allow it *)
Definition frame_ok (f : CanFrame) : Prop := is_u32 (fid f) /\ payload_ok (fdata f).

(** station s of world w; its hash is a uint16_t *)
Definition station_at (w : world) (s : nat) (st : Station) : Prop :=
  nth_error (w_stations w) s = Some st /\ is_u16 (st_hash st).
(** the same world with station s replaced *)
Definition with_station (w : world) (s : nat) (st : Station) : world :=
  mkW (upd s st (w_stations w)) (w_parsers w) (w_conss w) (w_engines w).
Definition with_parser (w : world) (p : nat) (x : PObj) : world :=
  mkW (w_stations w) (upd p x (w_parsers w)) (w_conss w) (w_engines w).

(** ** Outgoing frames *)

(** a payload with zero bytes behind it *)
Definition padded (l : list Z) : Data := mkData (zlen l) (l ++ repeat 0 (9 - List.length l)).
(** a frame from the station with hash h: priority 0, no response *)
Definition outgoing (h cmd : Z) (l : list Z) : CanFrame := mkFrame (id_value 0 0 cmd false h) (padded l).

Definition CMD_SYSTEM := 0.
Definition CMD_SPEED := 4.
Definition CMD_DIRECTION := 5.
Definition CMD_FUNCTION := 6.
Definition CMD_ACCESSORY := 11.
Definition CMD_PING := 24.
Definition CMD_REQUEST_CONFIG := 32.
Definition CMD_CONFIG_DATA := 33.
Definition CMD_DEBUG_TEXT := 66.

(** arguments as the C++ types allow them *)
Definition args_ok (o : sop) : Prop :=
  match o with
  | SendAccessoryPacket a p d pw => is_u32 a /\ byte d /\ byte pw
  | RequestEngineDirection u | RequestEngineVelocity u | RequestEngineAllFunctions u | SendEmergencyStop u => is_u32 u
  | SendEngineDirection u d => is_u32 u /\ byte d
  | SendEngineVelocity u v => is_u32 u /\ is_u16 v
  | RequestEngineFunction u f => is_u32 u /\ byte f
  | SendEngineFunction u f v => is_u32 u /\ byte f
  | SendPacket f => frame_ok f
  | Begin u _ => is_u16 u
  | RequestEngineList off _ => byte off
  | _ => True
  end.

(** what the sending operations put on the bus; None for all other operations *)
Definition output (h : Z) (o : sop) : option (list CanFrame) :=
  match o with
  | SendSystemStop => Some [outgoing h CMD_SYSTEM [0; 0; 0; 0; 0]]
  | SendSystemGo => Some [outgoing h CMD_SYSTEM [0; 0; 0; 0; 1]]
  | SendEmergencyStop u => Some [outgoing h CMD_SYSTEM (be_bytes u ++ [3])]
  | RequestEngineVelocity u => Some [outgoing h CMD_SPEED (be_bytes u)]
  | SendEngineVelocity u v =>
      let v' := Z.min v 1000 in Some [outgoing h CMD_SPEED (be_bytes u ++ [v' / 256; v' mod 256])]
  | RequestEngineDirection u => Some [outgoing h CMD_DIRECTION (be_bytes u)]
  | SendEngineDirection u d =>
      Some (if (1 <=? d) && (d <=? 3) then [outgoing h CMD_DIRECTION (be_bytes u ++ [d])] else [])
  | RequestEngineFunction u f => Some [outgoing h CMD_FUNCTION (be_bytes u ++ [f])]
  | RequestEngineAllFunctions u =>
      Some (map (fun f => outgoing h CMD_FUNCTION (be_bytes u ++ [f])) [0; 1; 2; 3; 4; 5; 6; 7; 8; 9; 10; 11; 12; 13; 14; 15])
  | SendEngineFunction u f v => Some [outgoing h CMD_FUNCTION (be_bytes u ++ [f; if v then 1 else 0])]
  | SendAccessoryPacket a p d pw =>
      Some [outgoing h CMD_ACCESSORY (be_bytes (Z.lor a (turnout_base p)) ++ [d; if pw =? 0 then 0 else 1])]
  | _ => None
  end.

(** the one command byte an operation uses *)
Definition command_of (o : sop) : Z :=
  match o with
  | SendSystemStop | SendSystemGo | SendEmergencyStop _ => CMD_SYSTEM
  | RequestEngineVelocity _ | SendEngineVelocity _ _ => CMD_SPEED
  | RequestEngineDirection _ | SendEngineDirection _ _ => CMD_DIRECTION
  | RequestEngineFunction _ _ | RequestEngineAllFunctions _ | SendEngineFunction _ _ _ => CMD_FUNCTION
  | SendAccessoryPacket _ _ _ _ => CMD_ACCESSORY
  | _ => CMD_REQUEST_CONFIG
  end.
Definition is_sendpacket (o : sop) : bool := match o with SendPacket _ => true | _ => false end.

(** ** Incoming frames *)
Definition b (d : Data) (k : nat) : Z := nth k (dbytes d) 0.
Definition uid_of (d : Data) : Z := be (b d 0) (b d 1) (b d 2) (b d 3).

Definition told_engine (c : Cbs) (e : nat -> event) : list event :=
  match cb_eng c with Some o => [e o] | None => [] end.
Definition told_system (c : Cbs) (e : nat -> event) : list event :=
  match cb_sys c with Some o => [e o] | None => [] end.
Definition told_accessory (c : Cbs) (e : nat -> event) : list event :=
  match cb_acc c with Some o => [e o] | None => [] end.

(** callbacks made for a received frame, config data excepted *)
Definition heard (c : Cbs) (cmd : Z) (resp : bool) (d : Data) : list event :=
  if cmd =? CMD_SYSTEM then
    if dlc d <? 5 then []
    else if b d 4 =? 0 then told_system c (fun o => EvSystem o false resp)
    else if b d 4 =? 1 then told_system c (fun o => EvSystem o true resp)
    else if b d 4 =? 2 then told_engine c (fun o => EvVelocityAll o 0)
    else if b d 4 =? 3 then told_engine c (fun o => EvVelocity o (uid_of d) 0)
    else []
  else if cmd =? CMD_SPEED then
    if dlc d =? 6 then told_engine c (fun o => EvVelocity o (uid_of d) (b d 4 * 256 + b d 5)) else []
  else if cmd =? CMD_DIRECTION then
    if dlc d =? 5 then
      if b d 4 =? 1 then told_engine c (fun o => EvDirection o (uid_of d) 1)
      else if b d 4 =? 2 then told_engine c (fun o => EvDirection o (uid_of d) 2)
      else if b d 4 =? 3 then told_engine c (fun o => EvChangeDirection o (uid_of d))
      else []
    else []
  else if cmd =? CMD_FUNCTION then
    if dlc d =? 6 then told_engine c (fun o => EvFunction o (uid_of d) (b d 4) (negb (b d 5 =? 0))) else []
  else if cmd =? CMD_ACCESSORY then told_accessory c (fun o => EvAccessory o d resp)
  else [].

(** the frames for which the code calls the engine callback without looking whether it is set *)
Definition unguarded (cmd : Z) (d : Data) : Prop :=
  (cmd = CMD_DIRECTION /\ dlc d = 5 /\ 1 <= b d 4 <= 3) \/ (cmd = CMD_FUNCTION /\ dlc d = 6).

(** the frames whose payload is dumped to the console byte by byte *)
Definition dumped (cmd : Z) : Prop :=
  ~ In cmd [CMD_SYSTEM; CMD_SPEED; CMD_DIRECTION; CMD_FUNCTION; CMD_ACCESSORY; CMD_PING; CMD_REQUEST_CONFIG].

(** what the receiver of a sending operation is told *)
Definition reception (c : Cbs) (o : sop) : list event :=
  match o with
  | SendSystemStop => told_system c (fun x => EvSystem x false false)
  | SendSystemGo => told_system c (fun x => EvSystem x true false)
  | SendEmergencyStop u => told_engine c (fun x => EvVelocity x u 0)
  | SendEngineVelocity u v => told_engine c (fun x => EvVelocity x u (Z.min v 1000))
  | SendEngineDirection u d =>
      if d =? 3 then told_engine c (fun x => EvChangeDirection x u) else told_engine c (fun x => EvDirection x u d)
  | SendEngineFunction u f v => told_engine c (fun x => EvFunction x u f v)
  | SendAccessoryPacket a p d pw =>
      told_accessory c (fun x => EvAccessory x (padded (be_bytes (Z.lor a (turnout_base p)) ++ [d; if pw =? 0 then 0 else 1])) false)
  | _ => []
  end.

(** ** Config requests *)

(** the object after startStream() *)
Definition started_obj (x : PObj) : PObj :=
  match x with
  | LibP sp => LibP (mkSP SS_FIRST (sp_remaining sp) (sp_text sp) (mkCrc (Def 0xFFFF) (Def 0xFFFF)) (sp_cons sp))
  | UserP beh h => UserP beh (h ++ [CStart])
  end.
Definition started (w : world) (q : option nat) : world :=
  match q with
  | Some p => match nth_error (w_parsers w) p with Some x => with_parser w p (started_obj x) | None => w end
  | None => w
  end.
Definition start_call (q : option nat) : list event := match q with Some p => [EvCfg p CStart] | None => [] end.
(** a pointer to an existing config-data object, or null *)
Definition valid_ptr (w : world) (q : option nat) : Prop :=
  match q with Some p => nth_error (w_parsers w) p <> None | None => True end.
(** whether the config-data object q says it is processing *)
Definition processing (w : world) (q : option nat) : Prop :=
  exists p x, q = Some p /\ nth_error (w_parsers w) p = Some x /\ (pobj_state x = SS_FIRST \/ pobj_state x = SS_DATA).

(** decimal digits of a number below 1000 *)
Definition decimal (x : Z) : list Z :=
  if x <? 10 then [48 + x] else if x <? 100 then [48 + x / 10; 48 + x mod 10]
  else [48 + x / 100; 48 + (x / 10) mod 10; 48 + x mod 10].
(** eight bytes showing a string of at most 8 characters *)
Definition pad8 (l : list Z) : list Z := l ++ repeat 0 (8 - List.length l).
(** the three frames asking for an engine by name *)
Definition engine_request (h : Z) (name : list Z) : list CanFrame :=
  [outgoing h CMD_REQUEST_CONFIG (pad8 (zs "lokinfo"));
   outgoing h CMD_REQUEST_CONFIG (pad8 (firstn 8 name));
   outgoing h CMD_REQUEST_CONFIG (pad8 (firstn 8 (skipn 8 name)))].

(** the name and availability an engine reference currently has *)
Definition refers_to (w : world) (r : sref) (av : Availability) (name : list Z) : Prop :=
  exists si, si_avail si = av /\ shows_name (si_name si) name /\
  match r with
  | RefEngine e => exists l, nth_error (w_engines w) e = Some l /\ lo_info l = si
  | RefEntry c k => exists co infos n off cb, nth_error (w_conss w) c = Some (ListC co infos n off cb) /\ nth_error infos k = Some si
  | RefValue v => v = si
  end.

(** the operations a received frame leads to *)
Definition is_receive (o : sop) : bool :=
  match o with
  | HandlePacket _ | HandleAccessoryPacket _ _ | HandleConfigDataStream _ | HandleSystemCommand _ _
  | HandleLocoDirection _ | HandleLocoSpeed _ | HandleLocoFunction _ => true
  | _ => false
  end.

(** the effect of telling the config-data object q to reset: a parser of the library does what its
    reset() does, a user object sees one more call *)
Definition reset_effect (lw : Z) (w : world) (q : option nat) (w' : world) (t : list event) : Prop :=
  match q with
  | None => w' = w /\ t = []
  | Some p =>
      match nth_error (w_parsers w) p with
      | Some (LibP _) => exists t', step lw (ParserReset p) w = Ok (w', t') /\ t = EvCfg p CReset :: t'
      | Some (UserP beh h) => w' = with_parser w p (UserP beh (h ++ [CReset])) /\ t = [EvCfg p CReset]
      | None => False
      end
  end.
(** station st with its config-data object replaced by q, everything else the same *)
Definition now_using (st : Station) (q : option nat) : Station :=
  mkStation (st_hash st) (mkCbs (cb_tx (st_cbs st)) (cb_sys (st_cbs st)) (cb_eng (st_cbs st)) (cb_acc (st_cbs st)) q).

(** the commands, with a proper direction *)
Definition is_command (o : sop) : Prop :=
  match o with
  | SendSystemStop | SendSystemGo | SendEmergencyStop _ | SendEngineVelocity _ _ | SendEngineFunction _ _ _
  | SendAccessoryPacket _ _ _ _ => True
  | SendEngineDirection _ d => 1 <= d <= 3
  | _ => False
  end.
(** whose reception calls the engine callback unconditionally *)
Definition needs_engine (o : sop) : Prop :=
  match o with SendEngineDirection _ _ | SendEngineFunction _ _ _ => True | _ => False end.
(** an engine reference in an operation refers to an engine with a proper name *)
Definition names_ok (w : world) (o : sop) : Prop :=
  match o with
  | RequestEngine r _ => exists av name, refers_to w r av name /\ Forall byte name
  | _ => True
  end.
