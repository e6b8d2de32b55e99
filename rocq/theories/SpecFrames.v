(* SpecFrames.v -- the documented wire form of every frame the builders make (C62, C63). *)
From Verif Require Export SpecStation.

Definition CMD_S88 := 17.

(** the calls of the frame builders of util/constexpr.h, with their arguments *)
Inductive build : Type :=
| BTurnout (resp : bool) (address direction : Z) (power : bool)
| BS88 (device contact old new : Z)
| BS88New (device contact new : Z)
| BStop (resp : bool) | BGo (resp : bool) | BHalt (resp : bool) | BStatus
| BEmStop (resp : bool) (address : Z)
| BSpeed (resp : bool) (uid velocity : Z)
| BDirection (resp : bool) (uid direction : Z)
| BFunction (resp : bool) (uid function : Z) (on : bool)
| BHeader (len crc : Z).
Definition built (c : build) : CanFrame :=
  match c with
  | BTurnout r a d p => fr_Turnout r a d p
  | BS88 dv ct o n => fr_S88Event dv ct o n
  | BS88New dv ct n => fr_S88Event_new dv ct n
  | BStop r => fr_System_Stop r | BGo r => fr_System_Go r | BHalt r => fr_System_Halt r | BStatus => fr_System_GetStatus
  | BEmStop r a => fr_System_LocoEmStop r a
  | BSpeed r u v => fr_LocoSpeed r u v
  | BDirection r u d => fr_LocoDirection r u d
  | BFunction r u f on => fr_LocoFunction r u f on
  | BHeader l c => fr_Config_Data_Header l c
  end.
(** the argument ranges of the C++ types *)
Definition build_ok (c : build) : Prop :=
  match c with
  | BTurnout _ a d _ => is_u32 a /\ byte d
  | BS88 dv ct o n => is_u32 dv /\ is_u32 ct /\ byte o /\ byte n
  | BS88New dv ct n => is_u32 dv /\ is_u32 ct /\ byte n
  | BStop _ | BGo _ | BHalt _ | BStatus => True
  | BEmStop _ a => is_u32 a
  | BSpeed _ u v => is_u32 u /\ is_u16 v
  | BDirection _ u d => is_u32 u /\ byte d
  | BFunction _ u f _ => is_u32 u /\ byte f
  | BHeader l c => is_u32 l /\ is_u16 c
  end.
(** the two low bytes of a number, most significant first *)
Definition low16 (x : Z) : list Z := [(x / 256) mod 256; x mod 256].
(** command, response flag and payload of the frame *)
Definition wire (c : build) : Z * bool * list Z :=
  match c with
  | BTurnout r a d p => (CMD_ACCESSORY, r, be_bytes a ++ [d; bit_of p])
  | BS88 dv ct o n => (CMD_S88, false, low16 dv ++ low16 ct ++ [o; n; 0; 0])
  | BS88New dv ct n => (CMD_S88, false, low16 dv ++ low16 ct ++ [if n =? 0 then 1 else 0; n; 0; 0])
  | BStop r => (CMD_SYSTEM, r, [0; 0; 0; 0; 0])
  | BGo r => (CMD_SYSTEM, r, [0; 0; 0; 0; 1])
  | BHalt r => (CMD_SYSTEM, r, [0; 0; 0; 0; 2])
  | BStatus => (CMD_SYSTEM, false, [0; 0; 0; 0])
  | BEmStop r a => (CMD_SYSTEM, r, be_bytes a ++ [3])
  | BSpeed r u v => (CMD_SPEED, r, be_bytes u ++ low16 (Z.min v 1000))
  | BDirection r u d => (CMD_DIRECTION, r, be_bytes u ++ [d])
  | BFunction r u f on => (CMD_FUNCTION, r, be_bytes u ++ [f; bit_of on])
  | BHeader l c => (CMD_CONFIG_DATA, false, be_bytes l ++ low16 c)
  end.
(** what a station with callbacks c tells them about the frame *)
Definition built_heard (c : Cbs) (x : build) : list event :=
  match x with
  | BTurnout r a d p => told_accessory c (fun o => EvAccessory o (padded (be_bytes a ++ [d; bit_of p])) r)
  | BStop r => told_system c (fun o => EvSystem o false r)
  | BGo r => told_system c (fun o => EvSystem o true r)
  | BHalt _ => told_engine c (fun o => EvVelocityAll o 0)
  | BEmStop _ a => told_engine c (fun o => EvVelocity o a 0)
  | BSpeed _ u v => told_engine c (fun o => EvVelocity o u (Z.min v 1000))
  | BDirection _ u d =>
      if (d =? 1) || (d =? 2) then told_engine c (fun o => EvDirection o u d)
      else if d =? 3 then told_engine c (fun o => EvChangeDirection o u) else []
  | BFunction _ u f on => told_engine c (fun o => EvFunction o u f on)
  | BS88 _ _ _ _ | BS88New _ _ _ | BStatus | BHeader _ _ => []
  end.
(** the frames whose reception needs an engine callback *)
Definition built_needs_engine (x : build) : Prop :=
  match x with BDirection _ _ d => 1 <= d <= 3 | BFunction _ _ _ _ => True | _ => False end.

(** ** Requests for config data with a text *)
(** a C string: characters other than NUL, a NUL, and whatever follows in memory *)
Definition c_text (mem s : list Z) : Prop := exists r, mem = s ++ 0 :: r /\ ~ In 0 s.
(** the first nine characters, zero-filled *)
Definition nine (s : list Z) : list Z := firstn 9 s ++ repeat 0 (9 - List.length (firstn 9 s)).

(** ** Addresses with a protocol *)
(** the helpers for turnouts and for engines, with the protocol they are named after *)
Definition turnout_helpers : list (RailProtocol * (Z -> Z)) := [(P_MM2, MM2_turnout); (P_DCC, DCC_turnout); (P_SX1, SX1_turnout)].
Definition loco_helpers : list (RailProtocol * (Z -> Z)) := [(P_DCC, DCC_loco); (P_SX1, SX1_loco); (P_MFX, MFX_loco)].
