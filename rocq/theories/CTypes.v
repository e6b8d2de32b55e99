(* CTypes.v -- types/BaseTypes.h, types/LocomotiveTypes.{h,cpp}, types/TurnoutTypes.{h,cpp},
   Constants.{h,cpp}, util/utils.h.

   Enumerations that the code casts from arbitrary bytes (Command, SystemSubcommand,
   TurnoutDirection, EngineDirection, SensorState) are their underlying integers. *)
From Verif Require Export CBase CString.

(** types/BaseTypes.h:13 *)
Inductive RailProtocol : Set := P_MM1 | P_MM2 | P_MFX | P_SX1 | P_SX2 | P_DCC | P_UNKNOWN.

(** types/LocomotiveTypes.h:9 EngineDirection *)
Definition DIR_UNCHANGED := 0.
Definition DIR_FORWARD := 1.
Definition DIR_REVERSE := 2.
Definition DIR_CHANGE := 3.
Definition DIR_UNKNOWN := 4.

(** types/TurnoutTypes.h:13 TurnoutDirection *)
Definition TD_RED := 0.
Definition TD_GREEN := 1.
Definition TD_YELLOW := 2.
Definition TD_WHITE := 3.

(** types/BaseTypes.h:36 SensorState *)
Definition SENSOR_OPEN := 0.
Definition SENSOR_CLOSED := 1.

(** Constants.h:17-45, 47-72 Command *)
Definition kSystemCommand := 0x00.
Definition klocoDiscovery := 0x01.
Definition kMfxBind := 0x02.
Definition kMfxVerify := 0x03.
Definition kLocoSpeed := 0x04.
Definition kLocoDirection := 0x05.
Definition kLocoFunction := 0x06.
Definition kReadConfig := 0x07.
Definition kWriteConfig := 0x08.
Definition kAccessorySwitch := 0x0B.
Definition kAccessoryConfig := 0x0C.
Definition kS88Poll := 0x10.
Definition kS88Event := 0x11.
Definition kSX1Event := 0x12.
Definition kPing := 0x18.
Definition kUpdateOffer := 0x19.
Definition kReadConfigData := 0x1A.
Definition kBootloaderCan := 0x1B.
Definition kBootloaderTrack := 0x1C.
Definition kStatusdataConfig := 0x1D.
Definition kRequestConfigData := 0x20.
Definition kConfigDataStream := 0x21.
Definition k60128DataStream := 0x22.
Definition kDebugText := 0x42.

(** Constants.h:76-90, 92-108 SystemSubcommand *)
Definition kSubcommandSystemStop := 0x00.
Definition kSubcommandSystemGo := 0x01.
Definition kSubcommandSystemHalt := 0x02.
Definition kSubcommandLocoEmergencyStop := 0x03.
Definition kSubcommandLocoStopCycle := 0x04.
Definition kSubcommandLocoDataprotocol := 0x05.
Definition kSubcommandAccessoryTime := 0x06.
Definition kSubcommandMfxFastRead := 0x07.
Definition kSubcommandDataprotocolOn := 0x08.
Definition kSubcommandMfxSetRegistrationCount := 0x09.
Definition kSubcommandSystemOverload := 0x0A.
Definition kSubcommandSystemStatus := 0x0B.
Definition kSubcommandSystemIdentifier := 0x0C.
Definition kSubcommandMfxSeek := 0x30.
Definition kSubcommandSystemReset := 0x80.

(** Constants.h:111-130 *)
Definition CanDataMaxLength := 8.
Definition kEngineNameLength := 32.
Definition enthusiastStationBaseUUID := 0x00001800.
Definition kNumEngineNamesDownload := 2.
Definition kEngineBrowserEntries := kNumEngineNamesDownload.

(** Constants.h:148-176 protocol address ranges *)
Definition kMMEngineFunctionAddrStart := 0x0000.
Definition kMMEngineFunctionAddrStop := 0x03FF.
Definition kSX1AddrStart := 0x0800.
Definition kSX1AddrStop := 0x0BFF.
Definition kMMFunctionAddrStart := 0x1000.
Definition kMMFunctionAddrStop := 0x13FF.
Definition kMMEngineAddrStart := 0x2000.
Definition kMMEngineAddrStop := 0x23FF.
Definition kSX1AccessoryAddrStart := 0x2800.
Definition kSX1AccessoryAddrStop := 0x2BFF.
Definition kMMAccessoryAddrStart := 0x3000.
Definition kMMAccessoryAddrStop := 0x33FF.
Definition kDCCAccessoryAddrStart := 0x3800.
Definition kDCCccessoryAddrStop := 0x3FFF.
Definition kMFXAddrStart := 0x4000.
Definition kMFXAddrStop := 0x7FFF.
Definition kSX2AddrStart := 0x8000.
Definition kSX2AddrStop := 0xBFFF.
Definition kDCCAddrStart := 0xC000.
Definition kDCCAddrStop := 0xFFFF.

(** Constants.h:179 *)
Definition kMaxEngineVelocity := 1000.

(** Constants.cpp:15-17 *)
Definition kEngine : list Z := lit "lokinfo".
Definition kEngineResult : list Z := lit "lokomotive".
Definition kEngineNames : list Z := lit "loknamen".

(** util/utils.h:12-17 computeSenderHash.  [uid] is a uint32_t. *)
Definition computeSenderHash (uid : Z) : Z :=
  let uid := u32 (Z.lor (Z.land (Z.shiftr uid 3) 0xFFFFFF00) (Z.land uid 0x7F)) in
  let lowBytes := u16 uid in
  let highBytes := u16 (Z.shiftr uid 16) in
  u16 (Z.lxor lowBytes highBytes).

(** Turnout addresses (HumanTurnoutAddress / MachineTurnoutAddress) are their uint32_t value. *)

(** types/TurnoutTypes.cpp:6 *)
Definition HumanTurnoutAddress_of_machine (a : Z) : Z := u32 (a + 1).
(** types/TurnoutTypes.cpp:8-9 *)
Definition MachineTurnoutAddress_of_human (a : Z) : Z := u32 (a - 1).

(** types/TurnoutTypes.cpp:11-28 *)
Definition getAccessoryLocIdMask (p : RailProtocol) : Z :=
  match p with
  | P_MM1 | P_MM2 | P_MFX => kMMAccessoryAddrStart
  | P_SX1 | P_SX2 => kSX1AccessoryAddrStart
  | P_DCC => kDCCAccessoryAddrStart
  | P_UNKNOWN => 0xFF00
  end.

(** types/TurnoutTypes.h:65 operator|=, 80-82 operator| *)
Definition turnout_or (a b : Z) : Z := Z.lor a b.
(** types/TurnoutTypes.h:73 *)
Definition turnout_getNumericAddress (a : Z) : Z := Z.land a 0x03FF.
(** types/TurnoutTypes.h:74-77 *)
Definition turnout_setProtocol (a : Z) (p : RailProtocol) : Z :=
  turnout_or (turnout_getNumericAddress a) (getAccessoryLocIdMask p).

(** Locomotive addresses. types/LocomotiveTypes.cpp:16-17, 19-20 *)
Definition HumanLocomotiveAddress_of_machine (a : Z) : Z := u32 (a + 1).
Definition MachineLocomotiveAddress_of_human (a : Z) : Z := u32 (a - 1).

(** types/LocomotiveTypes.cpp:22-41 *)
Definition getLocomotiveLocIdMask (p : RailProtocol) : Z :=
  match p with
  | P_MM1 | P_MM2 => kMMEngineFunctionAddrStart
  | P_MFX => kMFXAddrStart
  | P_SX1 | P_SX2 => kSX1AddrStart
  | P_DCC => kDCCAddrStart
  | P_UNKNOWN => 0xFF00
  end.

(** types/LocomotiveTypes.h:54, 67-70 *)
Definition loco_or (a b : Z) : Z := Z.lor a b.
(** types/LocomotiveTypes.h:60 *)
Definition loco_getNumericAddress (a : Z) : Z := Z.land a 0x03FF.
(** types/LocomotiveTypes.h:61-64 *)
Definition loco_setProtocol (a : Z) (p : RailProtocol) : Z :=
  loco_or (loco_getNumericAddress a) (getLocomotiveLocIdMask p).

(** types/LocomotiveTypes.cpp:6-14 *)
Definition switchDirection (d : Z) : Z :=
  if d =? DIR_FORWARD then DIR_REVERSE
  else if d =? DIR_REVERSE then DIR_FORWARD
  else DIR_UNKNOWN.
