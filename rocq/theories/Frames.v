(* Frames.v -- util/constexpr.h *)
From Verif Require Export Messages.

(** constexpr.h:20-30 protocol-ful turnout addresses *)
Definition MM2_turnout (a : Z) : Z := turnout_or a kMMAccessoryAddrStart.
Definition DCC_turnout (a : Z) : Z := turnout_or a kDCCAccessoryAddrStart.
Definition SX1_turnout (a : Z) : Z := turnout_or a kSX1AccessoryAddrStart.
(** constexpr.h:47-50: value & ~0b11 (int mask, converted to uint32_t) *)
Definition DecoderBaseAddress (a : Z) : Z := Z.land a 0xFFFFFFFC.

(** constexpr.h:57-71 protocol-ful engine addresses *)
Definition MM2_loco (a : Z) : Z := loco_or a kMMEngineAddrStart.
Definition DCC_loco (a : Z) : Z := loco_or a kDCCAddrStart.
Definition SX1_loco (a : Z) : Z := loco_or a kSX1AddrStart.
Definition MFX_loco (a : Z) : Z := loco_or a kMFXAddrStart.

(** constexpr.h:96-106 *)
Definition fr_Turnout (response : bool) (address direction : Z) (power : bool) : CanFrame :=
  let i := id_setResponse (mkId kAccessorySwitch 0) response in
  let d := to_initData data0 in
  let d := to_setLocid d address in
  let d := to_setDirection d direction in
  let d := to_setPower d power in
  mkFrame i d.

(** constexpr.h:108-119 *)
Definition fr_S88Event (device contact oldState newState : Z) : CanFrame :=
  let d := s88_initData data0 in
  let d := s88_setSubtype d S88_RESPONSE in
  let d := s88_setDeviceId d device in
  let d := s88_setContactId d contact in
  let d := s88_setContactId d contact in
  let d := s88_setStates d oldState newState in
  mkFrame (mkId kS88Event 0) d.

(** constexpr.h:121-126 *)
Definition fr_S88Event_new (device contact newState : Z) : CanFrame :=
  let oldState := if newState =? SENSOR_OPEN then SENSOR_CLOSED else SENSOR_OPEN in
  fr_S88Event device contact oldState newState.

(** constexpr.h:128-153 *)
Definition fr_System (sub : Z) (response : bool) : CanFrame :=
  mkFrame (id_setResponse (mkId kSystemCommand 0) response)
          (sys_setSubcommand (sys_initData data0) sub).
Definition fr_System_Stop := fr_System kSubcommandSystemStop.
Definition fr_System_Go := fr_System kSubcommandSystemGo.
Definition fr_System_Halt := fr_System kSubcommandSystemHalt.

(** constexpr.h:155-161 *)
Definition fr_System_GetStatus : CanFrame :=
  mkFrame (id_setResponse (mkId kSystemCommand 0) false) (set_dlc data0 4).

(** constexpr.h:163-172 *)
Definition fr_System_LocoEmStop (response : bool) (address : Z) : CanFrame :=
  let d := sys_initData data0 in
  let d := set_dlc d 5 in
  let d := sys_setLocid d address in
  let d := sys_setSubcommand d kSubcommandLocoEmergencyStop in
  mkFrame (id_setResponse (mkId kSystemCommand 0) response) d.

(** constexpr.h:174-186 *)
Definition fr_LocoSpeed (response : bool) (uid velocity : Z) : CanFrame :=
  let d := set_dlc data0 6 in
  let d := setLocid d uid in
  let limitedVelocity := if velocity >? kMaxEngineVelocity then kMaxEngineVelocity else velocity in
  let d := dset d 4 (Z.shiftr limitedVelocity 8) in
  let d := dset d 5 limitedVelocity in
  mkFrame (id_setResponse (mkId kLocoSpeed 0) response) d.

(** constexpr.h:194-201 *)
Definition fr_LocoDirection (response : bool) (uid direction : Z) : CanFrame :=
  let d := set_dlc data0 5 in
  let d := setLocid d uid in
  let d := dset d 4 direction in
  mkFrame (id_setResponse (mkId kLocoDirection 0) response) d.

(** constexpr.h:203-217 *)
Definition fr_LocoFunction (response : bool) (uid function : Z) (onOff : bool) : CanFrame :=
  let d := set_dlc data0 6 in
  let d := setLocid d uid in
  let d := dset d 4 function in
  let d := dset d 5 (if onOff then 1 else 0) in
  mkFrame (id_setResponse (mkId kLocoFunction 0) response) d.

(** constexpr.h:219-222 *)
Definition limitToCANDataLength (v : Z) : Z := if v >? CanDataMaxLength then CanDataMaxLength else u8 v.

(** constexpr.h:232-241 *)
Definition fr_Config_Data_Header (streamLength crc : Z) : CanFrame :=
  let d := set_dlc data0 6 in
  let d := dset d 0 (Z.shiftr streamLength 24) in
  let d := dset d 1 (Z.shiftr streamLength 16) in
  let d := dset d 2 (Z.shiftr streamLength 8) in
  let d := dset d 3 streamLength in
  let d := dset d 4 (Z.shiftr crc 8) in
  let d := dset d 5 (Z.land crc 0xFF) in
  mkFrame (mkId kConfigDataStream 0) d.

(** constexpr.h:243-247: memcpy of 8 bytes from [data] *)
Definition fr_Config_Data (data : list Z) : res CanFrame :=
  bs <- rd_blk data 0 CanDataMaxLength ;;
  m <- wr (repeat 0 9) 0 bs ;;
  Ok (mkFrame (mkId kConfigDataStream 0) (mkData CanDataMaxLength m)).

(** constexpr.h:249-253 *)
Definition fr_Request_Config_Data_n (text : list Z) (msgLen : Z) : res CanFrame :=
  m <- c_strncpy (repeat 0 9) text kDataBufferLength ;;
  Ok (mkFrame (mkId kRequestConfigData 0) (mkData (limitToCANDataLength msgLen) m)).

(** constexpr.h:255-257 *)
Definition fr_Request_Config_Data (text : list Z) : res CanFrame :=
  n <- c_strlen text ;; fr_Request_Config_Data_n text (u8 n).
