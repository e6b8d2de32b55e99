(* SpecValues.v -- specification vocabulary for the enumerations, the address ranges and engine
   objects (C80-C82). *)
From Verif Require Export SpecStation SpecFrames SpecLoco SpecConsumer SpecPrint.

(** ** Enumerations: the enumerators in the order of Constants.h, and the codes of the protocol *)
Definition commands : list Z :=
  [kSystemCommand; klocoDiscovery; kMfxBind; kMfxVerify; kLocoSpeed; kLocoDirection; kLocoFunction; kReadConfig; kWriteConfig;
   kAccessorySwitch; kAccessoryConfig; kS88Poll; kS88Event; kSX1Event; kPing; kUpdateOffer; kReadConfigData; kBootloaderCan;
   kBootloaderTrack; kStatusdataConfig; kRequestConfigData; kConfigDataStream; k60128DataStream; kDebugText].
Definition command_codes : list Z :=
  [0; 1; 2; 3; 4; 5; 6; 7; 8; 0x0B; 0x0C; 0x10; 0x11; 0x12; 0x18; 0x19; 0x1A; 0x1B; 0x1C; 0x1D; 0x20; 0x21; 0x22; 0x42].
Definition subcommands : list Z :=
  [kSubcommandSystemStop; kSubcommandSystemGo; kSubcommandSystemHalt; kSubcommandLocoEmergencyStop; kSubcommandLocoStopCycle;
   kSubcommandLocoDataprotocol; kSubcommandAccessoryTime; kSubcommandMfxFastRead; kSubcommandDataprotocolOn;
   kSubcommandMfxSetRegistrationCount; kSubcommandSystemOverload; kSubcommandSystemStatus; kSubcommandSystemIdentifier;
   kSubcommandMfxSeek; kSubcommandSystemReset].
Definition subcommand_codes : list Z := [0; 1; 2; 3; 4; 5; 6; 7; 8; 9; 0x0A; 0x0B; 0x0C; 0x30; 0x80].

(** ** Address ranges *)
Inductive range : Set :=
  MMEngineFunction | SX1Engine | MMFunction | MMEngine | SX1Accessory | MMAccessory | DCCAccessory | MFXEngine | SX2Engine | DCCEngine.
Definition first_id (r : range) : Z :=
  match r with
  | MMEngineFunction => kMMEngineFunctionAddrStart | SX1Engine => kSX1AddrStart | MMFunction => kMMFunctionAddrStart | MMEngine => kMMEngineAddrStart
  | SX1Accessory => kSX1AccessoryAddrStart | MMAccessory => kMMAccessoryAddrStart | DCCAccessory => kDCCAccessoryAddrStart
  | MFXEngine => kMFXAddrStart | SX2Engine => kSX2AddrStart | DCCEngine => kDCCAddrStart
  end.
Definition last_id (r : range) : Z :=
  match r with
  | MMEngineFunction => kMMEngineFunctionAddrStop | SX1Engine => kSX1AddrStop | MMFunction => kMMFunctionAddrStop | MMEngine => kMMEngineAddrStop
  | SX1Accessory => kSX1AccessoryAddrStop | MMAccessory => kMMAccessoryAddrStop | DCCAccessory => kDCCccessoryAddrStop
  | MFXEngine => kMFXAddrStop | SX2Engine => kSX2AddrStop | DCCEngine => kDCCAddrStop
  end.
Definition within (r : range) (a : Z) : Prop := first_id r <= a <= last_id r.
(** how many ids each range has *)
Definition room (r : range) : Z :=
  match r with MFXEngine | SX2Engine | DCCEngine => 0x4000 | DCCAccessory => 0x800 | _ => 0x400 end.
Definition turnout_range (p : RailProtocol) : option range :=
  match p with P_MM1 | P_MM2 | P_MFX => Some MMAccessory | P_SX1 | P_SX2 => Some SX1Accessory | P_DCC => Some DCCAccessory | P_UNKNOWN => None end.
Definition loco_range (p : RailProtocol) : option range :=
  match p with P_MM1 | P_MM2 => Some MMEngineFunction | P_MFX => Some MFXEngine | P_SX1 | P_SX2 => Some SX1Engine | P_DCC => Some DCCEngine | P_UNKNOWN => None end.

(** ** Engine objects *)
(** what a program can know about an engine *)
Record engine : Type := mkE {
  e_avail : Availability; e_name : list Z; e_uid : Z; e_vel : Z; e_dir : Z; e_addr : Z; e_fun : Z -> bool; e_proto : list Z }.
Definition blank_engine (a : Availability) (name : list Z) : engine := mkE a name 0 0 4 0 (fun _ => false) [].
(** what each call does to it; text arguments end at their first NUL *)
Definition engine_step (e : engine) (o : eop) : engine :=
  match o with
  | ESetName n => blank_engine NAME_KNOWN (firstn 32 (until_nul n))
  | ESetNameConditional n =>
      if (negb (avail_eqb (e_avail e) EMPTY) && if list_eq_dec Z.eq_dec (firstn 32 (until_nul n)) (e_name e) then true else false)%bool
      then e else blank_engine NAME_KNOWN (firstn 32 (until_nul n))
  | EReset => blank_engine EMPTY []
  | ESetAvailability a => mkE a (e_name e) (e_uid e) (e_vel e) (e_dir e) (e_addr e) (e_fun e) (e_proto e)
  | ESetUid u => mkE (e_avail e) (e_name e) u (e_vel e) (e_dir e) (e_addr e) (e_fun e) (e_proto e)
  | ESetVelocity v => mkE (e_avail e) (e_name e) (e_uid e) v (e_dir e) (e_addr e) (e_fun e) (e_proto e)
  | ESetDirection d => mkE (e_avail e) (e_name e) (e_uid e) (e_vel e) d (e_addr e) (e_fun e) (e_proto e)
  | EChangeDirection => mkE (e_avail e) (e_name e) (e_uid e) (e_vel e) (if e_dir e =? 1 then 2 else if e_dir e =? 2 then 1 else e_dir e) (e_addr e) (e_fun e) (e_proto e)
  | ESetAddress a => mkE (e_avail e) (e_name e) (e_uid e) (e_vel e) (e_dir e) a (e_fun e) (e_proto e)
  | ESetFunction f on => mkE (e_avail e) (e_name e) (e_uid e) (e_vel e) (e_dir e) (e_addr e) (fun g => if g =? f then on else e_fun e g) (e_proto e)
  | ESetProtocolString s => mkE (e_avail e) (e_name e) (e_uid e) (e_vel e) (e_dir e) (e_addr e) (e_fun e) (firstn 8 (until_nul s))
  end.
(** arguments: texts contain a NUL, function numbers are below 32 *)
Definition engine_call_ok (o : eop) : Prop :=
  match o with
  | ESetName s | ESetNameConditional s | ESetProtocolString s => In 0 s
  | ESetFunction f _ => 0 <= f < 32
  | _ => True
  end.
(** the object l answers all queries as e says *)
Definition answers (l : Loco) (e : engine) : Prop :=
  (si_isFree (lo_info l) = true <-> e_avail e = EMPTY) /\ (si_isNameKnown (lo_info l) = true <-> e_avail e <> EMPTY) /\
  (si_isNameOnlyKnown (lo_info l) = true <-> e_avail e = NAME_KNOWN) /\ (lo_isFullDetailsKnown l = true <-> e_avail e = FULL_DETAILS) /\
  c_str (si_name (lo_info l)) = Ok (e_name e) /\
  ld_uid (lo_data l) = e_uid e /\ ld_getUidMasked (lo_data l) = e_uid e mod 65536 /\ ld_vel (lo_data l) = e_vel e /\ ld_dir (lo_data l) = e_dir e /\ ld_addr (lo_data l) = e_addr e /\
  (forall f, 0 <= f < 32 -> ld_getFunction (lo_data l) f = Ok (e_fun e f)) /\
  ((List.length (e_proto e) < 8)%nat -> c_str (lo_proto l) = Ok (e_proto e)).
