(* Loco.v -- RR32Can/Locomotive.{h,cpp} *)
From Verif Require Export CTypes.

(** Locomotive.h:20 *)
Inductive Availability : Set := EMPTY | NAME_KNOWN | FULL_DETAILS.

Definition avail_eqb (a b : Availability) : bool :=
  match a, b with
  | EMPTY, EMPTY | NAME_KNOWN, NAME_KNOWN | FULL_DETAILS, FULL_DETAILS => true
  | _, _ => false
  end.

(** LocomotiveShortInfo, Locomotive.h:64-65; [si_name] has 33 elements. *)
Record ShortInfo : Type := mkSI { si_avail : Availability; si_name : list Z }.

(** Locomotive.h:67 *)
Definition erased_name : list Z := repeat 0 33.
(** Locomotive.h:22 constructor and 26-29 LocomotiveShortInfo::reset *)
Definition si_reset : ShortInfo := mkSI EMPTY erased_name.
(** Locomotive.h:55, 57, 59 *)
Definition si_isNameKnown (s : ShortInfo) : bool := negb (avail_eqb (si_avail s) EMPTY).
Definition si_isNameOnlyKnown (s : ShortInfo) : bool := avail_eqb (si_avail s) NAME_KNOWN.
Definition si_isFree (s : ShortInfo) : bool := avail_eqb (si_avail s) EMPTY.
(** Locomotive.h:31-35 setName for an object whose dynamic type is LocomotiveShortInfo.
    Simplification: [name] does not point into the object itself (it would be erased by reset); see Own.v. *)
Definition si_setName (s : ShortInfo) (name : list Z) : res ShortInfo :=
  n <- c_strncpy (si_name si_reset) name kEngineNameLength ;; Ok (mkSI NAME_KNOWN n).
(** Locomotive.h:42-49 *)
Definition si_setNameConditional (s : ShortInfo) (name : list Z) : res (ShortInfo * bool) :=
  same <- (if avail_eqb (si_avail s) EMPTY then Ok false
           else strncmp_eq name (si_name s) (Z.to_nat kEngineNameLength)) ;;
  if same : bool then Ok (s, false) else s' <- si_setName s name ;; Ok (s', true).
(** Locomotive.cpp:11-19 print: bytes printed *)
Definition si_print (s : ShortInfo) : res (list Z) :=
  match si_avail s with
  | EMPTY => Ok (zs "  EngineShortInfo: " ++ zs "Empty." ++ nl)
  | _ => n <- c_str (si_name s) ;; Ok (zs "  EngineShortInfo: " ++ zs "'" ++ n ++ zs "'")
  end.

(** LocomotiveData, Locomotive.h:142-146 *)
Record LocoData : Type := mkLD { ld_uid : Z; ld_vel : Z; ld_dir : Z; ld_addr : Z; ld_fbits : Z }.

(** Locomotive.h:81, 86-93, 142-146: default construction and reset coincide *)
Definition ld_reset : LocoData := mkLD 0 0 DIR_UNKNOWN 0 0.
(** Locomotive.h:95, 101, 104, 114 *)
Definition ld_setUid (d : LocoData) (u : Z) := mkLD u (ld_vel d) (ld_dir d) (ld_addr d) (ld_fbits d).
Definition ld_setVelocity (d : LocoData) (v : Z) := mkLD (ld_uid d) v (ld_dir d) (ld_addr d) (ld_fbits d).
Definition ld_setDirection (d : LocoData) (x : Z) := mkLD (ld_uid d) (ld_vel d) x (ld_addr d) (ld_fbits d).
Definition ld_setAddress (d : LocoData) (a : Z) := mkLD (ld_uid d) (ld_vel d) (ld_dir d) a (ld_fbits d).
(** Locomotive.h:99 *)
Definition ld_getUidMasked (d : LocoData) : Z := Z.land (ld_uid d) 0xFFFF.
(** Locomotive.h:106-112 *)
Definition ld_changeDirection (d : LocoData) : LocoData :=
  if ld_dir d =? DIR_FORWARD then ld_setDirection d DIR_REVERSE
  else if ld_dir d =? DIR_REVERSE then ld_setDirection d DIR_FORWARD
  else d.
(** [mask = 1; mask <<= function] on uint32_t: UB for shifts >= 32 *)
Definition fmask (function : Z) : res Z := if function <? 32 then Ok (u32 (Z.shiftl 1 function)) else UB BadShift.
(** Locomotive.h:119-127 *)
Definition ld_setFunction (d : LocoData) (function : Z) (onOff : bool) : res LocoData :=
  mask <- fmask function ;;
  let b := if onOff then Z.lor (ld_fbits d) mask else Z.land (ld_fbits d) (Z.lxor 0xFFFFFFFF mask) in
  Ok (mkLD (ld_uid d) (ld_vel d) (ld_dir d) (ld_addr d) b).
(** Locomotive.h:129-137 *)
Definition ld_getFunction (d : LocoData) (function : Z) : res bool :=
  mask <- fmask function ;; Ok (negb (Z.land (ld_fbits d) mask =? 0)).
(** Locomotive.cpp:21-24 print: bytes printed.  %i of a uint32_t prints it as int. *)
Definition ld_print (d : LocoData) : list Z :=
  zs "UID: " ++ fmt_altx 10 (ld_uid d) ++ zs " Addr: " ++ fmt_d (s32 (ld_addr d)) ++
  zs " V: " ++ fmt_d (ld_vel d) ++ zs " Dir: " ++ fmt_d (u8 (ld_dir d)) ++
  zs ", F: " ++ fmt_alt0x 4 (ld_fbits d) ++ nl.

(** Locomotive, Locomotive.h:152-178; [lo_proto] has 8 elements *)
Record Loco : Type := mkLoco { lo_info : ShortInfo; lo_data : LocoData; lo_proto : list Z }.

(** Locomotive.h:156 *)
Definition kProtocolNameMaxLength := 8.
(** Locomotive.h:160-167 constructor and reset *)
Definition lo_reset : Loco := mkLoco si_reset ld_reset (repeat 0 8).
(** Locomotive.h:31-35 setName for an object whose dynamic type is Locomotive:
    the virtual reset() is Locomotive::reset *)
Definition lo_setName (l : Loco) (name : list Z) : res Loco :=
  n <- c_strncpy (si_name (lo_info lo_reset)) name kEngineNameLength ;;
  Ok (mkLoco (mkSI NAME_KNOWN n) (lo_data lo_reset) (lo_proto lo_reset)).
(** Locomotive.h:42-49 on a Locomotive *)
Definition lo_setNameConditional (l : Loco) (name : list Z) : res (Loco * bool) :=
  same <- (if avail_eqb (si_avail (lo_info l)) EMPTY then Ok false
           else strncmp_eq name (si_name (lo_info l)) (Z.to_nat kEngineNameLength)) ;;
  if same : bool then Ok (l, false) else l' <- lo_setName l name ;; Ok (l', true).
(** Locomotive.h:54 *)
Definition lo_setAvailability (l : Loco) (a : Availability) : Loco :=
  mkLoco (mkSI a (si_name (lo_info l))) (lo_data l) (lo_proto l).
(** Locomotive.h:169 *)
Definition lo_isFullDetailsKnown (l : Loco) : bool := avail_eqb (si_avail (lo_info l)) FULL_DETAILS.
(** Locomotive.h:173 *)
Definition lo_setProtocolString (l : Loco) (s : list Z) : res Loco :=
  p <- c_strncpy (lo_proto l) s kProtocolNameMaxLength ;; Ok (mkLoco (lo_info l) (lo_data l) p).
(** LocomotiveData members used on a Locomotive *)
Definition lo_upd_data (l : Loco) (d : LocoData) : Loco := mkLoco (lo_info l) d (lo_proto l).
(** Locomotive.cpp:26-32 print: bytes printed *)
Definition lo_print (l : Loco) : res (list Z) :=
  a <- si_print (lo_info l) ;;
  match si_avail (lo_info l) with
  | FULL_DETAILS => p <- c_str (lo_proto l) ;;
                    Ok (a ++ ld_print (lo_data l) ++ zs " Proto: " ++ p ++ nl)
  | _ => Ok a
  end.
