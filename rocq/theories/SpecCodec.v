(* SpecCodec.v -- specification vocabulary for the wire formats.  It mentions the model only
   through the record [Data] (a length and nine bytes). *)
From Verif Require Export Messages.

Definition byte (b : Z) : Prop := 0 <= b < 256.
Definition is_u16 (x : Z) : Prop := 0 <= x < 65536.
Definition is_u32 (x : Z) : Prop := 0 <= x < 4294967296.

(** The CAN identifier as five adjacent fields, most significant first: 3 unused bits, 4 bits
    priority, 8 bits command, 1 bit response, 16 bits hash. *)
Definition bit_of (b : bool) : Z := if b then 1 else 0.
Definition id_value (top prio cmd : Z) (resp : bool) (hash : Z) : Z :=
  top * 536870912 + prio * 33554432 + cmd * 131072 + bit_of resp * 65536 + hash.
Definition id_fields_ok (top prio cmd hash : Z) : Prop :=
  0 <= top < 8 /\ 0 <= prio < 16 /\ 0 <= cmd < 256 /\ 0 <= hash < 65536.

(** The number spelled by four bytes, most significant first, and its inverse. *)
Definition be (a b c d : Z) : Z := a * 16777216 + b * 65536 + c * 256 + d.
Definition be_bytes (x : Z) : list Z :=
  [x / 16777216; (x / 65536) mod 256; (x / 256) mod 256; x mod 256].

(** A payload as the C++ type allows it: dlc is a uint8_t, nine uint8_t. *)
Definition payload_ok (d : Data) : Prop :=
  byte (dlc d) /\ List.length (dbytes d) = 9%nat /\ Forall byte (dbytes d).

(** ** Records with independently writable fields: what one write does *)

(** accessory packets: (address, direction, power) *)
Inductive twrite : Set := TAddr (a : Z) | TDir (d : Z) | TPow (p : bool).
Definition twrite_ok (w : twrite) : Prop :=
  match w with TAddr a => is_u32 a | TDir d => byte d | TPow _ => True end.
Definition tspec (s : Z * Z * bool) (w : twrite) : Z * Z * bool :=
  let '(a, d, p) := s in match w with TAddr a' => (a', d, p) | TDir d' => (a, d', p) | TPow p' => (a, d, p') end.

(** S88 payloads: (device, contact, old state, new state, time) *)
Inductive swrite : Set := SDevice (a : Z) | SContact (a : Z) | SStates (o n : Z) | STime (t : Z).
Definition swrite_ok (w : swrite) : Prop :=
  match w with SDevice a | SContact a => is_u32 a | SStates o n => byte o /\ byte n | STime t => is_u16 t end.
Definition sspec (s : Z * Z * Z * Z * Z) (w : swrite) : Z * Z * Z * Z * Z :=
  let '(dv, ct, o, n, t) := s in
  match w with
  | SDevice a => (a mod 65536, ct, o, n, t)
  | SContact a => (dv, a mod 65536, o, n, t)
  | SStates o' n' => (dv, ct, o', n', t)
  | STime t' => (dv, ct, o, n, t')
  end.

(** system messages: (subcommand, id) *)
Inductive ywrite : Set := YSub (c : Z) | YId (l : Z).
Definition ywrite_ok (w : ywrite) : Prop := match w with YSub c => byte c | YId l => is_u32 l end.
Definition yspec (s : Z * Z) (w : ywrite) : Z * Z :=
  let '(c, l) := s in match w with YSub c' => (c', l) | YId l' => (c, l') end.

(** the corresponding setter calls of the code *)
Definition tcall (d : Data) (w : twrite) : Data :=
  match w with TAddr a => to_setLocid d a | TDir x => to_setDirection d x | TPow p => to_setPower d p end.
Definition scall (d : Data) (w : swrite) : Data :=
  match w with
  | SDevice a => s88_setDeviceId d a | SContact a => s88_setContactId d a
  | SStates o n => s88_setStates d o n | STime t => s88_setTime d t
  end.
Definition ycall (d : Data) (w : ywrite) : Data :=
  match w with YSub c => sys_setSubcommand d c | YId l => sys_setLocid d l end.

(** Published address ranges of accessories (Märklin CS2 CAN protocol, section "Adressbereiche"). *)
Definition sx1_range (a : Z) : Prop := 0x2800 <= a <= 0x2BFF.
Definition mm_range (a : Z) : Prop := 0x3000 <= a <= 0x33FF.
Definition dcc_range (a : Z) : Prop := 0x3800 <= a <= 0x3FFF.

(** The protocol class a turnout packet can express. *)
Definition protocol_class (p : RailProtocol) : RailProtocol :=
  match p with
  | P_MM1 | P_MM2 | P_MFX => P_MM1
  | P_SX1 | P_SX2 => P_SX1
  | P_DCC => P_DCC
  | P_UNKNOWN => P_UNKNOWN
  end.
(** First id of the block of 1024 ids of a protocol: turnouts and locomotives (for the unknown
    protocol the code uses 0xFF00, which is not the start of a block of 1024) *)
Definition turnout_base (p : RailProtocol) : Z :=
  match p with
  | P_MM1 | P_MM2 | P_MFX => 0x3000 | P_SX1 | P_SX2 => 0x2800 | P_DCC => 0x3800 | P_UNKNOWN => 0xFF00
  end.
Definition loco_base (p : RailProtocol) : Z :=
  match p with
  | P_MM1 | P_MM2 => 0 | P_MFX => 0x4000 | P_SX1 | P_SX2 => 0x0800 | P_DCC => 0xC000 | P_UNKNOWN => 0xFF00
  end.
