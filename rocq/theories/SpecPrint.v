(* SpecPrint.v -- specification vocabulary for the console: numbers as text, and what engines,
   accessory packets and received frames look like when printed.  Nothing here uses the printing
   functions of the model. *)
From Verif Require Export SpecStation.

(** ** Numbers *)
(** the digits of x >= 0, most significant first; [fuel] bounds their number *)
Fixpoint digits (fuel : nat) (base x : Z) : list Z :=
  match fuel with
  | O => []
  | S f => if x <? base then [x] else digits f base (x / base) ++ [x mod base]
  end.
Definition digits_of (base x : Z) : list Z := digits (S (Z.to_nat (Z.log2 x))) base x.
Definition digit_char (d : Z) : Z := if d <? 10 then 48 + d else 97 + (d - 10).
(** decimal, with a minus sign for negative numbers *)
Definition dec_text (x : Z) : list Z :=
  if x <? 0 then zs "-" ++ map digit_char (digits_of 10 (- x)) else map digit_char (digits_of 10 x).
(** hexadecimal, lower case *)
Definition hex_text (x : Z) : list Z := map digit_char (digits_of 16 x).
(** the prefix: none for zero *)
Definition hex_mark (x : Z) : list Z := if x =? 0 then [] else zs "0x".
(** at least n characters, filled up with zeros behind the prefix, or with blanks before it *)
Definition hex_zeros (n : nat) (x : Z) : list Z :=
  hex_mark x ++ repeat 48 (n - List.length (hex_mark x ++ hex_text x)) ++ hex_text x.
Definition hex_blanks (n : nat) (x : Z) : list Z :=
  repeat 32 (n - List.length (hex_mark x ++ hex_text x)) ++ hex_mark x ++ hex_text x.
(** the same in capitals *)
Definition capital (c : Z) : Z := if (97 <=? c) && (c <=? 122) then c - 32 else c.
(** a 32-bit number taken for a signed one *)
Definition as_signed (x : Z) : Z := if x <? 2 ^ 31 then x else x - 2 ^ 32.

Definition newline : list Z := [10].
(** the characters before the first NUL *)
Fixpoint until_nul (v : list Z) : list Z :=
  match v with [] => [] | c :: r => if c =? 0 then [] else c :: until_nul r end.

(** ** Engines *)
Definition short_text (s : ShortInfo) : list Z :=
  zs "  EngineShortInfo: " ++
  match si_avail s with
  | EMPTY => zs "Empty." ++ newline
  | _ => zs "'" ++ until_nul (si_name s) ++ zs "'"
  end.
Definition details_text (d : LocoData) : list Z :=
  zs "UID: " ++ hex_blanks 10 (ld_uid d) ++ zs " Addr: " ++ dec_text (as_signed (ld_addr d)) ++
  zs " V: " ++ dec_text (ld_vel d) ++ zs " Dir: " ++ dec_text (ld_dir d) ++ zs ", F: " ++ hex_zeros 4 (ld_fbits d) ++ newline.
Definition engine_text (l : Loco) : list Z :=
  short_text (lo_info l) ++
  match si_avail (lo_info l) with
  | FULL_DETAILS => details_text (lo_data l) ++ zs " Proto: " ++ until_nul (lo_proto l) ++ newline
  | _ => []
  end.
(** an engine as the C++ types allow it *)
Definition details_ok (d : LocoData) : Prop :=
  is_u32 (ld_uid d) /\ is_u16 (ld_vel d) /\ byte (ld_dir d) /\ is_u32 (ld_addr d) /\ is_u32 (ld_fbits d).

(** ** Accessory packets *)
Definition position_text (x : Z) : list Z :=
  if x =? 0 then zs "(off, round, red)" else if x =? 1 then zs "(on, straight, green)"
  else if x =? 2 then zs "(yellow, left)" else if x =? 3 then zs "(white)" else [].
Definition turnout_text (d : Data) : list Z :=
  zs "Turnout: " ++ hex_blanks 10 (uid_of d) ++
  zs ", Human Value: " ++ dec_text (as_signed ((uid_of d + 1) mod 2 ^ 32)) ++
  zs ", Position: " ++ dec_text (b d 4) ++ zs " " ++ position_text (b d 4) ++
  zs " Power: " ++ (if b d 5 =? 0 then zs "0 (off, button release)" else zs "1 (on, button press)").

(** ** Frames *)
Definition payload (d : Data) : list Z := firstn (Z.to_nat (dlc d)) (dbytes d).
Definition payload_hex (d : Data) : list Z := flat_map (fun x => zs " " ++ hex_zeros 2 x) (payload d).
Definition system_text (d : Data) : list Z :=
  zs "System Command. " ++
  if dlc d <? 5 then zs "Invalid command." ++ newline
  else zs " Subcommand: " ++
    (if b d 4 =? 0 then zs "STOP!" ++ newline
     else if b d 4 =? 1 then zs "GO!" ++ newline
     else if b d 4 =? 2 then zs "Halt!" ++ newline
     else if b d 4 =? 3 then []
     else if b d 4 =? 0x0C then zs "Identifier." ++ newline
     else if b d 4 =? 0x0A then zs "OVERLOAD!" ++ newline
     else if b d 4 =? 0x80 then zs "Reset." ++ newline
     else if b d 4 =? 0x0B then zs "Status." ++ newline
     else zs "unknown." ++ newline).
(** the text for a received frame, config data excepted *)
Definition frame_text (cmd : Z) (d : Data) : list Z :=
  if cmd =? CMD_SYSTEM then system_text d
  else if cmd =? CMD_ACCESSORY then zs "Accessory Switch. Details: " ++ turnout_text d ++ newline
  else if cmd =? CMD_DEBUG_TEXT then zs "Debug Text: '" ++ payload d ++ zs "'" ++ newline
  else if (cmd =? CMD_SPEED) || (cmd =? CMD_DIRECTION) || (cmd =? CMD_FUNCTION) || (cmd =? CMD_PING) || (cmd =? CMD_REQUEST_CONFIG) then []
  else zs "Unknown or not implemented. Dump: " ++ hex_zeros 2 cmd ++ newline ++ payload_hex d ++ newline.
(** ... and for config data nobody is waiting for *)
Definition ignored_text (d : Data) : list Z := zs "Ignoring ConfigData Stream: " ++ payload d.

(** an identifier *)
Definition identifier_text (prio cmd : Z) (resp : bool) (hash : Z) : list Z :=
  zs "Prio: " ++ map capital (hex_zeros 4 prio) ++ zs ", Command: " ++ map capital (hex_zeros 4 cmd) ++
  zs ", Response: " ++ map capital (hex_zeros 4 (bit_of resp)) ++ zs ", Hash: " ++ map capital (hex_zeros 6 hash).

(** ** Parsers *)
(** a parser's complaint about a frame *)
Definition parser_text (sp : SP) (d : Data) : list Z :=
  match sp_state sp with
  | SS_IDLE => zs "Received uninteresting config data (IDLE)." ++ newline
  | SS_DONE => zs "Received uninteresting config data (STREAM_DONE)." ++ newline
  | SS_FIRST => if (dlc d =? 6) || (dlc d =? 7) then []
                else (if dlc d <? 6 then zs "Undersized" else zs "Oversized") ++ zs " first packet! Aborting parse." ++ newline
  | SS_DATA => if dlc d =? 8 then [] else zs "Undersized data packet! Aborting parse." ++ newline
  end.

(** the calls that may print *)
Definition may_print (o : op) : bool :=
  match o with
  | OnStation _ (HandlePacket _) | OnStation _ (HandleAccessoryPacket _ _) | OnStation _ (HandleConfigDataStream _)
  | OnStation _ (HandleSystemCommand _ _) | ParserAddMessage _ _ | ListPrintAll _ => true
  | _ => false
  end.
