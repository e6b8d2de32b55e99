(* SpecLogText.v -- what the logging builds print (C84-C86).  The texts of the template's build are
   in SpecPrint.v and SpecConsumer.v; nothing here uses the model of the logging sections. *)
From Verif Require Export SpecLogged SpecConsumer SpecReentry.

(** text that some settings print *)
Definition opt (c : bool) (text : list Z) : list Z := if c then text else [].

(** ** Calls *)
(** the number shown for a turnout: its uid without bits 12 and 13 *)
Definition shown_turnout (uid : Z) : Z := uid - 4096 * (uid / 4096 mod 4).
Definition setting_turnout (uid dir : Z) (on : bool) : list Z :=
  zs "Setting turnout " ++ dec_text (shown_turnout uid) ++ zs " to position " ++
  (if dir =? 0 then zs "RED " else zs "GREEN") ++ zs " " ++ (if on then zs "(ON) " else zs "(OFF)") ++ newline.
Definition no_name : list Z := zs "Station::RequestEngine: No Engine Name given, dropping request." ++ newline.
Definition still_busy : list Z := zs "Station::RequestEngine: Request in progress, dropping request." ++ newline.

(** ** Lines of config data handed to a library consumer *)
Definition announced (who : string) (r : report) : list Z :=
  let '(s, k, v) := r in
  zs who ++ zs "::consumeConfigData(" ++ [34] ++ until_nul s ++ [34] ++ zs ", " ++ [34] ++ until_nul k ++ [34] ++ zs ", " ++
  [34] ++ until_nul v ++ [34] ++ zs ")" ++ newline.
Definition setting_text (r : report) : list Z :=
  let '(s, k, _) := r in
  match attribute_of s k with
  | Some Uid => zs "Setting UID" ++ newline
  | Some Protocol => zs "Setting protocol" ++ newline
  | Some Address => zs "Setting Address" ++ newline
  | None => []
  end.
(** the lines [rs], told to a consumer that was [x] before it was told the lines [before]; [lines]
    says whether the setting prints them *)
Fixpoint list_log (lines : bool) (free : nat) (rs : list report) : list Z :=
  match rs with
  | [] => []
  | r :: rest => opt lines (announced "EngineBrowser" r) ++ list_talk free [r] ++ list_log lines (free - List.length (names_in [r])) rest
  end.
Definition lines_log (lines : bool) (x : CObj) (before rs : list report) : list Z :=
  match x with
  | UserC => []
  | LocoC (Def (Some _)) _ => opt lines (flat_map (fun r => announced "EngineControl" r ++ setting_text r) rs)
  | LocoC _ _ => opt lines (flat_map (announced "EngineControl") rs)
  | ListC _ i _ _ _ => list_log lines (free_count i - List.length (names_in before)) rs
  end.
(** the end of a download: an engine's consumer prints the engine *)
Definition end_text (w' : world) (x : CObj) (text : list Z) : Prop :=
  match x with
  | LocoC (Def (Some e)) _ => exists l, engine_at w' e l /\ (details_ok (lo_data l) -> text = downloaded_text l)
  | _ => text = []
  end.

(** ** Frames of a stream *)
(** the setting prints the events of a stream, its packets, everything *)
Definition shows_events (g : logcfg) : bool := 2 <=? lg_level g.
Definition shows_packets (g : logcfg) : bool := 3 <=? lg_level g.
Definition shows_all (g : logcfg) : bool := 10 <=? lg_level g.
(** [sum] is the checksum held when the header arrives *)
Definition header_log (g : logcfg) (hd : Data) (len crc sum : Z) : list Z :=
  opt (shows_packets g)
    (zs " Stream length: " ++ dec_text (as_signed len) ++ zs " Bytes. CRC requested: " ++ hex_zeros 4 crc ++
     zs " CRC actual: " ++ hex_zeros 4 sum ++ zs "." ++ newline ++
     (if dlc hd =? 7 then zs "Compressed Data!" ++ newline else [])).
Definition continues_log (g : logcfg) (rest sum : Z) : list Z :=
  opt (shows_packets g) (zs "Stream continues. Bytes remaining: " ++ dec_text (as_signed rest) ++ zs ", Current CRC: " ++ hex_zeros 4 sum ++ newline).
Definition complete_log (g : logcfg) : list Z := opt (shows_events g) (zs "Stream complete!" ++ newline).
Definition mismatch_log (g : logcfg) (crc sum : Z) : list Z :=
  opt (shows_events g) (zs "CRC Error - Stream aborted. CRC requested: " ++ hex_zeros 4 crc ++ zs ", CRC actual: " ++ hex_zeros 4 sum ++ zs "." ++ newline).
(** the log of the data frames of a stream of [len] bytes with checksum [crc] for the consumer [x];
    [a] is the state of the line parser, [sums k] the checksum of the first k frames; k frames are
    done, which reported the lines [before]; [final] is what the consumer prints at the end *)
Fixpoint data_log (g : logcfg) (x : CObj) (len crc : Z) (sums : nat -> Z) (final : list Z)
                  (a : auto) (before : list report) (k : nat) (ds : list Data) : list Z :=
  match ds with
  | [] => []
  | d :: r =>
      let rest := len - 8 * Z.of_nat (S k) in
      let lines := snd (aadd a (content d)) in
      opt (lg_dump g) (content d) ++
      lines_log (shows_events g) x before lines ++
      (if rest =? 0 then if crc =? sums (S k) then complete_log g ++ final else mismatch_log g crc (sums (S k))
       else continues_log g rest (sums (S k))) ++
      data_log g x len crc sums final (fst (aadd a (content d))) (before ++ lines) (S k) r
  end.

(** ** Frames received by a station *)
Definition identifier_log (g : logcfg) (prio cmd : Z) (resp : bool) (hash : Z) : list Z :=
  opt (lg_raw g) (identifier_text prio cmd resp hash ++ newline).
Definition request_log (g : logcfg) (d : Data) : list Z :=
  opt (shows_all g) (zs "Request Config Data. Payload: " ++ payload d ++ newline).
Definition stream_log (g : logcfg) : list Z := opt (shows_all g) (zs "Config Data Stream." ++ newline).
Definition content_log (g : logcfg) (d : Data) : list Z := opt (shows_all g) (payload_hex d ++ zs " '" ++ payload d ++ zs "' ").
