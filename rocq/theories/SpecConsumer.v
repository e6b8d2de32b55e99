(* SpecConsumer.v -- specification vocabulary for the consumers of config data (C49-C53). *)
From Verif Require Export SpecStream SpecLoco SpecPrint.

(** ** Recognising words *)
(** s begins with p *)
Fixpoint begins (s p : list Z) : bool :=
  match p, s with
  | [], _ => true
  | x :: p', y :: s' => (x =? y) && begins s' p'
  | _ :: _, [] => false
  end.
(** A token is taken for a word if it is a beginning of that word (the empty token included), or
    the word followed by a NUL character and anything. *)
Definition taken_for (word token : list Z) : bool := begins word token || begins token (word ++ [0]).

(** ** What a line says about the engine being downloaded *)
Inductive attribute : Set := Uid | Protocol | Address.
Definition attribute_of (section key : list Z) : option attribute :=
  if taken_for (zs "lokomotive") section then
    if taken_for (zs "uid") key then Some Uid
    else if taken_for (zs "typ") key then Some Protocol
    else if taken_for (zs "adresse") key then Some Address
    else None
  else None.

(** strtoul(v, nullptr, 16), strtol(v, nullptr, 10) *)
Definition hex_value (lw : Z) (v : list Z) : Z := match c_strtoul16 lw (v ++ [0]) with Ok x => x | UB _ => 0 end.
Definition dec_value (lw : Z) (v : list Z) : Z := match c_strtol10 lw (v ++ [0]) with Ok x => x | UB _ => 0 end.

(** hexadecimal numerals *)
Definition hexdigit (c d : Z) : Prop :=
  (48 <= c <= 57 /\ d = c - 48) \/ (97 <= c <= 102 /\ d = c - 97 + 10) \/ (65 <= c <= 70 /\ d = c - 65 + 10).
Inductive hexdigits : Z -> list Z -> Z -> Prop :=
| HexEnd : forall acc, hexdigits acc [] acc
| HexDigit : forall acc c d r x, hexdigit c d -> hexdigits (acc * 16 + d) r x -> hexdigits acc (c :: r) x.
(** the text t is the number x, with or without 0x *)
Definition numeral (t : list Z) (x : Z) : Prop :=
  exists ds, ds <> [] /\ (t = ds \/ t = zs "0x" ++ ds) /\ hexdigits 0 ds x.
Definition decdigit (c d : Z) : Prop := 48 <= c <= 57 /\ d = c - 48.
Inductive decdigits : Z -> list Z -> Z -> Prop :=
| DecEnd : forall acc, decdigits acc [] acc
| DecDigit : forall acc c d r x, decdigit c d -> decdigits (acc * 10 + d) r x -> decdigits acc (c :: r) x.

(** the engine after one of its attributes has been given the value v *)
Definition with_attribute (lw : Z) (l : Loco) (a : attribute) (v : list Z) : Loco :=
  let d := lo_data l in
  match a with
  | Uid => mkLoco (lo_info l) (mkLD (hex_value lw v mod 2 ^ 32) (ld_vel d) (ld_dir d) (ld_addr d) (ld_fbits d)) (lo_proto l)
  | Address => mkLoco (lo_info l) (mkLD (ld_uid d) (ld_vel d) (ld_dir d) (hex_value lw v mod 2 ^ 32) (ld_fbits d)) (lo_proto l)
  | Protocol => let s := until_nul v in mkLoco (lo_info l) d (firstn 8 s ++ repeat 0 (8 - List.length s))
  end.
Definition after_line (lw : Z) (l : Loco) (r : report) : Loco :=
  let '(s, k, v) := r in
  match attribute_of s k with Some a => with_attribute lw l a v | None => l end.
Definition after_lines (lw : Z) (l : Loco) (rs : list report) : Loco := fold_left (after_line lw) rs l.
(** the values given to an attribute, in order *)
Definition attribute_eqb (a a' : attribute) : bool :=
  match a, a' with Uid, Uid | Protocol, Protocol | Address, Address => true | _, _ => false end.
Definition values_of (a : attribute) (rs : list report) : list (list Z) :=
  flat_map (fun r => let '(s, k, v) := r in
                     match attribute_of s k with Some a' => if attribute_eqb a a' then [v] else [] | None => [] end) rs.

Definition with_engine (w : world) (e : nat) (l : Loco) : world :=
  mkW (w_stations w) (w_parsers w) (w_conss w) (upd e l (w_engines w)).
Definition with_consumer (w : world) (c : nat) (x : CObj) : world :=
  mkW (w_stations w) (w_parsers w) (upd c x (w_conss w)) (w_engines w).
Definition engine_at (w : world) (e : nat) (l : Loco) : Prop := nth_error (w_engines w) e = Some l.
Definition consumer_at (w : world) (c : nat) (x : CObj) : Prop := nth_error (w_conss w) c = Some x.

(** lines that fit into the parser's buffers with room for a NUL after the value *)
Definition line_fits (r : report) : Prop :=
  let '(s, k, v) := r in (List.length s <= 11)%nat /\ (List.length k <= 11)%nat /\ (List.length v < 26)%nat.

(** ** What a line says to the list of engines *)
Inductive list_entry : Type := NameEntry (v : list Z) | CountEntry (v : list Z) | NoEntry.
Definition list_entry_of (r : report) : list_entry :=
  let '(s, k, v) := r in
  if taken_for (zs "loknamen") s then NameEntry v
  else if taken_for (zs "numloks") s then if taken_for (zs "wert") k then CountEntry v else NoEntry
  else NoEntry.
Definition names_in (rs : list report) : list (list Z) :=
  flat_map (fun r => match list_entry_of r with NameEntry v => [until_nul v] | _ => [] end) rs.
Definition counts_in (rs : list report) : list (list Z) :=
  flat_map (fun r => match list_entry_of r with CountEntry v => [v] | _ => [] end) rs.
Definition named (t : list Z) : ShortInfo := mkSI NAME_KNOWN (t ++ repeat 0 (33 - List.length t)).
Definition free_entry (i : ShortInfo) : bool := match si_avail i with EMPTY => true | _ => false end.
(** the names go to the free entries, in order; names left over are dropped *)
Fixpoint filled (table : list ShortInfo) (names : list (list Z)) : list ShortInfo :=
  match table with
  | [] => []
  | i :: r => if free_entry i
              then match names with n :: ns => named n :: filled r ns | [] => table end
              else i :: filled r names
  end.
(** lines whose section can be printed *)
Definition list_line_fits (r : report) : Prop :=
  let '(s, k, v) := r in line_fits r /\ (List.length s <= 10)%nat.

(** the console text for the lines, if [free] entries of the table are free *)
Fixpoint list_talk (free : nat) (rs : list report) : list Z :=
  match rs with
  | [] => []
  | r :: rest =>
      match list_entry_of r with
      | NameEntry v => match free with
                       | O => zs "No free Engine buffer found." ++ newline ++ list_talk O rest
                       | S n => zs "Storing Engine " ++ until_nul v ++ newline ++ list_talk n rest
                       end
      | CountEntry _ => list_talk free rest
      | NoEntry => let '(s, _, _) := r in
                   (if taken_for (zs "numloks") s then []
                    else zs "Received config data for uninteresting section '" ++ until_nul s ++ zs "'." ++ newline) ++ list_talk free rest
      end
  end.
Definition free_count (i : list ShortInfo) : nat := List.length (filter free_entry i).
(** the console text at the end of an engine's download *)
Definition downloaded_text (l : Loco) : list Z := zs "Downloaded Engine: " ++ engine_text l ++ newline.

(** ** Notifications at the end of a stream: consumer notified, callback notified *)
Definition is_note (e : event) : bool :=
  match e with EvStreamComplete _ | EvStreamAborted _ | EvEndComplete _ _ | EvEndAborted _ _ => true | _ => false end.
Definition notes (t : list event) : list event := filter is_note t.
Definition callback_note (x : option nat) (e : nat -> event) : list event := match x with Some cb => [e cb] | None => [] end.

(** frames of a stream as they arrive at station s *)
Definition arriving (s : nat) (id : Z) (ds : list Data) : list op :=
  map (fun d => OnStation s (HandlePacket (mkFrame id d))) ds.
(** downloading engine e at station s with parser p and engine consumer c: the user's calls, then
    the frames of the answer *)
Definition engine_download (s p c e : nat) (id : Z) (frames : list Data) : list op :=
  [ParserSetConsumer p (Some c); LocoSetEngine c (Some e); OnStation s (RequestEngine (RefEngine e) (Some p))] ++ arriving s id frames.
(** downloading a part of the list of engines *)
Definition list_download (s p c : nat) (off id : Z) (frames : list Data) : list op :=
  [ParserSetConsumer p (Some c); OnStation s (RequestEngineList off (Some p))] ++ arriving s id frames.
(** the text parser is between two lines, the last section seen being sec *)
Definition between_lines (sp : SP) (sec : list Z) : Prop :=
  sp_text sp = parser (mkA Between sec [] []) (sp_cons sp) /\ (List.length sec <= 11)%nat.
(** the data frames carry the document d followed by filler without '[' and '.' *)
Definition carries (ds : list Data) (d : doc) : Prop :=
  Forall data_frame ds /\ exists filler, free_of [SQ_OPEN; DOT] filler /\ received ds = show_doc d ++ filler.
(** a complete stream: header announcing all data frames and their checksum *)
Definition proper_stream (hd : Data) (ds : list Data) : Prop :=
  exists crc, header_for hd (8 * zlen ds) crc /\ checksum_is (received ds) crc /\ ds <> [] /\ 8 * zlen ds < 2 ^ 32 /\ Forall data_frame ds.
(** an identifier with the config-data command *)
Definition config_id (id : Z) : Prop := exists top prio resp h, id_fields_ok top prio CMD_CONFIG_DATA h /\ id = id_value top prio CMD_CONFIG_DATA resp h.
(** a token one character too long for the parser *)
Definition overlong (t : list Z) : Prop :=
  (exists s, t = [SQ_OPEN] ++ s /\ free_of [SQ_CLOSE] s /\ List.length s = 12%nat) \/
  (exists k, t = [DOT] ++ k /\ free_of [EQUALS; NEWLINE] k /\ List.length k = 12%nat) \/
  (exists k v, t = [DOT] ++ k ++ [EQUALS] ++ v /\ free_of [EQUALS; NEWLINE] k /\ (List.length k <= 11)%nat /\
               free_of [NEWLINE] v /\ List.length v = 27%nat).
(** the data frames carry the document d, then an overlong token, then anything *)
Definition carries_broken (ds : list Data) (d : doc) (rest : list Z) : Prop :=
  Forall data_frame ds /\ exists gap tok, free_of [SQ_OPEN; DOT] gap /\ overlong tok /\ received ds = show_doc d ++ gap ++ tok ++ rest.
(** a request for config data, to be delivered to parser p, that the station will not drop *)
Definition config_request (w : world) (sp : SP) (o : sop) (p : nat) : Prop :=
  (exists off, byte off /\ o = RequestEngineList off (Some p)) \/
  (exists r av name, refers_to w r av name /\ av <> EMPTY /\ in_progress sp = false /\ o = RequestEngine r (Some p)).
