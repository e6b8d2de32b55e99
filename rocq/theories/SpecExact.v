(* SpecExact.v -- vocabulary for the exact boundary of undefined behaviour (C113, C114). *)
From Verif Require Export SpecSafe SpecNumber SpecLogged.

(** ** Objects and calls *)
(** An engine whose fields have their sizes and whose name is a C string.  Unlike [sound_engine]
    (C57) this does not require the protocol string to be terminated. *)
Definition decent_engine (l : Loco) : Prop := sound_short (lo_info l) /\ List.length (lo_proto l) = 8%nat.
Definition decent (w : world) : Prop :=
  Forall (fun st => sound_cbs w (st_cbs st)) (w_stations w) /\ Forall (sound_parser w) (w_parsers w) /\
  Forall (sound_consumer w) (w_conss w) /\ Forall decent_engine (w_engines w).
(** valid arguments as for C57, but a protocol string may have any length *)
Definition legal_op (w : world) (o : op) : Prop :=
  valid_op w o \/ exists e s, o = OnEngine e (ESetProtocolString s) /\ (e < List.length (w_engines w))%nat /\ c_string s.

(** ** Texts that make a reader of numbers look for more *)
(** white space, a sign, 0x, digits, and nothing else *)
Definition unended_hex (v : list Z) : Prop :=
  exists blanks sg minus mark digits, v = blanks ++ sg ++ mark ++ digits /\
    Forall whitespace blanks /\ sign sg minus /\ (mark = [] \/ hexmark mark) /\ Forall is_hexdigit digits.
Definition unended_dec (v : list Z) : Prop :=
  exists blanks sg minus digits, v = blanks ++ sg ++ digits /\
    Forall whitespace blanks /\ sign sg minus /\ Forall is_decdigit digits.

(** ** Lines that make a consumer read out of bounds *)
(** An engine consumer with an engine: a uid or address of 26 characters that is a number to its
    end.  A list consumer: a name of 26 characters while a table entry is free; a count of 26
    characters that is a number to its end; a section of 11 characters that is neither loknamen nor
    numloks. *)
Definition fatal (x : CObj) (r : report) : Prop :=
  let '(s, k, v) := r in
  match x with
  | LocoC (Def (Some _)) _ =>
      (attribute_of s k = Some Uid \/ attribute_of s k = Some Address) /\ List.length v = 26%nat /\ unended_hex v
  | ListC _ table _ _ _ =>
      match list_entry_of r with
      | NameEntry v => Exists (fun i => free_entry i = true) table /\ full 26 v
      | CountEntry v => List.length v = 26%nat /\ unended_dec v
      | NoEntry => taken_for (zs "numloks") s = false /\ full 11 s
      end
  | _ => False
  end.
(** the consumer when the lines [before] have been stored *)
Definition at_line (x : CObj) (before : list report) : CObj :=
  match x with
  | ListC co table n off cb => ListC co (filled table (names_in before)) n off cb
  | _ => x
  end.
Definition fatal_lines (x : CObj) (rs : list report) : Prop :=
  exists before r after, rs = before ++ r :: after /\ fatal (at_line x before) r.

(** ** Ends of streams that make a consumer read out of bounds *)
(** consumer c would mark an engine as fully known, and print it, whose protocol string fills its
    field once the lines rs have been stored *)
Definition unprintable (lw : Z) (w : world) (c : nat) (rs : list report) : Prop :=
  exists e cb l, consumer_at w c (LocoC (Def (Some e)) cb) /\ engine_at w e l /\ nulfree (lo_proto (after_lines lw l rs)).
(** the payload announces a stream of length 0 *)
Definition announces_nothing (d : Data) : Prop :=
  (dlc d = 6 \/ dlc d = 7) /\ dget d 0 = 0 /\ dget d 1 = 0 /\ dget d 2 = 0 /\ dget d 3 = 0.
(** the payload is the last one of the stream, and the checksum is right *)
Definition ends_well (sp : SP) (d : Data) : Prop :=
  (sp_remaining sp - 8) mod 2 ^ 32 = 0 /\ exists crc, crc_feed (sp_crc sp) (content d) = Ok crc /\ crc_isValid crc = Ok true.

(** ** The boundary *)
Definition breaks (lw : Z) (w : world) (p : nat) (d : Data) : Prop :=
  exists sp c x, lib_at w p sp /\ sp_cons sp = Some c /\ consumer_at w c x /\
    ((sp_state sp = SS_FIRST /\ announces_nothing d /\ unprintable lw w c []) \/
     (sp_state sp = SS_DATA /\ dlc d = 8 /\ exists a, sp_text sp = parser a (Some c) /\
      (fatal_lines x (snd (aadd a (content d))) \/
       (ends_well sp d /\ unprintable lw w c (snd (aadd a (content d))))))).
Definition undefined_by (lw : Z) (w : world) (o : op) : Prop := exists p d, hands_over w o p d /\ breaks lw w p d.
