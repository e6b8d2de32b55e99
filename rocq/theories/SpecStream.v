(* SpecStream.v -- specification vocabulary for config-data streams (C25-C28, C33, C54). *)
From Verif Require Export World SpecStation SpecText SpecCrc.

(** end-of-stream notifications to consumers *)
Definition is_end (e : event) : bool := match e with EvStreamComplete _ | EvStreamAborted _ => true | _ => false end.
Definition ends (t : list event) : list event := filter is_end t.

(** parser p of world w is a library parser with fields sp *)
Definition lib_at (w : world) (p : nat) (sp : SP) : Prop := nth_error (w_parsers w) p = Some (LibP sp).
(** its text parser is in one of the states a text parser can have (C34) and both components agree
    on the consumer *)
Definition usable (sp : SP) : Prop := exists a, fits a /\ sp_text sp = parser a (sp_cons sp).

(** a header frame announcing [len] bytes with checksum [crc] *)
Definition header_for (d : Data) (len crc : Z) : Prop :=
  payload_ok d /\ (dlc d = 6 \/ dlc d = 7) /\ be (b d 0) (b d 1) (b d 2) (b d 3) = len /\ b d 4 * 256 + b d 5 = crc.
(** a data frame and the bytes it carries *)
Definition data_frame (d : Data) : Prop := payload_ok d /\ dlc d = 8.
Definition content (d : Data) : list Z := firstn 8 (dbytes d).
Definition received (ds : list Data) : list Z := flat_map content ds.

(** the calls of a download: set the consumer, start, header, data frames *)
Definition download (p c : nat) (hd : Data) (ds : list Data) : list op :=
  ParserSetConsumer p (Some c) :: ParserStartStream p :: map (ParserAddMessage p) (hd :: ds).

(** calls on parser p *)
Definition on_parser (p : nat) (o : op) : Prop :=
  match o with
  | ParserStartStream q | ParserSetConsumer q _ | ParserAddMessage q _ | ParserReset q => q = p
  | _ => False
  end.
Definition is_start (o : op) : bool := match o with ParserStartStream _ => true | _ => false end.
Definition in_progress (sp : SP) : bool := match sp_state sp with SS_FIRST | SS_DATA => true | _ => false end.

(** consumer c is an object of the user's own *)
Definition user_consumer (w : world) (c : nat) : Prop := nth_error (w_conss w) c = Some UserC.
(** the calls telling consumer c about the given lines *)
Definition consumed (c : nat) (l : list report) : list event :=
  map (fun r => let '(s, k, v) := as_buffers r in EvConsume c s k v) l.

(** frames passed to the library have nine bytes, each a byte *)
Definition frames_ok (o : op) : Prop :=
  match o with
  | OnStation _ (HandlePacket f) => payload_ok (fdata f)
  | OnStation _ (HandleConfigDataStream d) => payload_ok d
  | ParserAddMessage _ d => payload_ok d
  | _ => True
  end.
Definition all_usable (w : world) : Prop := forall p sp, lib_at w p sp -> usable sp.

(** ** Building the frames of a stream *)
(** the bytes cut into pieces of eight *)
Fixpoint pieces (n : nat) (bs : list Z) : list (list Z) :=
  match n with O => [] | S n' => firstn 8 bs :: pieces n' (skipn 8 bs) end.
(** the data frames built from pieces of text *)
Fixpoint build (l : list (list Z)) : res (list CanFrame) :=
  match l with [] => Ok [] | x :: r => f <- fr_Config_Data x ;; fs <- build r ;; Ok (f :: fs) end.

(** a burst of at most 16 bits, or an odd number of bits *)
Definition corrupted (good bad : list Z) : Prop :=
  zlen good = zlen bad /\
  ((exists e k, 0 <= k /\ 0 < e < 2 ^ 16 /\ difference good bad = Z.shiftl e k) \/ Z.odd (ones (difference good bad)) = true).
