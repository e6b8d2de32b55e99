(* SpecProtocol.v -- vocabulary for C101: what a config-data parser does, as a machine that sees
   only the messages addressed to it. *)
From Verif Require Export World Query SpecStream SpecQuery.

(** ** One receiver *)
(** nothing is awaited; a header is; so many bytes with this checksum were announced and these have
    come; everything has come *)
Inductive phase : Type := Resting | Expecting | Receiving (announced checksum : Z) (got : list Z) | Finished.
(** with the state of the text automaton of C34 and the consumer to be told *)
Record receiver : Type := mkReceiver { v_phase : phase; v_text : auto; v_to : option nat }.
Definition new_receiver : receiver := mkReceiver Resting astart None.

Inductive message : Type := Aim (c : option nat) | Start | Frame (d : Data) | Stop.

Definition tell (q : option nat) (e : nat -> event) : list event := match q with Some c => [e c] | None => [] end.
Definition tell_lines (q : option nat) (l : list report) : list event := match q with Some c => consumed c l | None => [] end.
Definition busy (v : receiver) : bool := match v_phase v with Expecting | Receiving _ _ _ => true | _ => false end.

(** the checksum of some bytes: by C101_checksum the polynomial remainder of C29 *)
Definition crc16 (bs : list Z) : Z := fold_left crc_update bs 0xFFFF.
Definition all_came (announced : Z) (got : list Z) : bool := (announced - zlen got) mod 2 ^ 32 =? 0.
(** what a message does to a receiver, and what its consumer is told *)
Definition on_message (v : receiver) (m : message) : receiver * list event :=
  match m with
  | Aim c => (mkReceiver (v_phase v) (v_text v) c, [])
  | Start => (mkReceiver Expecting (v_text v) (v_to v), [])
  | Stop => (new_receiver, if busy v then tell (v_to v) EvStreamAborted else [])
  | Frame d =>
      match v_phase v with
      | Resting | Finished => (v, [])
      | Expecting =>
          if (dlc d =? 6) || (dlc d =? 7) then
            let announced := be (b d 0) (b d 1) (b d 2) (b d 3) in
            if announced =? 0 then (mkReceiver Finished (v_text v) (v_to v), tell (v_to v) EvStreamComplete)
            else (mkReceiver (Receiving announced (b d 4 * 256 + b d 5) []) (v_text v) (v_to v), [])
          else (new_receiver, tell (v_to v) EvStreamAborted)
      | Receiving announced checksum got =>
          if dlc d =? 8 then
            let (text, lines) := aadd (v_text v) (content d) in
            let got := got ++ content d in
            let said := tell_lines (v_to v) lines in
            if all_came announced got then
              if crc16 got =? checksum
              then (mkReceiver Finished text (v_to v), said ++ tell (v_to v) EvStreamComplete)
              else (mkReceiver Resting text (v_to v), said ++ tell (v_to v) EvStreamAborted)
            else (mkReceiver (Receiving announced checksum got) text (v_to v), said)
          else (new_receiver, tell (v_to v) EvStreamAborted)
      end
  end.

(** ** All receivers over a history *)
(** the deeds that address a parser: the application's calls, and the stations' calls *)
Definition addressed (x : deed) : option (nat * message) :=
  match x with
  | Called (ParserSetConsumer p c) => Some (p, Aim c)
  | Called (ParserStartStream p) | Happened (EvCfg p CStart) => Some (p, Start)
  | Called (ParserAddMessage p d) | Happened (EvCfg p (CAdd d)) => Some (p, Frame d)
  | Called (ParserReset p) | Happened (EvCfg p CReset) => Some (p, Stop)
  | _ => None
  end.
Definition tells_consumer (x : deed) : bool :=
  match x with Happened (EvConsume _ _ _ _) | Happened (EvStreamComplete _) | Happened (EvStreamAborted _) => true | _ => false end.
Definition traffic (x : deed) : bool := match addressed x with Some _ => true | None => tells_consumer x end.

(** the receivers by number; None: not a parser of the library *)
Definition receivers : Type := list (option receiver).
Definition after_traffic (vs : receivers) (x : deed) : receivers :=
  match addressed x with
  | Some (p, m) => match nth_error vs p with Some (Some v) => upd p (Some (fst (on_message v m))) vs | _ => vs end
  | None => vs
  end.
(** the messages of a history, each followed by what the machines say consumers are told *)
Fixpoint predicted (vs : receivers) (l : list deed) : list deed :=
  match l with
  | [] => []
  | x :: r =>
      match addressed x with
      | Some (p, m) => x :: map Happened (match nth_error vs p with Some (Some v) => snd (on_message v m) | _ => [] end)
      | None => []
      end ++ predicted (after_traffic vs x) r
  end.

(** the messages of a history to parser p *)
Definition messages_to (p : nat) (l : list deed) : list message :=
  flat_map (fun x => match addressed x with Some (q, m) => if Nat.eqb q p then [m] else [] | None => [] end) l.

(** ** Receivers and objects *)
Definition shown_state (v : receiver) : SState :=
  match v_phase v with Resting => SS_IDLE | Expecting => SS_FIRST | Receiving _ _ _ => SS_DATA | Finished => SS_DONE end.
(** the fields of a parser object in the state of receiver v *)
Definition embodies (x : PObj) (v : option receiver) : Prop :=
  match x, v with
  | LibP sp, Some v =>
      sp_state sp = shown_state v /\ sp_cons sp = v_to v /\ sp_text sp = parser (v_text v) (v_to v) /\ fits (v_text v) /\
      match v_phase v with
      | Expecting => sp_crc sp = crc_reset
      | Receiving announced checksum got => sp_remaining sp = (announced - zlen got) mod 2 ^ 32 /\ sp_crc sp = mkCrc (Def (crc16 got)) (Def checksum)
      | _ => True
      end
  | UserP _ _, None => True
  | _, _ => False
  end.
Definition embodied (w : world) (vs : receivers) : Prop := Forall2 embodies (w_parsers w) vs.
