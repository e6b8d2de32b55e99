(* SpecNet.v -- specification vocabulary for several stations on one CAN bus (C67-C69).  The bus is
   not part of the library: it is the environment the stations are used in. *)
From Verif Require Export World SpecStation SpecReach.

(** A frame of a CAN bus: a 32-bit identifier and at most eight bytes. *)
Definition can_frame (f : CanFrame) : Prop := is_u32 (fid f) /\ payload_ok (fdata f) /\ dlc (fdata f) <= 8.

(** calls of the system, engine and accessory callbacks *)
Definition is_notice (e : event) : bool :=
  match e with
  | EvSystem _ _ _ | EvVelocity _ _ _ | EvVelocityAll _ _ | EvFunction _ _ _ _ | EvDirection _ _ _
  | EvChangeDirection _ _ | EvAccessory _ _ _ => true
  | _ => false
  end.
Definition notices (t : list event) : list event := filter is_notice t.

(** command and response field of an identifier, and what a station with callbacks c is told by a
    frame (nothing by the frames of a config stream) *)
Definition command_field (i : Z) : Z := (i / 2 ^ 17) mod 256.
Definition response_field (i : Z) : bool := (i / 2 ^ 16) mod 2 =? 1.
Definition tells (c : Cbs) (f : CanFrame) : list event :=
  heard c (command_field (fid f)) (response_field (fid f)) (fdata f).

(** The network: the objects of all stations; for each station the frames that have passed on the
    bus and that it has not handled yet; everything that has been on the bus with its sender (no
    number: a device that does not run the library); all calls of system, engine and accessory
    callbacks so far with the station that made them. *)
Record net : Type := mkNet {
  n_world : world;
  n_inbox : nat -> list CanFrame;
  n_bus : list (option nat * CanFrame);
  n_log : list (option nat * event)
}.
Definition idle_net (w : world) : net := mkNet w (fun _ => []) [] [].

(** the bus hands every frame to every station except the one that sent it *)
Definition broadcast (from : option nat) (fs : list CanFrame) (n : net) : net :=
  mkNet (n_world n)
        (fun i => match from with
                  | Some s => if Nat.eqb i s then n_inbox n i else n_inbox n i ++ fs
                  | None => n_inbox n i ++ fs
                  end)
        (n_bus n ++ map (pair from) fs) (n_log n).
(** the call [o] of the library is made; what it transmits goes on the bus *)
Definition perform (lw : Z) (o : op) (n : net) : res net :=
  '(w', t) <- step lw o (n_world n) ;;
  Ok (broadcast (on_station o) (sent t)
        (mkNet w' (n_inbox n) (n_bus n) (n_log n ++ map (pair (on_station o)) (notices t)))).

(** one move: the application makes a call; station s handles the next frame waiting for it; a
    foreign device sends a frame *)
Inductive move : Type := Do (o : op) | Deliver (s : nat) | Foreign (f : CanFrame).
Definition move_net (lw : Z) (m : move) (n : net) : res net :=
  match m with
  | Do o => perform lw o n
  | Deliver s =>
      match n_inbox n s with
      | [] => Ok n
      | f :: r =>
          perform lw (OnStation s (HandlePacket f))
            (mkNet (n_world n) (fun i => if Nat.eqb i s then r else n_inbox n i) (n_bus n) (n_log n))
      end
  | Foreign f => Ok (broadcast None [f] n)
  end.
Fixpoint run_net (lw : Z) (ms : list move) (n : net) : res net :=
  match ms with [] => Ok n | m :: r => n' <- move_net lw m n ;; run_net lw r n' end.

(** the frames on the bus that were not sent by station i *)
Definition for_station (i : nat) (l : list (option nat * CanFrame)) : list CanFrame :=
  map snd (filter (fun x => match fst x with Some s => negb (Nat.eqb i s) | None => true end) l).
(** the notices station i has given *)
Definition told_by (i : nat) (l : list (option nat * event)) : list event :=
  map snd (filter (fun x => match fst x with Some s => Nat.eqb i s | None => false end) l).

(** the applications call anything except begin() and the handlers of received frames (received
    frames come from the bus) *)
Definition ordinary (m : move) : Prop :=
  match m with
  | Do (OnStation _ o) => is_receive o = false /\ (forall u c, o <> Begin u c)
  | _ => True
  end.

(** moves of a network in which the stations only send commands: every sender can transmit, every
    receiver has an engine callback *)
Definition commanding (w : world) (m : move) : Prop :=
  match m with
  | Do (OnStation s o) => is_command o /\ args_ok o /\ exists st, station_at w s st /\ cb_tx (st_cbs st) <> None
  | Deliver s => exists st, station_at w s st /\ cb_eng (st_cbs st) <> None
  | _ => False
  end.
(** the commands sent by stations other than i, in the order of sending *)
Definition commands_for (i : nat) (ms : list move) : list sop :=
  flat_map (fun m => match m with Do (OnStation s o) => if Nat.eqb i s then [] else [o] | _ => [] end) ms.
Definition delivery (m : move) : Prop := match m with Deliver _ => True | _ => False end.

(** ** A station among other traffic *)
Definition handles (s : nat) (fs : list CanFrame) : list op := map (fun f => OnStation s (HandlePacket f)) fs.
Definition is_config_data (f : CanFrame) : bool := command_field (fid f) =? CMD_CONFIG_DATA.
