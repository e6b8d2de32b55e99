(* SpecBus.v -- vocabulary for a bus that delivers from inside the transmit callback (C99, C100).
   The bus is not part of the library. *)
From Verif Require Export SpecReentry SpecNet.

(** [hears tx]: the stations that get the frames given to transmit callback tx *)
Definition deliveries (hears : nat -> list nat) (tx : nat) (f : CanFrame) : list op :=
  map (fun s => OnStation s (HandlePacket f)) (hears tx).

(** ** Direct delivery: the transmit callback itself hands the frame to each of these stations, one
    after the other, and returns only then; no other callback calls the library *)
Definition direct (hears : nat -> list nat) (h : list event) : code :=
  match rev h with EvTx tx f :: _ => ops_code (deliveries hears tx f) | _ => Ret end.

(** ** Queued delivery: the transmit callback only keeps the frame; the stations handle what was
    kept, in order, after the call of the library has returned *)
Definition backlog (hears : nat -> list nat) (t : list event) : list op :=
  flat_map (fun e => match e with EvTx tx f => deliveries hears tx f | _ => [] end) t.
Fixpoint queued (lw : Z) (hears : nat -> list nat) (ops : list op) (w : world) : res (world * list event) :=
  match ops with
  | [] => Ok (w, [])
  | o :: r =>
      '(w1, t1) <- step lw o w ;;
      '(w2, t2) <- run lw (backlog hears t1) w1 ;;
      '(w3, t3) <- queued lw hears r w2 ;;
      Ok (w3, t1 ++ t2 ++ t3)
  end.

(** all hashes are the 16-bit values the library computes, and frames go to existing stations *)
Definition proper_hashes (w : world) : Prop := Forall (fun st => is_u16 (st_hash st)) (w_stations w).
Definition hears_existing (w : world) (hears : nat -> list nat) : Prop :=
  forall tx, Forall (fun s => (s < List.length (w_stations w))%nat) (hears tx).

(** ** Commands on a direct bus *)
(** the call is a command of a station that can transmit, heard only by stations with an engine callback *)
Definition direct_command (w : world) (hears : nat -> list nat) (o : op) : Prop :=
  match o with
  | OnStation s x => is_command x /\ args_ok x /\ exists st tx, station_at w s st /\ cb_tx (st_cbs st) = Some tx /\
      Forall (fun i => exists st', station_at w i st' /\ cb_eng (st_cbs st') <> None) (hears tx)
  | _ => False
  end.
(** what the listening stations are told by a command *)
Definition told_directly (w : world) (hears : nat -> list nat) (o : op) : list event :=
  match o with
  | OnStation s x =>
      match nth_error (w_stations w) s with
      | Some st =>
          match cb_tx (st_cbs st) with
          | Some tx => flat_map (fun i => match nth_error (w_stations w) i with Some st' => reception (st_cbs st') x | None => [] end) (hears tx)
          | None => []
          end
      | None => []
      end
  | _ => []
  end.

(** ** Repeaters: the accessory callback of every station answers every packet by sending some
    accessory packet of its own station *)
Definition repeats (react : list event -> code) (w : world) : Prop :=
  forall s st a, nth_error (w_stations w) s = Some st -> cb_acc (st_cbs st) = Some a ->
    forall h d r, exists x p dir pw k, react (h ++ [EvAccessory a d r]) = Call (OnStation s (SendAccessoryPacket x p dir pw)) k.
Definition delivers (react : list event -> code) (hears : nat -> list nat) : Prop :=
  forall h tx f, react (h ++ [EvTx tx f]) = ops_code (deliveries hears tx f).
(** every station transmits, listens to accessory packets, and is heard by some station *)
Definition ring (w : world) (hears : nat -> list nat) : Prop :=
  proper_hashes w /\ hears_existing w hears /\
  Forall (fun st => cb_acc (st_cbs st) <> None /\ exists tx, cb_tx (st_cbs st) = Some tx /\ hears tx <> []) (w_stations w).
Definition frames_given (t : list event) : nat := List.length (sent t).
