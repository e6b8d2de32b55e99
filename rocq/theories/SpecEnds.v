(* SpecEnds.v -- specification vocabulary for C71: how often streams end over all histories. *)
From Verif Require Export World SpecStation SpecStream.

(** the number of library parsers that are waiting for or receiving a stream *)
Definition open_obj (x : PObj) : bool := match x with LibP sp => in_progress sp | UserP _ _ => false end.
Definition open_streams (w : world) : nat := List.length (filter open_obj (w_parsers w)).
(** the number of calls of startStream(): by the application, and by stations for their requests *)
Definition is_start_call (e : event) : bool := match e with EvCfg _ CStart => true | _ => false end.
Definition stream_starts (ops : list op) (t : list event) : nat :=
  (List.length (filter is_start ops) + List.length (filter is_start_call t))%nat.
(** calls of the user's end-of-stream callbacks *)
Definition is_end_callback (e : event) : bool := match e with EvEndComplete _ _ | EvEndAborted _ _ => true | _ => false end.
Definition end_callbacks (t : list event) : list event := filter is_end_callback t.
(** all calls of consumers and of their end callbacks *)
Definition is_consumer_call (e : event) : bool :=
  match e with EvConsume _ _ _ _ | EvStreamComplete _ | EvStreamAborted _ | EvEndComplete _ _ | EvEndAborted _ _ => true | _ => false end.
Definition consumer_calls (t : list event) : list event := filter is_consumer_call t.
