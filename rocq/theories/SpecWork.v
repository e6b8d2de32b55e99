(* SpecWork.v -- vocabulary for how much one call can do (C95). *)
From Verif Require Export World SpecStream.

(** lines reported to consumers *)
Definition is_line (e : event) : bool := match e with EvConsume _ _ _ _ => true | _ => false end.
Definition is_tx (e : event) : bool := match e with EvTx _ _ => true | _ => false end.
Definition count (f : event -> bool) (t : list event) : nat := List.length (filter f t).
(** calls that hand a received frame to the library *)
Definition delivers (o : op) : bool :=
  match o with
  | OnStation _ (HandlePacket _) | OnStation _ (HandleConfigDataStream _) | ParserAddMessage _ _ => true
  | _ => false
  end.
(** frames a call may send *)
Definition may_send (o : op) : nat :=
  match o with
  | OnStation _ x =>
      match x with
      | RequestEngine _ _ => 3
      | RequestEngineList _ _ => 2
      | RequestEngineAllFunctions _ => 16
      | SendAccessoryPacket _ _ _ _ | RequestEngineDirection _ | SendEngineDirection _ _ | RequestEngineVelocity _ | SendEngineVelocity _ _ | RequestEngineFunction _ _
      | SendEngineFunction _ _ _ | SendEmergencyStop _ | SendSystemStop | SendSystemGo | SendPacket _ => 1
      | _ => 0
      end
  | _ => 0
  end.
(** calls of objects outside or inside the library that a call may make *)
Definition may_call (o : op) : nat :=
  match o with
  | OnStation _ x =>
      match x with
      | RequestEngine _ _ => 5
      | RequestEngineList _ _ => 6
      | HandlePacket _ | HandleConfigDataStream _ => 7
      | FinishCurrentConfigRequest | AbortCurrentConfigRequest | NotifyConfigStreamReceived | Begin _ _ => 3
      | HandleAccessoryPacket _ _ | HandleSystemCommand _ _ | HandleLocoDirection _ | HandleLocoSpeed _ | HandleLocoFunction _ => 1
      | _ => may_send o
      end
  | ParserAddMessage _ _ => 6
  | ParserReset _ => 2
  | _ => 0
  end.
(** streams a call may end, by completion or abortion *)
Definition may_end (o : op) : nat :=
  match o with
  | OnStation _ x =>
      match x with
      | HandlePacket _ | HandleConfigDataStream _ | FinishCurrentConfigRequest | AbortCurrentConfigRequest | NotifyConfigStreamReceived | Begin _ _ | RequestEngineList _ _ => 1
      | _ => 0
      end
  | ParserAddMessage _ _ | ParserReset _ => 1
  | _ => 0
  end.
