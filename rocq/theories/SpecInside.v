(* SpecInside.v -- vocabulary for a user consumer that calls back while it is handed a line (C118). *)
From Verif Require Export SpecReentry.

(** user consumer c of parser p is in the middle of a stream *)
Definition receiving (w : world) (p c : nat) (sp : SP) : Prop :=
  lib_at w p sp /\ sp_state sp = SS_DATA /\ sp_cons sp = Some c /\ consumer_at w c UserC /\ usable sp /\ initialised (crc_acc (sp_crc sp)).
(** r is the first line that is complete with data frame d *)
Definition first_line (sp : SP) (d : Data) (r : report) : Prop :=
  exists a rest, fits a /\ sp_text sp = parser a (sp_cons sp) /\ snd (aadd a (content d)) = r :: rest.
(** consumer c is handed line r *)
Definition line_event (c : nat) (r : report) : event := let '(s, k, v) := as_buffers r in EvConsume c s k v.
(** the call a station makes to pass the frame on; a frame given to the parser itself is passed on by nobody *)
Definition passed_on (o : op) (p : nat) (d : Data) : list event := match o with ParserAddMessage _ _ => [] | _ => [EvCfg p (CAdd d)] end.
(** a parser that has received and expects nothing, in state x with consumer c *)
Definition fresh_parser (x : SState) (c : option nat) : SP := mkSP x 0 (parser astart c) crc_reset c.
(** finish the request of station s, then ask through the same parser for the engine list, for consumer c' *)
Definition restart_ops (s p : nat) (off : Z) (c' : nat) : list op :=
  [OnStation s FinishCurrentConfigRequest; ParserSetConsumer p (Some c'); OnStation s (RequestEngineList off (Some p))].
