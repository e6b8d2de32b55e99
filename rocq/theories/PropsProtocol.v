(* PropsProtocol.v -- property theorem C101: parsers over all histories.  Vocabulary: SpecProtocol.v *)
From Verif Require Import SpecProtocol SpecConsumer ProofsText ProofsProtocol Demo DemoStream.

(** ** C101 *)
(** Whatever an application calls and whatever frames arrive, on any stations, parsers and
    consumers in any order: consumers are told exactly what the receivers of SpecProtocol.v say,
    right after the message concerned, and the parsers end in the state the messages addressed to
    them lead to. *)
Theorem C101_told_as_predicted : forall lw ops w w' t vs, embodied w vs -> Forall frames_ok ops -> run lw ops w = Ok (w', t) ->
  filter traffic (deeds lw ops w) = predicted vs (deeds lw ops w) /\ embodied w' (fold_left after_traffic (deeds lw ops w) vs).
Proof. exact protocol. Qed.
Print Assumptions C101_told_as_predicted.
(** getStreamState() of a parser is a function of the messages addressed to it alone. *)
Theorem C101_state_shown : forall lw ops w w' t vs p v, embodied w vs -> Forall frames_ok ops -> run lw ops w = Ok (w', t) -> nth_error vs p = Some (Some v) ->
  q_getStreamState w' p = Ok (shown_state (fold_left (fun v m => fst (on_message v m)) (messages_to p (deeds lw ops w)) v)).
Proof. exact state_shown. Qed.
Print Assumptions C101_state_shown.
(** The receivers compare checksums in the sense of C29. *)
Theorem C101_checksum : forall bs c, crc16 bs = c <-> checksum_is bs c.
Proof. exact crc16_checksum. Qed.
Print Assumptions C101_checksum.
(** A new parser is a new receiver. *)
Theorem C101_new_parser : embodies (LibP sp_new) (Some new_receiver).
Proof. exact fresh_embodied. Qed.
Print Assumptions C101_new_parser.

Definition demo_receivers : receivers := [Some (mkReceiver Resting astart (Some 0%nat)); Some (mkReceiver Resting astart (Some 1%nat)); None].
(** an engine is asked for, the header and the first frame come, and the list is asked for instead *)
Definition demo_cut : list op :=
  engine_download 0 0 0 0 demo_id (firstn 2 (head (show_doc demo_doc) :: body (show_doc demo_doc))) ++ [OnStation 0 (RequestEngineList 0 (Some 1%nat))].
(** and the same with the whole download *)
Definition demo_whole : list op := engine_download 0 0 0 0 demo_id (head (show_doc demo_doc) :: body (show_doc demo_doc)).
Example C101_case : embodied demo demo_receivers /\ Forall frames_ok demo_cut /\ Forall frames_ok demo_whole /\
  (exists hd d t w', run 64 demo_cut demo = Ok (w', t) /\ q_getStreamState w' 0 = Ok SS_IDLE /\ q_getStreamState w' 1 = Ok SS_FIRST /\
    predicted demo_receivers (deeds 64 demo_cut demo) =
      [Called (ParserSetConsumer 0 (Some 0%nat)); Happened (EvCfg 0 CStart); Happened (EvCfg 0 (CAdd hd)); Happened (EvCfg 0 (CAdd d));
       Happened (EvCfg 0 CReset); Happened (EvStreamAborted 0); Happened (EvCfg 1 CStart)]) /\
  (exists t w', run 64 demo_whole demo = Ok (w', t) /\ q_getStreamState w' 0 = Ok SS_DONE).
Proof.
  split.
  { constructor; [|constructor; [|constructor; [exact Logic.I|constructor]]]; (split; [reflexivity|split; [reflexivity|split; [vm_compute; reflexivity|split; [apply start_fits|exact Logic.I]]]]). }
  split; [apply frames_b; vm_compute; reflexivity|]. split; [apply frames_b; vm_compute; reflexivity|].
  split; [eexists _, _, _, _; split; [vm_compute; reflexivity|]; split; [vm_compute; reflexivity|]; split; [vm_compute; reflexivity|vm_compute; reflexivity]|].
  eexists _, _. split; [vm_compute; reflexivity|vm_compute; reflexivity].
Qed.
