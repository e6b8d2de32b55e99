(* PropsEnds.v -- property theorems C71: over any history, streams end at most once each.
   Vocabulary: SpecEnds.v *)
From Verif Require Import SpecEnds SpecConsumer ProofsEnds Demo DemoStream.

(** Whatever is called, on any number of stations, parsers and consumers: the end notifications of
    consumers so far, plus the streams still open, are at most the streams open at the beginning plus
    the streams started since; and end callbacks are called at most once per end notification. *)
Theorem C71_every_stream_ends_at_most_once : forall lw ops w w' t, run lw ops w = Ok (w', t) ->
  (List.length (ends t) + open_streams w' <= open_streams w + stream_starts ops t)%nat /\
  (List.length (end_callbacks t) <= List.length (ends t))%nat.
Proof. intros lw ops w w' t H. destruct (run_ends lw ops w w' t H) as (A & B & _). split; assumption. Qed.
Print Assumptions C71_every_stream_ends_at_most_once.
(** As long as no stream is open and none is started, no consumer and no end callback is called. *)
Theorem C71_no_stream_no_consumer_call : forall lw ops w w' t, run lw ops w = Ok (w', t) ->
  open_streams w = 0%nat -> stream_starts ops t = 0%nat -> consumer_calls t = [] /\ open_streams w' = 0%nat.
Proof.
  intros lw ops w w' t H O S0. destruct (run_ends lw ops w w' t H) as (A & _ & C). split; [exact (C O S0)|].
  destruct (open_streams w'); [reflexivity|]. rewrite O, S0 in A. rewrite <- plus_n_Sm in A. inversion A.
Qed.
Print Assumptions C71_no_stream_no_consumer_call.

(** one request answered, one more request by another station: one end, one stream open; the bound
    is reached *)
Example C71_case : exists w' t,
  let ops := engine_download 0 0 0 0 demo_id (head (show_doc demo_doc) :: body (show_doc demo_doc)) ++
             [ParserSetConsumer 1 (Some 1%nat); OnStation 1 (RequestEngineList 0 (Some 1%nat))] in
  run 64 ops demo = Ok (w', t) /\ open_streams demo = 0%nat /\ stream_starts ops t = 2%nat /\ open_streams w' = 1%nat /\
  List.length (ends t) = 1%nat /\ List.length (end_callbacks t) = 1%nat.
Proof. eexists. eexists. cbv zeta. split; [vm_compute; reflexivity|]. repeat split. Qed.
Example C71_silent_case : exists w' t,
  let ops := OnStation 0 (SendSystemGo) :: arriving 0 demo_id (head (show_doc demo_doc) :: body (show_doc demo_doc)) in
  run 64 ops demo = Ok (w', t) /\ open_streams demo = 0%nat /\ stream_starts ops t = 0%nat.
Proof. eexists. eexists. cbv zeta. split; [vm_compute; reflexivity|]. repeat split. Qed.
