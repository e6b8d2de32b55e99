(* PropsReach.v -- property theorems C56: stations do not interfere.  Vocabulary: SpecReach.v *)
From Verif Require Import SpecReach ProofsReach Demo ProofsWorld.

(** An operation of station s (whatever its arguments) changes no other station, no parser it has
    no pointer to, no consumer of other parsers, no engine of other consumers, and calls only its
    own callback objects. *)
Theorem C56_no_interference : forall lw w s st o w' t,
  nth_error (w_stations w) s = Some st -> step lw (OnStation s o) w = Ok (w', t) ->
  (forall i, i <> s -> nth_error (w_stations w') i = nth_error (w_stations w) i) /\
  (forall p, ~ reach_parser w st o p -> nth_error (w_parsers w') p = nth_error (w_parsers w) p) /\
  (forall c, ~ reach_consumer w st o c -> nth_error (w_conss w') c = nth_error (w_conss w) c) /\
  (forall e, ~ reach_engine w st o e -> nth_error (w_engines w') e = nth_error (w_engines w) e) /\
  (forall e, In e t -> own_call w st o e).
Proof.
  intros lw w s st o w' t S0 H. destruct (no_interference lw w s st o w' t) as ([_ F1] & [_ F2] & [_ F3] & [_ F4] & F5); [congruence|exact H|].
  repeat (split; [assumption|]). apply Forall_forall. exact F5.
Qed.
Print Assumptions C56_no_interference.
(** Over any history of operations (on other stations, parsers, consumers, engines) a station that
    is not operated on keeps its hash and callbacks. *)
Theorem C56_station_kept_over_histories : forall lw ops w w' t i,
  Forall (fun o => on_station o <> Some i) ops -> run lw ops w = Ok (w', t) ->
  nth_error (w_stations w') i = nth_error (w_stations w) i.
Proof. exact run_station. Qed.
Print Assumptions C56_station_kept_over_histories.
(** the reach sets are not everything: station 0 cannot reach parser 2, consumer 1 or engine 1 by
    requesting an engine with parser 0, and does change parser 0 *)
Example C56_case :
  let o := RequestEngine (RefEngine 0) (Some 0%nat) in
  reach_parser demo demo_st0 o 0 /\ ~ reach_parser demo demo_st0 o 2 /\ reach_consumer demo demo_st0 o 0 /\
  ~ reach_consumer demo demo_st0 o 1 /\ reach_engine demo demo_st0 o 0 /\ ~ reach_engine demo demo_st0 o 1 /\
  exists w' t, step 64 (OnStation 0 o) demo = Ok (w', t) /\ nth_error (w_parsers w') 0 <> nth_error (w_parsers demo) 0.
Proof.
  cbv zeta. assert (P : forall p, reach_parser demo demo_st0 (RequestEngine (RefEngine 0) (Some 0%nat)) p -> p = 0%nat).
  { intros p [H|H]; cbn in H; congruence. }
  assert (C : forall c, reach_consumer demo demo_st0 (RequestEngine (RefEngine 0) (Some 0%nat)) c -> c = 0%nat).
  { intros c (p & sp & H & E & K). apply P in H. subst p. cbn in E. injection E as <-. cbn in K. destruct K; congruence. }
  assert (R : reach_consumer demo demo_st0 (RequestEngine (RefEngine 0) (Some 0%nat)) 0).
  { exists 0%nat. eexists. split; [right; reflexivity|]. split; [reflexivity|left; reflexivity]. }
  split; [right; reflexivity|]. split; [intros H; apply P in H; discriminate|]. split; [exact R|].
  split; [intros H; apply C in H; discriminate|]. split; [exists 0%nat; eexists; split; [exact R|reflexivity]|].
  split.
  - intros (c & cb & H & E). apply C in H. subst c. cbn in E. discriminate.
  - eexists. eexists. split; [vm_compute; reflexivity|vm_compute; discriminate].
Qed.
