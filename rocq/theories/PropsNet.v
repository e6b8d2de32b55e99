(* PropsNet.v -- property theorems C67-C69: several stations on one bus.  Vocabulary: SpecNet.v *)
From Verif Require Import SpecNet SpecStream SpecConsumer ProofsNet Demo DemoStream.

(** ** C67: frames arrive once, in bus order *)
(** Whatever the applications call (requests, commands, packets of their own, calls on parsers,
    consumers and engines), whatever foreign devices send, and in whatever order stations get to
    handle their frames: the frames on the bus that station i did not send are exactly those it has
    handled followed by those waiting for it, and its callbacks have been told exactly what the
    handled frames say, in bus order. *)
Theorem C67_frames_arrive_once_in_order : forall lw ms w n i st,
  Forall ordinary ms -> (forall s, In (Deliver s) ms -> exists st', station_at w s st') ->
  run_net lw ms (idle_net w) = Ok n -> Forall can_frame (map snd (n_bus n)) -> station_at w i st ->
  exists handled, for_station i (n_bus n) = handled ++ n_inbox n i /\
                  told_by i (n_log n) = flat_map (tells (st_cbs st)) handled.
Proof. exact frames_arrive. Qed.
Print Assumptions C67_frames_arrive_once_in_order.

(** two library stations and a foreign device; station 1 asks for the list of engines meanwhile *)
Definition demo_moves : list move :=
  [Do (OnStation 0 (SendEngineVelocity 0x4005 1200)); Foreign (mkFrame 0x00090318 (mkData 5 [0;0;0;0;1;0;0;0;0]));
   Do (OnStation 1 (RequestEngineList 2 (Some 1%nat))); Deliver 1; Do (OnStation 1 (SendEngineFunction 0x4005 3 true));
   Deliver 0; Deliver 0; Deliver 0; Do (OnStation 0 SendSystemStop); Deliver 0; Deliver 0].
Definition demo_run : net := match run_net 64 demo_moves (idle_net demo) with Ok n => n | UB _ => idle_net demo end.
Example C67_case : Forall ordinary demo_moves /\ (forall s, In (Deliver s) demo_moves -> exists st', station_at demo s st') /\
  run_net 64 demo_moves (idle_net demo) = Ok demo_run /\ Forall can_frame (map snd (n_bus demo_run)) /\
  List.length (n_bus demo_run) = 6%nat /\ told_by 0 (n_log demo_run) = [EvFunction 2 0x4005 3 true] /\
  told_by 1 (n_log demo_run) = [EvVelocity 12 0x4005 1000] /\ List.length (n_inbox demo_run 1) = 2%nat /\ n_inbox demo_run 0 = [].
Proof.
  split; [repeat constructor; intros; discriminate|]. split.
  { intros s H. cbn in H. decompose [or] H; try discriminate; try contradiction; match goal with E : Deliver _ = Deliver _ |- _ => injection E as <- end; eexists; first [exact demo_at0|exact demo_at1]. }
  split; [vm_compute; reflexivity|]. split; [|vm_compute; auto].
  let l := eval vm_compute in (map snd (n_bus demo_run)) in change (map snd (n_bus demo_run)) with l.
  repeat (apply Forall_cons; [unfold can_frame, payload_ok, is_u32, byte; cbn [fid fdata dlc dbytes List.length]; repeat split; try lia; repeat (apply Forall_cons; [lia|]); apply Forall_nil|]); apply Forall_nil.
Qed.

(** ** C68: commands arrive *)
(** If the stations only send commands (with proper arguments), nothing goes wrong under any
    schedule, no object changes, and every station has been told exactly the first so many of the
    commands of the others, in the order of sending; the rest is waiting for it. *)
Theorem C68_commands_arrive : forall lw ms w, Forall (commanding w) ms ->
  exists n, run_net lw ms (idle_net w) = Ok n /\ n_world n = w /\
  forall i st, station_at w i st -> exists got coming,
    commands_for i ms = got ++ coming /\ told_by i (n_log n) = flat_map (reception (st_cbs st)) got /\
    List.length (n_inbox n i) = List.length coming.
Proof. exact commands_arrive. Qed.
Print Assumptions C68_commands_arrive.
(** and every schedule can be completed by handling the waiting frames: then every station has been
    told every command of every other station, in one common order *)
Theorem C68_every_schedule_completes : forall lw ms w, Forall (commanding w) ms ->
  (forall i st, nth_error (w_stations w) i = Some st -> is_u16 (st_hash st) /\ cb_eng (st_cbs st) <> None) ->
  exists more n, Forall delivery more /\ run_net lw (ms ++ more) (idle_net w) = Ok n /\
    forall i st, station_at w i st ->
      n_inbox n i = [] /\ told_by i (n_log n) = flat_map (reception (st_cbs st)) (commands_for i ms).
Proof. exact completes. Qed.
Print Assumptions C68_every_schedule_completes.
Definition demo_pair : world := mkW [demo_st0; demo_st1] (w_parsers demo) (w_conss demo) (w_engines demo).
Definition demo_commands : list move :=
  [Do (OnStation 0 (SendEngineVelocity 0x4005 1200)); Do (OnStation 1 (SendEngineDirection 0x4005 3)); Deliver 0;
   Do (OnStation 0 (SendAccessoryPacket 7 P_MM2 1 1)); Deliver 1; Do (OnStation 1 SendSystemGo)].
Example C68_case : Forall (commanding demo_pair) demo_commands /\
  (forall i st, nth_error (w_stations demo_pair) i = Some st -> is_u16 (st_hash st) /\ cb_eng (st_cbs st) <> None) /\
  commands_for 0 demo_commands = [SendEngineDirection 0x4005 3; SendSystemGo] /\
  commands_for 1 demo_commands = [SendEngineVelocity 0x4005 1200; SendAccessoryPacket 7 P_MM2 1 1].
Proof.
  split.
  { repeat (apply Forall_cons; [cbn [commanding]|]); try apply Forall_nil.
    all: repeat split; try (cbn; lia); try (unfold is_u32, byte, is_u16; cbn; lia).
    all: first [exists demo_st0; split; [split; [reflexivity|unfold is_u16; cbn; lia]|discriminate] | exists demo_st1; split; [split; [reflexivity|unfold is_u16; cbn; lia]|discriminate]]. }
  split; [|vm_compute; auto].
  intros [|[|i]] st H; cbn in H; try (destruct i; discriminate); injection H as <-; (split; [unfold is_u16; cbn; lia|discriminate]).
Qed.

(** ** C69: other traffic does not disturb a download *)
(** After any calls, handling any frames has the same effect on all objects, and makes the same
    calls apart from system, engine and accessory callbacks, as handling only the frames of the
    config stream among them; and those callbacks are told what the other frames say. *)
Theorem C69_other_traffic_is_separate : forall lw ops s st fs w,
  station_at w s st -> cb_eng (st_cbs st) <> None -> Forall can_frame fs -> Forall (fun o => ordinary (Do o)) ops ->
  match run lw (ops ++ handles s fs) w, run lw (ops ++ handles s (filter is_config_data fs)) w with
  | Ok (w1, t1), Ok (w2, t2) =>
      w1 = w2 /\ filter (fun e => negb (is_notice e)) (calls t1) = calls t2 /\
      notices t1 = flat_map (tells (st_cbs st)) fs /\ notices t2 = []
  | UB u1, UB u2 => u1 = u2
  | _, _ => False
  end.
Proof. exact history_among_traffic. Qed.
Print Assumptions C69_other_traffic_is_separate.
(** in particular the engine download of C50 works with other frames in between *)
Theorem C69_engine_download_among_traffic : forall lw w s st tx p c e sp sec cb e0 l name hd ds d id tu u ta a tp fs,
  32 <= lw -> station_at w s st -> cb_tx (st_cbs st) = Some tx -> cb_eng (st_cbs st) <> None -> cb_cfg (st_cbs st) = None ->
  lib_at w p sp -> between_lines sp sec -> consumer_at w c (LocoC e0 (Def cb)) -> engine_at w e l -> si_avail (lo_info l) <> EMPTY ->
  shows_name (si_name (lo_info l)) name -> List.length (lo_proto l) = 8%nat -> config_id id ->
  doc_ok d -> carries ds d -> proper_stream hd ds -> Forall line_fits (reports sec d) ->
  values_of Uid (reports sec d) = [tu] -> numeral tu u -> u < 2 ^ 32 ->
  values_of Address (reports sec d) = [ta] -> numeral ta a -> a < 2 ^ 32 ->
  values_of Protocol (reports sec d) = [tp] -> nulfree tp -> (List.length tp <= 7)%nat ->
  Forall can_frame fs -> filter is_config_data fs = map (mkFrame id) (hd :: ds) ->
  exists w' t, run lw ([ParserSetConsumer p (Some c); LocoSetEngine c (Some e); OnStation s (RequestEngine (RefEngine e) (Some p))] ++ handles s fs) w = Ok (w', t) /\
    w_engines w' = upd e (mkLoco (mkSI FULL_DETAILS (si_name (lo_info l)))
                                 (mkLD u (ld_vel (lo_data l)) (ld_dir (lo_data l)) a (ld_fbits (lo_data l)))
                                 (tp ++ repeat 0 (8 - List.length tp))) (w_engines w) /\
    notes t = EvStreamComplete c :: callback_note cb (fun cb => EvEndComplete cb c) /\
    notices t = flat_map (tells (st_cbs st)) fs.
Proof. exact download_among_traffic. Qed.
Print Assumptions C69_engine_download_among_traffic.
(** the download of C50_case with a speed command before every frame of the stream *)
Definition demo_speed : CanFrame := mkFrame (id_value 0 0 CMD_SPEED false 0x4711) (mkData 6 [0; 0; 0x40; 5; 1; 2; 0; 0; 0]).
Definition demo_stream : list CanFrame := map (mkFrame demo_id) (head (show_doc demo_doc) :: body (show_doc demo_doc)).
Definition demo_traffic : list CanFrame := flat_map (fun f => [demo_speed; f]) demo_stream.
Definition can_frameb (f : CanFrame) : bool :=
  (0 <=? fid f) && (fid f <? 4294967296) && (0 <=? dlc (fdata f)) && (dlc (fdata f) <=? 8) &&
  Nat.eqb (List.length (dbytes (fdata f))) 9 && forallb (fun x => (0 <=? x) && (x <? 256)) (dbytes (fdata f)).
Example C69_case : Forall can_frame demo_traffic /\ filter is_config_data demo_traffic = demo_stream /\ cb_eng (st_cbs demo_st0) <> None /\
  (10 < List.length demo_stream)%nat /\
  exists w' t, run 64 ([ParserSetConsumer 0 (Some 0%nat); LocoSetEngine 0 (Some 0%nat); OnStation 0 (RequestEngine (RefEngine 0) (Some 0%nat))] ++ handles 0 demo_traffic) demo = Ok (w', t) /\
    w_engines w' = [mkLoco (mkSI FULL_DETAILS (si_name (lo_info demo_engine))) (mkLD 0x4007 0 0 7 0) (zs "mfx" ++ repeat 0 5); demo_engine2] /\
    notes t = [EvStreamComplete 0; EvEndComplete 7 0] /\ notices t = repeat (EvVelocity 2 0x4005 258) (List.length demo_stream).
Proof.
  split.
  { assert (B : forallb can_frameb demo_traffic = true) by (vm_compute; reflexivity). rewrite forallb_forall in B. apply Forall_forall. intros f I. apply B in I.
    unfold can_frameb in I. rewrite !Bool.andb_true_iff in I. destruct I as (((((A1 & A2) & A3) & A4) & A5) & A6). rewrite forallb_forall in A6.
    unfold can_frame, payload_ok, is_u32, byte. apply Nat.eqb_eq in A5. split; [lia|]. split; [split; [lia|split; [exact A5|]]|lia].
    apply Forall_forall. intros x X. apply A6 in X. rewrite Bool.andb_true_iff in X. lia. }
  split; [vm_compute; reflexivity|]. split; [discriminate|]. split; [vm_compute; lia|].
  eexists. eexists. split; [vm_compute; reflexivity|]. repeat split; vm_compute; reflexivity.
Qed.

(** ** C70: answers are not addressed *)
(** How a station handles the frames of a stream does not depend on their identifiers (as long as
    they are config data), so not on who sent them, nor on who asked. *)
Theorem C70_answers_are_not_addressed : forall lw s ds ids w, Forall config_id ids -> List.length ids = List.length ds ->
  forall id, config_id id ->
  run lw (handles s (map (fun x => mkFrame (fst x) (snd x)) (combine ids ds))) w = run lw (handles s (map (mkFrame id) ds)) w.
Proof. exact answers_unaddressed. Qed.
Print Assumptions C70_answers_are_not_addressed.
(** So an answer completes every open request: station 0 asks for the details of an engine,
    station 1 asks for the list of engines; the list (a proper stream, the only one on the bus) makes
    station 0's engine fully known, although nothing about it has been received. *)
Definition crossed_moves : list move :=
  [Do (ParserSetConsumer 0 (Some 0%nat)); Do (LocoSetEngine 0 (Some 0%nat)); Do (OnStation 0 (RequestEngine (RefEngine 0) (Some 0%nat)));
   Do (ParserSetConsumer 1 (Some 1%nat)); Do (OnStation 1 (RequestEngineList 0 (Some 1%nat)))] ++
  repeat (Deliver 0) 2 ++ repeat (Deliver 1) 3 ++
  map Foreign (map (mkFrame demo_id) (head (show_doc demo_list) :: body (show_doc demo_list))) ++ repeat (Deliver 0) 20 ++ repeat (Deliver 1) 20.
Definition crossed_run : net := match run_net 64 crossed_moves (idle_net demo) with Ok n => n | UB _ => idle_net demo end.
Definition is_ok {A} (r : res A) : bool := match r with Ok _ => true | UB _ => false end.
Definition ordinaryb (m : move) : bool :=
  match m with Do (OnStation _ o) => negb (is_receive o) && match o with Begin _ _ => false | _ => true end | _ => true end.
Theorem C70_own_answer_refuted : exists w ms n l l',
  Forall ordinary ms /\ run_net 64 ms (idle_net w) = Ok n /\ n_inbox n 0 = [] /\ n_inbox n 1 = [] /\
  (exists hd ds, proper_stream hd ds /\ carries ds demo_list /\ filter is_config_data (map snd (n_bus n)) = map (mkFrame demo_id) (hd :: ds)) /\
  values_of Uid (reports [] demo_list) = [] /\ values_of Address (reports [] demo_list) = [] /\
  nth_error (w_engines w) 0 = Some l /\ si_avail (lo_info l) = NAME_KNOWN /\
  nth_error (w_engines (n_world n)) 0 = Some l' /\ si_avail (lo_info l') = FULL_DETAILS /\ lo_data l' = lo_data l.
Proof.
  exists demo, crossed_moves, crossed_run. eexists. eexists. split.
  { assert (B : forallb ordinaryb crossed_moves = true) by (vm_compute; reflexivity). rewrite forallb_forall in B. apply Forall_forall. intros m M. apply B in M.
    destruct m as [[]| |]; try exact Logic.I. destruct o; try discriminate M; (split; [reflexivity|intros; discriminate]). }
  split.
  { assert (B : is_ok (run_net 64 crossed_moves (idle_net demo)) = true) by (vm_compute; reflexivity). unfold crossed_run.
    destruct (run_net 64 crossed_moves (idle_net demo)); [reflexivity|discriminate B]. }
  split; [vm_compute; reflexivity|]. split; [vm_compute; reflexivity|]. split.
  { exists (head (show_doc demo_list)), (body (show_doc demo_list)). destruct (carries_b _ demo_list_ok) as (_ & B & C & _). split; [exact C|]. split; [exact B|]. vm_compute. reflexivity. }
  split; [vm_compute; reflexivity|]. split; [vm_compute; reflexivity|]. split; [reflexivity|]. split; [reflexivity|]. split; [vm_compute; reflexivity|]. split; reflexivity.
Qed.
Print Assumptions C70_own_answer_refuted.
Example C70_case : Forall config_id [demo_id; id_value 3 1 CMD_CONFIG_DATA false 0x7777] /\ demo_id <> id_value 3 1 CMD_CONFIG_DATA false 0x7777.
Proof.
  split; [|discriminate]. repeat (apply Forall_cons); [exact demo_id_ok| |apply Forall_nil]. exists 3, 1, false, 0x7777. split; [unfold id_fields_ok, CMD_CONFIG_DATA; lia|reflexivity].
Qed.
