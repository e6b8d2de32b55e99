(* PropsAgain.v -- property theorems about recovering after any defined history: C115.
   Vocabulary: SpecRecover.v and SpecExact.v. *)
From Verif Require Import ZLib SpecAgain SpecEnds ProofsCrc ProofsText ProofsStream ProofsConsumer ProofsSafe ProofsAgain Demo DemoStream PropsSafe PropsExact PropsRecover.

(** ** C115 *)
(** C91 without its condition on the lines reported: whatever has been called and received, as long
    as it was defined, finishing the station's request and resetting the parser reports no
    completion and changes no engine, and then a download fills in the engine and is reported
    complete once. *)
Theorem C115_engine_download_again : forall lw w0 ops w t s st p c e l hd ds d id u a tp, 32 <= lw ->
  decent w0 -> Forall (legal_op w0) ops -> run lw ops w0 = Ok (w, t) ->
  a_parser w0 p -> an_engine_consumer w0 c -> config_id id -> carries ds d -> proper_stream hd ds -> describes d u a tp ->
  station_at w s st -> engine_at w e l -> si_avail (lo_info l) <> EMPTY ->
  exists w1 t1 w2 t2 e0 x, run lw (make_ready s p) w = Ok (w1, t1) /\ w_engines w1 = w_engines w /\ (forall c', ~ In (EvStreamComplete c') t1) /\
    run lw (engine_download s p c e id (hd :: ds)) w1 = Ok (w2, t2) /\ w_engines w2 = upd e (described l u a tp) (w_engines w) /\
    consumer_at w c (LocoC e0 (Def x)) /\ notes t2 = EvStreamComplete c :: callback_note x (fun cb => EvEndComplete cb c).
Proof. exact engine_again. Qed.
Print Assumptions C115_engine_download_again.
Theorem C115_list_download_again : forall lw w0 ops w t s st p c n off hd ds d id,
  decent w0 -> Forall (legal_op w0) ops -> run lw ops w0 = Ok (w, t) ->
  a_parser w0 p -> (exists co i k o cb, consumer_at w0 c (ListC co i k o cb) /\ List.length i = n) -> byte off -> config_id id ->
  carries ds d -> proper_stream hd ds -> doc_ok d -> Forall list_line_fits (reports [] d) -> station_at w s st ->
  exists w1 t1 w2 t2 co i k o x, run lw (make_ready s p) w = Ok (w1, t1) /\ (forall c', ~ In (EvStreamComplete c') t1) /\
    run lw (ListReset c :: list_download s p c off id (hd :: ds)) w1 = Ok (w2, t2) /\ w_engines w2 = w_engines w /\
    consumer_at w c (ListC co i k o (Def x)) /\
    consumer_at w2 c (ListC (Def true) (map named (firstn n (names_in (reports [] d))) ++ repeat si_reset (n - List.length (names_in (reports [] d))))
                           (last (map (fun v => Def (dec_value lw v mod 256)) (counts_in (reports [] d))) (Def 0)) (Def 0) (Def x)) /\
    notes t2 = EvStreamComplete c :: callback_note x (fun cb => EvEndComplete cb c).
Proof. exact list_again. Qed.
Print Assumptions C115_list_download_again.

(** a history with an unprintable protocol string and a broken download whose protocol and uid fill
    the value buffer; it is outside C91 *)
Definition demo_wild : list op :=
  OnEngine 0 (ESetProtocolString (zs "12345678" ++ [0])) ::
  firstn 14 (demo_ops 0 0 (zs "[lokomotive] .typ=12345678901234567890123456" ++ nl ++ zs " .uid=1111111111111111111111111x" ++ nl ++ zs " .adresse=7" ++ nl)).
Example C115_case : decent demo_good /\ Forall (legal_op demo_good) demo_wild /\
  (exists w t l, run 64 demo_wild demo_good = Ok (w, t) /\ nth_error (w_engines w) 0 = Some l /\ nulfree (lo_proto l) /\ open_streams w = 1%nat /\
  exists w1 t1 w2 t2, run 64 (make_ready 0 0) w = Ok (w1, t1) /\ notes t1 = [EvStreamAborted 0; EvEndAborted 7 0] /\
    run 64 (engine_download 0 0 0 0 demo_id (head (show_doc demo_doc) :: body (show_doc demo_doc))) w1 = Ok (w2, t2) /\
    nth_error (w_engines w2) 0 = Some (described l 0x4007 7 (zs "mfx")) /\ notes t2 = [EvStreamComplete 0; EvEndComplete 7 0]).
Proof.
  split; [exact demo_decent|]. split.
  - constructor; [right; exists 0%nat, (zs "12345678" ++ [0]); split; [reflexivity|]; split; [cbn; lia|]; exists (zs "12345678"), []; split; [reflexivity|repeat constructor; discriminate]|].
    apply forall_firstn. eapply Forall_impl; [intros o V; left; exact V|]. apply demo_valid; [cbn; lia|exists (demo_parser (Some 0%nat)); reflexivity|cbn; lia|cbn; lia|vm_compute; reflexivity].
  - do 3 eexists. split; [vm_compute; reflexivity|]. split; [vm_compute; reflexivity|]. split; [repeat constructor; discriminate|]. split; [vm_compute; reflexivity|].
    do 4 eexists. split; [vm_compute; reflexivity|]. split; [vm_compute; reflexivity|]. split; [vm_compute; reflexivity|]. split; vm_compute; reflexivity.
Qed.
