(* PropsResume.v -- property theorems about recovering from a history in which callbacks call back into
   the library: C121.  Vocabulary: SpecResume.v (and SpecRsafe.v, SpecRecover.v). *)
From Verif Require Import ZLib SpecResume SpecEnds ProofsResume Demo DemoStream PropsSafe PropsReentry PropsRecover PropsRsafe.

(** ** C121 *)
(** whatever the callbacks did: there are the same objects, and all of them are initialised *)
Theorem C121_objects_stay : forall lw react n c w0 w, came_through lw react n c w0 w -> sound w /\ objects_stay w0 w.
Proof. exact objects. Qed.
Print Assumptions C121_objects_stay.
(** After any program of valid calls whose callbacks made valid calls at any point and to any depth,
    finishing the station's request and resetting the parser reports no completion and changes no
    engine, and then a download with this station, parser and consumer fills in the engine and is
    reported complete once. *)
Theorem C121_engine_download_after_callbacks : forall lw react n c0 w0 w s st p c e l hd ds d id u a tp, 32 <= lw ->
  came_through lw react n c0 w0 w -> a_parser w0 p -> an_engine_consumer w0 c -> config_id id -> carries ds d -> proper_stream hd ds -> describes d u a tp ->
  station_at w s st -> engine_at w e l -> si_avail (lo_info l) <> EMPTY ->
  exists w1 t1 w2 t2 e0 x, run lw (make_ready s p) w = Ok (w1, t1) /\ w_engines w1 = w_engines w /\ (forall c', ~ In (EvStreamComplete c') t1) /\
    run lw (engine_download s p c e id (hd :: ds)) w1 = Ok (w2, t2) /\ w_engines w2 = upd e (described l u a tp) (w_engines w) /\
    consumer_at w c (LocoC e0 (Def x)) /\ notes t2 = EvStreamComplete c :: callback_note x (fun cb => EvEndComplete cb c).
Proof. exact engine_resumed. Qed.
Print Assumptions C121_engine_download_after_callbacks.
(** the same for lists: with the list consumer reset, its table of m entries then holds the first m
    names, and the count is the last one given *)
Theorem C121_list_download_after_callbacks : forall lw react n c0 w0 w s st p c m off hd ds d id,
  came_through lw react n c0 w0 w -> a_parser w0 p -> (exists co i k o cb, consumer_at w0 c (ListC co i k o cb) /\ List.length i = m) -> byte off -> config_id id ->
  carries ds d -> proper_stream hd ds -> doc_ok d -> Forall list_line_fits (reports [] d) -> station_at w s st ->
  exists w1 t1 w2 t2 co i k o x, run lw (make_ready s p) w = Ok (w1, t1) /\ (forall c', ~ In (EvStreamComplete c') t1) /\
    run lw (ListReset c :: list_download s p c off id (hd :: ds)) w1 = Ok (w2, t2) /\ w_engines w2 = w_engines w /\
    consumer_at w c (ListC co i k o (Def x)) /\
    consumer_at w2 c (ListC (Def true) (map named (firstn m (names_in (reports [] d))) ++ repeat si_reset (m - List.length (names_in (reports [] d))))
                           (last (map (fun v => Def (dec_value lw v mod 256)) (counts_in (reports [] d))) (Def 0)) (Def 0) (Def x)) /\
    notes t2 = EvStreamComplete c :: callback_note x (fun cb => EvEndComplete cb c).
Proof. exact list_resumed. Qed.
Print Assumptions C121_list_download_after_callbacks.

(** Why the parser has to be made ready.  In the example of C64 the consumer's callbacks abort, restart
    and query while it is handed lines; engine 0 ends up marked as fully known although no line of its
    description was stored (compare C118).  After that the download below sets it right. *)
Lemma only_user : forall t w, (forall e, In e t -> match e with EvConsume c _ _ _ => nth_error (w_conss w) c = Some UserC | _ => True end) -> ~ Exists (excessive_event w) t.
Proof.
  intros t w H X. apply Exists_exists in X. destruct X as (e & I & c & s & k & v & x & -> & N & EX). specialize (H _ I). cbn in H. unfold consumer_at in N.
  rewrite N in H. injection H as ->. exact EX.
Qed.
Definition after_callbacks : world := r_w (snd (rexec 64 meddling 4 (ops_code (demo_ops 0 2 (show_doc demo_doc))) (mkR good_user []))).
Example C121_case : came_through 64 meddling 4 (ops_code (demo_ops 0 2 (show_doc demo_doc))) good_user after_callbacks /\
  a_parser good_user 0 /\ an_engine_consumer good_user 0 /\ describes demo_doc 0x4007 7 (zs "mfx") /\
  open_streams after_callbacks = 0%nat /\ (exists l, engine_at after_callbacks 0 l /\ si_avail (lo_info l) = FULL_DETAILS /\ ld_uid (lo_data l) = ld_uid (lo_data demo_engine) /\ ld_uid (lo_data l) <> 0x4007).
Proof.
  destruct C64_case as (A & B & C & w' & t' & E & _ & _). split.
  - split; [exact A|]. split; [exact B|]. split; [exact C|]. exists t'. split; [unfold after_callbacks; rewrite E; reflexivity|]. apply only_user.
    assert (T : t' = r_t (snd (rexec 64 meddling 4 (ops_code (demo_ops 0 2 (show_doc demo_doc))) (mkR good_user [])))) by (rewrite E; reflexivity).
    assert (F : forallb (fun e => match e with EvConsume c _ _ _ => Nat.eqb c 2 | _ => true end) t' = true) by (rewrite T; vm_compute; reflexivity).
    intros e I. rewrite forallb_forall in F. specialize (F e I). destruct e; auto. apply Nat.eqb_eq in F. subst c. reflexivity.
  - split; [eexists; vm_compute; reflexivity|]. split; [do 2 eexists; vm_compute; reflexivity|]. split; [exact demo_describes|]. split; [vm_compute; reflexivity|].
    eexists. split; [vm_compute; reflexivity|]. split; [reflexivity|]. split; [reflexivity|discriminate].
Qed.
