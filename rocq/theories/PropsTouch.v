(* PropsTouch.v -- property theorems C130-C132: user code that calls the library and changes the
   section, key and value buffers of parsers.  Vocabulary: SpecTouch.v *)
From Verif Require Import ZLib SpecTouch ProofsCrc ProofsText ProofsStream ProofsConsumer ProofsSafe ProofsExact ProofsTouch ProofsTouchDoc.
From Verif Require Import Demo DemoStream PropsSafe PropsReentry PropsRsafe PropsExact PropsRecover PropsMeddle.

(** ** C130 *)
(** C125 for user code that, between its calls and at whatever depth, also performs any operations of
    class BufferManager on the section, key and value buffers of the parsers: the run is defined and
    leaves the objects initialised; or the stack was exhausted; or memory was read out of bounds, and
    then the last thing that happened is one of the two of C125. *)
Theorem C130_last_things : forall lw react n w c t r s, decent w -> does_only w (legal_op w) c -> (forall h, does_only w (legal_op w) (react h)) ->
  texec lw react n c (mkR w t) = (r, s) ->
  (r = Ok tt /\ decent (r_w s) /\ same_objects w (r_w s)) \/ r = UB TooDeep \/
  (r = UB OutOfBounds /\ same_objects w (r_w s) /\ (by_a_line (r_w s) (r_t s) \/ by_an_engine (r_w s) (r_t s))).
Proof. exact touch_last. Qed.
Print Assumptions C130_last_things.
(** without any library consumer there is only the stack *)
Theorem C130_own_consumers : forall lw react n w c t r s, decent w -> does_only w (legal_op w) c -> (forall h, does_only w (legal_op w) (react h)) ->
  Forall (fun x => x = UserC) (w_conss w) -> texec lw react n c (mkR w t) = (r, s) -> (r = Ok tt /\ decent (r_w s)) \/ r = UB TooDeep.
Proof. exact touch_own. Qed.
Print Assumptions C130_own_consumers.
(** user code that leaves the buffers alone does exactly what it does in C125 *)
Theorem C130_leaving_them_alone : forall lw react n c s, texec lw (fun h => plain (react h)) n (plain c) s = rexec lw react n c s.
Proof. exact plain_same. Qed.
Print Assumptions C130_leaving_them_alone.
Theorem C130_includes_C125 : forall w P c, only_calls P c -> does_only w P (plain c).
Proof. exact plain_only. Qed.
Print Assumptions C130_includes_C125.

(** a user consumer that fills the value of a line without one and hands over to the engine consumer *)
Definition filler : triple -> visit := fun _ => mkVisit [] [BSet 2 (repeat 49 25); BPushChar 2 49].
Definition filling (p : nat) (h : list event) : tcode :=
  match rev h with EvConsume 2 _ _ _ :: _ => TTouch p filler (fun _ _ => TCall (ParserSetConsumer 0 (Some 0%nat)) (fun _ _ => TRet)) | _ => TRet end.
Lemma filler_proper : proper_visit filler.
Proof.
  exists (fun r => let '(s, k, v) := r in (s, k, repeat 49 26)). intros log [[s k] v] (H1 & H2 & H3). eexists [], [], _. split; [constructor|]. reflexivity.
Qed.
Lemma good_user_decent : decent good_user.
Proof. apply (C113_includes_C57 good_user (ListReset 0)). exact (proj1 C64_case). Qed.
Lemma filling_does : forall p h, (p < 2)%nat -> does_only good_user (legal_op good_user) (filling p h).
Proof.
  intros p h P. assert (L : exists sp, lib_at good_user p sp) by (destruct p as [|[|p]]; [eexists; reflexivity|eexists; reflexivity|lia]). destruct L as (sp & L).
  unfold filling. destruct (rev h) as [|e r]; [constructor|]. destruct e; try constructor. destruct c as [|[|[|c]]]; try constructor.
  eapply does_touch; [exact L|exact filler_proper|]. intros w' t. constructor; [|intros; constructor]. left. split; [exists (demo_parser (Some 0%nat)); reflexivity|cbn; lia].
Qed.
Definition flag_text : list Z := zs "[lokomotive] .x" ++ nl ++ zs " .uid=" ++ nl.
Lemma calls_do : forall w P l, Forall P l -> does_only w P (calls_of l).
Proof. intros w P l H. induction H; cbn [calls_of]; constructor; auto. Qed.
Lemma flag_legal : does_only good_user (legal_op good_user) (calls_of (demo_ops 0 2 flag_text)).
Proof.
  apply calls_do. eapply Forall_impl; [intros o V; left; exact V|]. apply demo_valid; [cbn; lia|exists (demo_parser (Some 0%nat)); reflexivity|cbn; lia|cbn; lia|vm_compute; reflexivity].
Qed.
(** The text is harmless, and filling the buffers of the other parser instead changes nothing.  With
    those of its own parser the engine consumer is handed 26 digits, and reads on. *)
Example C130_case : decent good_user /\ (forall p h, (p < 2)%nat -> does_only good_user (legal_op good_user) (filling p h)) /\
  does_only good_user (legal_op good_user) (calls_of (demo_ops 0 2 flag_text)) /\
  (exists s, texec 64 (filling 1) 2 (calls_of (demo_ops 0 2 flag_text)) (mkR good_user []) = (Ok tt, s)) /\
  (exists s, texec 64 (filling 0) 2 (calls_of (demo_ops 0 2 flag_text)) (mkR good_user []) = (UB OutOfBounds, s) /\ by_a_line (r_w s) (r_t s)).
Proof.
  split; [exact good_user_decent|]. split; [exact filling_does|]. split; [exact flag_legal|]. split; [eexists; vm_compute; reflexivity|].
  destruct (texec 64 (filling 0) 2 (calls_of (demo_ops 0 2 flag_text)) (mkR good_user [])) as (r, s) eqn:E. exists s.
  assert (R : r = UB OutOfBounds /\ match last (r_t s) (EvPrint []) with EvPrint _ => true | _ => false end = false).
  { change r with (fst (r, s)). change s with (snd (r, s)) at 2. rewrite <- E. vm_compute. auto. }
  destruct R as (-> & L). split; [reflexivity|].
  destruct (C130_last_things 64 (filling 0) 2 good_user _ [] _ s good_user_decent flag_legal (fun h => filling_does 0 h ltac:(lia)) E) as [(H & _)|[H|(_ & _ & [H|H])]]; [discriminate|discriminate|exact H|].
  destruct H as (b & c & e & cb & l & T & _). rewrite T in L. change (b ++ [EvStreamComplete c; EvPrint (zs "Downloaded Engine: ")]) with (b ++ [EvStreamComplete c] ++ [EvPrint (zs "Downloaded Engine: ")]) in L. rewrite app_assoc, last_last in L. discriminate.
Qed.

(** ** C131 *)
(** After any defined run of such user code, finishing the station's request and resetting the parser
    reports no completion and changes no engine, and then a download fills in the engine, or the
    list, and is reported complete once. *)
Theorem C131_engine_download_again : forall lw react n w0 k0 t0 s0 s st p c e l hd ds d id u a tp, 32 <= lw ->
  decent w0 -> does_only w0 (legal_op w0) k0 -> (forall h, does_only w0 (legal_op w0) (react h)) -> texec lw react n k0 (mkR w0 t0) = (Ok tt, s0) ->
  a_parser w0 p -> an_engine_consumer w0 c -> config_id id -> carries ds d -> proper_stream hd ds -> describes d u a tp ->
  station_at (r_w s0) s st -> engine_at (r_w s0) e l -> si_avail (lo_info l) <> EMPTY ->
  exists w1 t1 w2 t2 e0 x, run lw (make_ready s p) (r_w s0) = Ok (w1, t1) /\ w_engines w1 = w_engines (r_w s0) /\ (forall c', ~ In (EvStreamComplete c') t1) /\
    run lw (engine_download s p c e id (hd :: ds)) w1 = Ok (w2, t2) /\ w_engines w2 = upd e (described l u a tp) (w_engines (r_w s0)) /\
    consumer_at (r_w s0) c (LocoC e0 (Def x)) /\ notes t2 = EvStreamComplete c :: callback_note x (fun cb => EvEndComplete cb c).
Proof. exact engine_recovered. Qed.
Print Assumptions C131_engine_download_again.
Theorem C131_list_download_again : forall lw react m w0 k0 t0 s0 s st p c n off hd ds d id,
  decent w0 -> does_only w0 (legal_op w0) k0 -> (forall h, does_only w0 (legal_op w0) (react h)) -> texec lw react m k0 (mkR w0 t0) = (Ok tt, s0) ->
  a_parser w0 p -> (exists co i k o cb, consumer_at w0 c (ListC co i k o cb) /\ List.length i = n) -> byte off -> config_id id ->
  carries ds d -> proper_stream hd ds -> doc_ok d -> Forall list_line_fits (reports [] d) -> station_at (r_w s0) s st ->
  exists w1 t1 w2 t2 co i k o x, run lw (make_ready s p) (r_w s0) = Ok (w1, t1) /\ (forall c', ~ In (EvStreamComplete c') t1) /\
    run lw (ListReset c :: list_download s p c off id (hd :: ds)) w1 = Ok (w2, t2) /\ w_engines w2 = w_engines (r_w s0) /\
    consumer_at (r_w s0) c (ListC co i k o (Def x)) /\
    consumer_at w2 c (ListC (Def true) (map named (firstn n (names_in (reports [] d))) ++ repeat si_reset (n - List.length (names_in (reports [] d))))
                           (last (map (fun v => Def (dec_value lw v mod 256)) (counts_in (reports [] d))) (Def 0)) (Def 0) (Def x)) /\
    notes t2 = EvStreamComplete c :: callback_note x (fun cb => EvEndComplete cb c).
Proof. exact list_recovered. Qed.
Print Assumptions C131_list_download_again.
(** the stream stops after the line without a value, which the consumer has filled; without the reset
    the digits come in front of the first value of the next description *)
Definition broken_off : list op := firstn 5 (demo_ops 0 2 flag_text).
Example C131_case : decent good_user /\ does_only good_user (legal_op good_user) (calls_of broken_off) /\ (forall h, does_only good_user (legal_op good_user) (filling 0 h)) /\
  (exists s0, texec 64 (filling 0) 2 (calls_of broken_off) (mkR good_user []) = (Ok tt, s0) /\
   option_map (fun x => match x with LibP sp => tp_val (sp_text sp) | _ => zb 0 [] end) (nth_error (w_parsers (r_w s0)) 0) = Some (zb 26 (repeat 49 26)) /\
   exists l w1 t1 w2 t2, nth_error (w_engines (r_w s0)) 0 = Some l /\ run 64 (make_ready 0 0) (r_w s0) = Ok (w1, t1) /\
    run 64 (engine_download 0 0 0 0 demo_id (head (show_doc demo_doc) :: body (show_doc demo_doc))) w1 = Ok (w2, t2) /\
    nth_error (w_engines w2) 0 = Some (described l 0x4007 7 (zs "mfx")) /\ notes t2 = [EvStreamComplete 0; EvEndComplete 7 0]) /\
  describes demo_doc 0x4007 7 (zs "mfx").
Proof.
  split; [exact good_user_decent|]. split.
  { apply calls_do. apply forall_firstn. eapply Forall_impl; [intros o V; left; exact V|]. apply demo_valid; [cbn; lia|exists (demo_parser (Some 0%nat)); reflexivity|cbn; lia|cbn; lia|vm_compute; reflexivity]. }
  split; [intros h; apply filling_does; lia|]. split; [|exact demo_describes].
  eexists. split; [vm_compute; reflexivity|]. split; [vm_compute; reflexivity|]. do 5 eexists. split; [vm_compute; reflexivity|]. split; [vm_compute; reflexivity|]. split; [vm_compute; reflexivity|]. split; vm_compute; reflexivity.
Qed.

(** ** C132 *)
(** A download read by a user consumer that changes its parser's buffers while it is handed a line.
    Whatever operations it performs: the run is defined, nothing but the parser changes, the consumer
    is handed the lines of the automaton of SpecMeddle.v and then told the end, and whether that is
    success depends on the bytes received only. *)
Theorem C132_downloads : forall lw n p c q f hd ds w crc sp a log tr, leaves q f -> lib_at w p sp -> fits a -> sp_text sp = parser a (sp_cons sp) -> user_consumer w c ->
  header_for hd (8 * zlen ds) crc -> ds <> [] -> 8 * zlen ds < 2 ^ 32 -> Forall data_frame ds -> handed_lines c tr = map as_buffers log ->
  exists a' sp' new last, fold_left (madd f (Some c)) (map content ds) (a, log) = (a', log ++ new) /\
  texec lw (meddles p c q) (S n) (calls_of (download p c hd ds)) (mkR w tr) = (Ok tt, mkR (with_parser w p (LibP sp')) (tr ++ consumed c new ++ [last])) /\
  fits a' /\ sp_text sp' = parser a' (Some c) /\ sp_cons sp' = Some c /\
  (checksum_is (received ds) crc -> last = EvStreamComplete c) /\ (~ checksum_is (received ds) crc -> last = EvStreamAborted c).
Proof. exact download_meddled. Qed.
Print Assumptions C132_downloads.
(** C104 for the whole path from the frames to the consumer *)
Theorem C132_documents : forall lw n p c q f hd ds d w sp tr, leaves q f -> lib_at w p sp -> sp_text sp = parser astart (sp_cons sp) -> user_consumer w c ->
  proper_stream hd ds -> carries ds d -> doc_ok d -> handed_lines c tr = [] ->
  exists sp' lines, texec lw (meddles p c q) (S n) (calls_of (download p c hd ds)) (mkR w tr) =
    (Ok tt, mkR (with_parser w p (LibP sp')) (tr ++ consumed c lines ++ [EvStreamComplete c])) /\
  (values_fit f [] [] [] d -> lines = meddled f [] [] [] d) /\ (tp_state (sp_text sp') <> ERROR <-> values_fit f [] [] [] d).
Proof. exact download_document. Qed.
Print Assumptions C132_documents.
(** a harmless consumer is called exactly like one that leaves the buffers alone *)
Theorem C132_harmless : forall lw n p c q f hd ds w crc sp a log tr, leaves q f -> harmless f -> lib_at w p sp -> fits a -> sp_text sp = parser a (sp_cons sp) -> user_consumer w c ->
  header_for hd (8 * zlen ds) crc -> ds <> [] -> 8 * zlen ds < 2 ^ 32 -> Forall data_frame ds -> handed_lines c tr = map as_buffers log ->
  exists sp' w2 t2, texec lw (meddles p c q) (S n) (calls_of (download p c hd ds)) (mkR w tr) = (Ok tt, mkR (with_parser w p (LibP sp')) (tr ++ calls t2)) /\
    run lw (download p c hd ds) w = Ok (w2, t2).
Proof. exact download_harmless. Qed.
Print Assumptions C132_harmless.
(** reset() of the parser forgets the buffers; starting the next stream does not: what is left in the
    value after the last line comes in front of the first value of the next download *)
Definition flag_doc : doc := [([], ISection (zs "lok")); (nl ++ zs " ", IFlag (zs "ende"))].
Definition pair_doc : doc := [([], ISection (zs "lok")); (nl ++ zs " ", IPair (zs "a") (zs "1"))].
Definition of_doc (p c : nat) (d : doc) : list op := download p c (head (show_doc d)) (body (show_doc d)).
Theorem C132_next_download_refuted : exists w, user_consumer w 2 /\ (exists sp, lib_at w 0 sp) /\ leaves marker marker_leaves /\
  proper_stream (head (show_doc flag_doc)) (body (show_doc flag_doc)) /\ proper_stream (head (show_doc pair_doc)) (body (show_doc pair_doc)) /\
  exists s, texec 64 (meddles 0 2 marker) 1 (calls_of (of_doc 0 2 flag_doc ++ of_doc 0 2 pair_doc)) (mkR w []) = (Ok tt, s) /\
    r_t s = consumed 2 [(zs "lok", zs "ende", [])] ++ [EvStreamComplete 2] ++ consumed 2 [(zs "lok", zs "a", zs "X1")] ++ [EvStreamComplete 2].
Proof.
  exists good_user. split; [reflexivity|]. split; [eexists; reflexivity|]. split; [apply examples_leave|].
  split; [apply carries_b; vm_compute; reflexivity|]. split; [apply carries_b; vm_compute; reflexivity|].
  eexists. split; vm_compute; reflexivity.
Qed.
Print Assumptions C132_next_download_refuted.
Example C132_case : lib_at good_user 0 (demo_parser (Some 0%nat)) /\ sp_text (demo_parser (Some 0%nat)) = parser astart (Some 0%nat) /\ user_consumer good_user 2 /\
  doc_ok C104_doc /\ carries (body (show_doc C104_doc)) C104_doc /\ proper_stream (head (show_doc C104_doc)) (body (show_doc C104_doc)) /\
  values_fit marker_leaves [] [] [] C104_doc /\ harmless mover_leaves /\
  (exists s, texec 64 (meddles 0 2 marker) 1 (calls_of (of_doc 0 2 C104_doc)) (mkR good_user []) = (Ok tt, s) /\
    r_t s = consumed 2 [(zs "lok", zs "ende", []); (zs "lok", zs "a", zs "X1"); (zs "lok", zs "b", zs "2")] ++ [EvStreamComplete 2]) /\
  (exists s, texec 64 (meddles 0 2 mover) 1 (calls_of (of_doc 0 2 C104_doc)) (mkR good_user []) = (Ok tt, s) /\
    r_t s = consumed 2 [(zs "lok", zs "ende", []); (zs "lok", zs "a", zs "1"); (zs "lok", zs "b", zs "2")] ++ [EvStreamComplete 2]).
Proof.
  split; [reflexivity|]. split; [reflexivity|]. split; [reflexivity|].
  destruct (carries_b C104_doc ltac:(vm_compute; reflexivity)) as (A & B & C & _). split; [exact A|]. split; [exact B|]. split; [exact C|].
  split; [cbn; lia|]. split; [intros log s k v; split; [reflexivity|intros ->; reflexivity]|].
  split; (eexists; split; vm_compute; reflexivity).
Qed.
