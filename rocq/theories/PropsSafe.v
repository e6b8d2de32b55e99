(* PropsSafe.v -- property theorems about the absence of undefined behaviour: C57.
   Vocabulary: SpecSafe.v.  [run] returns [UB] as soon as an operation is undefined. *)
From Verif Require Import ZLib SpecSafe ProofsCrc ProofsText ProofsConsumer ProofsSafe Demo DemoStream.

(** ** C57 *)
(** From initialised objects, any history of operations with valid arguments (pointers to existing
    objects, frames of at most 8 bytes, NUL-terminated names) is defined and leaves the objects
    initialised, unless at some point a parser reports an excessive line to its consumer. *)
Theorem C57_no_undefined_behaviour : forall lw w ops, sound w -> Forall (valid_op w) ops ->
  (exists w' t, run lw ops w = Ok (w', t) /\ sound w') \/
  (exists pre o post w1 t1, ops = pre ++ o :: post /\ run lw pre w = Ok (w1, t1) /\ sound w1 /\ excessive_line w1 o).
Proof. exact history_safe. Qed.
Print Assumptions C57_no_undefined_behaviour.
Theorem C57_safe_with_short_lines : forall lw w ops, sound w -> Forall (valid_op w) ops ->
  (forall pre o post w1 t1, ops = pre ++ o :: post -> run lw pre w = Ok (w1, t1) -> ~ excessive_line w1 o) ->
  exists w' t, run lw ops w = Ok (w', t) /\ sound w'.
Proof.
  intros lw w ops S F X. destruct (history_safe lw w ops S F) as [H|(pre & o & post & w1 & t1 & E & E1 & _ & B)]; [exact H|]. exfalso. exact (X _ _ _ _ _ E E1 B).
Qed.
Print Assumptions C57_safe_with_short_lines.
(** without config data there is no exception *)
Theorem C57_safe_without_config_data : forall lw w ops, sound w -> Forall (valid_op w) ops -> Forall no_config_data ops ->
  exists w' t, run lw ops w = Ok (w', t) /\ sound w'.
Proof. exact quiet_history_safe. Qed.
Print Assumptions C57_safe_without_config_data.
(** objects as constructed are initialised, except the two consumers, which need their setters *)
Theorem C57_initial_objects : forall w (i : list ShortInfo),
  sound_parser w (LibP sp_new) /\ sound_engine lo_reset /\ sound_consumer w (ListC (Def false) (map (fun _ => si_reset) i) (Def 0) (Def 0) (Def None)) /\
  sound_consumer w (LocoC (Def None) (Def None)) /\ ~ sound_consumer w (LocoC Undef Undef).
Proof.
  intros w i. split; [split; [exists astart; split; [apply start_fits|reflexivity]|split; exact Logic.I]|]. split; [|split; [|split]].
  - split; [exists []; split; [constructor|split; [cbn; lia|reflexivity]]|]. split; [reflexivity|left; reflexivity].
  - repeat (split; [eexists; reflexivity|]). apply (cleared_sound i).
  - split; [exists None; split; [reflexivity|exact Logic.I]|eexists; reflexivity].
  - intros ((e & E & _) & _). discriminate.
Qed.
Print Assumptions C57_initial_objects.

(** demo without the station that has no callbacks *)
Definition demo_good : world := mkW [demo_st0; demo_st1] (w_parsers demo) (w_conss demo) (w_engines demo).
Lemma demo_sound : sound demo_good.
Proof.
  assert (NM : forall t n, nulfree t -> n = (33 - List.length t)%nat -> (List.length t <= 32)%nat -> exists t', shows_name (t ++ repeat 0 n) t').
  { intros t n N -> L. exists t. split; [exact N|]. split; [exact L|reflexivity]. }
  split; [|split; [|split]].
  - constructor; [|constructor; [|constructor]]; (split; [discriminate|split; [discriminate|cbn; try lia; exact Logic.I]]).
  - constructor; [|constructor; [|constructor; [exact Logic.I|constructor]]]; (split; [exists astart; split; [apply start_fits|reflexivity]|split; [cbn; lia|exact Logic.I]]).
  - constructor; [|constructor; [|constructor]].
    + split; [exists (Some 0%nat); split; [reflexivity|cbn; lia]|eexists; reflexivity].
    + repeat (split; [eexists; reflexivity|]). apply (cleared_sound [si_reset; si_reset]).
  - constructor; [|constructor; [|constructor]]; (split; [apply NM; [repeat constructor; discriminate|reflexivity|cbn; lia]|split; [reflexivity|]]).
    + left. reflexivity.
    + vm_compute. auto 10.
Qed.
(** frames of a stream starting with text [s] *)
Definition demo_ops (p c : nat) (s : list Z) : list op :=
  ParserSetConsumer p (Some c) :: OnStation 0 (RequestEngineList 0 (Some p)) :: arriving 0 demo_id (head s :: body s).
Lemma demo_valid : forall w p c s, (0 < List.length (w_stations w))%nat -> a_parser w p -> (c < List.length (w_conss w))%nat -> (p < List.length (w_parsers w))%nat ->
  streamb s (crc_of 0xFFFF (padded s)) = true -> Forall (valid_op w) (demo_ops p c s).
Proof.
  intros w p c s S P C PP B. destruct (stream_b _ _ B) as (H & F & _). unfold demo_ops. constructor; [split; assumption|]. constructor; [split; assumption|].
  unfold arriving. cbn [map]. constructor.
  - split; [exact S|]. cbn. destruct H as (PO & D & _). split; [exact PO|]. change (dlc (head_of s (crc_of 65535 (padded s))) <= 8). lia.
  - apply Forall_forall. intros o O. apply in_map_iff in O. destruct O as (d & <- & I). rewrite Forall_forall in F. destruct (F d I) as (PO & D). split; [exact S|]. split; [exact PO|]. cbn. lia.
Qed.
(** each limit is needed: a value of 26 digits, an uninteresting section of 11 characters, a protocol of 8 *)
Theorem C57_long_value_refuted : exists w, sound w /\ Forall (valid_op w) (demo_ops 0 0 (zs "[lokomotive] .uid=11111111111111111111111111" ++ nl)) /\
  run 64 (demo_ops 0 0 (zs "[lokomotive] .uid=11111111111111111111111111" ++ nl)) w = UB OutOfBounds.
Proof.
  exists demo_good. split; [exact demo_sound|]. split; [|vm_compute; reflexivity].
  apply demo_valid; [cbn; lia|exists (demo_parser (Some 0%nat)); reflexivity|cbn; lia|cbn; lia|vm_compute; reflexivity].
Qed.
Print Assumptions C57_long_value_refuted.
Theorem C57_long_section_refuted : exists w, sound w /\ Forall (valid_op w) (demo_ops 1 1 (zs "[lokstatisti] .a=1" ++ nl)) /\
  run 64 (demo_ops 1 1 (zs "[lokstatisti] .a=1" ++ nl)) w = UB OutOfBounds.
Proof.
  exists demo_good. split; [exact demo_sound|]. split; [|vm_compute; reflexivity].
  apply demo_valid; [cbn; lia|exists (demo_parser (Some 1%nat)); reflexivity|cbn; lia|cbn; lia|vm_compute; reflexivity].
Qed.
Print Assumptions C57_long_section_refuted.
Theorem C57_long_protocol_refuted : exists w, sound w /\ Forall (valid_op w) (demo_ops 0 0 (zs "[lokomotive] .typ=12345678" ++ nl)) /\
  run 64 (demo_ops 0 0 (zs "[lokomotive] .typ=12345678" ++ nl)) w = UB OutOfBounds.
Proof.
  exists demo_good. split; [exact demo_sound|]. split; [|vm_compute; reflexivity].
  apply demo_valid; [cbn; lia|exists (demo_parser (Some 0%nat)); reflexivity|cbn; lia|cbn; lia|vm_compute; reflexivity].
Qed.
Print Assumptions C57_long_protocol_refuted.
(** so are the engine callback and the setters of the consumers *)
Theorem C57_no_engine_callback_refuted : exists w o, Forall (fun st => cb_tx (st_cbs st) <> None) (w_stations w) /\ valid_op w o /\ run 64 [o] w = UB NullDeref.
Proof.
  exists (mkW [mkStation 1 (mkCbs (Some 0%nat) None None None None)] [] [] []), (OnStation 0 (HandlePacket (fr_LocoFunction false 5 1 true))).
  split; [constructor; [discriminate|constructor]|]. split; [|reflexivity]. split; [cbn; lia|]. split; [|vm_compute; discriminate]. vm_compute. repeat (split; [|]); repeat constructor; discriminate.
Qed.
Print Assumptions C57_no_engine_callback_refuted.
Theorem C57_unset_consumer_refuted : exists w ops, Forall (valid_op w) ops /\ w_conss w = [LocoC Undef Undef] /\ w_parsers w = [LibP sp_new] /\ run 64 ops w = UB UninitRead.
Proof.
  exists (mkW [] [LibP sp_new] [LocoC Undef Undef] []), [ParserSetConsumer 0 (Some 0%nat); ParserStartStream 0; ParserReset 0].
  split; [|split; [reflexivity|split; reflexivity]]. repeat constructor; try (exists sp_new; reflexivity).
Qed.
Print Assumptions C57_unset_consumer_refuted.
(** an ordinary engine description breaks no limit *)
Example C57_case : sound demo_good /\ Forall (valid_op demo_good) (demo_ops 0 0 (show_doc demo_doc)) /\
  exists w' t, run 64 (demo_ops 0 0 (show_doc demo_doc)) demo_good = Ok (w', t) /\ notes t = [EvStreamComplete 0; EvEndComplete 7 0].
Proof.
  split; [exact demo_sound|]. split; [|eexists; eexists; split; [vm_compute; reflexivity|reflexivity]].
  apply demo_valid; [cbn; lia|exists (demo_parser (Some 0%nat)); reflexivity|cbn; lia|cbn; lia|vm_compute; reflexivity].
Qed.
(** commands only *)
Example C57_case_commands : let ops := [OnStation 0 SendSystemGo; OnStation 0 (SendEngineVelocity 0x4005 500)] in
  sound demo_good /\ Forall (valid_op demo_good) ops /\ Forall no_config_data ops /\ exists w' t, run 64 ops demo_good = Ok (w', t) /\ zlen (sent t) = 2.
Proof.
  cbv zeta. split; [exact demo_sound|].
  split; [repeat constructor; cbn; unfold is_u32, is_u16; try lia; discriminate|]. split; [repeat constructor|].
  do 2 eexists. split; [vm_compute; reflexivity|reflexivity].
Qed.
