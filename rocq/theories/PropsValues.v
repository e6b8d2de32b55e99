(* PropsValues.v -- property theorems about enumerations, address ranges and engine objects: C80-C82.
   Vocabulary: SpecValues.v. *)
From Verif Require Import SpecValues ProofsValues.

(** ** C80: command codes *)
(** every enumerator has its documented code *)
Theorem C80_codes : commands = command_codes /\ subcommands = subcommand_codes.
Proof. exact (conj eq_refl eq_refl). Qed.
Print Assumptions C80_codes.
(** a command stored in any identifier is read back as itself and as no other *)
Theorem C80_commands_read_back : forall i j top prio cmd resp hash, id_fields_ok top prio cmd hash ->
  (i < List.length commands)%nat -> (j < List.length commands)%nat ->
  (id_getCommand (id_setCommand (id_value top prio cmd resp hash) (nth i commands 0)) = nth j commands 0 <-> i = j).
Proof. exact command_read_back. Qed.
Print Assumptions C80_commands_read_back.
(** the same for subcommands in any payload *)
Theorem C80_subcommands_read_back : forall i j d, payload_ok d ->
  (i < List.length subcommands)%nat -> (j < List.length subcommands)%nat ->
  (sys_getSubcommand (sys_setSubcommand d (nth i subcommands 0)) = nth j subcommands 0 <-> i = j).
Proof. exact subcommand_read_back. Qed.
Print Assumptions C80_subcommands_read_back.
Example C80_case : id_fields_ok 5 9 0x0B 0x3F15 /\ payload_ok (mkData 6 [1;2;3;4;5;6;7;8;9]) /\ (23 < List.length commands)%nat /\ (14 < List.length subcommands)%nat.
Proof. unfold id_fields_ok, payload_ok. repeat split; try (cbn; lia); repeat (apply Forall_cons; [unfold byte; lia|]); apply Forall_nil. Qed.

(** ** C81: address ranges *)
(** each range has its documented number of ids, and no id belongs to two ranges *)
Theorem C81_ranges : forall r, last_id r = first_id r + room r - 1 /\ 0 <= first_id r /\ last_id r < 65536.
Proof. exact ranges. Qed.
Print Assumptions C81_ranges.
Theorem C81_ranges_disjoint : forall r q a, within r a -> within q a -> r = q.
Proof. exact disjoint. Qed.
Print Assumptions C81_ranges_disjoint.
(** selecting a protocol puts any id into the range of that protocol, at the id's own place *)
Theorem C81_turnouts_in_range : forall p r a, turnout_range p = Some r ->
  within r (turnout_setProtocol a p) /\ turnout_setProtocol a p - first_id r = a mod 1024.
Proof. exact turnout_lands. Qed.
Print Assumptions C81_turnouts_in_range.
Theorem C81_locos_in_range : forall p r a, loco_range p = Some r ->
  within r (loco_setProtocol a p) /\ loco_setProtocol a p - first_id r = a mod 1024.
Proof. exact loco_lands. Qed.
Print Assumptions C81_locos_in_range.
Theorem C81_mm2_loco_in_range : forall a, 0 <= a < 1024 -> within MMEngine (MM2_loco a).
Proof. exact mm2_lands. Qed.
Print Assumptions C81_mm2_loco_in_range.
(** two ids are the same exactly if range and place are *)
Theorem C81_turnouts_told_apart : forall p q r s a c, turnout_range p = Some r -> turnout_range q = Some s ->
  (turnout_setProtocol a p = turnout_setProtocol c q <-> r = s /\ a mod 1024 = c mod 1024).
Proof. exact ids_identify. Qed.
Print Assumptions C81_turnouts_told_apart.
Theorem C81_locos_told_apart : forall p q r s a c, loco_range p = Some r -> loco_range q = Some s ->
  (loco_setProtocol a p = loco_setProtocol c q <-> r = s /\ a mod 1024 = c mod 1024).
Proof. exact loco_ids_identify. Qed.
Print Assumptions C81_locos_told_apart.
(** no turnout id is a locomotive id *)
Theorem C81_turnouts_are_not_locos : forall p q r s a c, turnout_range p = Some r -> loco_range q = Some s ->
  turnout_setProtocol a p <> loco_setProtocol c q.
Proof. exact kinds_apart. Qed.
Print Assumptions C81_turnouts_are_not_locos.
Example C81_case : turnout_range P_DCC = Some DCCAccessory /\ loco_range P_MFX = Some MFXEngine /\
  turnout_setProtocol 0xC005 P_DCC = 0x3805 /\ loco_setProtocol 5 P_MFX = 0x4005 /\ within MFXEngine 0x4005 /\ within MFXEngine 0x7FFF /\ ~ within MFXEngine 0x8000.
Proof. unfold within. vm_compute. intuition congruence. Qed.

(** ** C82: engine objects *)
(** In any program state, after reset() and any further calls on an engine object all its queries answer
    what these calls say; nothing else changes and nothing is called. *)
Theorem C82_engine_histories : forall lw k os w l, engine_at w k l -> Forall engine_call_ok os ->
  exists l', run lw (map (OnEngine k) (EReset :: os)) w = Ok (mkW (w_stations w) (w_parsers w) (w_conss w) (upd k l' (w_engines w)), []) /\
    answers l' (fold_left engine_step os (blank_engine EMPTY [])).
Proof. exact engine_histories. Qed.
Print Assumptions C82_engine_histories.
(** naming an engine starts it afresh in the same way *)
Theorem C82_named_engine_histories : forall lw k s os w l, engine_at w k l -> In 0 s -> Forall engine_call_ok os ->
  exists l', run lw (map (OnEngine k) (ESetName s :: os)) w = Ok (mkW (w_stations w) (w_parsers w) (w_conss w) (upd k l' (w_engines w)), []) /\
    answers l' (fold_left engine_step os (blank_engine NAME_KNOWN (firstn 32 (until_nul s)))).
Proof. exact named_histories. Qed.
Print Assumptions C82_named_engine_histories.
Example C82_case : let os := [ESetNameConditional (lit "BR 18"); ESetUid 0x4005; ESetFunction 3 true; ESetAvailability FULL_DETAILS;
    ESetNameConditional (lit "BR 18"); EChangeDirection; ESetDirection 1; EChangeDirection; ESetProtocolString (lit "mfx")] in
  Forall engine_call_ok os /\
  (let e := fold_left engine_step os (blank_engine EMPTY []) in
   e_avail e = FULL_DETAILS /\ e_name e = zs "BR 18" /\ e_uid e = 0x4005 /\ e_dir e = 2 /\ e_fun e 3 = true /\ e_fun e 4 = false /\ e_proto e = zs "mfx") /\
  e_avail (fold_left engine_step (os ++ [ESetNameConditional (lit "V 60")]) (blank_engine EMPTY [])) = NAME_KNOWN.
Proof.
  split; [|vm_compute; repeat split].
  repeat (apply Forall_cons; [cbn; auto 10; try lia|]). apply Forall_nil.
Qed.
