(* PropsLoco.v -- property theorems about locomotives: C45-C48.  Vocabulary: SpecLoco.v. *)
From Verif Require Import SpecLoco ProofsLoco.

(** ** C45: function bits are independent *)
Theorem C45_function_bits : forall d f on, function_word d -> 0 <= f < 32 ->
  exists d', ld_setFunction d f on = Ok d' /\ function_word d' /\ same_but_functions d d' /\
    forall g, 0 <= g < 32 -> ld_getFunction d' g = if g =? f then Ok on else ld_getFunction d g.
Proof. exact setFunction_spec. Qed.
Print Assumptions C45_function_bits.
Theorem C45_function_read : forall d g, 0 <= g < 32 -> ld_getFunction d g = Ok (Z.testbit (ld_fbits d) g).
Proof. exact getFunction_testbit. Qed.
Print Assumptions C45_function_read.
Theorem C45_function_out_of_range : forall d f on, 32 <= f ->
  ld_setFunction d f on = UB BadShift /\ ld_getFunction d f = UB BadShift.
Proof. exact wide_function. Qed.
Print Assumptions C45_function_out_of_range.
Example C45_case : function_word (mkLD 7 100 1 3 0x80000001) /\
  ld_setFunction (mkLD 7 100 1 3 0x80000001) 31 false = Ok (mkLD 7 100 1 3 1) /\
  ld_setFunction (mkLD 7 100 1 3 1) 30 true = Ok (mkLD 7 100 1 3 0x40000001).
Proof. repeat split; discriminate. Qed.

(** ** C46: engine names *)
Theorem C46_set_name : forall l s r, nulfree s ->
  exists l', lo_setName l (s ++ 0 :: r) = Ok l' /\ si_avail (lo_info l') = NAME_KNOWN /\
    shows_name (si_name (lo_info l')) (firstn 32 s) /\ lo_data l' = lo_data lo_reset /\ lo_proto l' = lo_proto lo_reset.
Proof. exact lo_setName_spec. Qed.
Print Assumptions C46_set_name.
Theorem C46_set_name_short : forall i s r, nulfree s ->
  exists i', si_setName i (s ++ 0 :: r) = Ok i' /\ si_avail i' = NAME_KNOWN /\ shows_name (si_name i') (firstn 32 s).
Proof. exact si_setName_spec. Qed.
Print Assumptions C46_set_name_short.
(** what [shows_name] means for C code that reads the field *)
Theorem C46_name_is_terminated : forall f t, shows_name f t -> c_str f = Ok t /\ List.length f = 33%nat.
Proof. exact shows_name_str. Qed.
Print Assumptions C46_name_is_terminated.
Theorem C46_set_name_conditional : forall l t s r, shows_name (si_name (lo_info l)) t -> nulfree s ->
  (si_avail (lo_info l) <> EMPTY /\ firstn 32 s = t -> lo_setNameConditional l (s ++ 0 :: r) = Ok (l, false)) /\
  (si_avail (lo_info l) = EMPTY \/ firstn 32 s <> t ->
     exists l', lo_setNameConditional l (s ++ 0 :: r) = Ok (l', true) /\ lo_setName l (s ++ 0 :: r) = Ok l').
Proof. exact lo_setNameConditional_spec. Qed.
Print Assumptions C46_set_name_conditional.
Theorem C46_set_name_conditional_short : forall i t s r, shows_name (si_name i) t -> nulfree s ->
  (si_avail i <> EMPTY /\ firstn 32 s = t -> si_setNameConditional i (s ++ 0 :: r) = Ok (i, false)) /\
  (si_avail i = EMPTY \/ firstn 32 s <> t ->
     exists i', si_setNameConditional i (s ++ 0 :: r) = Ok (i', true) /\ si_setName i (s ++ 0 :: r) = Ok i').
Proof. exact si_setNameConditional_spec. Qed.
Print Assumptions C46_set_name_conditional_short.
Example C46_case : nulfree (zs "98 1001") /\
  (match lo_setName (mkLoco si_reset (mkLD 1 2 3 4 5) (repeat 9 8)) (zs "98 1001" ++ [0; 1; 2]) with
   | Ok l => (si_avail (lo_info l), c_str (si_name (lo_info l)), ld_uid (lo_data l), lo_proto l)
   | UB _ => (EMPTY, UB Dangling, 0, []) end) = (NAME_KNOWN, Ok (zs "98 1001"), 0, repeat 0 8) /\
  shows_name (zs "98 1001" ++ repeat 0 26) (zs "98 1001").
Proof. repeat split; try (cbn; lia); repeat constructor; discriminate. Qed.

(** ** C47: protocol strings *)
Theorem C47_set_protocol_string : forall l s r, List.length (lo_proto l) = 8%nat -> nulfree s ->
  exists l', lo_setProtocolString l (s ++ 0 :: r) = Ok l' /\ lo_info l' = lo_info l /\ lo_data l' = lo_data l /\
    lo_proto l' = firstn 8 s ++ repeat 0 (8 - List.length s).
Proof. exact proto_spec. Qed.
Print Assumptions C47_set_protocol_string.
Theorem C47_terminated_iff_short : forall s, nulfree s ->
  c_str (firstn 8 s ++ repeat 0 (8 - List.length s)) = if (List.length s <? 8)%nat then Ok s else UB OutOfBounds.
Proof. exact proto_str. Qed.
Print Assumptions C47_terminated_iff_short.
Theorem C47_print_out_of_bounds_iff : forall l t s r,
  si_avail (lo_info l) = FULL_DETAILS -> shows_name (si_name (lo_info l)) t ->
  List.length (lo_proto l) = 8%nat -> nulfree s ->
  exists l', lo_setProtocolString l (s ++ 0 :: r) = Ok l' /\
    (lo_print l' = UB OutOfBounds <-> (8 <= List.length s)%nat).
Proof. exact print_ub_iff. Qed.
Print Assumptions C47_print_out_of_bounds_iff.
Example C47_case :
  let l := mkLoco (mkSI FULL_DETAILS (zs "98 1001" ++ repeat 0 26)) ld_reset (repeat 0 8) in
  shows_name (si_name (lo_info l)) (zs "98 1001") /\ nulfree (zs "mm2_dil8") /\ nulfree (zs "mm2_prg") /\
  (l' <- lo_setProtocolString l (lit "mm2_dil8") ;; lo_print l') = UB OutOfBounds /\
  (l' <- lo_setProtocolString l (lit "mm2_prg") ;; p <- lo_print l' ;; Ok (zlen p)) = Ok 89.
Proof. repeat split; try (cbn; lia); repeat constructor; discriminate. Qed.

(** ** C48: direction changes (1 = forward, 2 = reverse, 4 = unknown) *)
Theorem C48_change_direction : forall d,
  ld_changeDirection d = ld_setDirection d (if ld_dir d =? 1 then 2 else if ld_dir d =? 2 then 1 else ld_dir d).
Proof. exact change_spec. Qed.
Print Assumptions C48_change_direction.
Theorem C48_change_twice : forall d, ld_changeDirection (ld_changeDirection d) = d.
Proof. exact change_involution. Qed.
Print Assumptions C48_change_twice.
Theorem C48_switch_direction : forall x, switchDirection x = if x =? 1 then 2 else if x =? 2 then 1 else 4.
Proof. exact switch_spec. Qed.
Print Assumptions C48_switch_direction.
Theorem C48_switch_twice : forall x, (switchDirection (switchDirection x) = x <-> x = 1 \/ x = 2 \/ x = 4).
Proof. exact switch_involution. Qed.
Print Assumptions C48_switch_twice.
Example C48_case : ld_changeDirection (mkLD 7 100 1 3 5) = mkLD 7 100 2 3 5 /\
  ld_changeDirection (mkLD 7 100 3 3 5) = mkLD 7 100 3 3 5 /\ switchDirection 3 = 4.
Proof. repeat split. Qed.
