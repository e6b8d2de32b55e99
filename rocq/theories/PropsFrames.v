(* PropsFrames.v -- C62 (frame builders) and C63 (address helpers). *)
From Verif Require Import SpecFrames ProofsFrames.

(** ** C62: the frame builders make exactly the documented frames *)
Theorem C62_wire_form : forall x, build_ok x ->
  let '(cmd, resp, bytes) := wire x in built x = mkFrame (id_value 0 0 cmd resp 0) (padded bytes).
Proof. exact built_wire. Qed.
Print Assumptions C62_wire_form.
Theorem C62_reception : forall lw w s st x, station_at w s st -> build_ok x -> (forall l c, x <> BHeader l c) ->
  ~ (cb_eng (st_cbs st) = None /\ built_needs_engine x) ->
  exists tr, step lw (OnStation s (HandlePacket (built x))) w = Ok (w, tr) /\ calls tr = built_heard (st_cbs st) x.
Proof. exact built_received. Qed.
Print Assumptions C62_reception.
(** data frames of a config stream: exactly the eight given bytes, and the terminator behind them *)
Theorem C62_data : forall b0 b1 b2 b3 b4 b5 b6 b7 rest,
  fr_Config_Data (b0 :: b1 :: b2 :: b3 :: b4 :: b5 :: b6 :: b7 :: rest) =
  Ok (mkFrame (id_value 0 0 CMD_CONFIG_DATA false 0) (padded [b0; b1; b2; b3; b4; b5; b6; b7])).
Proof. exact data_wire. Qed.
Print Assumptions C62_data.
(** requests: nine characters are copied, at most eight count; the length is taken modulo 256 *)
Theorem C62_request_with_length : forall mem s n, c_text mem s -> byte n ->
  fr_Request_Config_Data_n mem n = Ok (mkFrame (id_value 0 0 CMD_REQUEST_CONFIG false 0) (mkData (Z.min 8 n) (nine s))).
Proof. exact request_n. Qed.
Print Assumptions C62_request_with_length.
Theorem C62_request : forall mem s, c_text mem s ->
  fr_Request_Config_Data mem = Ok (mkFrame (id_value 0 0 CMD_REQUEST_CONFIG false 0) (mkData (Z.min 8 (zlen s mod 256)) (nine s))).
Proof. exact request_text. Qed.
Print Assumptions C62_request.
(** so the payload is not always the first eight characters *)
Theorem C62_request_prefix_refuted : exists s, List.length s = 256%nat /\ ~ In 0 s /\
  exists f, fr_Request_Config_Data (s ++ [0]) = Ok f /\ dlc (fdata f) = 0.
Proof. exact long_text_empty. Qed.
Print Assumptions C62_request_prefix_refuted.
(** a text without terminator is read past its end; with an explicit length, exactly if it has fewer than nine characters *)
Theorem C62_request_unterminated : forall mem, ~ In 0 mem -> fr_Request_Config_Data mem = UB OutOfBounds.
Proof. exact request_unterminated. Qed.
Print Assumptions C62_request_unterminated.
Theorem C62_request_with_length_unterminated : forall mem n, ~ In 0 mem ->
  (fr_Request_Config_Data_n mem n = UB OutOfBounds <-> (List.length mem < 9)%nat).
Proof. exact request_n_short. Qed.
Print Assumptions C62_request_with_length_unterminated.

Definition demo_station : Station := mkStation 0x4711 (mkCbs (Some 0%nat) (Some 1%nat) (Some 2%nat) (Some 3%nat) None).
Definition demo : world := mkW [demo_station] [] [] [].
Example C62_case : station_at demo 0 demo_station /\ build_ok (BSpeed true 0xC005 1234) /\
  built (BSpeed true 0xC005 1234) = mkFrame 0x00090000 (mkData 6 [0; 0; 0xC0; 5; 3; 0xE8; 0; 0; 0]) /\
  built (BS88New 0x10203 7 1) = mkFrame 0x00220000 (mkData 8 [2; 3; 0; 7; 0; 1; 0; 0; 0]) /\
  built_heard (st_cbs demo_station) (BSpeed true 0xC005 1234) = [EvVelocity 2 0xC005 1000] /\
  built_heard (st_cbs demo_station) (BTurnout true 0x3029 1 true) = [EvAccessory 3 (mkData 6 [0; 0; 0x30; 0x29; 1; 1; 0; 0; 0]) true].
Proof. repeat split; discriminate. Qed.
Example C62_request_case : c_text (zs "0 2" ++ [0; 7]) (zs "0 2") /\ nine (zs "loknamen") = zs "loknamen" ++ [0] /\
  nine (zs "loknamen2x") = zs "loknamen2".
Proof. split; [|split; reflexivity]. exists [7]. split; [reflexivity|]. cbn. intuition discriminate. Qed.

(** ** C63: the address helpers *)
Theorem C63_turnout_helpers : forall p f a, In (p, f) turnout_helpers -> 0 <= a < 1024 ->
  f a = turnout_base p + a /\ f a = turnout_setProtocol a p /\ turnout_getNumericAddress (f a) = a.
Proof. exact turnout_helpers_eq. Qed.
Print Assumptions C63_turnout_helpers.
Theorem C63_loco_helpers : forall p f a, In (p, f) loco_helpers -> 0 <= a < 1024 ->
  f a = loco_base p + a /\ f a = loco_setProtocol a p /\ loco_getNumericAddress (f a) = a.
Proof. exact loco_helpers_eq. Qed.
Print Assumptions C63_loco_helpers.
(** the MM2 helper for engines disagrees with setProtocol(MM2) for every address *)
Theorem C63_mm2_loco : forall a, 0 <= a < 1024 -> MM2_loco a = 0x2000 + a /\ loco_setProtocol a P_MM2 = a.
Proof. exact mm2_loco_eq. Qed.
Print Assumptions C63_mm2_loco.
(** an accessory frame made with a helper shows the protocol and the address again *)
Theorem C63_helper_and_builder : forall p f a r d pw, In (p, f) turnout_helpers -> 0 <= a < 1024 -> byte d ->
  to_getRailProtocol (fdata (fr_Turnout r (f a) d pw)) = protocol_class p /\
  turnout_getNumericAddress (to_getLocid (fdata (fr_Turnout r (f a) d pw))) = a.
Proof. exact helper_frame. Qed.
Print Assumptions C63_helper_and_builder.
(** larger addresses can land in the range of another protocol *)
Theorem C63_large_address_refuted : exists a, is_u32 a /\
  to_getRailProtocol (fdata (fr_Turnout false (MM2_turnout a) 0 true)) = P_DCC.
Proof. exact helper_out_of_range. Qed.
Print Assumptions C63_large_address_refuted.
Theorem C63_decoder_base : forall a, is_u32 a -> DecoderBaseAddress a = a - a mod 4.
Proof. exact decoder_base. Qed.
Print Assumptions C63_decoder_base.
Theorem C63_decoder_group : forall a c, is_u32 a -> is_u32 c -> (DecoderBaseAddress a = DecoderBaseAddress c <-> a / 4 = c / 4).
Proof. exact decoder_group. Qed.
Print Assumptions C63_decoder_group.
Example C63_case : In (P_DCC, DCC_turnout) turnout_helpers /\ DCC_turnout 41 = 0x3829 /\ MFX_loco 3 = 0x4003 /\ DecoderBaseAddress 0x302B = 0x3028.
Proof. repeat split. right. left. reflexivity. Qed.
