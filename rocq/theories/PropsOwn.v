(* PropsOwn.v -- strings inside engines (C116) and the caller's frames (C117). *)
From Verif Require Import SpecOwn ProofsOwn Demo.

(** C116: a string that is not in the engine concerned is used by value, wherever it is *)
Theorem C116_string_elsewhere : forall es e l a m, nth_error es e = Some l -> apart e a -> memory_at es a m ->
  o_setName es e a = one_changed es e (lo_setName l m) /\
  o_setNameConditional es e a = match lo_setNameConditional l m with Ok (l', b) => Ok (upd e l' es, b) | UB u => UB u end /\
  o_setProtocolString es e a = one_changed es e (lo_setProtocolString l m).
Proof. exact apart_all. Qed.
Print Assumptions C116_string_elsewhere.
(** the engine's own name from character k on *)
Theorem C116_own_name_setName : forall es e l k, nth_error es e = Some l ->
  (k = 32%nat -> o_setName es e (NameAt e k) = Ok (upd e nameless es)) /\ (k <> 32%nat -> undefined (o_setName es e (NameAt e k))).
Proof. exact own_name_setName'. Qed.
Print Assumptions C116_own_name_setName.
Theorem C116_own_name_setNameConditional : forall es e l t k, nth_error es e = Some l -> engine_fields l t ->
  (si_avail (lo_info l) <> EMPTY -> (k <= 32)%nat -> k = 0%nat \/ t = [] -> o_setNameConditional es e (NameAt e k) = Ok (es, false)) /\
  (si_avail (lo_info l) = EMPTY \/ (32 < k)%nat \/ k <> 0%nat /\ t <> [] ->
     (k = 32%nat -> o_setNameConditional es e (NameAt e k) = Ok (upd e nameless es, true)) /\
     (k <> 32%nat -> undefined (o_setNameConditional es e (NameAt e k)))).
Proof. exact own_name_conditional. Qed.
Print Assumptions C116_own_name_setNameConditional.
Theorem C116_own_name_setProtocolString : forall es e l t k, nth_error es e = Some l -> engine_fields l t ->
  ((k <= 32)%nat -> o_setProtocolString es e (NameAt e k) = Ok (upd e (with_protocol l (in_eight (skipn k t))) es)) /\
  ((32 < k)%nat -> undefined (o_setProtocolString es e (NameAt e k))).
Proof. exact own_name_protocol. Qed.
Print Assumptions C116_own_name_setProtocolString.
(** the engine's own protocol string from character k on *)
Theorem C116_own_protocol_setName : forall es e l k, nth_error es e = Some l ->
  ((k < 8)%nat -> o_setName es e (ProtoAt e k) = Ok (upd e nameless es)) /\ ((8 <= k)%nat -> undefined (o_setName es e (ProtoAt e k))).
Proof. exact own_proto_setName'. Qed.
Print Assumptions C116_own_protocol_setName.
Theorem C116_own_protocol_setNameConditional : forall es e l t k, nth_error es e = Some l -> engine_fields l t -> (k < 8)%nat ->
  let p := skipn k (lo_proto l) in
  (si_avail (lo_info l) = EMPTY -> o_setNameConditional es e (ProtoAt e k) = Ok (upd e nameless es, true)) /\
  (si_avail (lo_info l) <> EMPTY ->
     (forall s r, p = s ++ 0 :: r -> nulfree s -> o_setNameConditional es e (ProtoAt e k) =
        if list_eq_dec Z.eq_dec s t then Ok (es, false) else Ok (upd e nameless es, true)) /\
     (nulfree p -> begins_with p t -> undefined (o_setNameConditional es e (ProtoAt e k))) /\
     (nulfree p -> ~ begins_with p t -> o_setNameConditional es e (ProtoAt e k) = Ok (upd e nameless es, true))).
Proof. exact own_proto_conditional. Qed.
Print Assumptions C116_own_protocol_setNameConditional.
Theorem C116_behind_the_protocol : forall es e l t k, nth_error es e = Some l -> engine_fields l t -> (8 <= k)%nat -> undefined (o_setNameConditional es e (ProtoAt e k)).
Proof. exact own_proto_behind. Qed.
Print Assumptions C116_behind_the_protocol.
Theorem C116_own_protocol_setProtocolString : forall es e l t k, nth_error es e = Some l -> engine_fields l t -> undefined (o_setProtocolString es e (ProtoAt e k)).
Proof. exact own_proto_protocol. Qed.
Print Assumptions C116_own_protocol_setProtocolString.
(** whatever the argument, engines keep a terminated name and eight bytes of protocol *)
Theorem C116_engines_stay_engines : forall es e a, engines_ok es ->
  (forall es', o_setName es e a = Ok es' -> engines_ok es') /\ (forall es' b, o_setNameConditional es e a = Ok (es', b) -> engines_ok es') /\
  (forall es', o_setProtocolString es e a = Ok es' -> engines_ok es').
Proof. exact all_keep. Qed.
Print Assumptions C116_engines_stay_engines.
(** it is not so that naming an engine by its own name leaves it alone *)
Theorem C116_renaming_is_harmless_refuted : exists es e l, nth_error es e = Some l /\ engine_fields l (zs "BR 103") /\
  si_avail (lo_info l) = FULL_DETAILS /\ undefined (o_setName es e (NameAt e 0)) /\ o_setNameConditional es e (NameAt e 0) = Ok (es, false).
Proof.
  exists [mkLoco (mkSI FULL_DETAILS (zs "BR 103" ++ repeat 0 27)) (mkLD 12 0 1 3 0) (zs "mfx" ++ repeat 0 5)], 0%nat. eexists.
  split; [reflexivity|]. split; [split; [repeat split; repeat constructor; discriminate|reflexivity]|]. split; [reflexivity|]. split; [eexists; reflexivity|reflexivity].
Qed.
Print Assumptions C116_renaming_is_harmless_refuted.
Definition own_engines : list Loco :=
  [mkLoco (mkSI FULL_DETAILS (zs "BR 103" ++ repeat 0 27)) (mkLD 12 0 1 3 0) (zs "mfx" ++ repeat 0 5);
   mkLoco (mkSI NAME_KNOWN (zs "mfx" ++ repeat 0 30)) (mkLD 0 0 0 0 0) (zs "mfxmfxmf")].
Example C116_case : engines_ok own_engines /\ apart 1 (NameAt 0 3) /\ memory_at own_engines (NameAt 0 3) (zs "103" ++ repeat 0 27) /\
  (exists l, o_setName own_engines 1 (NameAt 0 3) = Ok (upd 1 l own_engines) /\ shows_name (si_name (lo_info l)) (zs "103")) /\
  o_setNameConditional own_engines 1 (NameAt 0 32) = Ok (upd 1 nameless own_engines, true) /\
  o_setProtocolString own_engines 0 (NameAt 0 3) = Ok (upd 0 (with_protocol (hd lo_reset own_engines) (zs "103" ++ repeat 0 5)) own_engines) /\
  o_setNameConditional own_engines 0 (ProtoAt 0 0) = Ok (upd 0 nameless own_engines, true) /\
  undefined (o_setNameConditional (upd 0 (with_protocol (hd lo_reset own_engines) (zs "BR 103BR")) own_engines) 0 (ProtoAt 0 8)).
Proof.
  split; [constructor; [exists (zs "BR 103")|constructor; [exists (zs "mfx")|constructor]]; (split; [repeat split; repeat constructor; discriminate|reflexivity])|].
  split; [discriminate|]. split; [eexists; split; [reflexivity|split; [cbn; lia|reflexivity]]|].
  split; [eexists; split; [reflexivity|repeat split; repeat constructor; discriminate]|].
  split; [reflexivity|]. split; [reflexivity|]. split; [reflexivity|]. eexists. reflexivity.
Qed.

(** C117: one call of SendPacket: the frame is transmitted with the station's hash, and the caller's
    frame is then the transmitted one *)
Theorem C117_the_callers_frame : forall w s x h tx h', letter_ok x -> is_u16 h -> sender w s tx h' ->
  o_sendPacket s (posted x h) w = Ok (w, [EvTx tx (posted x h')], posted x h') /\
  (forall lw, step lw (OnStation s (SendPacket (posted x h))) w = Ok (w, [EvTx tx (posted x h')])).
Proof. exact one_send. Qed.
Print Assumptions C117_the_callers_frame.
(** any number of calls, through any stations: [l] lists the station and the variable of each call,
    [ds] what the variables hold at first.  Each transmission is the variable as it was at first, with
    the hash of the station that sends it; at the end each variable differs in its hash at most, which
    is that of the station that sent it last. *)
Theorem C117_sending_again : forall w (hash_of tx_of : nat -> _) l ds,
  Forall (fun d => letter_ok (fst d) /\ is_u16 (snd d)) ds ->
  Forall (fun p => sender w (fst p) (tx_of (fst p)) (hash_of (fst p)) /\ (snd p < List.length ds)%nat) l ->
  exists ds', List.length ds' = List.length ds /\ (forall i x h, nth_error ds i = Some (x, h) -> nth_error ds' i = Some (x, last_hash l hash_of i h)) /\
  exists fs, Forall2 (fun p f => exists x h, nth_error ds (snd p) = Some (x, h) /\ f = EvTx (tx_of (fst p)) (posted x (hash_of (fst p)))) l fs /\
  o_sends l (map (fun d => posted (fst d) (snd d)) ds) w = Ok (w, fs, map (fun d => posted (fst d) (snd d)) ds').
Proof. exact sends_spec. Qed.
Print Assumptions C117_sending_again.
Example C117_case : letter_ok (mkLetter 0 2 5 false (mkData 1 (7 :: repeat 0 8))) /\ sender demo 0 0 0x0318 /\
  exists h1 h0, sender demo 1 h1 h0 /\ h0 <> 0x0318 /\
  let x := mkLetter 0 2 5 false (mkData 1 (7 :: repeat 0 8)) in
  o_sends [(0, 0); (1, 0); (0, 0)]%nat [posted x 99] demo = Ok (demo, [EvTx 0 (posted x 0x0318); EvTx h1 (posted x h0); EvTx 0 (posted x 0x0318)], [posted x 0x0318]).
Proof.
  split; [repeat split; cbn; lia|]. split; [exists demo_st0; split; [exact demo_at0|split; reflexivity]|]. eexists. eexists. 
  split; [exists demo_st1; split; [exact demo_at1|split; reflexivity]|]. split; [discriminate|]. reflexivity.
Qed.
