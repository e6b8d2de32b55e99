(* PropsArith.v -- C119: every arithmetic expression of the library has a meaning by the integer
   rules of C++, and it is the one the other properties describe. *)
From Verif Require Import CBase CTypes Messages Frames Loco Buffer Crc World SpecArith Arith ProofsArith.

(** Identifiers: every getter and setter, for every identifier, command and hash. *)
Theorem C119_identifiers : forall i, is_of u32t i ->
  c_isResponse 32 i = Some (id_isResponse i) /\
  (forall r, c_setResponse 32 i r = Some (id_setResponse i r)) /\
  c_getPriority 32 i = Some (id_getPriority i) /\
  c_getCommand 32 i = Some (id_getCommand i) /\
  (forall c, is_of u8t c -> c_setCommand 32 i c = Some (id_setCommand i c)) /\
  c_getHash 32 i = Some (id_getHash i) /\
  (forall h, is_of u16t h -> c_setHash 32 i h = Some (id_setHash i h)) /\
  c_computeSenderHash 32 i = Some (computeSenderHash i) /\
  (forall a b c d, is_of u8t a -> is_of u8t b -> is_of u8t c -> is_of u8t d ->
     c_GetIdentifier 32 a b c d = Some (id_fromBuffer a b c d)).
Proof.
  exact (fun i I => conj (isResponse_ok i I) (conj (fun r => setResponse_ok i r I) (conj (getPriority_ok i I)
    (conj (getCommand_ok i I) (conj (fun c => setCommand_ok i c I) (conj (getHash_ok i I)
    (conj (fun h => setHash_ok i h I) (conj (computeSenderHash_ok i I) GetIdentifier_ok)))))))).
Qed.
Print Assumptions C119_identifiers.

(** Payloads: every getter and setter that computes, for every payload and every value. *)
Theorem C119_payloads : forall d, (forall k, is_of u8t (dget d k)) ->
  c_getLocid 32 d = Some (getLocid d) /\
  (forall l, is_of u32t l -> c_setLocid 32 d l = Some (setLocid d l)) /\
  c_s88_id 32 d 0 1 = Some (s88_getDeviceId d) /\
  c_s88_id 32 d 2 3 = Some (s88_getContactId d) /\
  (forall a, is_of u32t a -> c_s88_setId 32 d 0 1 a = Some (s88_setDeviceId d a)) /\
  (forall a, is_of u32t a -> c_s88_setId 32 d 2 3 a = Some (s88_setContactId d a)) /\
  c_two 32 d 6 7 = Some (s88_getTime d) /\
  (forall t, is_of u16t t -> c_setTime 32 d t = Some (s88_setTime d t)) /\
  c_header_length 32 d = Some (header_length d) /\
  c_two 32 d 4 5 = Some (header_crc d).
Proof.
  exact (fun d D => conj (getLocid_ok d D) (conj (setLocid_ok d) (conj (s88_id_ok d 0 1 D) (conj (s88_id_ok d 2 3 D)
    (conj (s88_setId_ok d 0 1) (conj (s88_setId_ok d 2 3) (conj (two_ok d 6 7 D) (conj (setTime_ok d)
    (conj (header_length_ok d D) (two_ok d 4 5 D)))))))))).
Qed.
Print Assumptions C119_payloads.

(** The frame makers: the bytes of a speed (with the locomotive's identifier already in place) and
    those of a stream's first message are the ones of the frames they make. *)
Theorem C119_frames : forall r uid v n c,
  is_of u32t uid -> is_of u16t v -> is_of u32t n -> is_of u16t c ->
  c_speed_bytes 32 (setLocid (mkData 6 (repeat 0 9)) uid) v = Some (fdata (fr_LocoSpeed r uid v)) /\
  c_header_bytes 32 (mkData 6 (repeat 0 9)) n c = Some (fdata (fr_Config_Data_Header n c)) /\
  (forall l, is_of u8t l -> c_limitToCANDataLength 32 l = Some (limitToCANDataLength l)).
Proof.
  exact (fun r uid v n c _ V N C => conj (speed_ok _ v V) (conj (header_bytes_ok _ n c N C) limit_ok)).
Qed.
Print Assumptions C119_frames.

(** Addresses. *)
Theorem C119_addresses : forall a, is_of u32t a ->
  c_to_human 32 a = Some (HumanTurnoutAddress_of_machine a) /\
  c_to_human 32 a = Some (HumanLocomotiveAddress_of_machine a) /\
  c_to_machine 32 a = Some (MachineTurnoutAddress_of_human a) /\
  c_to_machine 32 a = Some (MachineLocomotiveAddress_of_human a) /\
  c_getNumericAddress 32 a = Some (turnout_getNumericAddress a) /\
  c_getNumericAddress 32 a = Some (loco_getNumericAddress a) /\
  c_DecoderBaseAddress 32 a = Some (DecoderBaseAddress a) /\
  (forall b, is_of u32t b -> c_or 32 a b = Some (turnout_or a b) /\ c_or_into 32 a b = Some (turnout_or a b) /\
                             c_or 32 a b = Some (loco_or a b) /\ c_or_into 32 a b = Some (loco_or a b)).
Proof.
  exact (fun a A => conj (to_human_ok a A) (conj (to_human_ok a A) (conj (to_machine_ok a A) (conj (to_machine_ok a A)
    (conj (numeric_ok a A) (conj (numeric_ok a A) (conj (decoder_ok a A) (fun b B =>
      conj (or_ok a b A B) (conj (or_into_ok a b A B) (conj (or_ok a b A B) (or_into_ok a b A B))))))))))).
Qed.
Print Assumptions C119_addresses.

(** Function bits: without meaning exactly where the model says so (from function 32 on). *)
Theorem C119_functions : forall d, is_of u32t (ld_fbits d) -> is_of u32t (ld_uid d) ->
  c_getUidMasked 32 (ld_uid d) = Some (ld_getUidMasked d) /\
  forall f, is_of u8t f ->
  (forall on, c_setFunction 32 (ld_fbits d) f on =
     match ld_setFunction d f on with Ok d' => Some (ld_fbits d') | UB _ => None end) /\
  c_getFunction 32 (ld_fbits d) f = match ld_getFunction d f with Ok b => Some b | UB _ => None end.
Proof.
  exact (fun d B U => conj (masked_ok d U) (fun f F => conj (fun on => setFunction_ok d f on B F) (getFunction_ok d f B F))).
Qed.
Print Assumptions C119_functions.

(** The checksum: all eight rounds, for every accumulator and byte. *)
Theorem C119_checksum : forall a i, is_of u16t a -> is_of u8t i -> c_updateCrc 32 a i = Some (crc_update a i).
Proof. exact updateCrc_ok. Qed.
Print Assumptions C119_checksum.

(** Buffers: lengths, indices and room, for every buffer, even one whose length exceeds its capacity. *)
Theorem C119_buffers : forall b, is_of u8t (bcap b) -> is_of u8t (blen b) ->
  c_npos 32 = Some npos /\
  c_capacity_remaining 32 b = Some (bcap_rem b) /\
  (forall i, is_of u8t i -> c_limitIndex 32 b i = Some (limitIndex b i)) /\
  (forall o, is_of u8t (blen o) ->
     c_bytesToCopy 32 b o = Some (if bcap_rem b <? blen o then bcap_rem b else blen o)) /\
  (forall x y, is_of u8t x -> is_of u8t y ->
     c_less8 32 x y = Some (u8 (x - y)) /\ c_more8 32 x y = Some (u8 (x + y)) /\
     c_next8 32 x = Some (u8 (x + 1)) /\ c_previous8 32 x = Some (u8 (x - 1))).
Proof.
  exact (fun b C L => conj eq_refl (conj (capacity_ok b C L) (conj (fun i => limitIndex_ok b i L)
    (conj (fun o => bytesToCopy_ok b o C L) (fun x y X Y => conj (less8_ok x y X Y) (conj (more8_ok x y X Y)
      (conj (next8_ok x X) (previous8_ok x X)))))))).
Qed.
Print Assumptions C119_buffers.

(** The bytes a download still misses. *)
Theorem C119_remaining : forall r n, is_of u32t r -> is_of u8t n -> c_remaining 32 r n = Some (u32 (r - n)).
Proof. exact remaining_ok. Qed.
Print Assumptions C119_remaining.

(** The widths of int (16 bits at least in C++) the library makes sense for: on a narrower int the
    masks of the identifier are shifted out of range, on a wider one the addresses' operator|
    narrows between braces. *)
Theorem C119_int_width : forall iw, 16 <= iw ->
  (c_kResponseBitMask iw <> None /\ c_kCommandBitMask iw <> None /\
   (forall a b, is_of u32t a -> is_of u32t b -> c_or iw a b <> None)) <-> 26 <= iw <= 32.
Proof. exact width_iff. Qed.
Print Assumptions C119_int_width.

(** An intermediate result that does not fit: the accumulator is shifted in int and cut back. *)
Example C119_case_crc : eval 32 (Shl (Val u16t 0xFFFF) (Lit 1)) = Some ((true, 32), 0x1FFFE) /\
  store 32 u16t (Shl (Val u16t 0xFFFF) (Lit 1)) = Some 0xFFFE.
Proof. split; vm_compute; reflexivity. Qed.
(** A length above its capacity: the difference is negative in int and wraps in size_type. *)
Example C119_case_room : let b := mkBuf (repeat 0 8) 9 8 in
  eval 32 (Sub (Val u8t (bcap b)) (Val u8t (blen b))) = Some ((true, 32), -1) /\ c_capacity_remaining 32 b = Some 255.
Proof. split; vm_compute; reflexivity. Qed.
(** A function number out of range, an identifier's hash, and an int of 16 bits. *)
Example C119_case_function : c_setFunction 32 0 31 true = Some 2147483648 /\ c_setFunction 32 0 32 true = None.
Proof. split; vm_compute; reflexivity. Qed.
Example C119_case_identifier : c_setCommand 32 0x1FFFFFFF 0x21 = Some 0x1E43FFFF /\ c_computeSenderHash 32 0x1812 = Some 0x312.
Proof. split; vm_compute; reflexivity. Qed.
Example C119_case_16 : c_kResponseBitMask 16 = None /\ c_two 16 (mkData 8 (repeat 200 9)) 4 5 = None.
Proof. split; vm_compute; reflexivity. Qed.
