(* Arith.v -- every arithmetic expression of the library, transcribed operator by operator with the
   types its operands are declared with, to be evaluated by the integer rules of SpecArith.v.  The
   rest of the model writes the same computations directly on Z, with the wraps put in by hand;
   ProofsArith.v shows that the two agree.

   [a = e] and [T a = e] are [store T e]; [a op= b] is [store T (op a b)].  A member or parameter
   is a [Val] of its declared type. *)
From Verif Require Import CBase CTypes Messages Frames Loco Buffer Crc World SpecArith.

Definition obind {A B} (a : option A) (f : A -> option B) : option B :=
  match a with Some x => f x | None => None end.
Notation "'let*' x := a 'in' b" := (obind a (fun x => b)) (at level 200, x name, a at level 100, b at level 200).

Section Width.
  Variable iw : Z.
  Notation store := (store iw).
  Notation U8 := (Val u8t).
  Notation U16 := (Val u16t).
  Notation U32 := (Val u32t).

  (** data[k], Data.h:27, and data[k] = v for a v already converted *)
  Definition at_ (d : Data) (k : nat) : cexpr := U8 (dget d k).
  Definition put (d : Data) (k : nat) (v : Z) : Data := mkData (dlc d) (upd k v (dbytes d)).
  Definition put8 (d : Data) (k : nat) (e : cexpr) : option Data := let* v := store u8t e in Some (put d k v).

  (* ---------------- messages/Identifier.{h,cpp} ---------------- *)
  (** Identifier.h:22-24 *)
  Definition c_kHashBitMask := store u32t (Lit 0xFFFF).
  Definition c_kResponseBitMask := store u32t (Shl (Lit 1) (Lit 16)).
  Definition c_kCommandBitMask := store u32t (Shl (Lit 0xFF) (Lit 17)).
  (** Identifier.h:34 *)
  Definition c_isResponse (i : Z) : option bool :=
    let* m := c_kResponseBitMask in
    match eval iw (And (U32 i) (U32 m)) with Some (_, v) => Some (negb (v =? 0)) | None => None end.
  (** Identifier.h:35-41 *)
  Definition c_setResponse (i : Z) (response : bool) : option Z :=
    let* m := c_kResponseBitMask in
    if response then store u32t (Or (U32 i) (U32 m)) else store u32t (And (U32 i) (Not (U32 m))).
  (** Identifier.h:43 *)
  Definition c_getPriority (i : Z) : option Z := store u8t (And (Shr (U32 i) (Lit 25)) (Lit 0x0F)).
  (** Identifier.h:46; the underlying type of Command is CommandByte_t, Constants.h:47 *)
  Definition c_getCommand (i : Z) : option Z := store u8t (And (Shr (U32 i) (Lit 17)) (Lit 0xFF)).
  (** Identifier.h:48-56 *)
  Definition c_setCommand (i command : Z) : option Z :=
    let* m := c_kCommandBitMask in
    let* commandByte := store u32t (Cast u8t (U8 command)) in
    let* commandByte := store u32t (Shl (U32 commandByte) (Lit 17)) in
    let* i := store u32t (And (U32 i) (Not (U32 m))) in
    store u32t (Or (U32 i) (U32 commandByte)).
  (** Identifier.h:58 *)
  Definition c_getHash (i : Z) : option Z :=
    let* m := c_kHashBitMask in store u16t (And (U32 i) (U32 m)).
  (** Identifier.h:88-92 *)
  Definition c_setHash (i hash : Z) : option Z :=
    let* m := c_kHashBitMask in
    let* i := store u32t (And (U32 i) (Not (U32 m))) in
    store u32t (Or (U32 i) (U16 hash)).
  (** util/utils.h:12-17 *)
  Definition c_computeSenderHash (uid : Z) : option Z :=
    let* uid := store u32t (Or (And (Shr (U32 uid) (Lit 3)) (Lit 0xFFFFFF00)) (And (U32 uid) (Lit 0x7F))) in
    let* lowBytes := store u16t (U32 uid) in
    let* highBytes := store u16t (Shr (U32 uid) (Lit 16)) in
    store u16t (Xor (U16 lowBytes) (U16 highBytes)).
  (** Identifier.cpp:16-20 *)
  Definition c_GetIdentifier (b0 b1 b2 b3 : Z) : option Z :=
    store u32t (Or (Or (Or (Shl (Cast u32t (U8 b0)) (Lit 24)) (Shl (Cast u32t (U8 b1)) (Lit 16)))
                       (Shl (Cast u32t (U8 b2)) (Lit 8))) (U8 b3)).

  (* ---------------- messages/Data.h, S88Event.h, Station.cpp ---------------- *)
  (** Data.h:62-66 *)
  Definition c_getLocid (d : Data) : option Z :=
    store u32t (Or (Or (Or (Cast u32t (at_ d 3)) (Shl (Cast u32t (at_ d 2)) (Lit 8)))
                       (Shl (Cast u32t (at_ d 1)) (Lit 16))) (Shl (Cast u32t (at_ d 0)) (Lit 24))).
  (** Data.h:68-73 *)
  Definition c_setLocid (d : Data) (locid : Z) : option Data :=
    let* d := put8 d 0 (Shr (U32 locid) (Lit 24)) in
    let* d := put8 d 1 (Shr (U32 locid) (Lit 16)) in
    let* d := put8 d 2 (Shr (U32 locid) (Lit 8)) in
    put8 d 3 (U32 locid).
  (** the two bytes of S88Event.h:45, 56, 80, Station.cpp:380 and ConfigDataStreamParser.cpp:28 *)
  Definition c_two (d : Data) (hi lo : nat) : option Z := store u16t (Or (Shl (at_ d hi) (Lit 8)) (at_ d lo)).
  (** S88Event.h:44-47, 55-58: the uint16_t becomes an address of 32 bits *)
  Definition c_s88_id (d : Data) (hi lo : nat) : option Z := let* addr := c_two d hi lo in store u32t (U16 addr).
  (** S88Event.h:49-53, 60-64 *)
  Definition c_s88_setId (d : Data) (hi lo : nat) (value : Z) : option Data :=
    let* d := put8 d lo (U32 value) in put8 d hi (Shr (U32 value) (Lit 8)).
  (** S88Event.h:74-77 *)
  Definition c_setTime (d : Data) (time : Z) : option Data :=
    let* d := put8 d 7 (And (U16 time) (Lit 0xFF)) in put8 d 6 (Shr (U16 time) (Lit 8)).

  (* ---------------- util/constexpr.h ---------------- *)
  (** constexpr.h:180-183: the two bytes of the speed *)
  Definition c_speed_bytes (d : Data) (velocity : Z) : option Data :=
    let* limited := store u16t (Cond (velocity >? kMaxEngineVelocity) (U16 kMaxEngineVelocity) (U16 velocity)) in
    let* d := put8 d 4 (Shr (U16 limited) (Lit 8)) in
    put8 d 5 (Cast u8t (U16 limited)).
  (** constexpr.h:219-222 at T = uint8_t; CanDataMaxLength is a uint8_t, Constants.h:111 *)
  Definition c_limitToCANDataLength (val : Z) : option Z :=
    store u8t (Cond (val >? CanDataMaxLength) (U8 CanDataMaxLength) (U8 val)).
  (** constexpr.h:234-239 *)
  Definition c_header_bytes (d : Data) (streamLength crc : Z) : option Data :=
    let* d := put8 d 0 (Shr (U32 streamLength) (Lit 24)) in
    let* d := put8 d 1 (Shr (U32 streamLength) (Lit 16)) in
    let* d := put8 d 2 (Shr (U32 streamLength) (Lit 8)) in
    let* d := put8 d 3 (U32 streamLength) in
    let* d := put8 d 4 (Shr (U16 crc) (Lit 8)) in
    put8 d 5 (And (U16 crc) (Lit 0xFF)).
  (** constexpr.h:47-49, the braces included *)
  Definition c_DecoderBaseAddress (addr : Z) : option Z := store u32t (Brace u32t (And (U32 addr) (Not (Lit 3)))).

  (* ---------------- types/TurnoutTypes.{h,cpp}, types/LocomotiveTypes.{h,cpp} ---------------- *)
  (** TurnoutTypes.cpp:6, 8-9; LocomotiveTypes.cpp:16-17, 19-20 *)
  Definition c_to_human (addr : Z) : option Z := store u32t (Add (U32 addr) (Lit 1)).
  Definition c_to_machine (addr : Z) : option Z := store u32t (Sub (U32 addr) (Lit 1)).
  (** TurnoutTypes.h:73, LocomotiveTypes.h:60 *)
  Definition c_getNumericAddress (addr : Z) : option Z := store u32t (And (U32 addr) (Lit 0x03FF)).
  (** operator|, TurnoutTypes.h:80-82, LocomotiveTypes.h:67-70, the braces included *)
  Definition c_or (a b : Z) : option Z := store u32t (Brace u32t (Or (U32 a) (U32 b))).
  (** operator|=, TurnoutTypes.h:65, LocomotiveTypes.h:54 *)
  Definition c_or_into (a b : Z) : option Z := store u32t (Or (U32 a) (U32 b)).

  (* ---------------- Locomotive.h ---------------- *)
  (** Locomotive.h:99 *)
  Definition c_getUidMasked (uid : Z) : option Z := store u32t (And (U32 uid) (Lit 0xFFFF)).
  (** Locomotive.h:120-121, 130-131 *)
  Definition c_mask (function : Z) : option Z :=
    let* mask := store u32t (Lit 1) in store u32t (Shl (U32 mask) (U8 function)).
  (** Locomotive.h:119-127 *)
  Definition c_setFunction (bits function : Z) (onOff : bool) : option Z :=
    let* mask := c_mask function in
    if onOff then store u32t (Or (U32 bits) (U32 mask)) else store u32t (And (U32 bits) (Not (U32 mask))).
  (** Locomotive.h:129-137 *)
  Definition c_getFunction (bits function : Z) : option bool :=
    let* mask := c_mask function in
    match eval iw (And (U32 bits) (U32 mask)) with Some (_, v) => Some (negb (v =? 0)) | None => None end.

  (* ---------------- util/Crc.cpp ---------------- *)
  (** Crc.cpp:8-13 *)
  Definition c_crc_round (accumulator : Z) : option Z :=
    match eval iw (And (U16 accumulator) (Lit 0x8000)) with
    | Some (_, v) =>
        if negb (v =? 0) then
          let* accumulator := store u16t (Shl (U16 accumulator) (Lit 1)) in
          store u16t (Xor (U16 accumulator) (U16 crc_polynomial))
        else store u16t (Shl (U16 accumulator) (Lit 1))
    | None => None
    end.
  Fixpoint rounds (n : nat) (accumulator : Z) : option Z :=
    match n with O => Some accumulator | S m => let* a := c_crc_round accumulator in rounds m a end.
  (** Crc.cpp:5-15 *)
  Definition c_updateCrc (accumulator input : Z) : option Z :=
    let* accumulator := store u16t (Xor (U16 accumulator) (Shl (U8 input) (Lit 8))) in rounds 8 accumulator.

  (* ---------------- util/BufferManager.{h,cpp}, util/TextParser.cpp ---------------- *)
  (** BufferManager.h:19, with -1 written 0 - 1 *)
  Definition c_npos : option Z := store u8t (Sub (Lit 0) (Lit 1)).
  (** BufferManager.h:35-37 *)
  Definition c_limitIndex (b : bufm) (index : Z) : option Z :=
    store u8t (Cond (index >=? blen b) (Sub (U8 (blen b)) (Lit 1)) (U8 index)).
  (** BufferManager.h:66 *)
  Definition c_capacity_remaining (b : bufm) : option Z := store u8t (Sub (U8 (bcap b)) (U8 (blen b))).
  (** the [-=] of BufferManager.cpp:55, the differences of BufferManager.cpp:98 *)
  Definition c_less8 (a b : Z) : option Z := store u8t (Sub (U8 a) (U8 b)).
  (** the [+=] of BufferManager.cpp:65 and TextParser.cpp:52 *)
  Definition c_more8 (a b : Z) : option Z := store u8t (Add (U8 a) (U8 b)).
  (** [++currentBufferLength_], BufferManager.h:96, and [consumed += 1], TextParser.cpp:168 *)
  Definition c_next8 (a : Z) : option Z := store u8t (Add (U8 a) (Lit 1)).
  (** BufferManager.cpp:62-63 *)
  Definition c_bytesToCopy (b o : bufm) : option Z :=
    let* r := c_capacity_remaining b in store u8t (Cond (r <? blen o) (U8 r) (U8 (blen o))).
  (** TextParser.cpp:69, 72: the index, converted to the parameter's type *)
  Definition c_previous8 (a : Z) : option Z := store u8t (Sub (U8 a) (Lit 1)).

  (* ---------------- util/ConfigDataStreamParser.cpp ---------------- *)
  (** ConfigDataStreamParser.cpp:26-27 *)
  Definition c_header_length (d : Data) : option Z :=
    store u32t (Or (Or (Or (Shl (Cast u32t (at_ d 0)) (Lit 24)) (Shl (Cast u32t (at_ d 1)) (Lit 16)))
                       (Shl (Cast u32t (at_ d 2)) (Lit 8))) (at_ d 3)).
  (** ConfigDataStreamParser.cpp:74 *)
  Definition c_remaining (remaining dlc : Z) : option Z := store u32t (Sub (U32 remaining) (U8 dlc)).
End Width.
