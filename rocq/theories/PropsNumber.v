(* PropsNumber.v -- property theorems about reading numbers from config data: C83.  Vocabulary: SpecNumber.v. *)
From Verif Require Import SpecNumber ProofsConsumer ProofsNumber Demo.

(** ** C83: how any value text is read as a number *)
(** every text has a reading, and only one (up to the sign of 0) *)
Theorem C83_every_text_is_read : forall v, (exists minus x, hex_reading v minus x) /\ (exists minus x, dec_reading v minus x).
Proof. exact (fun v => conj (hex_total v) (dec_total v)). Qed.
Print Assumptions C83_every_text_is_read.
Theorem C83_reading_unique : forall v minus x minus' x', hex_reading v minus x -> hex_reading v minus' x' -> x = x' /\ (minus = minus' \/ x = 0).
Proof. exact hex_unique. Qed.
Print Assumptions C83_reading_unique.
(** uid and address lines *)
Theorem C83_uid_line : forall lw w c e cb l s k v minus x,
  consumer_at w c (LocoC (Def (Some e)) cb) -> engine_at w e l -> List.length (lo_proto l) = 8%nat -> (List.length v < 26)%nat ->
  hex_reading v minus x -> attribute_of s k = Some Uid ->
  exists l' t, cons_consume lw c (zb max_section s) (zb max_key k) (zb max_value v) w = Ok (with_engine w e l', t) /\
    ld_uid (lo_data l') = unsigned_long lw minus x mod 2 ^ 32.
Proof. exact uid_line. Qed.
Print Assumptions C83_uid_line.
Theorem C83_address_line : forall lw w c e cb l s k v minus x,
  consumer_at w c (LocoC (Def (Some e)) cb) -> engine_at w e l -> List.length (lo_proto l) = 8%nat -> (List.length v < 26)%nat ->
  hex_reading v minus x -> attribute_of s k = Some Address ->
  exists l' t, cons_consume lw c (zb max_section s) (zb max_key k) (zb max_value v) w = Ok (with_engine w e l', t) /\
    ld_addr (lo_data l') = unsigned_long lw minus x mod 2 ^ 32.
Proof. exact address_line. Qed.
Print Assumptions C83_address_line.
(** counts of engines, stored modulo 256 (C51) *)
Theorem C83_counts : forall lw v minus x, 1 <= lw -> dec_reading v minus x -> dec_value lw v = signed_long lw minus x.
Proof. exact dec_reads. Qed.
Print Assumptions C83_counts.
(** platforms with a long of 32 and of 64 bits read the same uid exactly for these numbers *)
Theorem C83_platforms_agree_iff : forall minus x, 0 <= x ->
  (unsigned_long 32 minus x mod 2 ^ 32 = unsigned_long 64 minus x mod 2 ^ 32 <->
   x < 2 ^ 32 \/ x mod 2 ^ 32 = (if minus then 1 else 2 ^ 32 - 1) \/ 2 ^ 64 <= x).
Proof. exact platforms. Qed.
Print Assumptions C83_platforms_agree_iff.
(** so a uid does not always mean the same on all platforms *)
Theorem C83_platform_independent_refuted : exists v x, hex_reading v false x /\ (List.length v < 26)%nat /\
  unsigned_long 32 false x mod 2 ^ 32 <> unsigned_long 64 false x mod 2 ^ 32.
Proof.
  exists (zs "0x100004711"), 0x100004711. split; [|split; [cbn; lia|vm_compute; discriminate]].
  exists [], [], (zs "0x"), (zs "100004711"), []. split; [reflexivity|]. split; [constructor|]. split; [cbn; unfold whitespace; lia|]. split; [constructor|].
  split; [intros _; cbn; lia|]. split; [right; split; [left; reflexivity|discriminate]|]. split; [|exact Logic.I].
  repeat (eapply HexDigit; [left; cbn; split; [lia|reflexivity]|]). apply HexEnd.
Qed.
Print Assumptions C83_platform_independent_refuted.
Example C83_case :
  hex_reading (zs " -0xfFg") true 255 /\ unsigned_long 64 true 255 mod 2 ^ 32 = 0xFFFFFF01 /\
  hex_reading (zs "0xyz") false 0 /\ dec_reading (zs "12 engines") false 12 /\
  attribute_of (zs "lokomotive") (zs "uid") = Some Uid /\ consumer_at demo 0 (LocoC (Def (Some 0%nat)) (Def (Some 7%nat))) /\ engine_at demo 0 demo_engine.
Proof.
  assert (N0 : forall c, In c (zs "xg ") -> ~ is_hexdigit c) by (intros c H (d & D); unfold hexdigit in D; cbn in H; lia).
  split; [|split; [reflexivity|split; [|split; [|repeat split; reflexivity]]]].
  - exists (zs " "), (zs "-"), (zs "0x"), (zs "fF"), (zs "g"). split; [reflexivity|]. split; [constructor; [left; reflexivity|constructor]|]. split; [cbn; unfold whitespace; lia|].
    split; [constructor|]. split; [discriminate|]. split; [right; split; [left; reflexivity|discriminate]|].
    split; [|apply N0; cbn; auto]. eapply HexDigit; [right; left; cbn; split; [lia|reflexivity]|]. eapply HexDigit; [right; right; cbn; split; [lia|reflexivity]|]. apply HexEnd.
  - exists [], [], [], (zs "0"), (zs "xyz"). split; [reflexivity|]. split; [constructor|]. split; [cbn; unfold whitespace; lia|]. split; [constructor|].
    split; [intros _; cbn; lia|]. split.
    + left. split; [reflexivity|]. intros (m & c & r & [-> | ->] & (d & D) & E); cbn in E; [injection E as <- _; unfold hexdigit in D; lia|discriminate].
    + split; [|apply N0; cbn; auto]. eapply HexDigit; [left; cbn; split; [lia|reflexivity]|]. apply HexEnd.
  - exists [], [], (zs "12"), (zs " engines"). split; [reflexivity|]. split; [constructor|]. split; [cbn; unfold whitespace; lia|]. split; [constructor|].
    split; [intros _; cbn; lia|]. split; [|intros (d & D & _); cbn in D; lia].
    eapply DecDigit; [cbn; split; [lia|reflexivity]|]. eapply DecDigit; [cbn; split; [lia|reflexivity]|]. apply DecEnd.
Qed.
