(* ProofsPrint.v -- the printing functions of the model print the texts of SpecPrint.v. *)
From Coq Require Import DecimalString HexadecimalString DecimalN HexadecimalN Decimal Hexadecimal.
From Verif Require Import ZLib SpecPrint ProofsCodec ProofsStation.

(** ** Digits *)
Definition value (base : Z) (ds : list Z) : Z := fold_left (fun a d => a * base + d) ds 0.
Definition plain (base : Z) (ds : list Z) : Prop := ds <> [] /\ Forall (fun d => 0 <= d < base) ds /\ (hd 0 ds = 0 -> ds = [0]).
Lemma value_snoc : forall base ds d, value base (ds ++ [d]) = value base ds * base + d.
Proof. intros. unfold value. rewrite fold_left_app. reflexivity. Qed.
Lemma value_nonneg : forall base ds, 2 <= base -> Forall (fun d => 0 <= d < base) ds -> 0 <= value base ds.
Proof.
  intros base ds B. induction ds as [|d ds IH] using rev_ind; intros F; [cbn; lia|]. rewrite value_snoc. apply Forall_app in F.
  destruct F as (F & D). apply Forall_cons_iff in D. specialize (IH F). nia.
Qed.
Lemma value_pos : forall base ds, 2 <= base -> Forall (fun d => 0 <= d < base) ds -> ds <> [] -> hd 0 ds <> 0 -> 0 < value base ds.
Proof.
  intros base ds B. induction ds as [|d ds IH] using rev_ind; intros F N H; [congruence|]. rewrite value_snoc. apply Forall_app in F.
  destruct F as (F & D). apply Forall_cons_iff in D. destruct D as (D & _). destruct ds as [|e ds].
  - cbn in H |- *. lia.
  - assert (0 < value base (e :: ds)) by (apply IH; [exact F|discriminate|exact H]). nia.
Qed.
Lemma digits_value : forall base ds f, 2 <= base -> plain base ds -> value base ds < 2 ^ Z.of_nat (S f) -> digits (S f) base (value base ds) = ds.
Proof.
  intros base ds f B. revert f. induction ds as [|d ds IH] using rev_ind; intros f (N & F & H) L; [congruence|].
  rewrite value_snoc in *. apply Forall_app in F. destruct F as (F & D). apply Forall_cons_iff in D. destruct D as (D & _).
  cbn [digits]. destruct ds as [|e ds].
  - cbn [value fold_left app]. replace (0 * base + d) with d by lia. replace (d <? base) with true by lia. reflexivity.
  - assert (P : 0 < value base (e :: ds)).
    { apply value_pos; [assumption|assumption|discriminate|]. intros Z0. cbn [app hd] in H, Z0. specialize (H Z0). destruct ds; discriminate. }
    set (v := value base (e :: ds)) in *. replace (v * base + d <? base) with false by nia.
    replace ((v * base + d) / base) with v by (apply (Z.div_unique (v * base + d) base v d); [left; lia|lia]).
    replace ((v * base + d) mod base) with d by (apply (Z.mod_unique (v * base + d) base v d); [left; lia|lia]).
    f_equal. rewrite Nat2Z.inj_succ, Z.pow_succ_r in L by lia. assert (L' : v < 2 ^ Z.of_nat f) by nia.
    destruct f as [|f]; [change (2 ^ Z.of_nat 0) with 1 in L'; lia|]. unfold v. apply IH; [|exact L'].
    split; [discriminate|]. split; [exact F|]. intros Z0. cbn [app hd] in H, Z0. specialize (H Z0). destruct ds; discriminate.
Qed.
Lemma digits_of_value : forall base ds, 2 <= base -> plain base ds -> digits_of base (value base ds) = ds.
Proof.
  intros base ds B P. unfold digits_of. apply digits_value; [exact B|exact P|]. destruct P as (_ & F & _). pose proof (value_nonneg _ _ B F).
  pose proof (Z.log2_nonneg (value base ds)). rewrite Nat2Z.inj_succ, Z2Nat.id by assumption.
  destruct (Z.eq_dec (value base ds) 0) as [-> | N0]; [vm_compute; reflexivity|]. apply Z.log2_spec. lia.
Qed.
(** and they are the digits of every number *)
Lemma digits_plain : forall base f x, 2 <= base -> 0 <= x < 2 ^ Z.of_nat (S f) -> plain base (digits (S f) base x) /\ value base (digits (S f) base x) = x.
Proof.
  intros base f x B. revert x. induction f as [|f IH]; intros x X.
  - change (2 ^ Z.of_nat 1) with 2 in X. cbn [digits]. replace (x <? base) with true by lia. unfold plain. cbn.
    split; [|lia]. split; [discriminate|]. split; [constructor; [lia|constructor]|]. intros ->. reflexivity.
  - remember (S f) as g. cbn [digits]. destruct (Z.ltb_spec x base) as [L|L].
    + unfold plain. cbn. split; [|lia]. split; [discriminate|]. split; [constructor; [lia|constructor]|]. intros ->. reflexivity.
    + assert (Q : 0 < x / base) by (apply Z.div_str_pos; lia).
      assert (R : x / base < 2 ^ Z.of_nat g).
      { apply Z.div_lt_upper_bound; [lia|]. rewrite Nat2Z.inj_succ, Z.pow_succ_r in X by lia. nia. }
      destruct (IH (x / base)) as ((P1 & P2 & P3) & V); [lia|]. subst g. set (ds := digits (S f) base (x / base)) in *.
      pose proof (Z.mod_pos_bound x base ltac:(lia)). split.
      * split; [destruct ds; discriminate|]. split; [apply Forall_app; split; [exact P2|constructor; [lia|constructor]]|].
        intros Z0. destruct ds as [|e ds]; [congruence|]. cbn [app hd] in Z0, P3. specialize (P3 Z0). rewrite P3 in V. cbn in V. lia.
      * rewrite value_snoc, V. pose proof (Z.div_mod x base ltac:(lia)). lia.
Qed.
Lemma digits_of_plain : forall base x, 2 <= base -> 0 <= x -> plain base (digits_of base x) /\ value base (digits_of base x) = x.
Proof.
  intros base x B X. unfold digits_of. apply digits_plain; [exact B|]. split; [exact X|]. pose proof (Z.log2_nonneg x). rewrite Nat2Z.inj_succ, Z2Nat.id by assumption.
  destruct (Z.eq_dec x 0) as [-> | N0]; [vm_compute; reflexivity|]. apply Z.log2_spec. lia.
Qed.

(** ** The standard library's decimal and hexadecimal numerals *)
Fixpoint dvals (u : Decimal.uint) : list Z :=
  match u with
  | Decimal.Nil => [] | Decimal.D0 u => 0 :: dvals u | Decimal.D1 u => 1 :: dvals u | Decimal.D2 u => 2 :: dvals u
  | Decimal.D3 u => 3 :: dvals u | Decimal.D4 u => 4 :: dvals u | Decimal.D5 u => 5 :: dvals u
  | Decimal.D6 u => 6 :: dvals u | Decimal.D7 u => 7 :: dvals u | Decimal.D8 u => 8 :: dvals u | Decimal.D9 u => 9 :: dvals u
  end.
Lemma dec_string : forall u, zs (DecimalString.NilEmpty.string_of_uint u) = map digit_char (dvals u).
Proof. induction u; [reflexivity|..]; cbn [DecimalString.NilEmpty.string_of_uint dvals map]; rewrite <- IHu; reflexivity. Qed.
Lemma dec_acc : forall u a, Z.pos (Pos.of_uint_acc u a) = fold_left (fun a d => a * 10 + d) (dvals u) (Z.pos a).
Proof.
  induction u; intros a; cbn [Pos.of_uint_acc dvals fold_left]; [reflexivity|..]; rewrite IHu; f_equal; lia.
Qed.
Lemma dec_value_u : forall u, Z.of_N (N.of_uint u) = value 10 (dvals u).
Proof.
  unfold N.of_uint, value. induction u; cbn [Pos.of_uint dvals fold_left]; try reflexivity; try (cbn [Z.of_N]; rewrite dec_acc; reflexivity).
  exact IHu.
Qed.
Lemma dec_bound : forall u, Forall (fun d => 0 <= d < 10) (dvals u).
Proof. induction u; cbn [dvals]; constructor; (lia || assumption). Qed.
Lemma dec_norm : forall u, plain 10 (dvals (Decimal.unorm u)).
Proof.
  intros u. split; [|split; [apply dec_bound|]].
  - unfold Decimal.unorm. induction u; cbn [Decimal.nzhead dvals]; try discriminate. exact IHu.
  - unfold Decimal.unorm. induction u; cbn [Decimal.nzhead dvals hd]; try discriminate; try reflexivity. exact IHu.
Qed.
Lemma dec_digits : forall n, dvals (N.to_uint n) = digits_of 10 (Z.of_N n) /\ N.to_uint n <> Decimal.Nil.
Proof.
  intros n. assert (E : N.to_uint n = Decimal.unorm (N.to_uint n)).
  { rewrite <- (DecimalN.Unsigned.to_of (N.to_uint n)). rewrite DecimalN.Unsigned.of_to. reflexivity. }
  pose proof (dec_norm (N.to_uint n)) as P. rewrite <- E in P. split.
  - rewrite <- (DecimalN.Unsigned.of_to n) at 2. rewrite dec_value_u. symmetry. apply digits_of_value; [lia|exact P].
  - intros X. rewrite X in P. destruct P as (P & _). apply P. reflexivity.
Qed.
Lemma dec_nilzero : forall u, u <> Decimal.Nil -> DecimalString.NilZero.string_of_uint u = DecimalString.NilEmpty.string_of_uint u.
Proof. intros [] H; [congruence|..]; reflexivity. Qed.
Lemma zs_app : forall a c, zs (a ++ c)%string = zs a ++ zs c.
Proof. induction a as [|x a IH]; intros c; [reflexivity|]. unfold zs in *. cbn. rewrite IH. reflexivity. Qed.
Theorem fmt_d_text : forall x, fmt_d x = dec_text x.
Proof.
  intros x. unfold fmt_d, dec_text. assert (P : forall p, zs (DecimalString.NilZero.string_of_uint (Pos.to_uint p)) = map digit_char (digits_of 10 (Z.pos p))).
  { intros p. destruct (dec_digits (N.pos p)) as (A & B). change (N.to_uint (N.pos p)) with (Pos.to_uint p) in *. rewrite dec_nilzero, dec_string, A by exact B. reflexivity. }
  destruct x as [|p|p]; [reflexivity| |].
  - cbn [Z.to_int DecimalString.NilZero.string_of_int]. rewrite P. reflexivity.
  - cbn [Z.to_int DecimalString.NilZero.string_of_int]. change (Z.neg p <? 0) with true. cbv iota. change (- Z.neg p) with (Z.pos p). rewrite <- P. reflexivity.
Qed.

Fixpoint hvals (u : Hexadecimal.uint) : list Z :=
  match u with
  | Hexadecimal.Nil => [] | Hexadecimal.D0 u => 0 :: hvals u | Hexadecimal.D1 u => 1 :: hvals u | Hexadecimal.D2 u => 2 :: hvals u
  | Hexadecimal.D3 u => 3 :: hvals u | Hexadecimal.D4 u => 4 :: hvals u | Hexadecimal.D5 u => 5 :: hvals u
  | Hexadecimal.D6 u => 6 :: hvals u | Hexadecimal.D7 u => 7 :: hvals u | Hexadecimal.D8 u => 8 :: hvals u | Hexadecimal.D9 u => 9 :: hvals u
  | Hexadecimal.Da u => 10 :: hvals u | Hexadecimal.Db u => 11 :: hvals u | Hexadecimal.Dc u => 12 :: hvals u
  | Hexadecimal.Dd u => 13 :: hvals u | Hexadecimal.De u => 14 :: hvals u | Hexadecimal.Df u => 15 :: hvals u
  end.
Lemma hex_string : forall u, zs (HexadecimalString.NilEmpty.string_of_uint u) = map digit_char (hvals u).
Proof. induction u; [reflexivity|..]; cbn [HexadecimalString.NilEmpty.string_of_uint hvals map]; rewrite <- IHu; reflexivity. Qed.
Lemma hex_acc : forall u a, Z.pos (Pos.of_hex_uint_acc u a) = fold_left (fun a d => a * 16 + d) (hvals u) (Z.pos a).
Proof.
  induction u; intros a; cbn [Pos.of_hex_uint_acc hvals fold_left]; [reflexivity|..]; rewrite IHu; f_equal; lia.
Qed.
Lemma hex_value_u : forall u, Z.of_N (N.of_hex_uint u) = value 16 (hvals u).
Proof.
  unfold N.of_hex_uint, value. induction u; cbn [Pos.of_hex_uint hvals fold_left]; try reflexivity; try (cbn [Z.of_N]; rewrite hex_acc; reflexivity).
  exact IHu.
Qed.
Lemma hex_bound : forall u, Forall (fun d => 0 <= d < 16) (hvals u).
Proof. induction u; cbn [hvals]; constructor; (lia || assumption). Qed.
Lemma hex_norm : forall u, plain 16 (hvals (Hexadecimal.unorm u)).
Proof.
  intros u. split; [|split; [apply hex_bound|]].
  - unfold Hexadecimal.unorm. induction u; cbn [Hexadecimal.nzhead hvals]; try discriminate. exact IHu.
  - unfold Hexadecimal.unorm. induction u; cbn [Hexadecimal.nzhead hvals hd]; try discriminate; try reflexivity. exact IHu.
Qed.
Lemma hex_digits : forall n, hvals (N.to_hex_uint n) = digits_of 16 (Z.of_N n) /\ N.to_hex_uint n <> Hexadecimal.Nil.
Proof.
  intros n. assert (E : N.to_hex_uint n = Hexadecimal.unorm (N.to_hex_uint n)).
  { rewrite <- (HexadecimalN.Unsigned.to_of (N.to_hex_uint n)). rewrite HexadecimalN.Unsigned.of_to. reflexivity. }
  pose proof (hex_norm (N.to_hex_uint n)) as P. rewrite <- E in P. split.
  - rewrite <- (HexadecimalN.Unsigned.of_to n) at 2. rewrite hex_value_u. symmetry. apply digits_of_value; [lia|exact P].
  - intros X. rewrite X in P. destruct P as (P & _). apply P. reflexivity.
Qed.
Lemma hex_nilzero : forall u, u <> Hexadecimal.Nil -> HexadecimalString.NilZero.string_of_uint u = HexadecimalString.NilEmpty.string_of_uint u.
Proof. intros [] H; [congruence|..]; reflexivity. Qed.
Theorem hex_lower_text : forall x, 0 <= x -> hex_lower x = hex_text x.
Proof.
  intros x X. unfold hex_lower, hex_text. destruct (hex_digits (Z.to_N x)) as (A & B). rewrite hex_nilzero, hex_string, A by exact B.
  rewrite Z2N.id by exact X. reflexivity.
Qed.
Theorem fmt_alt0x_text : forall n x, 0 <= x -> fmt_alt0x n x = hex_zeros n x.
Proof.
  intros n x X. unfold fmt_alt0x, hex_zeros, hex_mark. rewrite hex_lower_text by exact X. destruct (x =? 0); reflexivity.
Qed.
Theorem fmt_altx_text : forall n x, 0 <= x -> fmt_altx n x = hex_blanks n x.
Proof.
  intros n x X. unfold fmt_altx, hex_blanks, hex_mark. rewrite hex_lower_text by exact X. destruct (x =? 0); reflexivity.
Qed.
Theorem fmt_alt0X_text : forall n x, 0 <= x -> fmt_alt0X n x = map capital (hex_zeros n x).
Proof. intros n x X. unfold fmt_alt0X. rewrite fmt_alt0x_text by exact X. reflexivity. Qed.

(** ** Objects *)
Lemma c_str_until : forall m t, c_str m = Ok t -> t = until_nul m.
Proof.
  induction m as [|c m IH]; intros t H; [discriminate|]. cbn [c_str until_nul] in *. destruct (c =? 0); [congruence|].
  destruct (c_str m) as [s|u]; [|discriminate]. cbn [bind] in H. injection H as <-. f_equal. apply IH. reflexivity.
Qed.
Lemma si_print_text : forall s t, si_print s = Ok t -> t = short_text s.
Proof.
  intros s t H. unfold si_print, short_text in *. destruct (si_avail s).
  - injection H as <-. reflexivity.
  - destruct (c_str (si_name s)) as [n|u] eqn:E; [|discriminate]. apply c_str_until in E. subst n. injection H as <-. reflexivity.
  - destruct (c_str (si_name s)) as [n|u] eqn:E; [|discriminate]. apply c_str_until in E. subst n. injection H as <-. reflexivity.
Qed.
Lemma s32_signed : forall x, s32 x = as_signed x. Proof. reflexivity. Qed.
Lemma ld_print_text : forall d, details_ok d -> ld_print d = details_text d.
Proof.
  intros d (U & V & D & A & F). unfold ld_print, details_text. unfold is_u32, is_u16, byte in *. rewrite !fmt_d_text, fmt_altx_text, fmt_alt0x_text by lia.
  replace (u8 (ld_dir d)) with (ld_dir d) by (unfold u8; symmetry; apply Z.mod_small; lia). reflexivity.
Qed.
Lemma lo_print_text : forall l t, details_ok (lo_data l) -> lo_print l = Ok t -> t = engine_text l.
Proof.
  intros l t D H. unfold lo_print, engine_text in *. destruct (si_print (lo_info l)) as [a|u] eqn:E; [|discriminate]. apply si_print_text in E. subst a. cbn [bind] in H.
  destruct (si_avail (lo_info l)); try (injection H as <-; rewrite app_nil_r; reflexivity).
  destruct (c_str (lo_proto l)) as [p|u] eqn:E; [|discriminate]. apply c_str_until in E. subst p. cbn [bind] in H. rewrite ld_print_text in H by exact D.
  change nl with newline in H. congruence.
Qed.
Lemma list_print_text : forall i t, list_print i = Ok t -> t = flat_map short_text i.
Proof.
  induction i as [|s i IH]; intros t H; [injection H as <-; reflexivity|]. cbn [list_print flat_map] in *.
  destruct (si_print s) as [a|u] eqn:E; [|discriminate]. cbn [bind] in H. destruct (list_print i) as [r|u]; [|discriminate]. injection H as <-.
  f_equal; [apply si_print_text; exact E|apply IH; reflexivity].
Qed.
Lemma to_print_text : forall d, payload_ok d -> to_printAll d = turnout_text d.
Proof.
  intros d P. unfold to_printAll, turnout_text, to_AddressAsHumanValue, to_getPower, to_getDirection, to_getLocid. rewrite (locid_uid d P). change (dget d 4) with (b d 4). change (dget d 5) with (b d 5).
  assert (U : is_u32 (uid_of d)) by (pose proof (locid_uid d P) as E; nine d P; unfold uid_of, be, b, is_u32, byte in *; cbn [dbytes nth] in *; lia).
  rewrite !fmt_d_text, fmt_altx_text by (apply U). unfold HumanTurnoutAddress_of_machine, u32. rewrite s32_signed. change (2 ^ 32) with 4294967296.
  unfold position_text, TD_RED, TD_GREEN, TD_YELLOW, TD_WHITE. rewrite !negb_involutive.
  change (fmt_d 1) with (zs "1"). destruct (b d 5 =? 0); cbn [negb]; reflexivity.
Qed.
Lemma hex_print_text : forall d t, payload_ok d -> printAsHex d = Ok t -> t = payload_hex d.
Proof.
  intros d t P H. unfold printAsHex in H. destruct (Z_le_gt_dec (dlc d) 9) as [L|L]; [|rewrite visited_ub in H by (assumption || lia); discriminate].
  rewrite visited_ok in H by assumption. cbn [bind] in H. injection H as <-. unfold payload_hex, payload. rewrite flat_map_concat_map. f_equal.
  apply map_ext_in. intros x X. assert (B : byte x). { destruct P as (_ & _ & F). rewrite Forall_forall in F. apply F. rewrite <- (firstn_skipn (Z.to_nat (dlc d)) (dbytes d)); apply in_or_app; left; exact X. }
  rewrite fmt_alt0x_text by (unfold byte in B; lia). reflexivity.
Qed.
Lemma text_print_text : forall d t, payload_ok d -> printAsText d = Ok t -> t = payload d.
Proof.
  intros d t P H. unfold printAsText in H. destruct (Z_le_gt_dec (dlc d) 9) as [L|L]; [|rewrite visited_ub in H by (assumption || lia); discriminate].
  rewrite visited_ok in H by assumption. injection H as <-. reflexivity.
Qed.

(** ** Received frames *)
Lemma console_app : forall a c, console (a ++ c) = console a ++ console c.
Proof. intros. unfold console. rewrite map_app, concat_app. reflexivity. Qed.
Ltac runs H := unfold puts, print, print_res, ask, deref, at_, World.seq, emit, when_some, skip, bind in H; cbn [app] in H.
Ltac done H := injection H as <- <-; unfold console; cbn [map List.concat app]; rewrite ?app_nil_r, ?app_assoc; reflexivity.
Lemma system_console : forall w s st i d w' t, station_at w s st -> st_handleSystemCommand s i d w = Ok (w', t) -> console t = system_text d.
Proof.
  intros w s st i d w' t S0 H. unfold st_handleSystemCommand in H. rewrite (ask_ok _ _ _ _ _ (get_st _ _ _ S0)) in H. cbv zeta in H. change (sys_getSubcommand d) with (b d 4) in H.
  unfold kSubcommandSystemGo, kSubcommandSystemHalt, kSubcommandSystemStop, kSubcommandLocoEmergencyStop, kSubcommandSystemIdentifier,
    kSubcommandSystemOverload, kSubcommandSystemReset, kSubcommandSystemStatus in H. rewrite Z.geb_leb in H. unfold system_text.
  destruct (Z.leb_spec 5 (dlc d)) as [L|L]; destruct (Z.ltb_spec (dlc d) 5) as [L'|L']; try lia; [|runs H; done H].
  runs H. destruct (Z.eqb_spec (b d 4) 1) as [->|]. { change (1 =? 0) with false. change (1 =? 1) with true. cbv iota. destruct (cb_sys (st_cbs st)); done H. }
  destruct (Z.eqb_spec (b d 4) 2) as [->|]. { change (2 =? 0) with false. change (2 =? 1) with false. change (2 =? 2) with true. cbv iota. destruct (cb_eng (st_cbs st)); done H. }
  destruct (Z.eqb_spec (b d 4) 0) as [E|]. { destruct (cb_sys (st_cbs st)); done H. }
  destruct (Z.eqb_spec (b d 4) 3) as [E|]. { destruct (cb_eng (st_cbs st)); done H. }
  destruct (b d 4 =? 12); [done H|]. destruct (b d 4 =? 10); [done H|]. destruct (b d 4 =? 128); [done H|]. destruct (b d 4 =? 11); done H.
Qed.
Lemma accessory_console : forall w s d r w' t, payload_ok d -> st_handleAccessoryPacket s d r w = Ok (w', t) -> console t = turnout_text d.
Proof.
  intros w s d r w' t P H. unfold st_handleAccessoryPacket in H. apply ask_inv in H. destruct H as (st & _ & H). rewrite (to_print_text d P) in H.
  runs H. destruct (cb_acc (st_cbs st)); done H.
Qed.
Lemma direction_console : forall w s d w' t, st_handleLocoDirection s d w = Ok (w', t) -> console t = [].
Proof.
  intros w s d w' t H. unfold st_handleLocoDirection in H. apply ask_inv in H. destruct H as (st & _ & H). runs H. destruct (dlc d =? 5); [|done H].
  destruct ((_ =? _) || _). { destruct (cb_eng (st_cbs st)); [done H|discriminate]. }
  destruct (_ =? _); [|done H]. destruct (cb_eng (st_cbs st)); [done H|discriminate].
Qed.
Lemma speed_console : forall w s d w' t, st_handleLocoSpeed s d w = Ok (w', t) -> console t = [].
Proof.
  intros w s d w' t H. unfold st_handleLocoSpeed in H. apply ask_inv in H. destruct H as (st & _ & H). runs H. destruct (dlc d =? 6); [|done H].
  destruct (cb_eng (st_cbs st)); done H.
Qed.
Lemma function_console : forall w s d w' t, st_handleLocoFunction s d w = Ok (w', t) -> console t = [].
Proof.
  intros w s d w' t H. unfold st_handleLocoFunction in H. apply ask_inv in H. destruct H as (st & _ & H). runs H. destruct (dlc d =? 6); [|done H].
  destruct (cb_eng (st_cbs st)); [done H|discriminate].
Qed.
Lemma frame_console : forall lw w s st tp p c r h d w' t, station_at w s st -> id_fields_ok tp p c h -> payload_ok d -> c <> CMD_CONFIG_DATA ->
  step lw (OnStation s (HandlePacket (mkFrame (id_value tp p c r h) d))) w = Ok (w', t) -> console t = frame_text c d.
Proof.
  intros lw w s st tp p c r h d w' t S0 F P C H. cbn [step st_step] in H. unfold st_handlePacket in H. cbn [fid fdata] in H.
  rewrite id_getCommand_value in H by assumption.
  unfold kSystemCommand, kPing, kAccessorySwitch, kLocoDirection, kLocoSpeed, kLocoFunction, kRequestConfigData, kConfigDataStream, kDebugText in H.
  unfold frame_text, CMD_SYSTEM, CMD_ACCESSORY, CMD_DEBUG_TEXT, CMD_SPEED, CMD_DIRECTION, CMD_FUNCTION, CMD_PING, CMD_REQUEST_CONFIG.
  destruct (Z.eqb_spec c 0) as [->|N0]. { eapply system_console; eassumption. }
  destruct (Z.eqb_spec c 24) as [->|N24]. { done H. }
  destruct (Z.eqb_spec c 11) as [->|N11].
  { apply seq_inv in H. destruct H as (w1 & t1 & t2 & H1 & H & ->). injection H1 as <- <-. apply seq_inv in H. destruct H as (w2 & t3 & t4 & H2 & H & ->). injection H as <- <-.
    apply accessory_console in H2; [|exact P]. rewrite !console_app, H2. reflexivity. }
  destruct (Z.eqb_spec c 5) as [->|N5]. { apply direction_console in H. exact H. }
  destruct (Z.eqb_spec c 4) as [->|N4]. { apply speed_console in H. exact H. }
  destruct (Z.eqb_spec c 6) as [->|N6]. { apply function_console in H. exact H. }
  destruct (Z.eqb_spec c 32) as [->|N32]. { done H. }
  destruct (Z.eqb_spec c 33) as [X|N33]. { contradiction. }
  destruct (Z.eqb_spec c 66) as [->|N66].
  { apply seq_inv in H. destruct H as (w1 & t1 & t2 & H1 & H & ->). injection H1 as <- <-. apply seq_inv in H. destruct H as (w2 & t3 & t4 & H2 & H & ->). injection H as <- <-.
    unfold print_res in H2. apply ask_inv in H2. destruct H2 as (bs & E & H2). apply text_print_text in E; [|exact P]. subst bs. injection H2 as <- <-.
    rewrite !console_app. unfold console. cbn [map List.concat]. rewrite !app_nil_r. reflexivity. }
  cbn [orb]. apply seq_inv in H. destruct H as (w1 & t1 & t2 & H1 & H & ->). injection H1 as <- <-. apply seq_inv in H. destruct H as (w2 & t3 & t4 & H2 & H & ->). injection H as <- <-.
  unfold print_res in H2. apply ask_inv in H2. destruct H2 as (bs & E & H2). apply hex_print_text in E; [|exact P]. subst bs. injection H2 as <- <-.
  rewrite fmt_alt0x_text by (unfold id_fields_ok in F; lia). rewrite !console_app. unfold console. cbn [map List.concat]. cbn [app]. rewrite ?app_nil_r, <- ?app_assoc. reflexivity.
Qed.
(** config data that no parser is waiting for *)
Lemma ignored_console : forall lw w s st d w' t, station_at w s st -> payload_ok d -> ~ processing w (cb_cfg (st_cbs st)) ->
  st_handleConfigDataStream lw s d w = Ok (w', t) -> console t = ignored_text d.
Proof.
  intros lw w s st d w' t S0 P N H. unfold st_handleConfigDataStream in H. rewrite (ask_ok _ _ _ _ _ (get_st _ _ _ S0)) in H. apply ask_inv in H. destruct H as (x & E & H).
  assert (X : x = None).
  { destruct (cb_cfg (st_cbs st)) as [p|]; [|congruence]. unfold cfg_isProcessing, get_parser, at_ in E. destruct (nth_error (w_parsers w) p) as [o|] eqn:O; [|discriminate]. cbn [bind] in E.
    destruct (ss_processing (pobj_state o)) eqn:Q; [|congruence]. exfalso. apply N. exists p, o. split; [reflexivity|]. split; [exact O|]. destruct (pobj_state o); try discriminate; auto. }
  subst x. apply seq_inv in H. destruct H as (w1 & t1 & t2 & H1 & H & ->). injection H1 as <- <-.
  unfold print_res in H. apply ask_inv in H. destruct H as (bs & E2 & H2). apply text_print_text in E2; [|exact P]. subst bs. injection H2 as <- <-.
  unfold ignored_text, console. cbn [app map List.concat]. rewrite app_nil_r. reflexivity.
Qed.
