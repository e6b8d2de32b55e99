(* ProofsConsole.v -- lemmas behind PropsConsole.v. *)
From Verif Require Import ZLib SpecConsumer SpecReentry ProofsBuffer ProofsCodec ProofsWorld ProofsStation ProofsPrint ProofsStream ProofsConsumer.

(** ** Numerals *)
Lemma digit_hex : forall d, 0 <= d < 16 -> hexdigit (digit_char d) d.
Proof. intros d D. unfold digit_char, hexdigit. destruct (Z.ltb_spec d 10); lia. Qed.
Lemma digit_dec : forall d, 0 <= d < 10 -> decdigit (digit_char d) d.
Proof. intros d D. unfold digit_char, decdigit. destruct (Z.ltb_spec d 10); lia. Qed.
Lemma hex_shown : forall ds acc, Forall (fun d => 0 <= d < 16) ds -> hexdigits acc (map digit_char ds) (fold_left (fun a d => a * 16 + d) ds acc).
Proof.
  induction ds as [|d ds IH]; intros acc F; [apply HexEnd|]. apply Forall_cons_iff in F. destruct F as (D & F). cbn [map fold_left].
  eapply HexDigit; [apply digit_hex; exact D|]. apply IH. exact F.
Qed.
Lemma dec_shown : forall ds acc, Forall (fun d => 0 <= d < 10) ds -> decdigits acc (map digit_char ds) (fold_left (fun a d => a * 10 + d) ds acc).
Proof.
  induction ds as [|d ds IH]; intros acc F; [apply DecEnd|]. apply Forall_cons_iff in F. destruct F as (D & F). cbn [map fold_left].
  eapply DecDigit; [apply digit_dec; exact D|]. apply IH. exact F.
Qed.
Lemma hex_text_reads : forall x, 0 <= x -> hex_text x <> [] /\ hexdigits 0 (hex_text x) x.
Proof.
  intros x X. destruct (digits_of_plain 16 x ltac:(lia) X) as ((N & F & _) & V). unfold hex_text. split.
  - intros E. apply map_eq_nil in E. contradiction.
  - pose proof (hex_shown _ 0 F) as H. unfold value in V. rewrite V in H. exact H.
Qed.
Lemma dec_text_reads : forall x, 0 <= x -> dec_text x <> [] /\ decdigits 0 (dec_text x) x.
Proof.
  intros x X. destruct (digits_of_plain 10 x ltac:(lia) X) as ((N & F & _) & V). unfold dec_text. replace (x <? 0) with false by lia. split.
  - intros E. apply map_eq_nil in E. contradiction.
  - pose proof (dec_shown _ 0 F) as H. unfold value in V. rewrite V in H. exact H.
Qed.
Lemma hex_leading : forall n t x, hexdigits 0 t x -> hexdigits 0 (repeat 48 n ++ t) x.
Proof.
  induction n as [|n IH]; intros t x H; [exact H|]. cbn [repeat app]. eapply HexDigit with (d := 0); [left; lia|]. change (0 * 16 + 0) with 0. apply IH. exact H.
Qed.
Lemma zeros_numeral : forall n x, 0 <= x -> numeral (hex_zeros n x) x.
Proof.
  intros n x X. destruct (hex_text_reads x X) as (N & H). unfold numeral, hex_zeros. exists (repeat 48 (n - List.length (hex_mark x ++ hex_text x)) ++ hex_text x).
  split; [intros E; apply app_eq_nil in E; tauto|]. split; [|apply hex_leading; exact H]. unfold hex_mark. destruct (x =? 0); auto.
Qed.
Lemma blanks_numeral : forall n x, 0 <= x -> exists k t, hex_blanks n x = repeat 32 k ++ t /\ numeral t x.
Proof.
  intros n x X. destruct (hex_text_reads x X) as (N & H). exists (n - List.length (hex_mark x ++ hex_text x))%nat, (hex_mark x ++ hex_text x). split; [reflexivity|].
  exists (hex_text x). split; [exact N|]. split; [|exact H]. unfold hex_mark. destruct (x =? 0); auto.
Qed.
Lemma hex_widths : forall n x, List.length (hex_zeros n x) = Nat.max n (List.length (hex_mark x ++ hex_text x)) /\
  List.length (hex_blanks n x) = Nat.max n (List.length (hex_mark x ++ hex_text x)).
Proof. intros n x. unfold hex_zeros, hex_blanks. rewrite ?app_length, ?repeat_length, ?app_length. lia. Qed.
Lemma zeros_read : forall lw n x, 32 <= lw -> is_u32 x -> hex_value lw (hex_zeros n x) = x.
Proof.
  intros lw n x LW (X & Y). rewrite (numeral_read lw _ x (zeros_numeral n x X)). assert (2 ^ 32 <= 2 ^ lw) by (apply Z.pow_le_mono_r; lia).
  change (2 ^ 32) with 4294967296 in *. lia.
Qed.
Lemma blank_skip : forall lw k t, hex_value lw (repeat 32 k ++ t) = hex_value lw t.
Proof.
  intros lw k t. unfold hex_value. induction k as [|k IH]; [reflexivity|]. rewrite <- IH. unfold c_strtoul16. cbn [repeat app]. reflexivity.
Qed.
Lemma blanks_read : forall lw n x, 32 <= lw -> is_u32 x -> hex_value lw (hex_blanks n x) = x.
Proof.
  intros lw n x LW (X & Y). destruct (blanks_numeral n x X) as (k & t & -> & H). rewrite blank_skip, (numeral_read lw _ x H).
  assert (2 ^ 32 <= 2 ^ lw) by (apply Z.pow_le_mono_r; lia). change (2 ^ 32) with 4294967296 in *. lia.
Qed.
Lemma decimal_read : forall lw v x, 32 <= lw -> v <> [] -> decdigits 0 v x -> x < 2 ^ 31 -> dec_value lw v = x.
Proof.
  intros lw v x LW NE D X. pose proof (decdigits_nonneg _ _ _ D ltac:(lia)) as P. pose proof (decdigits_read _ _ _ D) as E. unfold dec_value, c_strtol10.
  destruct v as [|c v]; [congruence|]. inversion D as [|? ? ? ? ? (H1 & H2) ?]; subst. cbn [app c_skip_space]. unfold c_isspace.
  replace ((c =? 32) || (9 <=? c) && (c <=? 13)) with false by lia. cbn [bind c_sign]. replace (c =? 45) with false by lia. replace (c =? 43) with false by lia. cbn [bind].
  change (c :: v ++ [0]) with ((c :: v) ++ [0]). rewrite E. cbn [bind]. assert (2 ^ 31 <= 2 ^ (lw - 1)) by (apply Z.pow_le_mono_r; lia). lia.
Qed.
Lemma negative_text : forall x, x < 0 -> exists t, dec_text x = zs "-" ++ t /\ t <> [] /\ decdigits 0 t (- x).
Proof.
  intros x X. exists (dec_text (- x)). destruct (dec_text_reads (- x) ltac:(lia)) as (N & D). split; [|auto].
  unfold dec_text. replace (x <? 0) with true by lia. replace (- x <? 0) with false by lia. reflexivity.
Qed.
Lemma decdigits_fun : forall t a x y, decdigits a t x -> decdigits a t y -> x = y.
Proof.
  induction t as [|c t IH]; intros a x y H K; inversion H; inversion K; subst; [congruence|].
  match goal with A : decdigit c ?d, B : decdigit c ?e |- _ => assert (d = e) by (unfold decdigit in *; lia); subst end. eapply IH; eassumption.
Qed.
Lemma dec_text_inj : forall x y, dec_text x = dec_text y -> x = y.
Proof.
  assert (M : forall x y, x < 0 -> 0 <= y -> dec_text x <> dec_text y).
  { intros x y X Y E. destruct (negative_text x X) as (t & T & _). destruct (dec_text_reads y Y) as (_ & D). rewrite <- E, T in D. change (zs "-" ++ t) with (45 :: t) in D.
    inversion D as [|? ? ? ? ? Q]; subst. unfold decdigit in Q. lia. }
  intros x y E. destruct (Z_lt_le_dec x 0) as [X|X]; destruct (Z_lt_le_dec y 0) as [Y|Y].
  - destruct (negative_text x X) as (t & T & _ & D). destruct (negative_text y Y) as (u & U & _ & D2). rewrite T, U in E. apply app_inv_head in E. subst u.
    pose proof (decdigits_fun _ _ _ _ D D2). lia.
  - exfalso. exact (M x y X Y E).
  - exfalso. exact (M y x Y X (eq_sym E)).
  - destruct (dec_text_reads x X) as (_ & D). destruct (dec_text_reads y Y) as (_ & D2). rewrite E in D. exact (decdigits_fun _ _ _ _ D D2).
Qed.

(** ** Printing engines *)
Lemma c_str_total : forall m, In 0 m -> c_str m = Ok (until_nul m).
Proof.
  intros m H. destruct (c_str m) as [t|u] eqn:E; [apply c_str_until in E; congruence|]. exfalso.
  induction m as [|c m IH]; [contradiction|]. cbn [c_str] in E. destruct (Z.eqb_spec c 0) as [|N]; [discriminate|]. destruct H as [H|H]; [congruence|].
  destruct (c_str m) as [s|v]; [discriminate|]. apply IH; [exact H|cbn [bind] in E; congruence].
Qed.
Lemma c_str_nul : forall m t, c_str m = Ok t -> In 0 m.
Proof.
  induction m as [|c m IH]; intros t H; [discriminate|]. cbn [c_str] in H. destruct (Z.eqb_spec c 0) as [->|N]; [left; reflexivity|].
  destruct (c_str m) as [s|u]; [|discriminate]. right. eapply IH. reflexivity.
Qed.
Lemma short_print_iff : forall s, (si_avail s <> EMPTY -> In 0 (si_name s)) -> si_print s = Ok (short_text s).
Proof.
  intros s H. unfold si_print, short_text. destruct (si_avail s); [reflexivity|rewrite c_str_total by (apply H; discriminate); reflexivity..].
Qed.
Lemma engine_print : forall l, details_ok (lo_data l) ->
  (forall t, lo_print l = Ok t <-> t = engine_text l /\ (si_avail (lo_info l) <> EMPTY -> In 0 (si_name (lo_info l))) /\ (si_avail (lo_info l) = FULL_DETAILS -> In 0 (lo_proto l))).
Proof.
  intros l D t. split.
  - intros H. split; [apply lo_print_text; assumption|]. unfold lo_print, si_print in H. destruct (si_avail (lo_info l)).
    + split; intros X; congruence.
    + split; [intros _|intros X; congruence]. destruct (c_str (si_name (lo_info l))) eqn:E; [eapply c_str_nul; exact E|discriminate].
    + destruct (c_str (si_name (lo_info l))) eqn:E; [|discriminate]. cbn [bind] in H. destruct (c_str (lo_proto l)) eqn:E2; [|discriminate].
      split; intros _; eapply c_str_nul; eassumption.
  - intros (-> & N & P). unfold lo_print, engine_text. rewrite short_print_iff by exact N. cbn [bind]. destruct (si_avail (lo_info l)); try (rewrite app_nil_r; reflexivity).
    rewrite c_str_total by (apply P; reflexivity). cbn [bind]. rewrite ld_print_text by exact D. reflexivity.
Qed.
Lemma table_print : forall lw w c co i n o cb w' t, consumer_at w c (ListC co i (Def n) o cb) -> step lw (ListPrintAll c) w = Ok (w', t) ->
  w' = w /\ calls t = [] /\ console t = zs "EngineBrowser: " ++ dec_text n ++ zs " total engines." ++ newline ++ flat_map short_text i.
Proof.
  intros lw w c co i n o cb w' t C H. cbn [step] in H. rewrite (ask_ok _ _ _ _ _ (get_cons_ok _ _ _ C)) in H. cbn beta iota in H. unfold ask at 1 in H. cbn [mread bind] in H.
  unfold print in H. rewrite emit_seq in H. unfold print_res, ask in H. destruct (list_print i) as [x|u] eqn:E; [|discriminate]. cbn [bind] in H. apply list_print_text in E. subst x.
  unfold print, emit in H. cbn [bind] in H.
  assert (T : w' = w /\ t = [EvPrint (zs "EngineBrowser: " ++ fmt_d n ++ zs " total engines." ++ nl); EvPrint (flat_map short_text i)]) by (split; congruence).
  destruct T as (-> & ->). split; [reflexivity|]. split; [reflexivity|]. unfold console. cbn [map List.concat]. rewrite app_nil_r, fmt_d_text, <- !app_assoc. reflexivity.
Qed.
Lemma identifier_print : forall tp p c r h, id_fields_ok tp p c h -> id_printAll (id_value tp p c r h) = identifier_text p c r h.
Proof.
  intros tp p c r h F. unfold id_printAll, identifier_text. rewrite id_getPriority_value, id_getCommand_value, id_isResponse_value, id_getHash_value by assumption.
  unfold id_fields_ok in F. change (if r then 1 else 0) with (bit_of r). rewrite !fmt_alt0X_text by (unfold bit_of; destruct r; lia). reflexivity.
Qed.

(** ** Calls that print nothing *)
Definition silent (a : act) : Prop := forall w w' t, a w = Ok (w', t) -> console t = [].
Lemma s_skip : silent skip. Proof. intros w w' t H. injection H as <- <-. reflexivity. Qed.
Lemma s_fail : forall u, silent (fail u). Proof. intros u w w' t H. discriminate. Qed.
Lemma s_emit : forall e, is_print e = false -> silent (emit e).
Proof. intros e E w w' t H. injection H as <- <-. destruct e; try discriminate E; reflexivity. Qed.
Lemma s_seq : forall a c, silent a -> silent c -> silent (World.seq a c).
Proof. intros a c A C w w' t H. apply seq_inv in H. destruct H as (w1 & t1 & t2 & H1 & H2 & ->). rewrite console_app, (A _ _ _ H1), (C _ _ _ H2). reflexivity. Qed.
Lemma s_ask : forall A (f : world -> res A) k, (forall x, silent (k x)) -> silent (ask f k).
Proof. intros A f k K w w' t H. apply ask_inv in H. destruct H as (x & _ & H). exact (K x _ _ _ H). Qed.
Lemma s_some : forall A (q : option A) k, (forall x, silent (k x)) -> silent (when_some q k).
Proof. intros A [x|] k K; [apply K|apply s_skip]. Qed.
Lemma s_put_st : forall i x, silent (put_station i x). Proof. intros i x w w' t H. injection H as <- <-. reflexivity. Qed.
Lemma s_put_p : forall i x, silent (put_parser i x). Proof. intros i x w w' t H. injection H as <- <-. reflexivity. Qed.
Lemma s_put_c : forall i x, silent (put_cons i x). Proof. intros i x w w' t H. injection H as <- <-. reflexivity. Qed.
Lemma s_put_e : forall i x, silent (put_engine i x). Proof. intros i x w w' t H. injection H as <- <-. reflexivity. Qed.
Lemma s_if : forall (x : bool) a c, silent a -> silent c -> silent (if x then a else c). Proof. intros [] a c A C; assumption. Qed.
Ltac mute := repeat (lazymatch goal with
  | |- silent skip => apply s_skip
  | |- silent (fail _) => apply s_fail
  | |- silent (emit _) => apply s_emit; reflexivity
  | |- silent (World.seq _ _) => apply s_seq
  | |- silent (ask _ _) => apply s_ask; intros ?
  | |- silent (when_some _ _) => apply s_some; intros ?
  | |- silent (put_station _ _) => apply s_put_st
  | |- silent (put_parser _ _) => apply s_put_p
  | |- silent (put_lib _ _) => apply s_put_p
  | |- silent (put_cons _ _) => apply s_put_c
  | |- silent (put_engine _ _) => apply s_put_e
  | |- silent (if _ then _ else _) => apply s_if
  | |- silent (let '(_, _) := ?x in _) => destruct x
  | |- silent (match ?x with _ => _ end) => destruct x
  end; cbv zeta beta).
Lemma s_aborted : forall c, silent (cons_aborted c). Proof. intros c. unfold cons_aborted. mute. Qed.
Lemma s_reset : forall p, silent (lib_reset p).
Proof. intros p. unfold lib_reset. mute; try apply s_aborted. Qed.
Lemma s_start : forall lw p, silent (cfg_call lw p CStart). Proof. intros lw p. unfold cfg_call. mute. Qed.
Lemma s_creset : forall lw p, silent (cfg_call lw p CReset). Proof. intros lw p. unfold cfg_call. mute. apply s_reset. Qed.
Lemma s_finish : forall lw s, silent (st_finish lw s). Proof. intros lw s. unfold st_finish. mute. apply s_creset. Qed.
Lemma s_tx : forall c f, silent (tx_send c f). Proof. intros c f. unfold tx_send. mute. Qed.
Lemma s_functions : forall n st u i, silent (send_functions st u i n).
Proof. induction n as [|n IH]; intros st u i; cbn [send_functions]; mute; [apply s_tx|apply IH]. Qed.
Ltac mute2 := mute; try first [apply s_tx | apply s_finish | apply s_start | apply s_reset | apply s_functions].
Lemma silent_calls : forall lw o, may_print o = false -> silent (step lw o).
Proof.
  intros lw o H. destruct o as [s o|p|p c|p d|p|c cb|c e|c x|c|c|c|e o]; try discriminate H; cbn [step]; mute2.
  destruct o; try discriminate H; cbn [st_step];
    unfold st_begin, st_requestEngine, st_requestEngineList, st_sendAccessoryPacket, st_abort, st_requestEngineDirection, st_sendEngineDirection, st_requestEngineVelocity, st_sendEngineVelocity,
      st_requestEngineFunction, st_requestEngineAllFunctions, st_sendEngineFunction, st_sendEmergencyStop, st_sendSystemStop, st_sendSystemGo, st_sendPacket,
      st_handleLocoDirection, st_handleLocoSpeed, st_handleLocoFunction; mute2; unfold st_sendPacket; mute2.
Qed.

(** ** Parsers *)
Lemma complaint : forall lw w p sp d w' t, lib_at w p sp -> lib_addMessage lw p d w = Ok (w', t) ->
  (in_progress sp = false \/ malformed sp d) -> console t = parser_text sp d.
Proof.
  intros lw w p sp d w' t L H B. unfold lib_addMessage in H. rewrite (ask_ok _ _ _ _ _ (lib_get _ _ _ L)) in H. unfold parser_text.
  unfold in_progress, malformed in B. destruct (sp_state sp).
  - injection H as <- <-. unfold console. cbn [map List.concat]. rewrite app_nil_r. reflexivity.
  - destruct ((dlc d =? 6) || (dlc d =? 7)) eqn:E; [exfalso; lia|].
    assert (G : forall x, World.seq (print x) (lib_reset p) w = Ok (w', t) -> console t = x).
    { intros x G. apply seq_inv in G. destruct G as (w1 & t1 & t2 & H1 & H2 & ->). injection H1 as <- <-. rewrite console_app, (s_reset p _ _ _ H2).
      unfold console. cbn [map List.concat]. rewrite !app_nil_r. reflexivity. }
    destruct (Z.ltb_spec (dlc d) 6); destruct (Z.geb_spec (dlc d) 8); try lia; apply G in H; rewrite H; reflexivity.
  - assert (E : (dlc d =? 8) = false) by lia. rewrite E in *. cbn [negb] in H.
    apply seq_inv in H. destruct H as (w1 & t1 & t2 & H1 & H2 & ->). injection H1 as <- <-. rewrite console_app, (s_reset p _ _ _ H2).
    unfold console. cbn [map List.concat]. rewrite !app_nil_r. reflexivity.
  - injection H as <- <-. unfold console. cbn [map List.concat]. rewrite app_nil_r. reflexivity.
Qed.
Lemma s_user : forall w q w' t, mine w q -> (when_some q cons_complete w = Ok (w', t) \/ when_some q cons_aborted w = Ok (w', t)) -> console t = [].
Proof.
  intros w q w' t M [H|H].
  - rewrite (when_complete_user q w M) in H. injection H as <- <-. destruct q; reflexivity.
  - rewrite (when_aborted_user q w M) in H. injection H as <- <-. destruct q; reflexivity.
Qed.
Lemma consume_all_silent : forall lw c l w w' t, user_consumer w c -> cons_consume_all lw c l w = Ok (w', t) -> w' = w /\ console t = [].
Proof.
  intros lw c. induction l as [|((s & k) & v) l IH]; intros w w' t U H; [injection H as <- <-; auto|]. cbn [cons_consume_all] in H.
  apply seq_inv in H. destruct H as (w1 & t1 & t2 & H1 & H2 & ->). unfold cons_consume in H1. rewrite emit_seq in H1. rewrite (ask_ok _ _ _ _ _ (get_cons_ok _ _ _ U)) in H1.
  unfold skip in H1. cbn [bind] in H1. injection H1 as <- <-. destruct (IH _ _ _ U H2) as (-> & T). rewrite console_app, T. auto.
Qed.
Lemma user_parser_text : forall lw w p sp d w' t, lib_at w p sp -> lib_addMessage lw p d w = Ok (w', t) ->
  mine w (sp_cons sp) -> mine w (tp_cons (sp_text sp)) -> console t = parser_text sp d.
Proof.
  intros lw w p sp d w' t L H M M2. pose proof (complaint _ _ _ _ _ _ _ L H) as CP. unfold in_progress, malformed in CP. unfold lib_addMessage in H. rewrite (ask_ok _ _ _ _ _ (lib_get _ _ _ L)) in H.
  unfold parser_text in *. destruct (sp_state sp); [apply CP; left; reflexivity| | |apply CP; left; reflexivity].
  - destruct ((dlc d =? 6) || (dlc d =? 7)) eqn:E; [|apply CP; right; lia]. clear CP. cbv zeta in H. destruct (_ >? 0); [injection H as <- <-; reflexivity|].
    apply seq_inv in H. destruct H as (w1 & t1 & t2 & H1 & H2 & ->). injection H1 as <- <-. cbn [app]. eapply s_user; [|left; exact H2]. exact M.
  - destruct (Z.eqb_spec (dlc d) 8) as [E|E]; [|apply CP; right; exact E]. clear CP. cbn [negb] in H. cbv zeta in H. apply ask_inv in H. destruct H as (crc & _ & H). apply ask_inv in H. destruct H as (te & _ & H).
    apply seq_inv in H. destruct H as (w1 & t1 & t2 & H1 & H & ->). injection H1 as <- <-. apply seq_inv in H. destruct H as (w2 & t3 & t4 & H2 & H & ->).
    assert (A : w_conss w2 = w_conss w /\ console t3 = []).
    { destruct (tp_cons (sp_text sp)) as [c|]; [|injection H2 as <- <-; auto]. cbn [when_some] in H2. apply consume_all_silent in H2; [|apply M2; reflexivity]. destruct H2 as (-> & T). auto. }
    destruct A as (A & T3). rewrite !console_app, T3. cbn [app console map List.concat].
    assert (MM : forall c, sp_cons sp = Some c -> nth_error (w_conss w2) c = Some UserC) by (intros c C; rewrite A; apply M; exact C).
    destruct (_ =? 0); [|injection H as <- <-; reflexivity]. apply ask_inv in H. destruct H as (v & _ & H). destruct v.
    + apply seq_inv in H. destruct H as (w3 & t5 & t6 & H3 & H & ->). injection H3 as <- <-. cbn [app]. eapply s_user; [|left; exact H]. exact MM.
    + apply seq_inv in H. destruct H as (w3 & t5 & t6 & H3 & H & ->). injection H3 as <- <-. cbn [app]. eapply s_user; [|right; exact H]. exact MM.
Qed.
