(* ProofsQuery.v -- lemmas for C92-C94. *)
From Verif Require Import ZLib SpecQuery ProofsBuffer ProofsWorld ProofsCrc ProofsLoco ProofsText ProofsStation ProofsStream ProofsConsumer.

(** ** Reading more memory does not change what was read *)
Lemma x_skip : forall m r z, c_skip_space m = Ok r -> c_skip_space (m ++ z) = Ok (r ++ z).
Proof. induction m as [|c m IH]; intros r z H; cbn [app c_skip_space] in *; [discriminate|]. destruct (c_isspace c); [apply IH; exact H|]. injection H as <-. reflexivity. Qed.
Lemma x_sign : forall m n r z, c_sign m = Ok (n, r) -> c_sign (m ++ z) = Ok (n, r ++ z).
Proof. intros [|c m] n r z H; cbn [app c_sign] in *; [discriminate|]. destruct (c =? 45); [injection H as <- <-; reflexivity|]. destruct (c =? 43); injection H as <- <-; reflexivity. Qed.
Lemma x_digits : forall base m acc n z, c_digits base acc m = Ok n -> c_digits base acc (m ++ z) = Ok n.
Proof.
  intros base. induction m as [|c m IH]; intros acc n z H; cbn [app c_digits] in *; [discriminate|]. destruct (c_digit c) as [d|]; [|exact H]. destruct (d <? base); [apply IH; exact H|exact H].
Qed.
Lemma x_prefix : forall m n z, (c <- c_hexprefix m ;; c_digits 16 0 c) = Ok n -> (c <- c_hexprefix (m ++ z) ;; c_digits 16 0 c) = Ok n.
Proof.
  intros [|a [|b [|c m]]] n z H; cbn [c_hexprefix bind] in H; cbn [app]; try discriminate.
  - cbn [c_digits] in H. assert (A : (a =? 48) = false). { destruct (Z.eqb_spec a 48) as [->|N]; [discriminate|reflexivity]. }
    assert (P : c_hexprefix (a :: z) = Ok (a :: z)) by (destruct z; cbn [c_hexprefix]; rewrite ?A; reflexivity). rewrite P. cbn [bind c_digits].
    destruct (c_digit a) as [d|]; [|exact H]. destruct (d <? 16); [discriminate|exact H].
  - cbn [c_hexprefix]. destruct ((a =? 48) && ((b =? 120) || (b =? 88))); cbn [bind] in H; [discriminate|]. cbn [bind]. change (a :: b :: z) with ([a; b] ++ z). apply x_digits. exact H.
  - cbn [c_hexprefix]. destruct ((a =? 48) && ((b =? 120) || (b =? 88))); cbn [bind] in *; [|apply (x_digits 16 (a :: b :: c :: m)); exact H].
    destruct (is_digit_of 16 c); cbn [bind] in *; [apply (x_digits 16 (c :: m)); exact H|apply (x_digits 16 (a :: b :: c :: m)); exact H].
Qed.
Lemma x_hex : forall lw m n z, c_strtoul16 lw m = Ok n -> c_strtoul16 lw (m ++ z) = Ok n.
Proof.
  intros lw m n z H. unfold c_strtoul16 in *. destruct (c_skip_space m) as [a|] eqn:E1; cbn [bind] in H; [|discriminate]. rewrite (x_skip _ _ z E1). cbn [bind].
  destruct (c_sign a) as [[sg b]|] eqn:E2; cbn [bind] in H; [|discriminate]. rewrite (x_sign _ _ _ z E2). cbn [bind].
  destruct (c_hexprefix b) as [c|] eqn:E3; cbn [bind] in H; [|discriminate]. destruct (c_digits 16 0 c) as [d|] eqn:E4; cbn [bind] in H; [|discriminate].
  pose proof (x_prefix b d z) as X. rewrite E3 in X. cbn [bind] in X. specialize (X E4). destruct (c_hexprefix (b ++ z)) as [c'|]; cbn [bind] in X |- *; [|discriminate]. rewrite X. exact H.
Qed.
Lemma x_dec : forall lw m n z, c_strtol10 lw m = Ok n -> c_strtol10 lw (m ++ z) = Ok n.
Proof.
  intros lw m n z H. unfold c_strtol10 in *. destruct (c_skip_space m) as [a|] eqn:E1; cbn [bind] in H; [|discriminate]. rewrite (x_skip _ _ z E1). cbn [bind].
  destruct (c_sign a) as [[sg b]|] eqn:E2; cbn [bind] in H; [|discriminate]. rewrite (x_sign _ _ _ z E2). cbn [bind].
  destruct (c_digits 10 0 b) as [d|] eqn:E4; cbn [bind] in H; [|discriminate]. rewrite (x_digits _ _ _ _ z E4). cbn [bind]. exact H.
Qed.
Lemma x_str : forall m t z, c_str m = Ok t -> c_str (m ++ z) = Ok t.
Proof. induction m as [|c m IH]; intros t z H; cbn [app c_str] in *; [discriminate|]. destruct (c =? 0); [exact H|]. destruct (c_str m) as [u|]; cbn [bind] in H; [|discriminate]. rewrite (IH u z eq_refl). exact H. Qed.
Lemma x_bytes : forall n m bs z, strncpy_bytes m n = Ok bs -> strncpy_bytes (m ++ z) n = Ok bs.
Proof.
  induction n as [|n IH]; intros m bs z H; [destruct m, z; exact H|]. destruct m as [|c m]; cbn [app strncpy_bytes] in *; [discriminate|]. destruct (c =? 0); [exact H|].
  destruct (strncpy_bytes m n) as [u|] eqn:E; cbn [bind] in H; [|discriminate]. rewrite (IH _ _ z E). exact H.
Qed.
Lemma x_copy : forall dst m n r z, c_strncpy dst m n = Ok r -> c_strncpy dst (m ++ z) n = Ok r.
Proof. intros dst m n r z H. unfold c_strncpy in *. destruct (zlen dst <? n); [discriminate|]. destruct (strncpy_bytes m (Z.to_nat n)) as [bs|] eqn:E; cbn [bind] in H; [|discriminate]. rewrite (x_bytes _ _ _ z E). exact H. Qed.

(** ** One line, whatever its length, if it is defined *)
Lemma zb_ext : forall cap v, (List.length v <= cap)%nat -> exists z r, mem (zb cap v) ++ z = v ++ 0 :: r.
Proof. intros cap v L. rewrite zb_mem. exists [0], (repeat 0 (cap - List.length v)). rewrite <- app_assoc. f_equal. change (0 :: repeat 0 (cap - List.length v)) with (repeat 0 1 ++ repeat 0 (cap - List.length v)). rewrite <- repeat_app, (Nat.add_comm 1), repeat_app. reflexivity. Qed.
Lemma token_zb : forall cap v, token (zb cap v) = v.
Proof. intros. unfold token. rewrite zb_mem, zb_len. apply firstn_app_exact. Qed.
Lemma line_ok : forall lw l s k v l', List.length (lo_proto l) = 8%nat -> (List.length v <= max_value)%nat ->
  loco_line lw l (zb max_section s) (zb max_key k) (zb max_value v) = Ok l' -> l' = after_line lw l (s, k, v).
Proof.
  intros lw l s k v l' P V H. destruct words as (W1 & W2 & W3 & W4 & _). unfold loco_line, kEngineResult, kEngineKeyUid, kEngineKeyProtocol, kEngineKeyAddress in H.
  destruct (zb_ext max_value v V) as (z & r & Z). unfold after_line, attribute_of. rewrite !lit_word in H by assumption. cbn [bind] in H.
  assert (HEX : forall x, c_strtoul16 lw (mem (zb max_value v)) = Ok x -> x = hex_value lw v).
  { intros x X. apply (x_hex _ _ _ z) in X. rewrite Z, hex_read in X. congruence. }
  destruct (taken_for (zs "lokomotive") s); [|injection H as <-; reflexivity]. destruct (taken_for (zs "uid") k).
  { destruct (c_strtoul16 lw (mem (zb max_value v))) as [x|] eqn:X; cbn [bind] in H; [|discriminate]. injection H as <-. rewrite (HEX _ eq_refl). reflexivity. }
  destruct (taken_for (zs "typ") k).
  { unfold lo_setProtocolString in H. destruct (c_strncpy (lo_proto l) (mem (zb max_value v)) kProtocolNameMaxLength) as [x|] eqn:X; cbn [bind] in H; [|discriminate]. injection H as <-.
    apply (x_copy _ _ _ _ z) in X. rewrite Z in X. destruct (until_nul_split v r) as (r' & E & N). rewrite E in X.
    destruct (proto_spec l (until_nul v) r' P N) as (l' & E1 & E2 & E3 & E4). unfold lo_setProtocolString in E1. rewrite X in E1. injection E1 as <-. cbn in E4. cbn [with_attribute]. rewrite E4. reflexivity. }
  destruct (taken_for (zs "adresse") k); [|injection H as <-; reflexivity].
  destruct (c_strtoul16 lw (mem (zb max_value v))) as [x|] eqn:X; cbn [bind] in H; [|discriminate]. injection H as <-. rewrite (HEX _ eq_refl). reflexivity.
Qed.

(** ** Actions that keep the books *)
Definition inert (e : event) : Prop := match e with EvConsume _ _ _ _ | EvStreamComplete _ | EvStreamAborted _ => False | _ => True end.
Section LW.
Variable lw : Z.
Definition bk (a : act) : Prop := forall w w' t, shaped w -> a w = Ok (w', t) -> shaped w' /\ db_of w' = fold_left (after_event lw) t (db_of w).
Definition bku (a : act) : Prop := forall w w' t, all_usable w -> shaped w -> a w = Ok (w', t) -> shaped w' /\ db_of w' = fold_left (after_event lw) t (db_of w).
Lemma bk_bku : forall a, bk a -> bku a. Proof. intros a H w w' t _. apply H. Qed.
Lemma inert_same : forall e x, inert e -> after_event lw x e = x. Proof. intros [] (cs & es) H; try reflexivity; contradiction. Qed.
Lemma bk_skip : bk skip. Proof. intros w w' t S H. injection H as <- <-. auto. Qed.
Lemma bk_fail : forall u, bk (fail u). Proof. intros u w w' t S H. discriminate. Qed.
Lemma bk_emit : forall e, inert e -> bk (emit e). Proof. intros e I w w' t S H. injection H as <- <-. cbn [fold_left]. rewrite inert_same by exact I. auto. Qed.
Lemma bk_seq : forall a c, bk a -> bk c -> bk (World.seq a c).
Proof.
  intros a c A C w w' t S H. apply seq_inv in H. destruct H as (w1 & t1 & t2 & H1 & H2 & ->). destruct (A _ _ _ S H1) as (S1 & D1). destruct (C _ _ _ S1 H2) as (S2 & D2).
  split; [exact S2|]. rewrite fold_left_app, <- D1. exact D2.
Qed.
Lemma bk_ask : forall A (f : world -> res A) k, (forall x, bk (k x)) -> bk (ask f k).
Proof. intros A f k K w w' t S H. apply ask_inv in H. destruct H as (x & _ & H). exact (K x _ _ _ S H). Qed.
Lemma bk_when : forall A (o : option A) k, (forall x, bk (k x)) -> bk (when_some o k). Proof. intros A [x|] k K; [apply K|apply bk_skip]. Qed.
Lemma bk_put_station : forall s x, bk (put_station s x). Proof. intros s x w w' t S H. injection H as <- <-. split; [exact S|reflexivity]. Qed.
Lemma bk_put_parser : forall s x, bk (put_parser s x). Proof. intros s x w w' t S H. injection H as <- <-. split; [exact S|reflexivity]. Qed.
Lemma bk_print : forall x, bk (print x). Proof. intros. apply bk_emit. exact Logic.I. Qed.
Lemma bk_puts : forall x, bk (puts x). Proof. intros. apply bk_print. Qed.
Lemma bk_print_res : forall x, bk (print_res x). Proof. intros. apply bk_ask. intros. apply bk_print. Qed.
Ltac bk := repeat first [apply bk_skip|apply bk_fail|apply bk_print|apply bk_puts|apply bk_print_res|apply bk_put_station|apply bk_put_parser|apply bk_emit; exact Logic.I
  |apply bk_seq|apply bk_when; intro|apply bk_ask; intro|match goal with |- bk (match ?x with _ => _ end) => destruct x end].
Lemma bku_ask : forall A (f : world -> res A) k, (forall x, bku (k x)) -> bku (ask f k).
Proof. intros A f k K w w' t U S H. apply ask_inv in H. destruct H as (x & _ & H). exact (K x _ _ _ U S H). Qed.
Lemma bku_emit : forall e a, inert e -> bku a -> bku (World.seq (emit e) a).
Proof.
  intros e a I A w w' t U S H. apply seq_inv in H. destruct H as (w1 & t1 & t2 & H1 & H2 & ->). injection H1 as <- <-. destruct (A _ _ _ U S H2) as (S2 & D2).
  split; [exact S2|]. cbn [app fold_left]. rewrite inert_same by exact I. exact D2.
Qed.
(** only console output and end-of-stream callbacks *)
Definition silent (a : act) : Prop := forall w w' t, a w = Ok (w', t) -> w' = w /\ Forall inert t.
Lemma sl_emit : forall e, inert e -> silent (emit e). Proof. intros e I w w' t H. injection H as <- <-. auto. Qed.
Lemma sl_skip : silent skip. Proof. intros w w' t H. injection H as <- <-. auto. Qed.
Lemma sl_ask : forall A (f : world -> res A) k, (forall x, silent (k x)) -> silent (ask f k).
Proof. intros A f k K w w' t H. apply ask_inv in H. destruct H as (x & _ & H). exact (K x _ _ _ H). Qed.
Lemma sl_seq : forall a c, silent a -> silent c -> silent (World.seq a c).
Proof.
  intros a c A C w w' t H. apply seq_inv in H. destruct H as (w1 & t1 & t2 & H1 & H2 & ->). destruct (A _ _ _ H1) as (-> & F1). destruct (C _ _ _ H2) as (-> & F2).
  split; [reflexivity|]. apply Forall_app; auto.
Qed.
Ltac sl := repeat first [apply sl_skip|apply sl_emit; exact Logic.I|apply sl_seq|apply sl_ask; intro|match goal with |- silent (match ?x with _ => _ end) => destruct x end].
Lemma inert_fold : forall t x, Forall inert t -> fold_left (after_event lw) t x = x.
Proof. intros t x F. induction F as [|e t I F IH]; [reflexivity|]. cbn [fold_left]. rewrite inert_same by exact I. exact IH. Qed.

(** ** Consumers *)
Lemma shaped_upd : forall w e l, shaped w -> List.length (lo_proto l) = 8%nat -> shaped (with_engine w e l).
Proof. intros w e l S L. unfold shaped in *. cbn. revert e. induction S; intros [|e]; cbn; constructor; auto. Qed.
Lemma shaped_at : forall w e l, shaped w -> nth_error (w_engines w) e = Some l -> List.length (lo_proto l) = 8%nat.
Proof. intros w e l S N. unfold shaped in S. rewrite Forall_forall in S. apply S. eapply nth_error_In. exact N. Qed.
Lemma cons_got : forall c w o, get_cons c w = Ok o -> nth_error (w_conss w) c = Some o.
Proof. intros c w o H. unfold get_cons, at_ in H. destruct (nth_error (w_conss w) c); congruence. Qed.
Lemma engine_got : forall c w o, get_engine c w = Ok o -> nth_error (w_engines w) c = Some o.
Proof. intros c w o H. unfold get_engine, at_ in H. destruct (nth_error (w_engines w) c); congruence. Qed.

Lemma list_ok : forall c co i n o cb s k v w w' t, (List.length s <= max_section)%nat -> (List.length v <= max_value)%nat -> nth_error (w_conss w) c = Some (ListC co i n o cb) ->
  list_consume lw c co i n o cb (zb max_section s) (zb max_key k) (zb max_value v) w = Ok (w', t) ->
  Forall inert t /\ w' = with_consumer w c (match list_entry_of (s, k, v) with
      | NameEntry t => ListC co (filled i [until_nul t]) n o cb
      | CountEntry t => ListC co i (Def (dec_value lw t mod 256)) o cb
      | NoEntry => ListC co i n o cb
      end).
Proof.
  intros c co i n o cb s k v w w' t SL VL C H. destruct words as (_ & _ & _ & _ & W1 & W2 & W3). destruct (zb_ext max_value v VL) as (z & r & Z).
  assert (SAME : with_consumer w c (ListC co i n o cb) = w). { unfold with_consumer. rewrite upd_same_id by exact C. destruct w; reflexivity. }
  unfold list_consume, kEngineNames, kSectionNumEngines, kGenericValue in H.
  apply ask_inv in H. destruct H as (b1 & E1 & H). rewrite buf_word in E1 by assumption. injection E1 as <-. cbn [list_entry_of]. destruct (taken_for (zs "loknamen") s).
  { pose proof (first_free i (until_nul v)) as F. destruct (findFirstFreeEntry i) as [j|]; cbn iota in H.
    - destruct F as (JL & -> & _). apply ask_inv in H. destruct H as (tx & ET & H). apply seq_inv in H. destruct H as (w1 & t1 & t2 & H1 & H & ->). injection H1 as <- <-.
      apply ask_inv in H. destruct H as (si & ES & H). injection H as <- <-. split; [repeat constructor|]. unfold with_consumer. do 4 f_equal.
      unfold si_setName in ES. change (si_name si_reset) with erased_name in ES. destruct (c_strncpy erased_name (mem (zb max_value v)) kEngineNameLength) as [nm|] eqn:EN; cbn [bind] in ES; [|discriminate].
      injection ES as <-. apply (x_copy _ _ _ _ z) in EN. rewrite Z in EN. destruct (until_nul_split v r) as (r' & E & N). rewrite E, name_copy in EN by exact N. rewrite firstn_all2 in EN by (pose proof (until_nul_len v); unfold max_value in VL; lia).
      unfold named. f_equal. congruence.
    - destruct F as (-> & _). injection H as <- <-. rewrite SAME. split; [repeat constructor|reflexivity]. }
  apply ask_inv in H. destruct H as (b2 & E2 & H). rewrite buf_word in E2 by assumption. injection E2 as <-. destruct (taken_for (zs "numloks") s).
  { apply ask_inv in H. destruct H as (b3 & E3 & H). rewrite buf_word in E3 by assumption. injection E3 as <-. destruct (taken_for (zs "wert") k).
    - apply ask_inv in H. destruct H as (x & EX & H). injection H as <- <-. split; [constructor|]. unfold basUint8 in EX. destruct (c_strtol10 lw (mem (zb max_value v))) as [y|] eqn:EY; cbn [bind] in EX; [|discriminate].
      injection EX as <-. apply (x_dec _ _ _ z) in EY. rewrite Z, dec_read in EY. injection EY as <-. reflexivity.
    - injection H as <- <-. rewrite SAME. split; [constructor|reflexivity]. }
  apply ask_inv in H. destruct H as (tx & ET & H). injection H as <- <-. rewrite SAME. split; [repeat constructor|reflexivity].
Qed.
Lemma bk_consume : forall c r, ok_report r -> bk (let '(s, k, v) := as_buffers r in cons_consume lw c s k v).
Proof.
  intros c ((s & k) & v) (LS & LK & LV). cbn [as_buffers]. intros w w' t S H. unfold cons_consume in H. apply seq_inv in H. destruct H as (w1 & t1 & t2 & H1 & H & ->). injection H1 as <- <-.
  apply ask_inv in H. destruct H as (o & G & H). apply cons_got in G. cbn [app fold_left]. unfold db_of at 2. cbn [after_event]. rewrite G. unfold line. rewrite !token_zb. destruct o as [e cb|co i n off cb|].
  - unfold loco_consume in H. apply ask_inv in H. destruct H as (cur & EC & H). destruct e as [|e]; [discriminate|]. injection EC as <-. destruct e as [e|]; [|injection H as <- <-; split; [exact S|reflexivity]].
    apply ask_inv in H. destruct H as (l & GE & H). apply engine_got in GE. rewrite GE. apply ask_inv in H. destruct H as (l' & EL & H). pose proof (shaped_at _ _ _ S GE) as PL.
    apply line_ok in EL; [|exact PL|exact LV]. subst l'. injection H as <- <-. split; [|reflexivity]. apply shaped_upd; [exact S|]. apply (line_proto lw l (s, k, v)). exact PL.
  - apply list_ok in H; [|exact LS|exact LV|exact G]. destruct H as (F & ->). split; [exact S|]. rewrite inert_fold by exact F. unfold db_of. cbn. reflexivity.
  - injection H as <- <-. split; [exact S|reflexivity].
Qed.
Lemma bk_consume_all : forall c rs, Forall ok_report rs -> bk (cons_consume_all lw c (map as_buffers rs)).
Proof.
  intros c rs F. induction F as [|r rs O F IH]; [apply bk_skip|]. cbn [map cons_consume_all]. pose proof (bk_consume c r O) as B. destruct (as_buffers r) as ((s & k) & v). apply bk_seq; assumption.
Qed.
Lemma bk_complete : forall c, bk (cons_complete c).
Proof.
  intros c w w' t S H. unfold cons_complete in H. apply seq_inv in H. destruct H as (w1 & t1 & t2 & H1 & H & ->). injection H1 as <- <-.
  apply ask_inv in H. destruct H as (o & G & H). apply cons_got in G. cbn [app fold_left]. unfold db_of at 2. cbn [after_event]. rewrite G. destruct o as [e cb|co i n off cb|].
  - apply ask_inv in H. destruct H as (cur & EC & H). destruct e as [|e]; [discriminate|]. injection EC as <-. destruct e as [e|]; [|injection H as <- <-; split; [exact S|reflexivity]].
    apply ask_inv in H. destruct H as (l & GE & H). apply engine_got in GE. rewrite GE. rewrite put_engine_seq in H.
    match type of H with ?a _ = _ => assert (SL : silent a) by (unfold puts, print_res, print; sl; unfold when_some; sl) end. apply SL in H. destruct H as (-> & F). rewrite inert_fold by exact F.
    split; [|reflexivity]. apply shaped_upd; [exact S|]. cbn. exact (shaped_at _ _ _ S GE).
  - rewrite put_cons_seq in H. match type of H with ?a _ = _ => assert (SL : silent a) by (sl; unfold when_some; sl) end. apply SL in H. destruct H as (-> & F). rewrite inert_fold by exact F. split; [exact S|reflexivity].
  - injection H as <- <-. split; [exact S|reflexivity].
Qed.
Lemma bk_aborted : forall c, bk (cons_aborted c).
Proof.
  intros c w w' t S H. unfold cons_aborted in H. apply seq_inv in H. destruct H as (w1 & t1 & t2 & H1 & H & ->). injection H1 as <- <-.
  apply ask_inv in H. destruct H as (o & G & H). apply cons_got in G. cbn [app fold_left]. unfold db_of at 2. cbn [after_event]. rewrite G. destruct o as [e cb|co i n off cb|].
  - match type of H with ?a _ = _ => assert (SL : silent a) by (sl; unfold when_some; sl) end. apply SL in H. destruct H as (-> & F). rewrite inert_fold by exact F. split; [exact S|reflexivity].
  - rewrite put_cons_seq in H. match type of H with ?a _ = _ => assert (SL : silent a) by (sl; unfold when_some; sl) end. apply SL in H. destruct H as (-> & F). rewrite inert_fold by exact F. split; [exact S|reflexivity].
  - injection H as <- <-. split; [exact S|reflexivity].
Qed.

(** ** Parsers and stations *)
Lemma bk_reset : forall p, bk (lib_reset p).
Proof.
  intros p. unfold lib_reset. apply bk_ask. intro sp. apply bk_seq; [|unfold put_lib; bk]. destruct (ss_processing (sp_state sp)); [|apply bk_skip]. apply bk_when. intro c. apply bk_aborted.
Qed.
Lemma bku_add : forall p d, payload_ok d -> bku (lib_addMessage lw p d).
Proof.
  intros p d P w w' t U S H. unfold lib_addMessage in H. apply ask_inv in H. destruct H as (sp & G & H). apply lib_inv in G. destruct (U _ _ G) as (a & F & T).
  assert (PL : forall sp, bk (put_lib p sp)) by (intro; apply bk_put_parser). assert (CO : forall o, bk (when_some o cons_complete)) by (intro; apply bk_when; intro; apply bk_complete).
  assert (AB : forall o, bk (when_some o cons_aborted)) by (intro; apply bk_when; intro; apply bk_aborted).
  destruct (sp_state sp).
  - revert w' t S H. clear. intros w' t S H. revert S H. apply bk_print.
  - revert S H. match goal with |- _ -> ?a _ = _ -> _ => assert (B : bk a); [|apply B] end.
    repeat match goal with |- bk (if ?b then _ else _) => destruct b end; repeat first [apply PL|apply CO|apply bk_print|apply bk_reset|apply bk_seq].
  - revert S H. match goal with |- _ -> ?a _ = _ -> _ => assert (B : bk a); [|apply B] end. destruct (dlc d =? 8) eqn:D; cbn [negb]; [|apply bk_seq; [apply bk_print|apply bk_reset]].
    apply Z.eqb_eq in D. apply bk_ask. intro crc. intros w1 w2 t1 S1 H1. apply ask_inv in H1. destruct H1 as (te & ET & H1). rewrite T, (addText_spec _ _ _ _ F (holds_data _ P D)) in ET.
    injection ET as <-. revert S1 H1. match goal with |- _ -> ?a _ = _ -> _ => assert (B : bk a); [|apply B] end. cbn [fst snd]. apply bk_seq; [apply PL|]. apply bk_seq.
    + rewrite T. cbn [parser tp_cons]. destruct (sp_cons sp) as [c|]; [|apply bk_skip]. cbn [when_some told]. apply bk_consume_all. apply aadd_reports. exact F.
    + match goal with |- bk (if ?b then _ else _) => destruct b end; [|apply bk_skip]. apply bk_ask. intros []; apply bk_seq; auto.
  - revert w' t S H. clear. intros w' t S H. revert S H. apply bk_print.
Qed.
Lemma bk_start : forall p, bk (cfg_call lw p CStart). Proof. intros p. unfold cfg_call, put_lib. bk. Qed.
Lemma bk_creset : forall p, bk (cfg_call lw p CReset).
Proof. intros p. unfold cfg_call. apply bk_seq; [apply bk_emit; exact Logic.I|]. apply bk_ask. intros [sp|beh h]; [apply bk_reset|apply bk_put_parser]. Qed.
Lemma bku_cadd : forall p d, payload_ok d -> bku (cfg_call lw p (CAdd d)).
Proof. intros p d P. unfold cfg_call. apply bku_emit; [exact Logic.I|]. apply bku_ask. intros [sp|beh h]; [apply bku_add; exact P|apply bk_bku, bk_put_parser]. Qed.
Lemma bk_finish : forall s, bk (st_finish lw s).
Proof. intros s. unfold st_finish. apply bk_ask. intro st. apply bk_when. intro p. apply bk_seq; [apply bk_creset|bk]. Qed.
Lemma bku_config : forall s d, payload_ok d -> bku (st_handleConfigDataStream lw s d).
Proof. intros s d P. unfold st_handleConfigDataStream. apply bku_ask. intro st. apply bku_ask. intros [p|]; [apply bku_cadd; exact P|apply bk_bku; bk]. Qed.
Lemma bk_functions : forall st u n i, bk (send_functions st u i n).
Proof. intros st u. induction n as [|n IH]; intro i; cbn [send_functions]; [apply bk_skip|]. apply bk_seq; [unfold tx_send; bk|apply IH]. Qed.
Lemma bku_station : forall s o, frames_ok (OnStation s o) -> bku (st_step lw s o).
Proof.
  intros s o F. destruct o; cbn [st_step]; try (apply bk_bku; first [apply bk_finish|unfold st_abort; apply bk_finish|unfold st_handleAccessoryPacket, st_handleSystemCommand, st_handleLocoDirection, st_handleLocoSpeed, st_handleLocoFunction,
    st_sendAccessoryPacket, st_requestEngineDirection, st_sendEngineDirection, st_requestEngineVelocity, st_sendEngineVelocity, st_requestEngineFunction, st_sendEngineFunction, st_sendEmergencyStop, st_sendSystemStop, st_sendSystemGo, st_sendPacket, tx_send; solve [bk]]).
  - apply bk_bku. unfold st_begin, st_abort. apply bk_seq; [apply bk_finish|bk].
  - unfold st_handlePacket. cbn in F. set (cmd := id_getCommand (fid f)). set (d := fdata f) in *.
    repeat match goal with |- bku (if ?b then _ else _) => destruct b end; try apply bku_config; try exact F; apply bk_bku;
      unfold st_handleAccessoryPacket, st_handleSystemCommand, st_handleLocoDirection, st_handleLocoSpeed, st_handleLocoFunction; bk.
  - apply bku_config. exact F.
  - apply bk_bku. unfold st_requestEngine, st_abort, tx_send. apply bk_ask. intro si. destruct (negb (si_isNameKnown si)); [apply bk_skip|]. apply bk_ask. intro st. apply bk_ask. intros []; [apply bk_skip|].
    apply bk_seq; [apply bk_finish|]. apply bk_ask. intro st'. apply bk_seq; [apply bk_put_station|]. apply bk_seq; [apply bk_when; intro; apply bk_start|]. bk.
  - apply bk_bku. unfold st_requestEngineList, st_abort, tx_send. apply bk_seq; [apply bk_finish|]. apply bk_ask. intro st'. apply bk_seq; [apply bk_put_station|]. apply bk_ask. intro b1.
    destruct (snprintf9 (list_request_text offset)) as (b2 & n). destruct (u8 n <=? CanDataMaxLength); [|apply bk_skip]. apply bk_seq; [apply bk_when; intro; apply bk_start|]. bk.
Qed.

(** ** One call *)
Lemma eop_shape : forall l o l', List.length (lo_proto l) = 8%nat -> eop_apply l o = Ok l' -> List.length (lo_proto l') = 8%nat.
Proof.
  assert (NAME : forall l n l', lo_setName l n = Ok l' -> List.length (lo_proto l') = 8%nat).
  { intros l n l' H. unfold lo_setName in H. destruct (c_strncpy _ n _); cbn [bind] in H; [|discriminate]. injection H as <-. reflexivity. }
  intros l o l' L H. destruct o; cbn [eop_apply] in H; try (injection H as <-; exact L || reflexivity).
  - eapply NAME. exact H.
  - unfold lo_setNameConditional in H. match type of H with context [bind ?x _] => destruct x as [(l1 & b)|] eqn:E end; cbn [bind] in H; [|discriminate]. injection H as <-.
    match type of E with bind ?x _ = _ => destruct x as [[]|] end; cbn [bind] in E; [injection E as <- <-; exact L| |discriminate].
    destruct (lo_setName l name) as [l2|] eqn:E2; cbn [bind] in E; [|discriminate]. injection E as <- <-. eapply NAME. exact E2.
  - destruct (ld_setFunction (lo_data l) f on) as [d|]; cbn [bind] in H; [|discriminate]. injection H as <-. exact L.
  - unfold lo_setProtocolString in H. destruct (c_strncpy (lo_proto l) s kProtocolNameMaxLength) as [p|] eqn:E; cbn [bind] in H; [|discriminate]. injection H as <-. cbn. unfold c_strncpy, kProtocolNameMaxLength in E.
    destruct (zlen (lo_proto l) <? 8); [discriminate|]. destruct (strncpy_bytes s (Z.to_nat 8)) as [bs|] eqn:B; cbn [bind] in E; [|discriminate]. unfold wr in E.
    destruct ((0 <=? 0) && (0 + zlen bs <=? zlen (lo_proto l))) eqn:K; [|discriminate]. injection E as <-. apply andb_true_iff in K. destruct K as (_ & K). apply Z.leb_le in K. unfold zlen in K.
    change (List.length (bs ++ skipn (List.length bs) (lo_proto l)) = 8%nat). rewrite app_length, skipn_length. lia.
Qed.
Lemma step_books : forall o w w' t, all_usable w -> shaped w -> frames_ok o -> step lw o w = Ok (w', t) ->
  shaped w' /\ db_of w' = fold_left (after_event lw) t (after_call (db_of w) o).
Proof.
  intros o w w' t U S F H. destruct o as [s o|p|p c|p d|p|c cb|c e|c off|c|c|c|e o]; cbn [step] in H.
  - exact (bku_station s o F w w' t U S H).
  - revert S H. match goal with |- _ -> ?a _ = _ -> _ => assert (B : bk a); [|apply B] end. unfold put_lib. bk.
  - revert S H. match goal with |- _ -> ?a _ = _ -> _ => assert (B : bk a); [|apply B] end. unfold put_lib. bk.
  - exact (bku_add p d F w w' t U S H).
  - exact (bk_reset p w w' t S H).
  - apply ask_inv in H. destruct H as (x & G & H). apply cons_got in G. unfold db_of at 2. cbn [after_call]. rewrite G. destruct x as [e' cb'|co i n off cb'|]; injection H as <- <-; (split; [exact S|]); reflexivity.
  - apply ask_inv in H. destruct H as (x & G & H). apply cons_got in G. unfold db_of at 2. cbn [after_call]. rewrite G. destruct x as [e' cb'|co i n off cb'|]; try discriminate. injection H as <- <-; (split; [exact S|]); reflexivity.
  - apply ask_inv in H. destruct H as (x & G & H). apply cons_got in G. unfold db_of at 2. cbn [after_call]. rewrite G. destruct x as [e' cb'|co i n off' cb'|]; try discriminate. injection H as <- <-; (split; [exact S|]); reflexivity.
  - apply ask_inv in H. destruct H as (x & G & H). apply cons_got in G. unfold db_of at 2. cbn [after_call]. rewrite G. destruct x as [e' cb'|co i n off' cb'|]; try discriminate. injection H as <- <-; (split; [exact S|]); reflexivity.
  - apply ask_inv in H. destruct H as (x & G & H). apply cons_got in G. unfold db_of at 2. cbn [after_call]. rewrite G. destruct x as [e' cb'|co i n off' cb'|]; try discriminate. injection H as <- <-; (split; [exact S|]); reflexivity.
  - revert S H. match goal with |- _ -> ?a _ = _ -> _ => assert (B : bk a); [|apply B] end. bk.
  - apply ask_inv in H. destruct H as (l & G & H). apply engine_got in G. apply ask_inv in H. destruct H as (l' & E & H). unfold db_of at 2. cbn [after_call]. rewrite G, E. injection H as <- <-.
    split; [|reflexivity]. apply shaped_upd; [exact S|]. eapply eop_shape; [|exact E]. exact (shaped_at _ _ _ S G).
Qed.
(** ** Histories *)
Lemma fold_events : forall t x, fold_left (after_deed lw) (map Happened t) x = fold_left (after_event lw) t x.
Proof. induction t as [|e t IH]; intro x; [reflexivity|]. cbn [map fold_left after_deed]. apply IH. Qed.
Lemma history_books : forall ops w w' t, all_usable w -> shaped w -> Forall frames_ok ops -> run lw ops w = Ok (w', t) ->
  shaped w' /\ db_of w' = fold_left (after_deed lw) (deeds lw ops w) (db_of w).
Proof.
  induction ops as [|o ops IH]; intros w w' t U S F H; cbn [run] in H; [injection H as <- <-; auto|]. apply seq_inv in H. destruct H as (w1 & t1 & t2 & H1 & H2 & ->).
  inversion F as [|? ? F1 F2]; subst. destruct (step_books o w w1 t1 U S F1 H1) as (S1 & D1). destruct (IH w1 w' t2) as (S2 & D2); [eapply k_step; eauto|exact S1|exact F2|exact H2|].
  split; [exact S2|]. cbn [deeds]. rewrite H1. cbn [fold_left after_deed]. rewrite fold_left_app, fold_events, <- D1. exact D2.
Qed.
End LW.

(** ** C93: list consumers *)
Lemma nth_upd_if : forall A n (x : A) l i, nth_error (upd n x l) i = (if Nat.eqb i n then match nth_error l n with Some _ => Some x | None => None end else nth_error l i).
Proof.
  intros A n x l. revert n. induction l as [|y l IH]; intros [|n] [|i]; cbn; try reflexivity.
  - destruct (Nat.eqb i n); reflexivity.
  - apply IH.
Qed.
Definition newer {A} (x : option A) (y : A) : A := match x with Some z => z | None => y end.
Definition names_step (c : nat) (d : deed) (acc : bool * list (list Z)) : bool * list (list Z) :=
  match d with
  | Happened (EvConsume c' s k v) =>
      if Nat.eqb c c' then match list_entry_of (line s k v) with NameEntry t => (fst acc, snd acc ++ [until_nul t]) | _ => acc end else acc
  | Happened (EvStreamAborted c') | Called (ListReset c') | Called (ListClearTable c') => if Nat.eqb c c' then (true, []) else acc
  | _ => acc
  end.
Definition table (i : list ShortInfo) (acc : bool * list (list Z)) : list ShortInfo :=
  filled (if fst acc then repeat si_reset (List.length i) else i) (snd acc).
Lemma cleared_table : forall A (i : list A), map (fun _ => si_reset) i = repeat si_reset (List.length i).
Proof. induction i; cbn; congruence. Qed.
Lemma table_len : forall i acc, List.length (table i acc) = List.length i.
Proof. intros i (e & ns). unfold table. rewrite filled_len. destruct e; cbn [fst]; [apply repeat_length|reflexivity]. Qed.
Section LW.
Variable lw : Z.
Lemma list_deed : forall c d cs es co i0 acc n o cb, nth_error cs c = Some (ListC co (table i0 acc) n o cb) ->
  exists cb', nth_error (fst (after_deed lw (cs, es) d)) c =
    Some (ListC (newer (complete_news c d) co) (table i0 (names_step c d acc)) (newer (count_news lw c d) n) (newer (offset_news c d) o) cb').
Proof.
  intros c d cs es co i0 acc n o cb H.
  assert (EMPTY : forall x, map (fun _ => si_reset) x = table x (true, [])) by (intros x; unfold table; cbn [fst snd]; rewrite filled_nil; apply cleared_table).
  assert (ETAB : map (fun _ => si_reset) (table i0 acc) = table i0 (true, [])).
  { rewrite cleared_table, table_len. unfold table. cbn [fst snd]. rewrite filled_nil. reflexivity. }
  destruct d as [op|e].
  - destruct op as [s x|p|p x|p x|p|c' cb'|c' e|c' off|c'|c'|c'|e x]; cbn [after_deed after_call fst newer complete_news count_news offset_news names_step]; try (exists cb; exact H).
    + destruct (nth_error cs c') as [[]|] eqn:N; cbn [fst]; try (exists cb; exact H); rewrite nth_upd_if; destruct (Nat.eqb_spec c c') as [->|NE]; try (exists cb; exact H); rewrite N in *; try discriminate.
      injection H as -> -> -> -> ->. eexists. reflexivity.
    + destruct (nth_error cs c') as [[]|] eqn:N; cbn [fst]; try (exists cb; exact H); rewrite nth_upd_if; destruct (Nat.eqb_spec c c') as [->|NE]; try (exists cb; exact H); rewrite N in *; discriminate.
    + unfold when_eq. destruct (nth_error cs c') as [[]|] eqn:N; cbn [fst]; try rewrite nth_upd_if; destruct (Nat.eqb_spec c c') as [->|NE]; try (exists cb; exact H); rewrite N in *; try discriminate.
      injection H as -> -> -> -> ->. eexists. reflexivity.
    + unfold when_eq. destruct (nth_error cs c') as [[]|] eqn:N; cbn [fst]; try rewrite nth_upd_if; destruct (Nat.eqb_spec c c') as [->|NE]; try (exists cb; exact H); rewrite N in *; try discriminate.
      injection H as -> -> -> -> ->. unfold emptied. rewrite ETAB. eexists. reflexivity.
    + unfold when_eq. destruct (nth_error cs c') as [[]|] eqn:N; cbn [fst]; try rewrite nth_upd_if; destruct (Nat.eqb_spec c c') as [->|NE]; try (exists cb; exact H); rewrite N in *; try discriminate.
      injection H as -> -> -> -> ->. rewrite ETAB. eexists. reflexivity.
    + destruct (nth_error es e) as [l|]; [|exists cb; exact H]. destruct (eop_apply l x); exists cb; exact H.
  - destruct e as [| | | | | | | | |c' s k v|c'|c'| | |]; cbn [after_deed after_event fst newer complete_news count_news offset_news names_step]; try (exists cb; exact H).
    + destruct (Nat.eqb_spec c c') as [<-|NE].
      * rewrite H. cbn [fst]. rewrite nth_upd_if, Nat.eqb_refl, H. exists cb. destruct (list_entry_of (line s k v)) as [t|t|]; unfold when_eq; rewrite ?Nat.eqb_refl; cbn [newer]; try reflexivity.
        destruct acc as (e & ns). unfold table. cbn [fst snd]. rewrite filled_app. reflexivity.
      * exists cb. assert (X : (match list_entry_of (line s k v) with CountEntry t => when_eq c c' (Def (dec_value lw t mod 256)) | _ => None end) = None).
        { destruct (list_entry_of (line s k v)); try reflexivity. unfold when_eq. destruct (Nat.eqb_spec c c'); [contradiction|reflexivity]. }
        rewrite X. cbn [newer]. destruct (nth_error cs c') as [[[|[e|]] cbx|co2 i2 n2 o2 cb2|]|]; cbn [fst]; try exact H; [destruct (nth_error es e); exact H|].
        rewrite nth_upd_if. destruct (Nat.eqb_spec c c'); [contradiction|exact H].
    + unfold when_eq. destruct (Nat.eqb_spec c c') as [<-|NE].
      * rewrite H. cbn [fst newer]. rewrite nth_upd_if, Nat.eqb_refl, H. exists cb. reflexivity.
      * exists cb. cbn [newer]. destruct (nth_error cs c') as [[[|[e|]] cbx|co2 i2 n2 o2 cb2|]|]; cbn [fst]; try exact H; [destruct (nth_error es e); exact H|].
        rewrite nth_upd_if. destruct (Nat.eqb_spec c c'); [contradiction|exact H].
    + unfold when_eq. destruct (Nat.eqb_spec c c') as [<-|NE].
      * rewrite H. cbn [fst newer]. rewrite nth_upd_if, Nat.eqb_refl, H. exists cb. unfold emptied. rewrite ETAB. reflexivity.
      * exists cb. cbn [newer]. destruct (nth_error cs c') as [[e2 cb2|co2 i2 n2 o2 cb2|]|]; cbn [fst]; try exact H. rewrite nth_upd_if. destruct (Nat.eqb_spec c c'); [contradiction|exact H].
Qed.
Lemma list_deeds : forall c ds x co i0 acc n o cb, nth_error (fst x) c = Some (ListC co (table i0 acc) n o cb) ->
  exists cb', nth_error (fst (fold_left (after_deed lw) ds x)) c =
    Some (ListC (latest (complete_news c) ds co) (table i0 (names_told c ds acc)) (latest (count_news lw c) ds n) (latest (offset_news c) ds o) cb').
Proof.
  intros c. induction ds as [|d ds IH]; intros (cs & es) co i0 acc n o cb H; [exists cb; exact H|]. destruct (list_deed c d cs es co i0 acc n o cb H) as (cb1 & H1). cbn [fold_left].
  destruct (IH _ _ _ _ _ _ _ H1) as (cb2 & H2). exists cb2. rewrite H2. reflexivity.
Qed.
Lemma list_history : forall ops w w' t c co i n o cb, all_usable w -> shaped w -> Forall frames_ok ops -> nth_error (w_conss w) c = Some (ListC co i n o cb) -> run lw ops w = Ok (w', t) ->
  exists cb', nth_error (w_conss w') c = Some (ListC (latest (complete_news c) (deeds lw ops w) co) (table i (names_told c (deeds lw ops w) (false, [])))
    (latest (count_news lw c) (deeds lw ops w) n) (latest (offset_news c) (deeds lw ops w) o) cb').
Proof.
  intros ops w w' t c co i n o cb U S F C H. destruct (history_books lw ops w w' t U S F H) as (_ & D).
  destruct (list_deeds c (deeds lw ops w) (db_of w) co i (false, []) n o cb) as (cb' & L).
  - unfold table. cbn [fst snd]. rewrite filled_nil. exact C.
  - exists cb'. rewrite <- D in L. exact L.
Qed.
Lemma list_answers : forall ops w w' t c co i n o cb, all_usable w -> shaped w -> Forall frames_ok ops -> nth_error (w_conss w) c = Some (ListC co i n o cb) -> run lw ops w = Ok (w', t) ->
  q_isStreamComplete w' c = mread (latest (complete_news c) (deeds lw ops w) co) /\
  q_getStreamOffset w' c = mread (latest (offset_news c) (deeds lw ops w) o) /\
  q_getNumEngines w' c = mread (latest (count_news lw c) (deeds lw ops w) n) /\
  q_getEngineInfos w' c = Ok (table i (names_told c (deeds lw ops w) (false, []))).
Proof.
  intros ops w w' t c co i n o cb U S F C H. destruct (list_history ops w w' t c co i n o cb U S F C H) as (cb' & L).
  unfold q_isStreamComplete, q_getStreamOffset, q_getNumEngines, q_getEngineInfos, get_cons, at_. rewrite L. repeat split.
Qed.
End LW.
Lemma latest_iff : forall A (news : deed -> option A) ds first x, latest news ds first = x <->
  (exists a d b, ds = a ++ d :: b /\ news d = Some x /\ forall d', In d' b -> news d' = None) \/ (x = first /\ forall d, In d ds -> news d = None).
Proof.
  intros A news. induction ds as [|d ds IH]; intros first x; cbn [latest].
  - split; [intros <-; right; split; [reflexivity|contradiction]|]. intros [(a & d & b & E & _)|(-> & _)]; [destruct a; discriminate|reflexivity].
  - rewrite IH. split.
    + intros [(a & d' & b & -> & N & L)|(-> & L)].
      * left. exists (d :: a), d', b. auto.
      * destruct (news d) as [y|] eqn:N; [left; exists [], d, ds; auto|right]. split; [reflexivity|]. intros d' [<-|I]; auto.
    + intros [([|d0 a] & d' & b & E & N & L)|(-> & L)].
      * injection E as -> ->. right. rewrite N. auto.
      * injection E as -> ->. left. exists a, d', b. auto.
      * right. rewrite (L d) by (left; reflexivity). split; [reflexivity|]. intros d' I. apply L. right. exact I.
Qed.

(** ** C94: engine consumers *)
Section LW94.
Variable lw : Z.
Definition points_in (cs : list CObj) (c : nat) (x : mu (option nat)) : Prop := exists cb, nth_error cs c = Some (LocoC x cb).
Lemma points_deed : forall d cs es c x, points_in cs c x -> points_in (fst (after_deed lw (cs, es) d)) c (newer (engine_news c d) x).
Proof.
  intros d cs es c x (cb & H). unfold points_in. destruct d as [op|e].
  - destruct op as [s y|p|p y|p y|p|c' cb'|c' e|c' off|c'|c'|c'|e y]; cbn [after_deed after_call fst newer engine_news]; try (exists cb; exact H).
    + destruct (nth_error cs c') as [[]|] eqn:N; cbn [fst]; try (exists cb; exact H); rewrite nth_upd_if; destruct (Nat.eqb_spec c c') as [->|NE]; try (exists cb; exact H); rewrite N in *; try discriminate.
      injection H as -> ->. eexists. reflexivity.
    + unfold when_eq. destruct (nth_error cs c') as [[]|] eqn:N; cbn [fst]; try rewrite nth_upd_if; destruct (Nat.eqb_spec c c') as [->|NE]; try (exists cb; exact H); rewrite N in *; try discriminate.
      eexists. reflexivity.
    + destruct (nth_error cs c') as [[]|] eqn:N; cbn [fst]; try (exists cb; exact H); rewrite nth_upd_if; destruct (Nat.eqb_spec c c') as [->|NE]; try (exists cb; exact H); rewrite N in *; discriminate.
    + destruct (nth_error cs c') as [[]|] eqn:N; cbn [fst]; try (exists cb; exact H); rewrite nth_upd_if; destruct (Nat.eqb_spec c c') as [->|NE]; try (exists cb; exact H); rewrite N in *; discriminate.
    + destruct (nth_error cs c') as [[]|] eqn:N; cbn [fst]; try (exists cb; exact H); rewrite nth_upd_if; destruct (Nat.eqb_spec c c') as [->|NE]; try (exists cb; exact H); rewrite N in *; discriminate.
    + destruct (nth_error es e) as [l|]; [|exists cb; exact H]. destruct (eop_apply l y); exists cb; exact H.
  - destruct e as [| | | | | | | | |c' s k v|c'|c'| | |]; cbn [after_deed after_event fst newer engine_news]; exists cb; try exact H.
    all: destruct (nth_error cs c') as [[[|[e|]] cbx|co2 i2 n2 o2 cb2|]|] eqn:N; cbn [fst]; try exact H; try (destruct (nth_error es e); exact H).
    all: rewrite nth_upd_if; (destruct (Nat.eqb_spec c c') as [->|NE]; [rewrite N in H; discriminate|exact H]).
Qed.
Lemma points_deeds : forall ds x c e, points_in (fst x) c e -> points_in (fst (fold_left (after_deed lw) ds x)) c (latest (engine_news c) ds e).
Proof. induction ds as [|d ds IH]; intros (cs & es) c e H; [exact H|]. cbn [fold_left latest]. apply IH. exact (points_deed d cs es c e H). Qed.
Lemma engine_answer : forall ops w w' t c e cb, all_usable w -> shaped w -> Forall frames_ok ops -> nth_error (w_conss w) c = Some (LocoC e cb) -> run lw ops w = Ok (w', t) ->
  q_getEngine w' c = mread (latest (engine_news c) (deeds lw ops w) e).
Proof.
  intros ops w w' t c e cb U S F C H. destruct (history_books lw ops w w' t U S F H) as (_ & D).
  assert (P : points_in (fst (db_of w)) c e) by (exists cb; exact C). apply (points_deeds (deeds lw ops w)) in P. rewrite <- D in P. destruct P as (cb' & P). cbn [db_of fst] in P.
  unfold q_getEngine, get_cons, at_. rewrite P. reflexivity.
Qed.
(** events do not change where consumers point *)
Lemma points_event : forall ev cs es c x, points_in (fst (after_event lw (cs, es) ev)) c x <-> points_in cs c x.
Proof.
  intros ev cs es c x. split.
  - intros (cb & H). unfold points_in. destruct ev as [| | | | | | | | |c' s k v|c'|c'| | |]; cbn [after_event fst] in H; try (exists cb; exact H).
    all: destruct (nth_error cs c') as [[[|[e|]] cbx|co2 i2 n2 o2 cb2|]|] eqn:N; cbn [fst] in H; try (exists cb; exact H); try (destruct (nth_error es e); exists cb; exact H).
    all: rewrite nth_upd_if, N in H; (destruct (Nat.eqb_spec c c') as [->|NE]; [|exists cb; exact H]); try discriminate. destruct (list_entry_of (line s k v)); discriminate.
  - intro H. pose proof (points_deed (Happened ev) cs es c x H) as P. exact P.
Qed.
Definition full_in (es : list Loco) (e : nat) : Prop := exists l, nth_error es e = Some l /\ si_avail (lo_info l) = FULL_DETAILS.
Lemma full_event : forall ev cs es e, (e < List.length es)%nat ->
  (full_in (snd (after_event lw (cs, es) ev)) e <-> full_in es e \/ exists c, ev = EvStreamComplete c /\ points_in cs c (Def (Some e))) /\
  List.length (snd (after_event lw (cs, es) ev)) = List.length es.
Proof.
  intros ev cs es e L. unfold full_in.
  assert (SAME : forall X : Prop, ~ X -> (full_in es e <-> full_in es e \/ X)) by (intros X NX; split; [auto|intros [H|H]; [exact H|contradiction]]). unfold full_in in SAME.
  destruct ev as [| | | | | | | | |c' s k v|c'|c'| | |]; cbn [after_event snd]; try (split; [refine (SAME _ _); intros (? & ? & _); discriminate|reflexivity]).
  - assert (N : ~ exists c, EvConsume c' s k v = EvStreamComplete c /\ points_in cs c (Def (Some e))) by (intros (c & E & _); discriminate).
    destruct (nth_error cs c') as [[[|[e'|]] cbx|co2 i2 n2 o2 cb2|]|] eqn:C; cbn [snd]; try (split; [refine (SAME _ N)|reflexivity]).
    destruct (nth_error es e') as [l|] eqn:E; cbn [snd]; [|split; [refine (SAME _ N)|reflexivity]]. split; [|apply upd_length]. rewrite <- (SAME _ N), nth_upd_if. destruct (Nat.eqb_spec e e') as [->|NE]; [|reflexivity].
    rewrite E. pose proof (line_info lw l (line s k v)) as LI. split; intros (l' & A & B); eexists; (split; [reflexivity|]); assert (A' := f_equal (option_map lo_info) A); cbn [option_map] in A'; congruence.
  - assert (NC : (forall cb, nth_error cs c' <> Some (LocoC (Def (Some e)) cb)) -> ~ exists c, EvStreamComplete c' = EvStreamComplete c /\ points_in cs c (Def (Some e))).
    { intros X (c & E & (cb & P)). injection E as <-. exact (X cb P). }
    destruct (nth_error cs c') as [[[|[e'|]] cbx|co2 i2 n2 o2 cb2|]|] eqn:C; cbn [snd]; try (split; [refine (SAME _ (NC _)); intros cb X; discriminate|reflexivity]).
    destruct (nth_error es e') as [l|] eqn:E; cbn [snd].
    + split; [|apply upd_length]. rewrite nth_upd_if. destruct (Nat.eqb_spec e e') as [->|NE].
      * rewrite E. split; [|intros _; eexists; split; reflexivity]. intros _. right. exists c'. split; [reflexivity|]. exists cbx. exact C.
      * apply SAME. apply NC. intros cb X. congruence.
    + split; [|reflexivity]. apply SAME, NC. intros cb X. injection X as -> _. apply nth_error_None in E. lia.
  - assert (N : ~ exists c, EvStreamAborted c' = EvStreamComplete c /\ points_in cs c (Def (Some e))) by (intros (c & E & _); discriminate).
    destruct (nth_error cs c') as [[]|]; cbn [snd]; (split; [refine (SAME _ N)|reflexivity]).
Qed.
Lemma full_events : forall t x e, (e < List.length (snd x))%nat ->
  (full_in (snd (fold_left (after_event lw) t x)) e <-> full_in (snd x) e \/ exists c, In (EvStreamComplete c) t /\ points_in (fst x) c (Def (Some e))).
Proof.
  induction t as [|ev t IH]; intros (cs & es) e L; cbn [fold_left].
  - split; [auto|intros [H|(c & [] & _)]; exact H].
  - destruct (full_event ev cs es e L) as (F & LE). rewrite IH by (rewrite LE; exact L). rewrite F. cbn [fst snd]. split.
    + intros [[H|(c & -> & P)]|(c & I & P)]; [auto| |].
      * right. exists c. split; [left; reflexivity|exact P].
      * right. exists c. split; [right; exact I|]. apply (points_event ev cs es c (Def (Some e))). exact P.
    + intros [H|(c & [->|I] & P)]; [auto| |].
      * left. right. exists c. auto.
      * right. exists c. split; [exact I|]. apply points_event. exact P.
Qed.
Definition on_engine (o : op) : bool := match o with OnEngine _ _ => true | _ => false end.
Lemma full_call : forall o w w' t e, all_usable w -> shaped w -> frames_ok o -> step lw o w = Ok (w', t) -> (e < List.length (w_engines w))%nat -> (forall x, o <> OnEngine e x) ->
  (full w' e <-> full w e \/ exists c, In (EvStreamComplete c) t /\ fills w c e).
Proof.
  intros o w w' t e U S F H L NE. destruct (step_books lw o w w' t U S F H) as (_ & D).
  assert (CASES : (after_call (db_of w) o = db_of w) \/ (t = [] /\ (full_in (snd (after_call (db_of w) o)) e <-> full_in (snd (db_of w)) e))).
  { destruct o as [s o|p|p c|p d|p|c cb|c x|c off|c|c|c|e' x]; try (left; reflexivity); right; cbn [step] in H.
    1-5: apply ask_inv in H; destruct H as (x' & G & H); apply cons_got in G; unfold db_of; cbn [after_call]; rewrite G; destruct x' as [e1 c1|co i n o1 c1|]; try discriminate; injection H as <- <-; cbn [snd]; (split; [reflexivity|split; intro HH; exact HH]).
    apply ask_inv in H. destruct H as (l & G & H). apply engine_got in G. apply ask_inv in H. destruct H as (l' & E & H). injection H as <- <-. split; [reflexivity|].
    unfold db_of. cbn [after_call]. rewrite G, E. cbn [snd]. unfold full_in. rewrite nth_upd_if. destruct (Nat.eqb_spec e e') as [->|NN]; [exfalso; exact (NE x eq_refl)|reflexivity]. }
  assert (FF : forall w, full w e <-> full_in (snd (db_of w)) e) by (intro; reflexivity). rewrite !FF, D. destruct CASES as [E|(-> & E)].
  - rewrite E. rewrite full_events by exact L. reflexivity.
  - cbn [fold_left]. rewrite E. split; [auto|]. intros [X|(c & [] & _)]. exact X.
Qed.
Lemma data_avail : forall l o l', data_setter o = true -> eop_apply l o = Ok l' -> lo_info l' = lo_info l.
Proof.
  intros l o l' D H. destruct o; try discriminate; cbn [eop_apply] in H; try (injection H as <-; reflexivity).
  - destruct (ld_setFunction (lo_data l) f on); cbn [bind] in H; [|discriminate]. injection H as <-. reflexivity.
  - unfold lo_setProtocolString in H. destruct (c_strncpy _ s _); cbn [bind] in H; [|discriminate]. injection H as <-. reflexivity.
Qed.
Lemma full_setter : forall w w' t e x, step lw (OnEngine e x) w = Ok (w', t) ->
  (data_setter x = true -> (full w' e <-> full w e)) /\ (forall a, x = ESetAvailability a -> (full w' e <-> a = FULL_DETAILS)) /\ (x = EReset \/ (exists n, x = ESetName n) -> ~ full w' e).
Proof.
  intros w w' t e x H. cbn [step] in H. apply ask_inv in H. destruct H as (l & G & H). apply engine_got in G. apply ask_inv in H. destruct H as (l' & E & H). injection H as <- <-.
  unfold full. cbn [w_engines]. rewrite nth_upd_if, Nat.eqb_refl, G. split; [|split].
  - intros D. apply data_avail in E; [|exact D]. split; intros (y & A & B); injection A as <-; eexists; (split; [reflexivity|]); congruence.
  - intros a ->. cbn [eop_apply] in E. injection E as <-. split; [intros (y & A & B); injection A as <-; exact B|]. intros ->. eexists. split; reflexivity.
  - intros [->|(n & ->)] (y & A & B); injection A as <-; cbn [eop_apply] in E.
    + injection E as <-. discriminate.
    + unfold lo_setName in E. destruct (c_strncpy _ n _); cbn [bind] in E; [|discriminate]. injection E as <-. discriminate.
Qed.
End LW94.
Lemma valid_iff : forall w c, (q_isValid w c = Ok true <-> exists e, fills w c e /\ full w e) /\
  (q_isValid w c = Ok false <-> (exists cb, nth_error (w_conss w) c = Some (LocoC (Def None) cb)) \/ exists e, fills w c e /\ (e < List.length (w_engines w))%nat /\ ~ full w e).
Proof.
  intros w c. unfold q_isValid, q_getEngine, get_cons, get_engine, at_, fills, full.
  destruct (nth_error (w_conss w) c) as [[[|[e|]] cb|co i n o cb|]|] eqn:C; cbn [bind mread].
  1, 4, 5, 6: split; split; try discriminate; repeat match goal with |- context [exists _, _] => first [intros (? & (? & ?) & _)|intros [(? & ?)|(? & (? & ?) & _)]] end; discriminate.
  - destruct (nth_error (w_engines w) e) as [l|] eqn:E; cbn [bind].
    + assert (V : lo_isFullDetailsKnown l && negb (si_isFree (lo_info l)) = match si_avail (lo_info l) with FULL_DETAILS => true | _ => false end).
      { unfold lo_isFullDetailsKnown, si_isFree. destruct (si_avail (lo_info l)); reflexivity. }
      rewrite V. split; split.
      * intros X. exists e. split; [eexists; reflexivity|]. exists l. split; [exact E|]. destruct (si_avail (lo_info l)); congruence.
      * intros (e' & (cb' & X) & (l' & Y & Z)). injection X as <- _. rewrite E in Y. injection Y as <-. rewrite Z. reflexivity.
      * intros X. right. exists e. split; [eexists; reflexivity|]. split; [apply nth_error_Some; congruence|]. intros (l' & Y & Z). rewrite E in Y. injection Y as <-. rewrite Z in X. discriminate.
      * intros [(cb' & X)|(e' & (cb' & X) & _ & NF)]; [discriminate|]. injection X as <- _. destruct (si_avail (lo_info l)) eqn:A; try reflexivity. exfalso. apply NF. exists l. auto.
    + split; split; try discriminate.
      * intros (e' & (cb' & X) & (l' & Y & _)). injection X as <- _. congruence.
      * intros [(cb' & X)|(e' & (cb' & X) & L & _)]; [discriminate|]. injection X as <- _. apply nth_error_None in E. lia.
  - split; split; try discriminate.
    + intros (e' & (cb' & X) & _). discriminate.
    + intros _. left. eexists. reflexivity.
    + reflexivity.
Qed.
Section LWV.
Variable lw : Z.
Lemma no_news : forall c t x, latest (engine_news c) (map Happened t) x = x.
Proof. intros c. induction t as [|e t IH]; intro x; [reflexivity|]. cbn [map latest engine_news]. apply IH. Qed.
Lemma points_call : forall o w w' t c x, all_usable w -> shaped w -> frames_ok o -> step lw o w = Ok (w', t) -> points_in (w_conss w) c x ->
  points_in (w_conss w') c (newer (engine_news c (Called o)) x).
Proof.
  intros o w w' t c x U S F H P. assert (R : run lw [o] w = Ok (w', t)). { cbn [run]. unfold World.seq. rewrite H. cbn [bind skip]. rewrite app_nil_r. reflexivity. }
  destruct (history_books lw [o] w w' t U S) as (_ & D); [constructor; [exact F|constructor]|exact R|]. apply (points_deeds lw (deeds lw [o] w) (db_of w)) in P. rewrite <- D in P. cbn [deeds] in P. rewrite H, app_nil_r in P. cbn [latest] in P.
  rewrite no_news in P. exact P.
Qed.
Lemma engines_len : forall o w w' t, all_usable w -> shaped w -> frames_ok o -> step lw o w = Ok (w', t) -> List.length (w_engines w') = List.length (w_engines w).
Proof.
  intros o w w' t U S F H. destruct (step_books lw o w w' t U S F H) as (_ & D). apply (f_equal snd) in D. cbn [db_of snd] in D. rewrite D.
  assert (X : forall t x, List.length (snd (fold_left (after_event lw) t x)) = List.length (snd x)).
  { induction t0 as [|e t0 IH]; intros (cs & es); [reflexivity|]. cbn [fold_left]. rewrite IH. cbn [snd]. destruct e as [| | | | | | | | |c' s k v|c'|c'| | |]; cbn [after_event snd]; try reflexivity.
    all: destruct (nth_error cs c') as [[[|[e|]] cbx|co2 i2 n2 o2 cb2|]|]; cbn [snd]; try reflexivity; destruct (nth_error es e); cbn [snd]; rewrite ?upd_length; reflexivity. }
  rewrite X. destruct o as [s o|p|p c|p d|p|c cb|c x|c off|c|c|c|e x]; unfold db_of; cbn [after_call snd]; try reflexivity.
  all: try (destruct (nth_error (w_conss w) c) as [[]|]; reflexivity). destruct (nth_error (w_engines w) e) as [l|]; [|reflexivity]. destruct (eop_apply l x); cbn [snd]; rewrite ?upd_length; reflexivity.
Qed.
Lemma fills_points : forall w c e, fills w c e <-> points_in (w_conss w) c (Def (Some e)). Proof. intros. reflexivity. Qed.
Lemma points_unique : forall cs c x y, points_in cs c x -> points_in cs c y -> x = y. Proof. intros cs c x y (a & A) (b & B). congruence. Qed.
Lemma conditional_full : forall w w' t e n, step lw (OnEngine e (ESetNameConditional n)) w = Ok (w', t) -> full w' e -> full w e.
Proof.
  intros w w' t e n H. cbn [step] in H. apply ask_inv in H. destruct H as (l & G & H). apply engine_got in G. apply ask_inv in H. destruct H as (l' & E & H). injection H as <- <-.
  unfold full. cbn [w_engines]. rewrite nth_upd_if, Nat.eqb_refl, G. intros (y & A & B). injection A as <-. exists l. split; [reflexivity|]. cbn [eop_apply] in E.
  destruct (lo_setNameConditional l n) as [(l1 & b)|] eqn:C; cbn [bind] in E; [|discriminate]. injection E as ->. unfold lo_setNameConditional in C.
  match type of C with bind ?x _ = _ => destruct x as [[]|] end; cbn [bind] in C; [injection C as <- <-; exact B| |discriminate].
  destruct (lo_setName l n) as [l2|] eqn:E2; cbn [bind] in C; [|discriminate]. injection C as <- <-. unfold lo_setName in E2. destruct (c_strncpy _ n _); cbn [bind] in E2; [|discriminate]. injection E2 as <-. discriminate.
Qed.
Lemma valid_becomes : forall o w w' t c, all_usable w -> shaped w -> frames_ok o -> step lw o w = Ok (w', t) -> q_isValid w c = Ok false -> q_isValid w' c = Ok true ->
  (exists e c', fills w c e /\ fills w c' e /\ In (EvStreamComplete c') t) \/ (exists e, o = LocoSetEngine c (Some e) /\ full w e) \/ (exists e, fills w c e /\ o = OnEngine e (ESetAvailability FULL_DETAILS)).
Proof.
  intros o w w' t c U S F H V V'. apply valid_iff in V'. destruct V' as (e & FI & FU).
  assert (P : exists x, points_in (w_conss w) c (Def x)). { apply valid_iff in V. destruct V as [(cb & V)|(e' & (cb & V) & _)]; [exists None|exists (Some e')]; exists cb; exact V. }
  destruct P as (x & P). pose proof (points_call o w w' t c _ U S F H P) as P'. pose proof (points_unique _ _ _ _ P' FI) as E. destruct (engine_news c (Called o)) as [y|] eqn:EN; cbn [newer] in E.
  - subst y. destruct o; try discriminate. cbn [engine_news] in EN. unfold when_eq in EN. destruct (Nat.eqb_spec c c0) as [<-|NE]; [|discriminate]. injection EN as ->. right. left. exists e. split; [reflexivity|].
    assert (L : (e < List.length (w_engines w))%nat). { rewrite <- (engines_len _ _ _ _ U S F H). destruct FU as (l & N & _). apply nth_error_Some. congruence. }
    apply (full_call lw _ w w' t e U S F H L) in FU; [|discriminate]. destruct FU as [FU|(c' & I & _)]; [exact FU|]. exfalso. cbn [step] in H. apply ask_inv in H. destruct H as (o' & _ & H). destruct o'; try discriminate. injection H as <- <-. exact I.
  - injection E as ->. assert (L : (e < List.length (w_engines w))%nat). { rewrite <- (engines_len _ _ _ _ U S F H). destruct FU as (l & N & _). apply nth_error_Some. congruence. }
    assert (NF : ~ full w e). { apply valid_iff in V. destruct V as [(cb & V)|(e' & (cb & V) & _ & NF)]; destruct P as (cb' & P); [congruence|]. assert (e' = e) by congruence. subst e'. exact NF. }
    assert (DEC : (exists x, o = OnEngine e x) \/ forall x, o <> OnEngine e x).
    { destruct o; try (right; discriminate). destruct (Nat.eq_dec e e0) as [->|NE]; [left; eauto|right; congruence]. }
    destruct DEC as [(x & ->)|NE].
    + destruct (full_setter lw w w' t e x H) as (A & B & C). right. right. exists e. split; [exact P|]. destruct x; try (exfalso; apply NF; apply A; [reflexivity|exact FU]).
      * exfalso. apply C; [right; eauto|exact FU].
      * exfalso. apply NF. eapply conditional_full; eauto.
      * exfalso. apply C; [left; reflexivity|exact FU].
      * rewrite (proj1 (B a eq_refl) FU). reflexivity.
    + left. apply (full_call lw _ w w' t e U S F H L NE) in FU. destruct FU as [FU|(c' & I & FC)]; [contradiction|]. exists e, c'. auto.
Qed.
Lemma valid_stays : forall o w w' t c e, all_usable w -> shaped w -> frames_ok o -> step lw o w = Ok (w', t) -> q_isValid w c = Ok true -> fills w c e ->
  (forall x, o <> LocoSetEngine c x) -> (forall x, o = OnEngine e x -> data_setter x = true) -> q_isValid w' c = Ok true.
Proof.
  intros o w w' t c e U S F H V FI NS ND. apply valid_iff in V. destruct V as (e' & FI' & FU). assert (e' = e). { destruct FI as (a & A), FI' as (b & B). congruence. } subst e'.
  pose proof (points_call o w w' t c _ U S F H FI) as P. assert (EN : engine_news c (Called o) = None).
  { destruct o; try reflexivity. cbn [engine_news]. unfold when_eq. destruct (Nat.eqb_spec c c0) as [<-|NE]; [|reflexivity]. exfalso. eapply NS. reflexivity. }
  rewrite EN in P. cbn [newer] in P. apply valid_iff. exists e. split; [exact P|].
  assert (L : (e < List.length (w_engines w))%nat). { destruct FU as (l & N & _). apply nth_error_Some. congruence. }
  assert (DEC : (exists x, o = OnEngine e x) \/ forall x, o <> OnEngine e x).
  { destruct o; try (right; discriminate). destruct (Nat.eq_dec e e0) as [->|NE]; [left; eauto|right; congruence]. }
  destruct DEC as [(x & ->)|NE].
  - destruct (full_setter lw w w' t e x H) as (A & _). apply A; [apply ND; reflexivity|exact FU].
  - apply (full_call lw _ w w' t e U S F H L NE). left. exact FU.
Qed.
End LWV.

(** ** More about deeds *)
Lemma deeds_exact : forall lw ops w w' t, run lw ops w = Ok (w', t) ->
  flat_map (fun d => match d with Called o => [o] | Happened _ => [] end) (deeds lw ops w) = ops /\
  flat_map (fun d => match d with Happened e => [e] | Called _ => [] end) (deeds lw ops w) = t.
Proof.
  intros lw. induction ops as [|o ops IH]; intros w w' t H; cbn [run] in H; [injection H as <- <-; auto|]. apply seq_inv in H. destruct H as (w1 & t1 & t2 & H1 & H2 & ->). destruct (IH _ _ _ H2) as (A & B).
  cbn [deeds]. rewrite H1. cbn [flat_map app]. rewrite !flat_map_app.
  assert (X : flat_map (fun d => match d with Called o => [o] | Happened _ => [] end) (map Happened t1) = []) by (clear; induction t1; cbn; auto).
  assert (Y : flat_map (fun d => match d with Happened e => [e] | Called _ => [] end) (map Happened t1) = t1) by (clear; induction t1; cbn; congruence).
  rewrite X, Y. cbn [app]. split; congruence.
Qed.
Lemma deeds_called : forall lw ops w w' t o, run lw ops w = Ok (w', t) -> (In (Called o) (deeds lw ops w) <-> In o ops).
Proof.
  intros lw ops w w' t o H. destruct (deeds_exact lw ops w w' t H) as (A & _). assert (B := in_flat_map (fun d => match d with Called o => [o] | Happened _ => [] end) (deeds lw ops w) o). rewrite A in B. rewrite B. split.
  - intros I. exists (Called o). split; [exact I|left; reflexivity].
  - intros ([x|x] & I & J); [|contradiction]. destruct J as [->|[]]. exact I.
Qed.
Lemma deeds_happened : forall lw ops w w' t e, run lw ops w = Ok (w', t) -> (In (Happened e) (deeds lw ops w) <-> In e t).
Proof.
  intros lw ops w w' t e H. destruct (deeds_exact lw ops w w' t H) as (_ & A). assert (B := in_flat_map (fun d => match d with Happened e => [e] | Called _ => [] end) (deeds lw ops w) e). rewrite A in B. rewrite B. split.
  - intros I. exists (Happened e). split; [exact I|left; reflexivity].
  - intros ([x|x] & I & J); [contradiction|]. destruct J as [->|[]]. exact I.
Qed.
Lemma event_local : forall lw cs es e,
  (forall c', (match e with EvConsume c _ _ _ | EvStreamComplete c | EvStreamAborted c => c' <> c | _ => True end) ->
     nth_error (fst (after_event lw (cs, es) e)) c' = nth_error cs c') /\
  (forall x, (match e with
              | EvConsume c _ _ _ | EvStreamComplete c => forall cb, nth_error cs c <> Some (LocoC (Def (Some x)) cb)
              | _ => True end) -> nth_error (snd (after_event lw (cs, es) e)) x = nth_error es x).
Proof.
  intros lw cs es e. destruct e as [| | | | | | | | |c s k v|c|c| | |]; cbn [after_event]; (split; [intros c' N|intros x N]); try reflexivity.
  all: destruct (nth_error cs c) as [[[|[e|]] cbx|co2 i2 n2 o2 cb2|]|] eqn:C; cbn [fst snd]; try reflexivity.
  all: try (rewrite nth_upd_if; destruct (Nat.eqb_spec c' c); [contradiction|reflexivity]).
  all: destruct (nth_error es e) as [l|] eqn:E; cbn [fst snd]; try reflexivity.
  all: rewrite nth_upd_if; destruct (Nat.eqb_spec x e) as [->|NE]; [exfalso; exact (N cbx eq_refl)|reflexivity].
Qed.
Lemma unset_iff : forall lw ops w w' t c i n o cb, all_usable w -> shaped w -> Forall frames_ok ops ->
  nth_error (w_conss w) c = Some (ListC Undef i n o cb) -> run lw ops w = Ok (w', t) ->
  (q_isStreamComplete w' c = UB UninitRead <-> ~ In (EvStreamComplete c) t /\ ~ In (EvStreamAborted c) t /\ ~ In (ListReset c) ops).
Proof.
  intros lw ops w w' t c i n o cb U S F C H. destruct (list_answers lw ops w w' t c Undef i n o cb U S F C H) as (A & _). rewrite A.
  remember (latest (complete_news c) (deeds lw ops w) Undef) as x eqn:L. symmetry in L. apply latest_iff in L.
  assert (NEWS : forall d y, complete_news c d = Some y -> (exists b, y = Def b) /\ (d = Happened (EvStreamComplete c) \/ d = Happened (EvStreamAborted c) \/ d = Called (ListReset c))).
  { intros d y N. unfold complete_news, when_eq in N. destruct d as [[]|[]]; try discriminate; destruct (Nat.eqb_spec c c0) as [<-|]; try discriminate; injection N as <-; split; eauto. }
  assert (NONE : (forall d, In d (deeds lw ops w) -> complete_news c d = None) <-> ~ In (EvStreamComplete c) t /\ ~ In (EvStreamAborted c) t /\ ~ In (ListReset c) ops).
  { rewrite <- !(deeds_happened lw ops w w' t) by exact H. rewrite <- (deeds_called lw ops w w' t) by exact H. split.
    - intros X. repeat split; intros I; apply X in I; cbn in I; unfold when_eq in I; rewrite Nat.eqb_refl in I; discriminate.
    - intros (X & Y & Z) d I. destruct (complete_news c d) as [y|] eqn:N; [|reflexivity]. exfalso. destruct (NEWS d y N) as (_ & [->|[->| ->]]); auto. }
  rewrite <- NONE. split.
  - intros Q. destruct L as [(a & d & b & E & N & _)|(_ & L)]; [|exact L]. destruct (NEWS _ _ N) as ((y & ->) & _). discriminate.
  - intros X. destruct L as [(a & d & b & E & N & _)|(-> & L)]; [|reflexivity]. rewrite X in N; [discriminate|]. rewrite E. apply in_or_app. right. left. reflexivity.
Qed.
