(* ProofsProtocol.v -- C101: parsers over all histories. *)
From Verif Require Import ZLib SpecProtocol ProofsWorld ProofsCrc ProofsText ProofsStream ProofsConsumer ProofsEnds ProofsStation ProofsCodec.

(** ** What consumers are told *)
Definition is_told (e : event) : bool := match e with EvConsume _ _ _ _ | EvStreamComplete _ | EvStreamAborted _ => true | _ => false end.
Definition toldto (t : list event) : list event := filter is_told t.
Lemma toldto_app : forall a c, toldto (a ++ c) = toldto a ++ toldto c. Proof. intros. apply filter_app. Qed.
Definition is_cfg (e : event) : bool := match e with EvCfg _ _ => true | _ => false end.
Definition nocfg (t : list event) : Prop := Forall (fun e => is_cfg e = false) t.
Lemma nocfg_app : forall a c, nocfg a -> nocfg c -> nocfg (a ++ c). Proof. intros. apply Forall_app. auto. Qed.
(** a touches no parser and tells consumers l *)
Definition says (a : act) (l : list event) : Prop := forall w w' t, a w = Ok (w', t) -> w_parsers w' = w_parsers w /\ nocfg t /\ toldto t = l.
Lemma s_skip : says skip []. Proof. intros w w' t H. inversion H; subst. repeat split; constructor. Qed.
Lemma s_fail : forall u l, says (fail u) l. Proof. intros u l w w' t H. discriminate. Qed.
Lemma s_emit : forall e, is_cfg e = false -> says (emit e) (toldto [e]).
Proof. intros e E w w' t H. inversion H; subst. split; [reflexivity|]. split; [repeat constructor; exact E|reflexivity]. Qed.
Lemma s_emit0 : forall e, is_cfg e = false -> is_told e = false -> says (emit e) [].
Proof. intros e E F. pose proof (s_emit e E) as S. unfold toldto in S. cbn [filter] in S. rewrite F in S. exact S. Qed.
Lemma s_seq : forall a c x y, says a x -> says c y -> says (World.seq a c) (x ++ y).
Proof.
  intros a c x y A C w w' t H. apply seq_inv in H. destruct H as (w1 & t1 & t2 & H1 & H2 & ->). destruct (A _ _ _ H1) as (A1 & A2 & A3). destruct (C _ _ _ H2) as (C1 & C2 & C3).
  split; [congruence|]. split; [apply nocfg_app; assumption|]. rewrite toldto_app, A3, C3. reflexivity.
Qed.
Lemma s_seq0 : forall a c, says a [] -> says c [] -> says (World.seq a c) []. Proof. intros a c A C. exact (s_seq a c [] [] A C). Qed.
Lemma s_ask : forall A (f : world -> res A) k l, (forall x, says (k x) l) -> says (ask f k) l.
Proof. intros A f k l K w w' t H. apply ask_inv in H. destruct H as (x & _ & H). apply (K x _ _ _ H). Qed.
Lemma s_when : forall A (o : option A) k, (forall x, says (k x) []) -> says (when_some o k) [].
Proof. intros A [x|] k K; [apply K|apply s_skip]. Qed.
Lemma s_put_cons : forall c x, says (put_cons c x) []. Proof. intros c x w w' t H. inversion H; subst. repeat split; constructor. Qed.
Lemma s_put_engine : forall c x, says (put_engine c x) []. Proof. intros c x w w' t H. inversion H; subst. repeat split; constructor. Qed.
Lemma s_put_station : forall c x, says (put_station c x) []. Proof. intros c x w w' t H. inversion H; subst. repeat split; constructor. Qed.
Lemma s_print : forall x, says (print x) []. Proof. intros. apply s_emit0; reflexivity. Qed.
Lemma s_puts : forall x, says (puts x) []. Proof. intros. apply s_print. Qed.
Lemma s_print_res : forall x, says (print_res x) []. Proof. intros. apply s_ask. intros. apply s_print. Qed.
Ltac s0 := repeat first [apply s_skip|apply s_fail|apply s_print|apply s_puts|apply s_print_res|apply s_put_cons|apply s_put_engine|apply s_put_station
  |apply s_emit0; reflexivity|apply s_seq0|apply s_ask; intro|apply s_when; intro
  |match goal with |- says (match ?x with _ => _ end) [] => destruct x end].
Lemma s_consume : forall lw c s k v, says (cons_consume lw c s k v) [EvConsume c s k v].
Proof. intros. unfold cons_consume. apply (s_seq _ _ [EvConsume c s k v] []); [apply s_emit; reflexivity|]. unfold loco_consume, list_consume. s0. Qed.
Lemma s_consume_all : forall lw c l, says (cons_consume_all lw c l) (map (fun x => let '(s, k, v) := x in EvConsume c s k v) l).
Proof. induction l as [|[[s k] v] l IH]; cbn [cons_consume_all map]; [apply s_skip|]. apply (s_seq _ _ [EvConsume c s k v]); [apply s_consume|exact IH]. Qed.
Lemma s_complete : forall c, says (cons_complete c) [EvStreamComplete c].
Proof. intros. unfold cons_complete. apply (s_seq _ _ [EvStreamComplete c] []); [apply s_emit; reflexivity|]. s0. Qed.
Lemma s_aborted : forall c, says (cons_aborted c) [EvStreamAborted c].
Proof. intros. unfold cons_aborted. apply (s_seq _ _ [EvStreamAborted c] []); [apply s_emit; reflexivity|]. s0. Qed.
Lemma s_when_complete : forall q, says (when_some q cons_complete) (tell q EvStreamComplete). Proof. intros [c|]; [apply s_complete|apply s_skip]. Qed.
Lemma s_when_aborted : forall q, says (when_some q cons_aborted) (tell q EvStreamAborted). Proof. intros [c|]; [apply s_aborted|apply s_skip]. Qed.

(** ** One parser *)
Definition acts (p : nat) (a : act) (w : world) (v : receiver) (m : message) : Prop := forall w' t, a w = Ok (w', t) ->
  exists sp', w_parsers w' = upd p (LibP sp') (w_parsers w) /\ nocfg t /\ toldto t = snd (on_message v m) /\ embodies (LibP sp') (Some (fst (on_message v m))).
Lemma new_embodied : embodies (LibP (mkSP SS_IDLE 0 tp_new crc_reset None)) (Some new_receiver).
Proof. unfold embodies, new_receiver. cbn [v_phase v_to v_text sp_state sp_cons sp_text shown_state]. rewrite start_parser. repeat split; apply start_fits. Qed.
Lemma fresh_embodied : embodies (LibP sp_new) (Some new_receiver).
Proof. unfold embodies, new_receiver. cbn [v_phase v_to v_text sp_state sp_cons sp_text shown_state sp_new]. rewrite start_parser. repeat split; apply start_fits. Qed.
Lemma acts_reset : forall w p sp v, lib_at w p sp -> embodies (LibP sp) (Some v) -> acts p (lib_reset p) w v Stop.
Proof.
  intros w p sp v L (E1 & E2 & E3 & E4 & E5) w' t H. unfold lib_reset in H. rewrite (ask_ok _ _ _ _ _ (lib_get _ _ _ L)) in H.
  apply seq_inv in H. destruct H as (w1 & t1 & t2 & H1 & H2 & ->).
  assert (S : says (if ss_processing (sp_state sp) then when_some (sp_cons sp) cons_aborted else skip) (if busy v then tell (v_to v) EvStreamAborted else [])).
  { rewrite E1, E2. unfold busy, shown_state. destruct (v_phase v); cbn [ss_processing]; first [apply s_when_aborted|apply s_skip]. }
  destruct (S _ _ _ H1) as (S1 & S2 & S3). assert (L1 : lib_at w1 p sp) by (unfold lib_at; rewrite S1; exact L).
  rewrite (ask_ok _ _ _ _ _ (lib_get _ _ _ L1)) in H2. apply ask_inv in H2. destruct H2 as (tx & T & H2). rewrite E3, (reset_spec _ _ E4) in T. injection T as <-. inversion H2; subst.
  eexists. split; [cbn; rewrite S1; reflexivity|]. split; [apply nocfg_app; [exact S2|constructor]|]. split; [rewrite toldto_app, S3; cbn; apply app_nil_r|apply new_embodied].
Qed.
Lemma header_bytes : forall d, payload_ok d -> header_length d = be (b d 0) (b d 1) (b d 2) (b d 3) /\ header_crc d = b d 4 * 256 + b d 5 /\
  0 <= be (b d 0) (b d 1) (b d 2) (b d 3) < 2 ^ 32.
Proof.
  intros d P. unfold header_length, header_crc. nine d P. unfold b, dget, byte, be in *. cbn [dbytes nth].
  split; [apply be32; assumption|]. split; [rewrite be16 by assumption; unfold u16; apply Z.mod_small; lia|lia].
Qed.
Lemma consumed_map : forall c l, map (fun x => let '(s, k, v) := x in EvConsume c s k v) (map as_buffers l) = consumed c l.
Proof. intros. unfold consumed. rewrite map_map. reflexivity. Qed.
Lemma acts_add : forall lw w p sp v d, lib_at w p sp -> embodies (LibP sp) (Some v) -> payload_ok d -> acts p (lib_addMessage lw p d) w v (Frame d).
Proof.
  intros lw w p sp v d L EM P w' t H. pose proof (acts_reset w p sp v L EM) as RES. pose proof EM as (E1 & E2 & E3 & E4 & E5).
  assert (SAME : upd p (LibP sp) (w_parsers w) = w_parsers w) by (apply upd_same_id; exact L).
  assert (IGN : forall x, print x w = Ok (w', t) -> exists sp', w_parsers w' = upd p (LibP sp') (w_parsers w) /\ nocfg t /\ toldto t = [] /\ embodies (LibP sp') (Some v)).
  { intros x X. inversion X; subst. exists sp. rewrite SAME. split; [reflexivity|]. split; [repeat constructor|]. split; [reflexivity|exact EM]. }
  assert (BAD : forall x, busy v = true -> (print x ;;; lib_reset p) w = Ok (w', t) -> exists sp', w_parsers w' = upd p (LibP sp') (w_parsers w) /\ nocfg t /\
            toldto t = tell (v_to v) EvStreamAborted /\ embodies (LibP sp') (Some new_receiver)).
  { intros x BU X. apply seq_inv in X. destruct X as (w1 & t1 & t2 & H1 & H2 & ->). inversion H1; subst. destruct (RES _ _ H2) as (sp' & A & B & C & D).
    exists sp'. split; [exact A|]. split; [apply nocfg_app; [repeat constructor|exact B]|]. cbn [on_message fst snd] in C, D. rewrite BU in C. split; [exact C|exact D]. }
  unfold lib_addMessage in H. rewrite (ask_ok _ _ _ _ _ (lib_get _ _ _ L)) in H. rewrite E1 in H. unfold shown_state in H. unfold on_message, busy in *.
  destruct (v_phase v) as [| |announced checksum got|] eqn:PH; cbn [fst snd].
  - eapply IGN. exact H.
  - destruct ((dlc d =? 6) || (dlc d =? 7)) eqn:D.
    + cbv zeta in H. cbn [sp_remaining sp_text sp_crc sp_cons] in H. destruct (header_bytes d P) as (HB1 & HB2 & HB3). rewrite HB1, HB2 in H.
      destruct (Z.eqb_spec (be (b d 0) (b d 1) (b d 2) (b d 3)) 0) as [Z0|Z0]; cbn [fst snd].
      * replace (be (b d 0) (b d 1) (b d 2) (b d 3) >? 0) with false in H by lia. rewrite put_lib_seq in H. apply s_when_complete in H. destruct H as (H1 & H2 & H3).
        eexists. split; [exact H1|]. split; [exact H2|]. split; [rewrite H3, E2; reflexivity|]. unfold embodies. cbn [v_phase v_to v_text shown_state sp_state sp_cons sp_text]. auto.
      * replace (be (b d 0) (b d 1) (b d 2) (b d 3) >? 0) with true in H by lia. inversion H; subst. eexists. split; [reflexivity|]. split; [constructor|]. split; [reflexivity|].
        unfold embodies. cbn [v_phase v_to v_text shown_state sp_state sp_cons sp_text sp_remaining sp_crc]. rewrite E5. repeat (split; [assumption || reflexivity|]).
        split; [|reflexivity]. cbn [zlen List.length Z.of_nat]. rewrite Z.sub_0_r, Z.mod_small by exact HB3. reflexivity.
    + destruct (dlc d >=? 8); (eapply BAD; [reflexivity|exact H]).
  - destruct E5 as (RR & RK). destruct (Z.eqb_spec (dlc d) 8) as [D|D]; cbn [negb] in H; [|eapply BAD; [reflexivity|exact H]].
    cbv zeta in H. apply ask_inv in H. destruct H as (crc & C & H). rewrite (visited_data _ P D), RK in C. cbn [bind] in C. rewrite crc_feed_eq in C. injection C as <-.
    apply ask_inv in H. destruct H as (te & T & H). rewrite E3, (addText_spec _ _ _ _ E4 (holds_data _ P D)) in T. injection T as <-. cbn [fst snd] in H.
    pose proof (aadd_fits (v_text v) (content d) E4) as FA.
    destruct (aadd (v_text v) (content d)) as [text lines] eqn:AA. cbn [fst snd] in H. 
    rewrite put_lib_seq in H. apply seq_inv in H. destruct H as (w1 & t1 & t2 & H1 & H2 & ->).
    assert (S : says (when_some (tp_cons (sp_text sp)) (fun c => cons_consume_all lw c (told (v_to v) lines))) (tell_lines (v_to v) lines)).
    { rewrite E3. change (tp_cons (parser (v_text v) (v_to v))) with (v_to v). destruct (v_to v) as [c|]; cbn [when_some tell_lines]; [|apply s_skip].
      cbn [told]. pose proof (s_consume_all lw c (map as_buffers lines)) as S. rewrite consumed_map in S. exact S. }
    destruct (S _ _ _ H1) as (S1 & S2 & S3).
    assert (REM : u32 (sp_remaining sp - dlc d) = (announced - zlen (got ++ content d)) mod 2 ^ 32).
    { rewrite RR, D. unfold u32. change 4294967296 with (2 ^ 32). rewrite Zminus_mod_idemp_l. f_equal. unfold zlen. rewrite app_length.
      assert (List.length (content d) = 8%nat) by (unfold content; rewrite firstn_length; destruct P as (_ & P & _); rewrite P; reflexivity). lia. }
    rewrite REM in *. unfold all_came.
    assert (CRC : crc_of (crc16 got) (content d) = crc16 (got ++ content d)) by (unfold crc16, crc_of; rewrite fold_left_app; reflexivity).
    rewrite CRC in *.
    destruct (Z.eqb_spec ((announced - zlen (got ++ content d)) mod 2 ^ 32) 0) as [Z0|Z0].
    + unfold ask in H2. cbn [crc_isValid mread crc_acc crc_ref bind] in H2.
      destruct (crc16 (got ++ content d) =? checksum); cbn [fst snd]; rewrite put_lib_seq in H2; [apply s_when_complete in H2|apply s_when_aborted in H2]; destruct H2 as (K1 & K2 & K3);
        (eexists; split; [rewrite K1; cbn [with_parser w_parsers]; rewrite S1; cbn [with_parser w_parsers]; rewrite upd_upd; reflexivity|]; split; [apply nocfg_app; assumption|];
         split; [rewrite toldto_app, S3, K3, E2; reflexivity|]; unfold embodies; cbn [v_phase v_to v_text shown_state sp_state sp_cons sp_text]; auto).
    + inversion H2; subst. cbn [fst snd]. eexists. split; [exact S1|]. split; [apply nocfg_app; [exact S2|constructor]|]. split; [rewrite app_nil_r; exact S3|].
      unfold embodies. cbn [v_phase v_to v_text shown_state sp_state sp_cons sp_text sp_remaining sp_crc]. auto 10.
  - eapply IGN. exact H.
Qed.

(** ** All parsers *)
Lemma after_app : forall a c vs, fold_left after_traffic (a ++ c) vs = fold_left after_traffic c (fold_left after_traffic a vs). Proof. intros. apply fold_left_app. Qed.
Lemma predicted_app : forall a c vs, predicted vs (a ++ c) = predicted vs a ++ predicted (fold_left after_traffic a vs) c.
Proof. induction a as [|x a IH]; intros c vs; [reflexivity|]. cbn [app predicted fold_left]. rewrite IH, app_assoc. reflexivity. Qed.
Lemma Forall2_pick : forall A B (R : A -> B -> Prop) l m, Forall2 R l m -> forall p x, nth_error l p = Some x -> exists y, nth_error m p = Some y /\ R x y.
Proof. intros A B R l m F. induction F as [|a c l m H _ IH]; intros [|p] x N; cbn [nth_error] in *; try discriminate; [injection N as <-; eauto|eauto]. Qed.
Lemma Forall2_set : forall A B (R : A -> B -> Prop) l m p x y, Forall2 R l m -> R x y -> Forall2 R (upd p x l) (upd p y m).
Proof. intros A B R l m p x y F H. revert p. induction F as [|a c l m H' F' IH]; intros [|p]; cbn [upd]; constructor; auto. Qed.
Definition prot_at (l : list deed) (w w' : world) : Prop := forall vs, embodied w vs ->
  embodied w' (fold_left after_traffic l vs) /\ filter traffic l = predicted vs l.
Lemma prot_cat : forall l1 l2 w w1 w2, prot_at l1 w w1 -> prot_at l2 w1 w2 -> prot_at (l1 ++ l2) w w2.
Proof.
  intros l1 l2 w w1 w2 A B vs E. destruct (A vs E) as (A1 & A2). destruct (B _ A1) as (B1 & B2). rewrite after_app, predicted_app, filter_app, A2, B2. auto.
Qed.
Lemma unaddressed : forall t vs, nocfg t -> fold_left after_traffic (map Happened t) vs = vs /\ predicted vs (map Happened t) = [] /\
  filter traffic (map Happened t) = map Happened (toldto t).
Proof.
  intros t vs N. revert vs. induction N as [|e t E _ IH]; intros vs; [auto|]. destruct (IH vs) as (I1 & I2 & I3). unfold toldto in *. cbn [map fold_left predicted filter].
  assert (A : addressed (Happened e) = None) by (destruct e; try reflexivity; discriminate E).
  assert (AT : after_traffic vs (Happened e) = vs) by (unfold after_traffic; rewrite A; reflexivity). rewrite AT, A, I1, I2. split; [reflexivity|]. split; [reflexivity|].
  unfold traffic at 1. rewrite A. destruct e; cbn [tells_consumer is_told map]; rewrite I3; reflexivity.
Qed.
Lemma message_at : forall x p m t w w' v, addressed x = Some (p, m) -> nth_error (w_parsers w) p = Some v -> 
  (forall sp r, v = LibP sp -> embodies (LibP sp) (Some r) -> exists sp', w_parsers w' = upd p (LibP sp') (w_parsers w) /\ nocfg t /\ toldto t = snd (on_message r m) /\ embodies (LibP sp') (Some (fst (on_message r m)))) ->
  (forall beh h, v = UserP beh h -> exists h', w_parsers w' = upd p (UserP beh h') (w_parsers w) /\ nocfg t /\ toldto t = []) ->
  prot_at (x :: map Happened t) w w'.
Proof.
  intros x p m t w w' v A N LIB USER vs E. assert (T : traffic x = true) by (unfold traffic; rewrite A; reflexivity).
  destruct (Forall2_pick _ _ _ _ _ E p v N) as (r & NR & ER). cbn [fold_left predicted filter]. rewrite T, A. unfold after_traffic at 2 3. rewrite A, NR.
  destruct v as [sp|beh h], r as [r|]; try contradiction.
  - destruct (LIB sp r eq_refl ER) as (sp' & W & NC & TT & E'). destruct (unaddressed t (upd p (Some (fst (on_message r m))) vs) NC) as (U1 & U2 & U3). rewrite U1, U2, U3, TT, app_nil_r.
    split; [|reflexivity]. unfold embodied. rewrite W. apply Forall2_set; assumption.
  - destruct (USER beh h eq_refl) as (h' & W & NC & TT). destruct (unaddressed t vs NC) as (U1 & U2 & U3). rewrite U1, U2, U3, TT, app_nil_r. split; [|reflexivity].
    unfold embodied. rewrite W. rewrite <- (ZLib.upd_same_id _ _ _ _ NR). apply Forall2_set; [exact E|exact Logic.I].
Qed.
Definition prot (a : act) : Prop := forall w w' t, a w = Ok (w', t) -> prot_at (map Happened t) w w'.
Lemma prot_says : forall a, says a [] -> prot a.
Proof.
  intros a S w w' t H vs E. destruct (S _ _ _ H) as (S1 & S2 & S3). destruct (unaddressed t vs S2) as (U1 & U2 & U3). rewrite U1, U2, U3, S3. unfold embodied. rewrite S1. auto.
Qed.
Lemma prot_seq : forall a c, prot a -> prot c -> prot (World.seq a c).
Proof. intros a c A C w w' t H. apply seq_inv in H. destruct H as (w1 & t1 & t2 & H1 & H2 & ->). rewrite map_app. eapply prot_cat; [apply A; exact H1|apply C; exact H2]. Qed.
Lemma prot_ask : forall A (f : world -> res A) k, (forall x, prot (k x)) -> prot (ask f k).
Proof. intros A f k K w w' t H. apply ask_inv in H. destruct H as (x & _ & H). apply (K x _ _ _ H). Qed.
Lemma prot_when : forall A (q : option A) k, (forall x, prot (k x)) -> prot (when_some q k).
Proof. intros A [x|] k K; cbn [when_some]; [apply K|apply prot_says, s_skip]. Qed.
Lemma prot_if : forall (b : bool) a c, prot a -> prot c -> prot (if b then a else c).
Proof. intros [] a c A C; assumption. Qed.
Definition cfg_ok (c : cfgcall) : Prop := match c with CAdd d => payload_ok d | _ => True end.
Lemma started : forall sp v, embodies (LibP sp) (Some v) -> embodies (LibP (sp_startStream sp)) (Some (fst (on_message v Start))).
Proof. intros sp v (E1 & E2 & E3 & E4 & E5). unfold embodies, on_message, sp_startStream. cbn [fst v_phase v_to v_text shown_state sp_state sp_cons sp_text sp_crc]. auto 10. Qed.
Lemma prot_cfg_call : forall lw p c, cfg_ok c -> prot (cfg_call lw p c).
Proof.
  intros lw p c OK w w' t H. unfold cfg_call in H. apply seq_inv in H. destruct H as (w1 & t1 & t2 & H1 & H2 & ->). inversion H1; subst. clear H1. cbn [app map].
  apply ask_inv in H2. destruct H2 as (o & G & H2). unfold get_parser, at_ in G. destruct (nth_error (w_parsers w1) p) as [x|] eqn:N; [|discriminate]. injection G as ->.
  apply (message_at _ p (match c with CStart => Start | CAdd d => Frame d | CReset => Stop end) _ _ _ o); [destruct c; reflexivity|exact N| |].
  - intros sp r -> E. destruct c as [|d|].
    + inversion H2; subst. eexists. split; [reflexivity|]. split; [constructor|]. split; [reflexivity|apply started; exact E].
    + exact (acts_add lw w1 p sp r d N E OK _ _ H2).
    + exact (acts_reset w1 p sp r N E _ _ H2).
  - intros beh h ->. inversion H2; subst. eexists. split; [reflexivity|]. split; [constructor|reflexivity].
Qed.

(** ** Stations *)
Ltac pwalk := repeat (cbv zeta; lazymatch goal with
  | |- prot (World.seq _ _) => apply prot_seq
  | |- prot (ask _ _) => apply prot_ask; intros ?x
  | |- prot (when_some _ _) => apply prot_when; intros ?x
  | |- prot (if ?b then _ else _) => destruct b
  | |- prot (emit _) => apply prot_says, s_emit0; reflexivity
  | |- prot (print _) => apply prot_says, s_print
  | |- prot (puts _) => apply prot_says, s_print
  | |- prot (print_res _) => apply prot_says, s_print_res
  | |- prot skip => apply prot_says, s_skip
  | |- prot (fail _) => apply prot_says, s_fail
  | |- prot (put_station _ _) => apply prot_says, s_put_station
  | |- prot (cfg_call _ _ _) => apply prot_cfg_call; first [assumption|exact Logic.I]
  end).
Lemma prot_finish : forall lw s, prot (st_finish lw s). Proof. intros. unfold st_finish. pwalk. Qed.
Lemma prot_tx : forall c f, prot (tx_send c f). Proof. intros. unfold tx_send. pwalk. Qed.
Lemma prot_system : forall s i d, prot (st_handleSystemCommand s i d). Proof. intros. unfold st_handleSystemCommand. pwalk. Qed.
Lemma prot_accessory : forall s d r, prot (st_handleAccessoryPacket s d r). Proof. intros. unfold st_handleAccessoryPacket. pwalk. Qed.
Lemma prot_config : forall lw s d, payload_ok d -> prot (st_handleConfigDataStream lw s d).
Proof. intros lw s d P. unfold st_handleConfigDataStream. apply prot_ask. intros st. apply prot_ask. intros [p|]; pwalk. Qed.
Lemma prot_direction : forall s d, prot (st_handleLocoDirection s d). Proof. intros. unfold st_handleLocoDirection. pwalk. Qed.
Lemma prot_speed : forall s d, prot (st_handleLocoSpeed s d). Proof. intros. unfold st_handleLocoSpeed. pwalk. Qed.
Lemma prot_function : forall s d, prot (st_handleLocoFunction s d). Proof. intros. unfold st_handleLocoFunction. pwalk. Qed.
Lemma prot_handle : forall lw s f, payload_ok (fdata f) -> prot (st_handlePacket lw s f).
Proof.
  intros lw s f P. unfold st_handlePacket. pwalk; lazymatch goal with
    | |- prot (st_handleSystemCommand _ _ _) => apply prot_system
    | |- prot (st_handleAccessoryPacket _ _ _) => apply prot_accessory
    | |- prot (st_handleConfigDataStream _ _ _) => apply prot_config; exact P
    | |- prot (st_handleLocoDirection _ _) => apply prot_direction
    | |- prot (st_handleLocoSpeed _ _) => apply prot_speed
    | |- prot (st_handleLocoFunction _ _) => apply prot_function
    end.
Qed.
Lemma prot_list : forall lw s off q, prot (st_requestEngineList lw s off q).
Proof.
  intros. unfold st_requestEngineList. apply prot_seq; [apply prot_finish|]. apply prot_ask. intros st. apply prot_seq; [apply prot_says, s_put_station|]. apply prot_ask. intros b1.
  cbv zeta. destruct (snprintf9 (list_request_text off)) as [b2 n]. pwalk; apply prot_tx.
Qed.
Lemma prot_engine : forall lw s e q, prot (st_requestEngine lw s e q).
Proof. intros. unfold st_requestEngine. pwalk; lazymatch goal with |- prot (tx_send _ _) => apply prot_tx | |- prot (st_abort _ _) => apply prot_finish end. Qed.
Lemma prot_sendPacket : forall s f, prot (st_sendPacket s f). Proof. intros. unfold st_sendPacket. apply prot_ask. intros st. apply prot_tx. Qed.
Lemma prot_functions : forall st u n i, prot (send_functions st u i n).
Proof. intros st u n. induction n as [|n IH]; intros i; cbn [send_functions]; [apply prot_says, s_skip|]. apply prot_seq; [apply prot_tx|apply IH]. Qed.
Lemma prot_keep : forall a : act, (forall w w' t, a w = Ok (w', t) -> w_parsers w' = w_parsers w /\ t = []) -> prot a.
Proof. intros a A. apply prot_says. intros w w' t H. apply A in H. destruct H as [H ->]. repeat split; [exact H|constructor]. Qed.
Definition names_parser (o : op) : bool := match addressed (Called o) with Some _ => true | None => false end.
Lemma prot_other : forall lw o, frames_ok o -> names_parser o = false -> prot (step lw o).
Proof.
  intros lw o F O. destruct o; cbn [step frames_ok] in *; try discriminate O.
  - destruct o; cbn [st_step].
    all: lazymatch goal with
       | |- context [skip] => apply prot_says, s_skip
       | |- context [st_begin] => unfold st_begin; apply prot_seq; [apply prot_finish|pwalk]
       | |- context [st_handlePacket] => apply prot_handle; exact F
       | |- context [st_handleAccessoryPacket] => apply prot_accessory
       | |- context [st_handleConfigDataStream] => apply prot_config; exact F
       | |- context [st_handleSystemCommand] => apply prot_system
       | |- context [st_handleLocoDirection] => apply prot_direction
       | |- context [st_handleLocoSpeed] => apply prot_speed
       | |- context [st_handleLocoFunction] => apply prot_function
       | |- context [st_finish] => apply prot_finish
       | |- context [st_abort] => apply prot_finish
       | |- context [st_requestEngineList] => apply prot_list
       | |- context [st_requestEngine] => apply prot_engine
       | |- context [st_sendPacket] => apply prot_sendPacket
       | |- _ => idtac
       end.
    all: unfold st_sendAccessoryPacket, st_requestEngineDirection, st_sendEngineDirection, st_requestEngineVelocity, st_sendEngineVelocity,
         st_requestEngineFunction, st_requestEngineAllFunctions, st_sendEngineFunction, st_sendEmergencyStop, st_sendSystemStop, st_sendSystemGo.
    all: lazymatch goal with
       | |- context [if _ then st_sendPacket _ _ else skip] => apply prot_if; [apply prot_sendPacket|apply prot_says, s_skip]
       | |- context [st_sendPacket] => apply prot_sendPacket
       | |- context [send_functions] => apply prot_ask; intros st; apply prot_functions
       | |- _ => apply prot_ask; intros st; cbv zeta; apply prot_tx
       end.
  - apply prot_ask. intros []; try (apply prot_says, s_fail); apply prot_keep; intros w w' t H; inversion H; subst; auto.
  - apply prot_ask. intros []; try (apply prot_says, s_fail); apply prot_keep; intros w w' t H; inversion H; subst; auto.
  - apply prot_ask. intros []; try (apply prot_says, s_fail); apply prot_keep; intros w w' t H; inversion H; subst; auto.
  - apply prot_ask. intros []; try (apply prot_says, s_fail); apply prot_keep; intros w w' t H; inversion H; subst; auto.
  - apply prot_ask. intros []; try (apply prot_says, s_fail); apply prot_keep; intros w w' t H; inversion H; subst; auto.
  - apply prot_ask. intros []; try (apply prot_says, s_fail). apply prot_ask. intros n. pwalk.
  - apply prot_ask. intros l. apply prot_ask. intros l'. apply prot_keep. intros w w' t H. inversion H; subst; auto.
Qed.
Lemma prot_step : forall lw o w w' t, frames_ok o -> step lw o w = Ok (w', t) -> prot_at (Called o :: map Happened t) w w'.
Proof.
  intros lw o w w' t F H. destruct (names_parser o) eqn:NP.
  2:{ pose proof (prot_other lw o F NP _ _ _ H) as X. intros vs E. destruct (X vs E) as (X1 & X2). unfold names_parser in NP.
      destruct (addressed (Called o)) eqn:A; [discriminate|]. cbn [fold_left filter predicted]. assert (T : traffic (Called o) = false) by (unfold traffic; rewrite A; reflexivity).
      rewrite T, A. unfold after_traffic at 2 3. rewrite A. auto. }
  destruct o; try discriminate NP; cbn [step] in H.
  - apply ask_inv in H. destruct H as (sp & G & H). apply lib_inv in G. inversion H; subst. apply (message_at _ p Start _ _ _ (LibP sp)); [reflexivity|exact G| |intros; discriminate].
    intros sp0 r X E. injection X as <-. eexists. split; [reflexivity|]. split; [constructor|]. split; [reflexivity|apply started; exact E].
  - apply ask_inv in H. destruct H as (sp & G & H). apply lib_inv in G. inversion H; subst. eapply (message_at _ p _ _ _ _ (LibP sp)); [reflexivity|exact G| |intros; discriminate].
    intros sp0 r X E. injection X as <-. eexists. split; [reflexivity|]. split; [constructor|]. split; [reflexivity|]. destruct E as (E1 & E2 & E3 & E4 & E5).
    unfold embodies, on_message, sp_setConsumer. cbn [fst v_phase v_to v_text shown_state sp_state sp_cons sp_text sp_crc sp_remaining tp_setConsumer tp_cons]. rewrite ?E3. repeat (split; [first [assumption|reflexivity]|]). exact E5.
  - assert (L : exists sp, lib_at w p sp) by (pose proof H as X; unfold lib_addMessage in X; apply ask_inv in X; destruct X as (sp & G & _); exists sp; apply lib_inv; exact G).
    destruct L as (sp & L). apply (message_at _ p (Frame d) _ _ _ (LibP sp)); [reflexivity|exact L| |intros; discriminate].
    intros sp0 r X E. injection X as <-. exact (acts_add lw w p sp r d L E F _ _ H).
  - assert (L : exists sp, lib_at w p sp) by (pose proof H as X; unfold lib_reset in X; apply ask_inv in X; destruct X as (sp & G & _); exists sp; apply lib_inv; exact G).
    destruct L as (sp & L). apply (message_at _ p Stop _ _ _ (LibP sp)); [reflexivity|exact L| |intros; discriminate].
    intros sp0 r X E. injection X as <-. exact (acts_reset w p sp r L E _ _ H).
Qed.
Lemma prot_run : forall lw ops w w' t, Forall frames_ok ops -> run lw ops w = Ok (w', t) -> prot_at (deeds lw ops w) w w'.
Proof.
  intros lw ops. induction ops as [|o ops IH]; intros w w' t F H; cbn [run deeds] in *.
  - inversion H; subst. intros vs E. auto.
  - inversion_clear F as [|? ? F1 F2]. apply seq_inv in H. destruct H as (w1 & t1 & t2 & H1 & H2 & ->). rewrite H1.
    change (Called o :: map Happened t1 ++ deeds lw ops w1) with ((Called o :: map Happened t1) ++ deeds lw ops w1).
    eapply prot_cat; [eapply prot_step; eassumption|eapply IH; eassumption].
Qed.

(** ** What a parser shows *)
Lemma shows : forall w vs p v, embodied w vs -> nth_error vs p = Some (Some v) -> q_getStreamState w p = Ok (shown_state v).
Proof.
  intros w vs p v E N. unfold q_getStreamState, get_parser, at_.
  assert (X : exists x, nth_error (w_parsers w) p = Some x /\ embodies x (Some v)).
  { revert p N. induction E as [|a c l m H _ IH]; intros [|p] N; cbn [nth_error] in *; try discriminate; [injection N as ->; eauto|eauto]. }
  destruct X as (x & X & Y). rewrite X. cbn [bind]. destruct x as [sp|]; [|contradiction]. destruct Y as (Y & _). rewrite Y. reflexivity.
Qed.
Lemma protocol : forall lw ops w w' t vs, embodied w vs -> Forall frames_ok ops -> run lw ops w = Ok (w', t) ->
  filter traffic (deeds lw ops w) = predicted vs (deeds lw ops w) /\ embodied w' (fold_left after_traffic (deeds lw ops w) vs).
Proof. intros lw ops w w' t vs E F H. destruct (prot_run lw ops w w' t F H vs E) as (A & B). auto. Qed.
Lemma crc16_checksum : forall bs c, crc16 bs = c <-> checksum_is bs c.
Proof. intros bs c. rewrite checksum_fun. split; intros H; [symmetry; exact H|symmetry; exact H]. Qed.
Lemma locality : forall l p vs v, nth_error vs p = Some (Some v) ->
  nth_error (fold_left after_traffic l vs) p = Some (Some (fold_left (fun v m => fst (on_message v m)) (messages_to p l) v)).
Proof.
  induction l as [|x l IH]; intros p vs v N; [exact N|]. unfold messages_to. cbn [fold_left flat_map]. fold (messages_to p l). unfold after_traffic at 2.
  destruct (addressed x) as [[q m]|]; [|apply IH; exact N]. destruct (Nat.eqb_spec q p) as [->|Q].
  - rewrite N. cbn [app fold_left]. apply IH. eapply nth_error_upd_same. exact N.
  - cbn [app]. apply IH. destruct (nth_error vs q) as [[u|]|]; [rewrite nth_error_upd_other by congruence; exact N|exact N|exact N].
Qed.
Lemma state_shown : forall lw ops w w' t vs p v, embodied w vs -> Forall frames_ok ops -> run lw ops w = Ok (w', t) -> nth_error vs p = Some (Some v) ->
  q_getStreamState w' p = Ok (shown_state (fold_left (fun v m => fst (on_message v m)) (messages_to p (deeds lw ops w)) v)).
Proof. intros lw ops w w' t vs p v E F H N. destruct (protocol _ _ _ _ _ _ E F H) as (_ & A). exact (shows _ _ _ _ A (locality _ _ _ _ N)). Qed.

(** ** Checking frames by computation *)
Definition payloadb (d : Data) : bool := (0 <=? dlc d) && (dlc d <? 256) && Nat.eqb (List.length (dbytes d)) 9 && forallb (fun x => (0 <=? x) && (x <? 256)) (dbytes d).
Definition frames_okb (o : op) : bool :=
  match o with OnStation _ (HandlePacket f) => payloadb (fdata f) | OnStation _ (HandleConfigDataStream d) | ParserAddMessage _ d => payloadb d | _ => true end.
Lemma frames_b : forall l, forallb frames_okb l = true -> Forall frames_ok l.
Proof.
  assert (P : forall d, payloadb d = true -> payload_ok d).
  { intros d H. unfold payloadb in H. rewrite !andb_true_iff in H. destruct H as (((A & B) & C) & D). apply Nat.eqb_eq in C. unfold payload_ok.
    assert (Forall byte (dbytes d)) by (apply Forall_forall; intros x X; rewrite forallb_forall in D; specialize (D x X); unfold byte; lia). repeat split; try assumption; lia. }
  intros l H. rewrite forallb_forall in H. apply Forall_forall. intros o O. specialize (H o O). destruct o as [s x| | | | | | | | | | |]; try exact Logic.I; [destruct x; try exact Logic.I|]; cbn in *; apply P; exact H.
Qed.
