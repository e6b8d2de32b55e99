(* ProofsNet.v -- proofs for C67-C69. *)
From Verif Require Import ZLib SpecNet SpecStream SpecConsumer ProofsWorld ProofsStation ProofsRequest ProofsReach ProofsCodec ProofsConsumer.

(** ** Calls made by the applications *)
Definition unheard (e : event) : Prop := is_notice e = false.
Definition kept (w w' : world) : Prop :=
  forall i st, nth_error (w_stations w) i = Some st -> exists q, nth_error (w_stations w') i = Some (now_using st q).
Lemma kept_same : forall w w', w_stations w' = w_stations w -> kept w w'.
Proof. intros w w' E i st H. exists (cb_cfg (st_cbs st)). rewrite E, H. destruct st as [h []]. reflexivity. Qed.
Lemma kept_trans : forall a b c, kept a b -> kept b c -> kept a c.
Proof.
  intros a b c H1 H2 i st H. destruct (H1 _ _ H) as (q & Q). destruct (H2 _ _ Q) as (q' & Q'). exists q'. rewrite Q'. reflexivity.
Qed.
Definition loc (a : act) : Prop := forall w w' t, a w = Ok (w', t) -> kept w w' /\ Forall unheard t.

Lemma loc_skip : loc skip.
Proof. intros w w' t H. inversion H; subst. split; [apply kept_same; reflexivity|constructor]. Qed.
Lemma loc_emit : forall e, unheard e -> loc (emit e).
Proof. intros e U w w' t H. inversion H; subst. split; [apply kept_same; reflexivity|repeat constructor; exact U]. Qed.
Lemma loc_seq : forall a b, loc a -> loc b -> loc (World.seq a b).
Proof.
  intros a b A B w w' t H. apply seq_inv in H. destruct H as (w1 & t1 & t2 & H1 & H2 & ->).
  apply A in H1. apply B in H2. destruct H1, H2. split; [eapply kept_trans; eassumption|apply Forall_app; auto].
Qed.
Lemma loc_ask : forall A (f : world -> res A) k, (forall x, loc (k x)) -> loc (ask f k).
Proof. intros A f k K w w' t H. apply ask_inv in H. destruct H as (x & _ & H). exact (K x _ _ _ H). Qed.
Lemma loc_when : forall A (q : option A) k, (forall x, q = Some x -> loc (k x)) -> loc (when_some q k).
Proof. intros A [x|] k K; cbn [when_some]; [apply K; reflexivity|apply loc_skip]. Qed.
Lemma loc_if : forall (b : bool) a c, loc a -> loc c -> loc (if b then a else c).
Proof. intros [] a c A C; assumption. Qed.
Lemma loc_setcfg : forall s q k, (forall st, loc (k st)) -> loc (ask (get_station s) (fun st => World.seq (put_station s (set_cfg st q)) (k st))).
Proof.
  intros s q k K w w' t H. apply ask_inv in H. destruct H as (st & G & H). apply seq_inv in H. destruct H as (w1 & t1 & t2 & H1 & H2 & ->).
  apply K in H2. destruct H2 as [H2 T]. unfold put_station in H1. inversion H1; subst. split; [|exact T].
  apply (kept_trans _ (with_station w s (set_cfg st q))); [|exact H2]. intros i x Hx. cbn. unfold get_station, at_ in G.
  destruct (Nat.eq_dec s i) as [<-|N].
  - exists q. rewrite Hx in G. injection G as ->. erewrite nth_error_upd_same by eassumption. destruct st as [h []]. reflexivity.
  - exists (cb_cfg (st_cbs x)). rewrite nth_error_upd_other by exact N. rewrite Hx. destruct x as [h []]. reflexivity.
Qed.
Lemma loc_tri : forall a, tri (fun _ _ => True) (Ipa any any) (Ico any any any2) Ien (fun _ => False) any any any unheard (fun _ => True) a -> loc a.
Proof.
  intros a T w w' t H. specialize (T w (inv_any w)). rewrite H in T. destruct T as (_ & (F & _) & U). split; [apply kept_same, fr_none; exact F|exact U].
Qed.
Lemma loc_cfg_call : forall lw p c, loc (cfg_call lw p c).
Proof.
  intros lw p c. apply loc_tri. apply (A_cfg_call lw); try (cbn; auto; fail). all: try (intros; reflexivity).
Qed.

Lemma loc_setcfg0 : forall s q, loc (ask (get_station s) (fun st => put_station s (set_cfg st q))).
Proof.
  intros s q w w' t H. apply (loc_setcfg s q (fun _ => skip) (fun _ => loc_skip) w w' t).
  apply ask_inv in H. destruct H as (st & G & H). rewrite (ask_ok _ _ _ _ _ G). unfold put_station, World.seq, skip in *. inversion H; subst. reflexivity.
Qed.
Lemma loc_finish : forall lw s, loc (st_finish lw s).
Proof.
  intros lw s. unfold st_finish. apply loc_ask. intros st. apply loc_when. intros p _. apply loc_seq; [apply loc_cfg_call|apply loc_setcfg0].
Qed.
Lemma loc_tx : forall c f, loc (tx_send c f).
Proof. intros c f. unfold tx_send. apply loc_ask. intros x. apply loc_emit. reflexivity. Qed.
Lemma loc_list : forall lw s off q, loc (st_requestEngineList lw s off q).
Proof.
  intros lw s off q. unfold st_requestEngineList. apply loc_seq; [apply loc_finish|]. apply loc_setcfg. intros st. apply loc_ask. intros b1.
  cbv zeta. destruct (snprintf9 (list_request_text off)) as [b2 n]. apply loc_if; [|apply loc_skip].
  apply loc_seq; [apply loc_when; intros p _; apply loc_cfg_call|]. apply loc_seq; apply loc_tx.
Qed.
Lemma loc_engine : forall lw s e q, loc (st_requestEngine lw s e q).
Proof.
  intros lw s e q. unfold st_requestEngine. apply loc_ask. intros si. apply loc_if; [apply loc_skip|]. apply loc_ask. intros st. apply loc_ask. intros [].
  - apply loc_skip.
  - apply loc_seq; [apply loc_finish|]. apply loc_setcfg. intros st'. apply loc_seq; [apply loc_when; intros p _; apply loc_cfg_call|].
    apply loc_ask. intros b1. apply loc_seq; [apply loc_tx|]. apply loc_ask. intros si'. apply loc_ask. intros n. apply loc_ask. intros b2.
    apply loc_seq; [apply loc_tx|]. apply loc_ask. intros b3. apply loc_tx.
Qed.
Lemma loc_sendPacket : forall s f, loc (st_sendPacket s f).
Proof. intros s f. unfold st_sendPacket. apply loc_ask. intros st. apply loc_tx. Qed.
Lemma loc_functions : forall st u n i, loc (send_functions st u i n).
Proof. intros st u n. induction n as [|n IH]; intros i; cbn [send_functions]; [apply loc_skip|]. apply loc_seq; [apply loc_tx|apply IH]. Qed.
Lemma loc_print_res : forall r, loc (print_res r).
Proof. intros r. unfold print_res. apply loc_ask. intros x. apply loc_emit. reflexivity. Qed.
Lemma loc_keep : forall a : act, (forall w w' t, a w = Ok (w', t) -> w_stations w' = w_stations w /\ t = []) -> loc a.
Proof. intros a A w w' t H. apply A in H. destruct H as [H ->]. split; [apply kept_same; exact H|constructor]. Qed.
Lemma loc_fail : forall u, loc (fail u). Proof. intros u w w' t H. discriminate. Qed.
Lemma loc_step : forall lw o, ordinary (Do o) -> loc (step lw o).
Proof.
  intros lw o O. destruct o; cbn [step ordinary] in *.
  - destruct O as [R B]. destruct o; try discriminate; try (exfalso; eapply B; reflexivity); clear B R; cbn [st_step].
    all: lazymatch goal with
       | |- context [skip] => apply loc_skip
       | |- context [st_finish] => apply loc_finish
       | |- context [st_abort] => apply loc_finish
       | |- context [st_requestEngineList] => apply loc_list
       | |- context [st_requestEngine] => apply loc_engine
       | |- context [st_sendPacket] => apply loc_sendPacket
       | |- _ => idtac
       end.
    all: unfold st_sendAccessoryPacket, st_requestEngineDirection, st_sendEngineDirection, st_requestEngineVelocity, st_sendEngineVelocity,
         st_requestEngineFunction, st_requestEngineAllFunctions, st_sendEngineFunction, st_sendEmergencyStop, st_sendSystemStop, st_sendSystemGo.
    all: lazymatch goal with
       | |- context [if _ then st_sendPacket _ _ else skip] => apply loc_if; [apply loc_sendPacket|apply loc_skip]
       | |- context [st_sendPacket] => apply loc_sendPacket
       | |- context [send_functions] => apply loc_ask; intros st; apply loc_functions
       | |- _ => apply loc_ask; intros st; cbv zeta; apply loc_tx
       end.
  - apply loc_ask. intros x. apply loc_keep. intros w w' t H. inversion H; subst; auto.
  - apply loc_ask. intros x. apply loc_keep. intros w w' t H. inversion H; subst; auto.
  - apply loc_tri. apply (A_addMessage lw); cbn; auto; try (intros; reflexivity).
  - apply loc_tri. apply A_lib_reset; cbn; auto; try (intros; reflexivity).
  - apply loc_ask. intros []; try apply loc_fail; apply loc_keep; intros w w' t H; inversion H; subst; auto.
  - apply loc_ask. intros []; try apply loc_fail; apply loc_keep; intros w w' t H; inversion H; subst; auto.
  - apply loc_ask. intros []; try apply loc_fail; apply loc_keep; intros w w' t H; inversion H; subst; auto.
  - apply loc_ask. intros []; try apply loc_fail; apply loc_keep; intros w w' t H; inversion H; subst; auto.
  - apply loc_ask. intros []; try apply loc_fail; apply loc_keep; intros w w' t H; inversion H; subst; auto.
  - apply loc_ask. intros []; try apply loc_fail. apply loc_ask. intros n. apply loc_seq; [apply loc_emit; reflexivity|apply loc_print_res].
  - apply loc_ask. intros l. apply loc_ask. intros l'. apply loc_keep. intros w w' t H. inversion H; subst; auto.
Qed.

(** ** Handling a frame *)
Lemma notices_calls : forall t, notices (calls t) = notices t.
Proof.
  induction t as [|e t IH]; [reflexivity|]. unfold calls in *. cbn [filter]. destruct (is_print e) eqn:P; cbn [negb].
  - destruct e; try discriminate P. exact IH.
  - unfold notices in *. cbn [filter]. rewrite IH. reflexivity.
Qed.
Lemma notices_none : forall t, Forall unheard t -> notices t = [].
Proof. intros t H. induction H as [|e t U _ IH]; [reflexivity|]. unfold notices in *. cbn [filter]. rewrite U. exact IH. Qed.
Lemma notices_heard : forall c cmd r d, notices (heard c cmd r d) = heard c cmd r d.
Proof.
  intros c cmd r d. unfold heard, told_system, told_engine, told_accessory.
  repeat (first [reflexivity | match goal with |- context [if ?x then _ else _] => destruct x end | match goal with |- context [match ?x with Some _ => _ | None => _ end] => destruct x end]).
Qed.
Lemma sent_none : forall t, Forall not_tx t -> sent t = [].
Proof. intros t H. induction H as [|e t U _ IH]; [reflexivity|]. unfold sent in *. cbn. rewrite IH. destruct e; try reflexivity. contradiction. Qed.
Lemma fields_of : forall t p c r h, id_fields_ok t p c h -> command_field (id_value t p c r h) = c /\ response_field (id_value t p c r h) = r.
Proof.
  intros t p c r h (T & P & C & H). unfold command_field, response_field, id_value. change (2 ^ 17) with 131072. change (2 ^ 16) with 65536. split.
  - replace (t * 536870912 + p * 33554432 + c * 131072 + bit_of r * 65536 + h) with ((t * 4096 + p * 256 + c) * 131072 + (bit_of r * 65536 + h)) by lia.
    rewrite Z.div_add_l by lia. rewrite (Z.div_small (bit_of r * 65536 + h)) by (destruct r; cbn [bit_of]; lia).
    replace (t * 4096 + p * 256 + c + 0) with (c + (t * 16 + p) * 256) by lia. rewrite Z.mod_add by lia. apply Z.mod_small. lia.
  - replace (t * 536870912 + p * 33554432 + c * 131072 + bit_of r * 65536 + h) with ((t * 8192 + p * 512 + c * 2 + bit_of r) * 65536 + h) by lia.
    rewrite Z.div_add_l by lia. rewrite (Z.div_small h) by lia.
    replace (t * 8192 + p * 512 + c * 2 + bit_of r + 0) with (bit_of r + (t * 4096 + p * 256 + c) * 2) by lia. rewrite Z.mod_add by lia.
    destruct r; reflexivity.
Qed.
Lemma config_unheard : forall lw s w st d w' t, station_at w s st -> st_handleConfigDataStream lw s d w = Ok (w', t) -> Forall unheard t.
Proof.
  intros lw s w st d w' t S0 H.
  assert (T : tri (own s (st_cbs st)) (Ipa any any) (Ico any any any2) Ien (fun _ => False) any any any unheard (fun _ => True) (st_handleConfigDataStream lw s d)).
  { eapply A_config; try (cbn; auto; fail). all: try (intros; reflexivity). apply own_iff. }
  specialize (T w (inv_own _ _ _ S0)). rewrite H in T. apply T.
Qed.
Lemma handle_unguarded : forall lw w s st t p c r h d, station_at w s st -> id_fields_ok t p c h -> payload_ok d -> dlc d <= 9 ->
  (exists x, step lw (OnStation s (HandlePacket (mkFrame (id_value t p c r h) d))) w = Ok x) -> ~ (cb_eng (st_cbs st) = None /\ unguarded c d).
Proof. intros lw w s st t p c r h d S0 F P D (x & H) U. apply (null_iff lw w s st t p c r h d S0 F P D) in U. congruence. Qed.
Lemma receive : forall lw w s st f w' t, station_at w s st -> can_frame f -> step lw (OnStation s (HandlePacket f)) w = Ok (w', t) ->
  w_stations w' = w_stations w /\ sent t = [] /\ notices t = tells (st_cbs st) f.
Proof.
  intros lw w s st [i d] w' t S0 (I & P & D) H. cbn [fid fdata] in *.
  destruct (receive_keeps lw w s st (HandlePacket (mkFrame i d)) w' t S0 eq_refl H) as [K N]. split; [exact K|]. split; [apply sent_none; exact N|].
  destruct (id_split i I) as (tp & p & c & r & h & F & ->). unfold tells. cbn [fid fdata]. destruct (fields_of _ _ _ r _ F) as [-> ->].
  destruct (Z.eq_dec c CMD_CONFIG_DATA) as [->|NC].
  - cbn [step st_step] in H. unfold st_handlePacket in H. cbn [fid fdata] in H. rewrite id_getCommand_value in H by assumption. cbn [Z.eqb] in H. 
    apply notices_none. eapply config_unheard; [exact S0|exact H].
  - assert (U := handle_unguarded lw w s st tp p c r h d S0 F P ltac:(lia) ltac:(eexists; exact H)).
    destruct (handle_spec lw w s st tp p c r h d S0 F P ltac:(lia) NC U) as (t' & H' & E). rewrite H in H'. injection H' as -> <-.
    rewrite <- notices_calls, E. apply notices_heard.
Qed.

(** ** The bus *)
Definition carried (i : nat) (c : Cbs) (n : net) : Prop :=
  exists k, (k <= List.length (for_station i (n_bus n)))%nat /\ n_inbox n i = skipn k (for_station i (n_bus n)) /\
    told_by i (n_log n) = flat_map (tells c) (firstn k (for_station i (n_bus n))).
Definition Ninv (w0 : world) (n : net) : Prop :=
  kept w0 (n_world n) /\ forall i st, station_at w0 i st -> carried i (st_cbs st) n.

Lemma for_app : forall i a b, for_station i (a ++ b) = for_station i a ++ for_station i b.
Proof. intros. unfold for_station. rewrite filter_app, map_app. reflexivity. Qed.
Lemma for_sent : forall i from fs, for_station i (map (pair from) fs) = match from with Some s => if Nat.eqb i s then [] else fs | None => fs end.
Proof.
  intros i from fs. unfold for_station. destruct from as [s|]; [destruct (Nat.eqb i s) eqn:E|].
  - induction fs as [|f fs IH]; [reflexivity|]. cbn [map filter fst]. rewrite E. cbn [negb]. exact IH.
  - induction fs as [|f fs IH]; [reflexivity|]. cbn [map filter fst]. rewrite E. cbn [negb map snd]. f_equal. exact IH.
  - induction fs as [|f fs IH]; [reflexivity|]. cbn [map filter fst snd]. f_equal. exact IH.
Qed.
Lemma told_app : forall i a b, told_by i (a ++ b) = told_by i a ++ told_by i b.
Proof. intros. unfold told_by. rewrite filter_app, map_app. reflexivity. Qed.
Lemma told_tagged : forall i from t, told_by i (map (pair from) t) = match from with Some s => if Nat.eqb i s then t else [] | None => [] end.
Proof.
  intros i from t. unfold told_by. destruct from as [s|]; [destruct (Nat.eqb i s) eqn:E|].
  - induction t as [|f t IH]; [reflexivity|]. cbn [map filter fst]. rewrite E. cbn [map snd]. f_equal. exact IH.
  - induction t as [|f t IH]; [reflexivity|]. cbn [map filter fst]. rewrite E. exact IH.
  - induction t as [|f t IH]; [reflexivity|]. cbn [map filter fst]. exact IH.
Qed.
Lemma carried_broadcast : forall i c from fs n, carried i c n -> carried i c (broadcast from fs n).
Proof.
  intros i c from fs n (k & L & I & T). exists k. unfold broadcast. cbn [n_bus n_inbox n_log]. rewrite for_app, for_sent.
  set (F := for_station i (n_bus n)) in *.
  assert (K : forall fs, (k <= List.length (F ++ fs))%nat /\ skipn k F ++ fs = skipn k (F ++ fs) /\ firstn k (F ++ fs) = firstn k F).
  { intros l. rewrite app_length, skipn_app, firstn_app. replace (k - List.length F)%nat with 0%nat by lia. rewrite firstn_O, app_nil_r, skipn_O. split; [lia|auto]. }
  destruct from as [s|]; [destruct (Nat.eqb i s)|].
  - rewrite app_nil_r. auto.
  - destruct (K fs) as (K1 & K2 & K3). rewrite K3, I. auto.
  - destruct (K fs) as (K1 & K2 & K3). rewrite K3, I. auto.
Qed.
Lemma same_notices : forall st q f, tells (st_cbs (now_using st q)) f = tells (st_cbs st) f.
Proof. intros [h []] q f. reflexivity. Qed.
Lemma kept_at : forall w0 w i st, kept w0 w -> station_at w0 i st -> exists q, station_at w i (now_using st q).
Proof. intros w0 w i st K [S H]. destruct (K _ _ S) as (q & Q). exists q. split; [exact Q|exact H]. Qed.

Lemma skipn_cons : forall A k (F : list A) f r, skipn k F = f :: r -> (S k <= List.length F)%nat /\ skipn (S k) F = r /\ firstn (S k) F = firstn k F ++ [f].
Proof.
  induction k as [|k IH]; intros [|x F] f r H; cbn [skipn] in H; try discriminate.
  - injection H as -> ->. cbn. split; [lia|auto].
  - destruct (IH F f r H) as (A1 & A2 & A3). cbn [List.length]. split; [lia|]. split; [exact A2|].
    change (firstn (S (S k)) (x :: F)) with (x :: firstn (S k) F). rewrite A3. reflexivity.
Qed.
Lemma step_net : forall lw m w0 n n', Ninv w0 n -> ordinary m -> move_net lw m n = Ok n' -> Forall can_frame (map snd (n_bus n')) ->
  (forall s, m = Deliver s -> exists st, station_at w0 s st) -> Ninv w0 n'.
Proof.
  intros lw m w0 n n' [K C] O H CF SD. destruct m as [o|s|f]; cbn [move_net] in H.
  - unfold perform in H. destruct (step lw o (n_world n)) as [[w' t]|] eqn:E; cbn [bind] in H; [|discriminate]. injection H as <-.
    destruct (loc_step lw o O _ _ _ E) as [K' U]. split; [eapply kept_trans; eassumption|].
    intros i st S0. apply carried_broadcast. rewrite (notices_none _ U). cbn [map]. rewrite app_nil_r. exact (C i st S0).
  - destruct (n_inbox n s) as [|f r] eqn:Q; [injection H as <-; split; assumption|].
    unfold perform in H. cbn [n_world n_inbox n_bus n_log] in H.
    destruct (step lw (OnStation s (HandlePacket f)) (n_world n)) as [[w' t]|] eqn:E; cbn [bind] in H; [|discriminate]. injection H as <-.
    destruct (SD s eq_refl) as (st & S0). destruct (kept_at _ _ _ _ K S0) as (q & S1).
    assert (CAN : can_frame f).
    { destruct (C s st S0) as (k & L & I & _). rewrite Q in I. symmetry in I. cbn in CF.
      assert (IN : In f (for_station s (n_bus n))) by (rewrite <- (firstn_skipn k (for_station s (n_bus n))), I; apply in_or_app; right; left; reflexivity).
      rewrite Forall_forall in CF. apply CF. rewrite map_app. apply in_or_app. left. unfold for_station in IN. apply in_map_iff in IN.
      destruct IN as (x & <- & IN). apply filter_In in IN. apply in_map. apply IN. }
    destruct (receive _ _ _ _ _ _ _ S1 CAN E) as (K1 & K2 & K3). split.
    { eapply kept_trans; [exact K|]. apply kept_same. exact K1. }
    intros i sti Si. apply carried_broadcast. destruct (C i sti Si) as (k & L & I & T). unfold carried. cbn [n_bus n_inbox n_log on_station].
    destruct (Nat.eqb_spec i s) as [->|N].
    + destruct Si as [Si _], S0 as [S0 _]. rewrite S0 in Si. injection Si as <-.
      rewrite Q in I. symmetry in I. apply skipn_cons in I. destruct I as (I1 & I2 & I3). exists (S k). split; [exact I1|]. split; [congruence|].
      rewrite I3, flat_map_app, told_app, T, told_tagged, Nat.eqb_refl, K3, same_notices. cbn [flat_map]. rewrite app_nil_r. reflexivity.
    + exists k. split; [exact L|]. split; [exact I|]. rewrite told_app, T, told_tagged. destruct (Nat.eqb_spec i s); [contradiction|]. apply app_nil_r.
  - injection H as <-. split; [exact K|]. intros i st S0. apply carried_broadcast. exact (C i st S0).
Qed.
Lemma move_bus : forall lw m n n', move_net lw m n = Ok n' -> exists l, n_bus n' = n_bus n ++ l.
Proof.
  intros lw m n n' H. destruct m as [o|s|f]; cbn [move_net] in H.
  - unfold perform in H. destruct (step lw o (n_world n)) as [[w' t]|]; cbn [bind] in H; [|discriminate]. injection H as <-. eexists. reflexivity.
  - destruct (n_inbox n s) as [|f r]; [injection H as <-; exists []; symmetry; apply app_nil_r|].
    unfold perform in H. cbn [n_world] in H. destruct (step lw (OnStation s (HandlePacket f)) (n_world n)) as [[w' t]|]; cbn [bind] in H; [|discriminate]. injection H as <-. eexists. reflexivity.
  - injection H as <-. eexists. reflexivity.
Qed.
Lemma run_bus : forall lw ms n n', run_net lw ms n = Ok n' -> exists l, n_bus n' = n_bus n ++ l.
Proof.
  induction ms as [|m ms IH]; intros n n' H; cbn [run_net] in H; [injection H as <-; exists []; symmetry; apply app_nil_r|].
  destruct (move_net lw m n) as [n1|] eqn:E; cbn [bind] in H; [|discriminate]. destruct (move_bus _ _ _ _ E) as (l1 & E1). destruct (IH _ _ H) as (l2 & E2).
  exists (l1 ++ l2). rewrite E2, E1, app_assoc. reflexivity.
Qed.
Lemma run_ninv : forall lw w0 ms n n', Ninv w0 n -> Forall ordinary ms -> (forall s, In (Deliver s) ms -> exists st, station_at w0 s st) ->
  run_net lw ms n = Ok n' -> Forall can_frame (map snd (n_bus n')) -> Ninv w0 n'.
Proof.
  intros lw w0 ms. induction ms as [|m ms IH]; intros n n' N F D H CF; cbn [run_net] in H; [injection H as <-; exact N|].
  destruct (move_net lw m n) as [n1|] eqn:E; cbn [bind] in H; [|discriminate]. apply Forall_cons_iff in F. destruct F as [F1 F2].
  apply (IH n1 n'); [|assumption|intros s I; apply D; right; exact I|exact H|exact CF].
  apply (step_net lw m w0 n n1); [exact N|exact F1|exact E| |intros s ->; apply D; left; reflexivity].
  destruct (run_bus _ _ _ _ H) as (l & L). rewrite L, map_app, Forall_app in CF. apply CF.
Qed.
Lemma idle_ninv : forall w, Ninv w (idle_net w).
Proof.
  intros w. split; [apply kept_same; reflexivity|]. intros i st _. exists 0%nat. cbn. split; [lia|auto].
Qed.

Lemma frames_arrive : forall lw ms w n i st, Forall ordinary ms -> (forall s, In (Deliver s) ms -> exists st, station_at w s st) ->
  run_net lw ms (idle_net w) = Ok n -> Forall can_frame (map snd (n_bus n)) -> station_at w i st ->
  exists handled, for_station i (n_bus n) = handled ++ n_inbox n i /\ told_by i (n_log n) = flat_map (tells (st_cbs st)) handled.
Proof.
  intros lw ms w n i st O D R F S0. destruct (run_ninv lw w ms _ n (idle_ninv w) O D R F) as [_ C]. destruct (C i st S0) as (k & L & I & T).
  exists (firstn k (for_station i (n_bus n))). rewrite I, firstn_skipn. split; [reflexivity|exact T].
Qed.

(** ** Commands *)
Lemma outgoing_can : forall h c l, is_u16 h -> byte c -> Forall byte l -> zlen l <= 8 -> can_frame (outgoing h c l).
Proof.
  intros h c l H C F L. unfold can_frame, outgoing. cbn [fid fdata]. split; [|split; [apply padded_ok; assumption|unfold padded; cbn [dlc]; exact L]].
  unfold is_u32, id_value, bit_of. unfold is_u16, byte in *. lia.
Qed.
Definition conveys (lw : Z) (w : world) (f : CanFrame) (o : sop) : Prop :=
  can_frame f /\ (forall c, tells c f = reception c o) /\
  (forall s st, station_at w s st -> cb_eng (st_cbs st) <> None -> exists tr, step lw (OnStation s (HandlePacket f)) w = Ok (w, tr)).
Lemma command_frame : forall lw w s st tx o, station_at w s st -> cb_tx (st_cbs st) = Some tx -> args_ok o -> is_command o ->
  exists f, step lw (OnStation s o) w = Ok (w, [EvTx tx f]) /\ conveys lw w f o.
Proof.
  intros lw w s st tx o S0 T A IC.
  assert (O : exists f, output (st_hash st) o = Some [f]).
  { destruct o; cbn [is_command] in IC; try contradiction; cbn [output]; try (eexists; reflexivity).
    replace ((1 <=? direction) && (direction <=? 3)) with true by (symmetry; apply andb_true_intro; split; lia). eexists; reflexivity. }
  destruct O as (f & O). exists f. split; [rewrite (sends _ _ _ _ _ _ _ S0 T A O); reflexivity|].
  pose proof (output_proper _ _ _ (proj2 S0) A O) as PR. inversion PR as [|? ? (l' & LB & LL & LE) _]; subst.
  split; [apply outgoing_can; try assumption; [apply (proj2 S0)|apply command_byte]|]. split.
  - intros c. destruct (heard_reception c o _ _ A IC O) as (l & E & R & _). rewrite <- R. unfold tells. rewrite E. unfold outgoing. cbn [fid fdata].
    destruct (fields_of 0 0 (command_of o) false (st_hash st)) as [-> ->]; [|reflexivity]. apply hash_fields; [apply command_byte|apply (proj2 S0)].
  - intros s' st' S1 E. destruct (send_receive lw w s st tx lw w s' st' o S0 T A IC S1 (fun _ => E)) as (f & tr & H1 & H2 & _).
    rewrite (sends _ _ _ _ _ _ _ S0 T A O) in H1. injection H1 as <-. exists tr. exact H2.
Qed.
Definition Cinv (lw : Z) (w : world) (done : list move) (n : net) : Prop :=
  n_world n = w /\ Ninv w n /\ forall i, Forall2 (conveys lw w) (for_station i (n_bus n)) (commands_for i done).
Lemma commands_app : forall i a b, commands_for i (a ++ b) = commands_for i a ++ commands_for i b.
Proof. intros. apply flat_map_app. Qed.
Lemma Forall2_nil : forall A B (R : A -> B -> Prop), Forall2 R [] []. Proof. constructor. Qed.
Lemma conveys_can : forall lw w fs os, Forall2 (conveys lw w) fs os -> Forall can_frame fs.
Proof. intros lw w fs os H. induction H as [|f o fs os [C _] _ IH]; constructor; assumption. Qed.
Lemma inbox_conveys : forall lw w done n s st f r, Cinv lw w done n -> station_at w s st -> n_inbox n s = f :: r -> exists o, conveys lw w f o.
Proof.
  intros lw w done n s st f r (_ & [_ C] & F) S0 Q. destruct (C s st S0) as (k & _ & I & _). rewrite Q in I. symmetry in I.
  assert (IN : In f (for_station s (n_bus n))) by (rewrite <- (firstn_skipn k (for_station s (n_bus n))), I; apply in_or_app; right; left; reflexivity).
  specialize (F s). clear - F IN. induction F as [|f0 o fs os H _ IH]; [contradiction|]. destruct IN as [<-|IN]; [eauto|auto].
Qed.
(** a state in which all frames waiting for s are commands *)
Lemma cinv_deliver : forall lw w done n s st, Cinv lw w done n -> station_at w s st -> cb_eng (st_cbs st) <> None ->
  exists n', move_net lw (Deliver s) n = Ok n' /\ Cinv lw w (done ++ [Deliver s]) n' /\ n_bus n' = n_bus n /\
    n_inbox n' s = tl (n_inbox n s) /\ (forall i, i <> s -> n_inbox n' i = n_inbox n i).
Proof.
  intros lw w done n s st CI S0 E. cbn [move_net]. destruct (n_inbox n s) as [|f r] eqn:Q.
  - exists n. split; [reflexivity|]. split; [|repeat split; auto]. destruct CI as (A & B & C). split; [exact A|]. split; [exact B|]. intros i.
    rewrite commands_app. cbn. rewrite app_nil_r. apply C.
  - destruct (inbox_conveys _ _ _ _ _ _ _ _ CI S0 Q) as (o & CAN & TE & OKF). destruct CI as (A & B & C). destruct (OKF s st S0 E) as (tr & H).
    unfold perform. cbn [n_world n_inbox n_bus n_log]. rewrite A, H. cbn [bind]. eexists. split; [reflexivity|].
    destruct (receive _ _ _ _ _ _ _ S0 CAN H) as (_ & K2 & K3). rewrite K2.
    match goal with |- Cinv _ _ _ ?x /\ _ => set (n' := x) end.
    assert (BUS : n_bus n' = n_bus n) by (cbn; apply app_nil_r).
    assert (IB : forall i, n_inbox n' i = if Nat.eqb i s then r else n_inbox n i).
    { intros i. cbn. destruct (Nat.eqb i s); [reflexivity|apply app_nil_r]. }
    split; [|split; [exact BUS|split]].
    + split; [reflexivity|]. split.
      * assert (M : move_net lw (Deliver s) n = Ok n').
        { cbn [move_net]. rewrite Q. unfold perform. cbn [n_world n_inbox n_bus n_log]. rewrite A, H. cbn [bind]. rewrite K2. reflexivity. }
        apply (step_net lw (Deliver s) w n n' B Logic.I M).
        -- apply Forall_forall. intros x Hx. apply in_map_iff in Hx. destruct Hx as ([from f0] & <- & Hx). cbn [snd]. rewrite BUS in Hx.
           assert (X : exists i, In f0 (for_station i (n_bus n))).
           { exists (match from with Some k => S k | None => O end). unfold for_station. apply in_map_iff. exists (from, f0). split; [reflexivity|]. apply filter_In. split; [exact Hx|].
             cbn [fst]. destruct from as [k|]; [|reflexivity]. destruct (Nat.eqb_spec (S k) k); [lia|reflexivity]. }
           destruct X as (i & X). pose proof (conveys_can _ _ _ _ (C i)) as F. rewrite Forall_forall in F. apply F. exact X.
        -- intros s' [= <-]. exists st. exact S0.
      * intros i. rewrite BUS, commands_app. cbn. rewrite app_nil_r. apply C.
    + rewrite IB, Nat.eqb_refl. reflexivity.
    + intros i N. rewrite IB. destruct (Nat.eqb_spec i s); [contradiction|reflexivity].
Qed.
Lemma cinv_command : forall lw w done n s o, Cinv lw w done n -> commanding w (Do (OnStation s o)) ->
  exists n', move_net lw (Do (OnStation s o)) n = Ok n' /\ Cinv lw w (done ++ [Do (OnStation s o)]) n'.
Proof.
  intros lw w done n s o (A & B & C) (IC & AO & st & S0 & T). destruct (cb_tx (st_cbs st)) as [tx|] eqn:X; [|contradiction].
  destruct (command_frame lw w s st tx o S0 X AO IC) as (f & H & V).
  cbn [move_net]. unfold perform. rewrite A, H. cbn [bind]. eexists. split; [reflexivity|]. cbn [on_station]. change (sent [EvTx tx f]) with [f].
  cbn [notices filter is_notice map]. rewrite app_nil_r. split; [reflexivity|]. split.
  - split; [apply kept_same; reflexivity|]. intros i sti Si. apply carried_broadcast. exact (proj2 B i sti Si).
  - intros i. cbn [n_bus broadcast]. rewrite for_app, for_sent, commands_app. apply Forall2_app; [apply C|]. cbn. destruct (Nat.eqb i s); repeat constructor; apply V.
Qed.
Lemma cinv_run : forall lw w ms done n, Cinv lw w done n -> Forall (commanding w) ms -> exists n', run_net lw ms n = Ok n' /\ Cinv lw w (done ++ ms) n'.
Proof.
  intros lw w ms. induction ms as [|m ms IH]; intros done n CI F; [exists n; rewrite app_nil_r; split; [reflexivity|exact CI]|].
  apply Forall_cons_iff in F. destruct F as [M F]. cbn [run_net].
  assert (X : exists n', move_net lw m n = Ok n' /\ Cinv lw w (done ++ [m]) n').
  { destruct m as [[s o| | | | | | | | | | |]|s|f]; try contradiction M.
    - apply cinv_command; assumption.
    - destruct M as (st & S0 & E). destruct (cinv_deliver lw w done n s st CI S0 E) as (n' & M & CI' & _). eauto. }
  destruct X as (n1 & -> & CI1). cbn [bind]. destruct (IH _ _ CI1 F) as (n' & R & CI'). exists n'. split; [exact R|].
  rewrite <- app_assoc in CI'. exact CI'.
Qed.
Lemma cinv_idle : forall lw w, Cinv lw w [] (idle_net w).
Proof. intros lw w. split; [reflexivity|]. split; [apply idle_ninv|]. intros i. apply Forall2_nil. Qed.
Lemma Forall2_split : forall A B (R : A -> B -> Prop) k l l', Forall2 R l l' -> Forall2 R (firstn k l) (firstn k l') /\ Forall2 R (skipn k l) (skipn k l').
Proof.
  intros A B R k l l' H. revert k. induction H as [|x y l l' H _ IH]; intros [|k]; cbn [firstn skipn]; try (split; constructor; auto; fail).
  - split; [constructor|constructor; [exact H|]]. apply (IH O).
  - destruct (IH k) as [I1 I2]. split; [constructor; assumption|exact I2].
Qed.
Lemma Forall2_len : forall A B (R : A -> B -> Prop) l l', Forall2 R l l' -> List.length l = List.length l'.
Proof. intros A B R l l' H. induction H; cbn; congruence. Qed.
Lemma conveys_reception : forall lw w c fs os, Forall2 (conveys lw w) fs os -> flat_map (tells c) fs = flat_map (reception c) os.
Proof. intros lw w c fs os H. induction H as [|f o fs os (_ & T & _) _ IH]; [reflexivity|]. cbn [flat_map]. rewrite T, IH. reflexivity. Qed.
Lemma cinv_result : forall lw w ms n i st, Cinv lw w ms n -> station_at w i st -> exists got coming,
  commands_for i ms = got ++ coming /\ told_by i (n_log n) = flat_map (reception (st_cbs st)) got /\ List.length (n_inbox n i) = List.length coming.
Proof.
  intros lw w ms n i st (_ & [_ C] & F) S0. destruct (C i st S0) as (k & L & I & T). destruct (Forall2_split _ _ _ k _ _ (F i)) as [F1 F2].
  exists (firstn k (commands_for i ms)), (skipn k (commands_for i ms)). rewrite firstn_skipn. split; [reflexivity|]. split.
  - rewrite T. eapply conveys_reception. exact F1.
  - rewrite I. eapply Forall2_len. exact F2.
Qed.
Lemma commands_arrive : forall lw ms w, Forall (commanding w) ms -> exists n, run_net lw ms (idle_net w) = Ok n /\ n_world n = w /\
  forall i st, station_at w i st -> exists got coming,
    commands_for i ms = got ++ coming /\ told_by i (n_log n) = flat_map (reception (st_cbs st)) got /\ List.length (n_inbox n i) = List.length coming.
Proof.
  intros lw ms w F. destruct (cinv_run lw w ms [] _ (cinv_idle lw w) F) as (n & R & CI). exists n. split; [exact R|]. split; [apply CI|].
  intros i st S0. eapply cinv_result; eassumption.
Qed.

(** ** Every schedule can be completed *)
Lemma commands_deliver : forall i ms, Forall delivery ms -> commands_for i ms = [].
Proof. intros i ms H. induction H as [|m ms M _ IH]; [reflexivity|]. destruct m; try contradiction M. exact IH. Qed.
Lemma drain_one : forall lw w s st, station_at w s st -> cb_eng (st_cbs st) <> None -> forall k done n, Cinv lw w done n -> List.length (n_inbox n s) = k ->
  exists ms n', Forall delivery ms /\ run_net lw ms n = Ok n' /\ Cinv lw w (done ++ ms) n' /\ n_inbox n' s = [] /\ (forall i, i <> s -> n_inbox n' i = n_inbox n i).
Proof.
  intros lw w s st S0 E. induction k as [|k IH]; intros done n CI L.
  - exists [], n. rewrite app_nil_r. split; [constructor|]. split; [reflexivity|]. split; [exact CI|]. split; [|auto]. destruct (n_inbox n s); [reflexivity|discriminate].
  - destruct (cinv_deliver lw w done n s st CI S0 E) as (n1 & M & CI1 & _ & Q & QO).
    destruct (IH _ n1 CI1) as (ms & n' & D & R & CI' & Q' & QO').
    { rewrite Q. destruct (n_inbox n s); [discriminate|]. cbn in *. lia. }
    exists (Deliver s :: ms), n'. split; [constructor; [exact Logic.I|exact D]|]. split; [cbn [run_net]; rewrite M; exact R|].
    rewrite <- app_assoc in CI'. split; [exact CI'|]. split; [exact Q'|]. intros i N. rewrite QO', QO by exact N. reflexivity.
Qed.
Lemma run_net_app : forall lw a b n, run_net lw (a ++ b) n = (n' <- run_net lw a n ;; run_net lw b n').
Proof. induction a as [|m a IH]; intros b n; [reflexivity|]. cbn [app run_net]. destruct (move_net lw m n); cbn [bind]; [apply IH|reflexivity]. Qed.
Lemma drain_all : forall lw w k, (forall i, (i < k)%nat -> exists st, station_at w i st /\ cb_eng (st_cbs st) <> None) -> forall done n, Cinv lw w done n ->
  exists ms n', Forall delivery ms /\ run_net lw ms n = Ok n' /\ Cinv lw w (done ++ ms) n' /\ forall i, (i < k)%nat -> n_inbox n' i = [].
Proof.
  intros lw w k. induction k as [|k IH]; intros H done n CI.
  - exists [], n. rewrite app_nil_r. split; [constructor|]. split; [reflexivity|]. split; [exact CI|]. intros i N. lia.
  - destruct (IH ltac:(intros; apply H; lia) done n CI) as (ms & n1 & D & R & CI1 & Q). destruct (H k ltac:(lia)) as (st & S0 & E).
    destruct (drain_one lw w k st S0 E _ _ n1 CI1 eq_refl) as (ms' & n' & D' & R' & CI' & Q' & QO).
    exists (ms ++ ms'), n'. split; [apply Forall_app; auto|]. split; [rewrite run_net_app, R; exact R'|]. rewrite app_assoc. split; [exact CI'|].
    intros i N. destruct (Nat.eq_dec i k) as [->|NE]; [exact Q'|]. rewrite QO by exact NE. apply Q. lia.
Qed.
Lemma completes : forall lw ms w, Forall (commanding w) ms ->
  (forall i st, nth_error (w_stations w) i = Some st -> is_u16 (st_hash st) /\ cb_eng (st_cbs st) <> None) ->
  exists more n, Forall delivery more /\ run_net lw (ms ++ more) (idle_net w) = Ok n /\
    forall i st, station_at w i st -> n_inbox n i = [] /\ told_by i (n_log n) = flat_map (reception (st_cbs st)) (commands_for i ms).
Proof.
  intros lw ms w F A. destruct (cinv_run lw w ms [] _ (cinv_idle lw w) F) as (n1 & R & CI).
  destruct (drain_all lw w (List.length (w_stations w))) with (done := [] ++ ms) (n := n1) as (more & n & D & R' & CI' & Q); [|exact CI|].
  { intros i L. destruct (nth_error (w_stations w) i) as [st|] eqn:S0; [|apply nth_error_None in S0; lia]. destruct (A i st S0). exists st. split; [split|]; assumption. }
  exists more, n. split; [exact D|]. split; [rewrite run_net_app, R; exact R'|]. intros i st S0.
  assert (L : (i < List.length (w_stations w))%nat) by (apply nth_error_Some; rewrite (proj1 S0); discriminate).
  split; [apply Q; exact L|]. destruct (cinv_result _ _ _ _ _ _ CI' S0) as (got & coming & C1 & C2 & C3). rewrite (Q i L) in C3.
  destruct coming; [|discriminate]. rewrite app_nil_r in C1. cbn [app] in C1. rewrite commands_app, (commands_deliver i more D), app_nil_r in C1. rewrite C2, <- C1. reflexivity.
Qed.

(** ** A station among other traffic *)
Lemma plain_frame : forall lw w s st f, station_at w s st -> cb_eng (st_cbs st) <> None -> can_frame f -> is_config_data f = false ->
  exists tr, step lw (OnStation s (HandlePacket f)) w = Ok (w, tr) /\ calls tr = tells (st_cbs st) f.
Proof.
  intros lw w s st [i d] S0 E (I & P & D) NC. cbn [fid fdata] in *. unfold is_config_data in NC. cbn [fid] in NC.
  destruct (id_split i I) as (tp & p & c & r & h & F & ->). unfold tells. cbn [fid fdata]. destruct (fields_of _ _ _ r _ F) as [FC FR]. rewrite FC in NC. rewrite FC, FR.
  apply handle_spec; try assumption; [lia|apply Z.eqb_neq; exact NC|]. intros [N _]. contradiction.
Qed.
Lemma config_tells : forall c f, is_config_data f = true -> tells c f = [].
Proof. intros c f H. unfold is_config_data in H. apply Z.eqb_eq in H. unfold tells. rewrite H. reflexivity. Qed.
Definition quietly (e : event) : bool := negb (is_notice e).
Lemma filter_notices : forall t, filter quietly (notices t) = [].
Proof.
  induction t as [|e t IH]; [reflexivity|]. unfold notices in *. cbn [filter]. destruct (is_notice e) eqn:N; [|exact IH]. cbn [filter]. unfold quietly at 1. rewrite N. exact IH.
Qed.
Lemma filter_unheard : forall t, Forall unheard t -> filter quietly t = t.
Proof. intros t H. induction H as [|e t U _ IH]; [reflexivity|]. cbn [filter]. unfold quietly at 1. rewrite U. cbn [negb]. rewrite IH. reflexivity. Qed.
Lemma calls_app : forall a b, calls (a ++ b) = calls a ++ calls b. Proof. intros. apply filter_app. Qed.
Lemma notices_app : forall a b, notices (a ++ b) = notices a ++ notices b. Proof. intros. apply filter_app. Qed.
Lemma calls_unheard : forall t, Forall unheard t -> Forall unheard (calls t).
Proof. intros t H. apply Forall_forall. intros e I. apply filter_In in I. rewrite Forall_forall in H. apply H. apply I. Qed.
Lemma among_traffic : forall lw s st fs w, station_at w s st -> cb_eng (st_cbs st) <> None -> Forall can_frame fs ->
  match run lw (handles s fs) w, run lw (handles s (filter is_config_data fs)) w with
  | Ok (w1, t1), Ok (w2, t2) =>
      w1 = w2 /\ filter (fun e => negb (is_notice e)) (calls t1) = calls t2 /\ notices t1 = flat_map (tells (st_cbs st)) fs /\ notices t2 = []
  | UB u1, UB u2 => u1 = u2
  | _, _ => False
  end.
Proof.
  intros lw s st fs. change (fun e => negb (is_notice e)) with quietly. induction fs as [|f fs IH]; intros w S0 E F; [cbn; auto|].
  apply Forall_cons_iff in F. destruct F as [CF F]. cbn [handles map filter run]. destruct (is_config_data f) eqn:C.
  - cbn [map run]. unfold World.seq. destruct (step lw (OnStation s (HandlePacket f)) w) as [[w1 t1]|u] eqn:H; cbn [bind]; [|reflexivity].
    destruct (receive _ _ _ _ _ _ _ S0 CF H) as (K & _ & N). rewrite config_tells in N by exact C.
    assert (U : Forall unheard t1).
    { apply Forall_forall. intros e I. unfold unheard. destruct (is_notice e) eqn:Y; [|reflexivity]. assert (X : In e (notices t1)) by (apply filter_In; auto). rewrite N in X. destruct X. }
    assert (S1 : station_at w1 s st) by (destruct S0 as [S0 X]; split; [rewrite K; exact S0|exact X]).
    specialize (IH w1 S1 E F). unfold handles in IH. unfold handles.
    destruct (run lw (map (fun f => OnStation s (HandlePacket f)) fs) w1) as [[w2 t2]|]; destruct (run lw (map (fun f => OnStation s (HandlePacket f)) (filter is_config_data fs)) w1) as [[w3 t3]|]; cbn [bind]; try exact IH.
    destruct IH as (I1 & I2 & I3 & I4). split; [exact I1|]. rewrite !calls_app, !notices_app, filter_app. rewrite (filter_unheard _ (calls_unheard _ U)), I2, I3, I4, N.
    cbn [flat_map]. rewrite (config_tells _ _ C). auto.
  - destruct (plain_frame lw w s st f S0 E CF C) as (tr & H & T). unfold World.seq at 1. rewrite H. cbn [bind].
    specialize (IH w S0 E F). unfold handles in IH. unfold handles.
    destruct (run lw (map (fun f => OnStation s (HandlePacket f)) fs) w) as [[w2 t2]|]; destruct (run lw (map (fun f => OnStation s (HandlePacket f)) (filter is_config_data fs)) w) as [[w3 t3]|]; cbn [bind]; try exact IH.
    destruct IH as (I1 & I2 & I3 & I4). split; [exact I1|]. rewrite calls_app, notices_app, filter_app, T, I2, I3.
    unfold tells at 1. rewrite <- notices_heard, filter_notices. split; [reflexivity|]. split; [|exact I4]. cbn [flat_map]. f_equal.
    rewrite <- notices_calls, T. apply notices_heard.
Qed.
Lemma run_app : forall lw a b w, run lw (a ++ b) w = ('(w1, t1) <- run lw a w ;; '(w2, t2) <- run lw b w1 ;; Ok (w2, t1 ++ t2)).
Proof.
  induction a as [|o a IH]; intros b w; cbn [app run].
  - unfold skip. cbn [bind]. destruct (run lw b w) as [[w2 t2]|]; reflexivity.
  - unfold World.seq. destruct (step lw o w) as [[w1 t1]|]; cbn [bind]; [|reflexivity]. rewrite IH. destruct (run lw a w1) as [[w2 t2]|]; cbn [bind]; [|reflexivity].
    destruct (run lw b w2) as [[w3 t3]|]; cbn [bind]; [|reflexivity]. rewrite app_assoc. reflexivity.
Qed.
Lemma loc_run : forall lw ops, Forall (fun o => ordinary (Do o)) ops -> loc (run lw ops).
Proof. intros lw ops H. induction H as [|o ops O _ IH]; cbn [run]; [apply loc_skip|]. apply loc_seq; [apply loc_step; exact O|exact IH]. Qed.
Lemma tells_using : forall st q, (fun f => tells (st_cbs (now_using st q)) f) = (fun f => tells (st_cbs st) f).
Proof. intros [h []] q. reflexivity. Qed.
Lemma history_among_traffic : forall lw ops s st fs w, station_at w s st -> cb_eng (st_cbs st) <> None -> Forall can_frame fs ->
  Forall (fun o => ordinary (Do o)) ops ->
  match run lw (ops ++ handles s fs) w, run lw (ops ++ handles s (filter is_config_data fs)) w with
  | Ok (w1, t1), Ok (w2, t2) =>
      w1 = w2 /\ filter (fun e => negb (is_notice e)) (calls t1) = calls t2 /\ notices t1 = flat_map (tells (st_cbs st)) fs /\ notices t2 = []
  | UB u1, UB u2 => u1 = u2
  | _, _ => False
  end.
Proof.
  intros lw ops s st fs w S0 E F O. rewrite !run_app. destruct (run lw ops w) as [[w0 t0]|u] eqn:R; cbn [bind]; [|reflexivity].
  destruct (loc_run lw ops O _ _ _ R) as [K U]. destruct (kept_at _ _ _ _ K S0) as (q & S1).
  pose proof (among_traffic lw s (now_using st q) fs w0 S1 E F) as A.
  destruct (run lw (handles s fs) w0) as [[w1 t1]|]; destruct (run lw (handles s (filter is_config_data fs)) w0) as [[w2 t2]|]; cbn [bind]; try exact A.
  destruct A as (A1 & A2 & A3 & A4). change (fun e => negb (is_notice e)) with quietly in *. split; [exact A1|].
  rewrite !calls_app, filter_app, !notices_app, A2, A3, A4, (filter_unheard _ (calls_unheard _ U)), (notices_none _ U).
  split; [reflexivity|]. split; [|reflexivity]. cbn [app]. clear. induction fs as [|f fs IH]; [reflexivity|]. cbn [flat_map]. rewrite IH, same_notices. reflexivity.
Qed.
Lemma notes_quiet : forall t, notes (filter quietly (calls t)) = notes t.
Proof.
  induction t as [|e t IH]; [reflexivity|]. unfold notes, calls in *. destruct e; cbn [filter is_print negb is_notice quietly is_note]; unfold quietly; cbn [is_notice negb filter is_note]; unfold quietly in IH; rewrite ?IH; reflexivity.
Qed.
Lemma arriving_handles : forall s id ds, arriving s id ds = handles s (map (mkFrame id) ds).
Proof. intros. unfold arriving, handles. rewrite map_map. reflexivity. Qed.
Lemma download_among_traffic : forall lw w s st tx p c e sp sec cb e0 l name hd ds d id tu u ta a tp fs,
  32 <= lw -> station_at w s st -> cb_tx (st_cbs st) = Some tx -> cb_eng (st_cbs st) <> None -> cb_cfg (st_cbs st) = None ->
  lib_at w p sp -> between_lines sp sec -> consumer_at w c (LocoC e0 (Def cb)) -> engine_at w e l -> si_avail (lo_info l) <> EMPTY ->
  shows_name (si_name (lo_info l)) name -> List.length (lo_proto l) = 8%nat -> config_id id ->
  doc_ok d -> carries ds d -> proper_stream hd ds -> Forall line_fits (reports sec d) ->
  values_of Uid (reports sec d) = [tu] -> numeral tu u -> u < 2 ^ 32 ->
  values_of Address (reports sec d) = [ta] -> numeral ta a -> a < 2 ^ 32 ->
  values_of Protocol (reports sec d) = [tp] -> nulfree tp -> (List.length tp <= 7)%nat ->
  Forall can_frame fs -> filter is_config_data fs = map (mkFrame id) (hd :: ds) ->
  exists w' t, run lw ([ParserSetConsumer p (Some c); LocoSetEngine c (Some e); OnStation s (RequestEngine (RefEngine e) (Some p))] ++ handles s fs) w = Ok (w', t) /\
    w_engines w' = upd e (mkLoco (mkSI FULL_DETAILS (si_name (lo_info l)))
                                 (mkLD u (ld_vel (lo_data l)) (ld_dir (lo_data l)) a (ld_fbits (lo_data l)))
                                 (tp ++ repeat 0 (8 - List.length tp))) (w_engines w) /\
    notes t = EvStreamComplete c :: callback_note cb (fun cb => EvEndComplete cb c) /\
    notices t = flat_map (tells (st_cbs st)) fs.
Proof.
  intros lw w s st tx p c e sp sec cb e0 l name hd ds d id tu u ta a tp fs LW S0 TX EN CFG LA BL CA EA AV SN LP CI DO CD PS LF VU NU UB VA NA AB VP NP LT CAN FI.
  destruct (described_download lw w s st tx p c e sp sec cb e0 l name hd ds d id tu u ta a tp LW S0 TX CFG LA BL CA EA AV SN LP CI DO CD PS LF VU NU UB VA NA AB VP NP LT) as (w' & t & R & W & N & _).
  unfold engine_download in R. rewrite arriving_handles, <- FI in R.
  pose proof (history_among_traffic lw [ParserSetConsumer p (Some c); LocoSetEngine c (Some e); OnStation s (RequestEngine (RefEngine e) (Some p))] s st fs w S0 EN CAN) as H.
  rewrite R in H. match type of H with _ -> match ?x with _ => _ end => destruct x as [[w1 t1]|] end.
  - destruct H as (-> & H2 & H3 & _). { repeat constructor. intros; discriminate. }
    exists w', t1. split; [reflexivity|]. split; [exact W|]. split; [|exact H3]. rewrite <- notes_quiet. change quietly with (fun e => negb (is_notice e)). rewrite H2.
    rewrite <- N. clear. induction t as [|e t IH]; [reflexivity|]. unfold notes, calls in *. destruct e; cbn [filter is_print negb is_note]; rewrite ?IH; reflexivity.
  - destruct H. { repeat constructor. intros; discriminate. }
Qed.

(** ** Answers are not addressed *)
Lemma answers_unaddressed : forall lw s ds ids w, Forall config_id ids -> List.length ids = List.length ds ->
  forall id, config_id id -> run lw (handles s (map (fun x => mkFrame (fst x) (snd x)) (combine ids ds))) w = run lw (handles s (map (mkFrame id) ds)) w.
Proof.
  intros lw s ds. induction ds as [|d ds IH]; intros [|i ids] w F L id CI; try discriminate; [reflexivity|].
  apply Forall_cons_iff in F. destruct F as [C F]. cbn [handles map combine run fst snd]. unfold World.seq.
  destruct C as (t & p & r & h & FO & ->). destruct CI as (t' & p' & r' & h' & FO' & ->).
  rewrite (dispatch lw s t p CMD_CONFIG_DATA r h t' p' r' h' d FO FO'); [|right; split; discriminate].
  destruct (step lw (OnStation s (HandlePacket (mkFrame (id_value t' p' CMD_CONFIG_DATA r' h') d))) w) as [[w1 t1]|]; cbn [bind]; [|reflexivity].
  pose proof (IH ids w1 F ltac:(cbn in L; lia) (id_value t' p' CMD_CONFIG_DATA r' h') ltac:(exists t', p', r', h'; split; [exact FO'|reflexivity])) as H. unfold handles in *. rewrite H. reflexivity.
Qed.
