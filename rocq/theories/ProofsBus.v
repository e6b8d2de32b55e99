(* ProofsBus.v -- proofs about a bus that delivers from inside the transmit callback. *)
From Verif Require Import ZLib SpecBus ProofsCrc ProofsText ProofsStream ProofsConsumer ProofsSafe ProofsReentry ProofsPassive ProofsCallback ProofsNet ProofsCodec ProofsStation.

Section Direct.
Variable lw : Z.
Variable hears : nat -> list nat.
Notation react := (SpecBus.direct hears).
Definition not_tx (e : event) : Prop := match e with EvTx _ _ => False | _ => True end.
Definition hash_ok (st : Station) : Prop := is_u16 (st_hash st).
Lemma hash_cfg : forall st q, hash_ok st -> hash_ok (set_cfg st q). Proof. intros st q H. exact H. Qed.
Lemma hash_begins : forall o, begins_ok hash_ok o.
Proof. intros o. destruct o; try exact Logic.I. destruct o; try exact Logic.I. cbn. split; [|auto]. unfold hash_ok. cbn [st_hash]. unfold computeSenderHash, u16, is_u16. lia. Qed.

Lemma direct_snoc : forall h e, react (h ++ [e]) = match e with EvTx tx f => ops_code (deliveries hears tx f) | _ => Ret end.
Proof. intros h e. unfold SpecBus.direct. rewrite rev_app_distr. cbn [rev app]. destruct e; reflexivity. Qed.
(** calls that transmit nothing *)
Lemma quiet_run : forall n ops w t w' t', (forall o st f, In o ops -> ~ may_send st o f) -> proper_hashes w -> run lw ops w = Ok (w', t') ->
  rexec lw react (S n) (ops_code ops) (mkR w t) = (Ok tt, mkR w' (t ++ t')).
Proof.
  intros n ops w t w' t' Q P E.
  destruct (calm_run lw react n hash_ok hash_cfg not_tx (fun _ H => H) (List.length (w_stations w)) eq) with (ops := ops) (w := w) (t := t) (w' := w') (t' := t') as (_ & x & <- & R).
  - reflexivity.
  - intros; subst; reflexivity.
  - intros h e s N _. exists []. rewrite direct_snoc, app_nil_r. split; [|reflexivity]. destruct e; try contradiction; destruct n; destruct s; reflexivity.
  - split; [reflexivity|exact P].
  - apply Forall_forall. intros o _. apply hash_begins.
  - apply Forall_forall. intros o I st tx f _ M. exfalso. eapply Q; eassumption.
  - exact E.
  - exact R.
Qed.
Lemma deliveries_quiet : forall tx f o st g, In o (deliveries hears tx f) -> ~ may_send st o g.
Proof. intros tx f o st g I. unfold deliveries in I. apply in_map_iff in I. destruct I as (s & <- & _). cbn. auto. Qed.

(** frames no station does anything about *)
Definition void (f : CanFrame) : Prop := forall w s st, nth_error (w_stations w) s = Some st -> step lw (OnStation s (HandlePacket f)) w = Ok (w, []).
Lemma run_void : forall w tx f, void f -> hears_existing w hears -> run lw (deliveries hears tx f) w = Ok (w, []).
Proof.
  intros w tx f V H. specialize (H tx). unfold deliveries. induction H as [|s l S _ IH]; [reflexivity|]. cbn [map run].
  destruct (len_nth _ (w_stations w) s S) as (st & E). unfold World.seq. rewrite (V w s st E). cbn [bind]. rewrite IH. reflexivity.
Qed.
Definition mild (e : event) : Prop := match e with EvTx _ f => void f | _ => True end.
Lemma mild_run : forall n ops w t w' t', (forall o st f, In o ops -> hash_ok st -> may_send st o f -> void f) -> proper_hashes w -> hears_existing w hears ->
  run lw ops w = Ok (w', t') -> good hash_ok (List.length (w_stations w)) w' /\ Forall mild t' /\
  rexec lw react (S (S n)) (ops_code ops) (mkR w t) = (Ok tt, mkR w' (t ++ t')).
Proof.
  intros n ops w t w' t' Q P H E.
  destruct (calm_run lw react (S n) hash_ok hash_cfg mild) with (N := List.length (w_stations w)) (ins := fun a b => a = b /\ Forall mild a) (ops := ops) (w := w) (t := t) (w' := w') (t' := t') as (G & x & [<- M] & R).
  - intros e N. destruct e; try exact Logic.I. contradiction.
  - intros a A. split; [reflexivity|]. revert A. apply Forall_impl. intros e N. destruct e; try exact Logic.I. contradiction.
  - intros a a' b b' [<- A] [<- B]. split; [reflexivity|apply Forall_app; auto].
  - intros h e [w1 t1] N [G1 G2]. exists []. split; [|split; [reflexivity|repeat constructor; exact N]]. rewrite direct_snoc. cbn [r_w r_t]. cbn [r_w] in G1, G2. destruct e; try (rewrite app_nil_r; reflexivity).
    apply quiet_run; [intros o st g I; eapply deliveries_quiet; exact I|exact G2|]. apply run_void; [exact N|]. intros x. rewrite G1. apply H.
  - split; [reflexivity|exact P].
  - apply Forall_forall. intros o _. apply hash_begins.
  - apply Forall_forall. intros o I st tx f S M. cbn. eapply Q; eassumption.
  - exact E.
  - split; [exact G|]. split; [exact M|exact R].
Qed.
Lemma kept_mild : forall w t, Forall mild t -> hears_existing w hears -> run lw (backlog hears t) w = Ok (w, []).
Proof.
  intros w t M H. induction M as [|e t E _ IH]; [reflexivity|]. unfold backlog. cbn [flat_map]. fold (backlog hears t). destruct e; try exact IH.
  rewrite ProofsNet.run_app, (run_void w tx f E H). cbn [bind]. rewrite IH. reflexivity.
Qed.

(** ** Single frames *)
Section Single.
Variable n : nat.
Notation inner := (rexec lw react n).
Definition fires (a : act) (b : ract unit) : Prop := forall w t w' t', a w = Ok (w', t') ->
  w' = w /\ exists tx f, t' = [EvTx tx f] /\ b (mkR w t) = inner (react (t ++ [EvTx tx f])) (mkR w (t ++ [EvTx tx f])).
Lemma fires_tx : forall w s st f t w' t', get_station s w = Ok st -> tx_send (st_cbs st) f w = Ok (w', t') ->
  w' = w /\ exists tx g, t' = [EvTx tx g] /\ rtx_send react inner s f (mkR w t) = inner (react (t ++ [EvTx tx g])) (mkR w (t ++ [EvTx tx g])).
Proof.
  intros w s st f t w' t' G E. unfold tx_send in E. destruct (cb_tx (st_cbs st)) as [tx|] eqn:T; [|discriminate E].
  inversion E; subst. split; [reflexivity|]. exists tx, f. split; [reflexivity|].
  unfold rtx_send, rbind at 1, rask. cbn [r_w]. rewrite G, T. unfold rbind at 1, rval, rask, deref. unfold ucall, rbind, rlift, emit. cbn [r_w r_t]. reflexivity.
Qed.
Lemma fires_own : forall s c d, fires (ask (get_station s) (fun st => tx_send (st_cbs st) (st_frame st c d))) (rst_sendOwn react inner s c d).
Proof.
  intros s c d w t w' t' E. apply ask_inv in E. destruct E as (st & G & E). destruct (fires_tx w s st _ t w' t' G E) as (A & tx & f & B & C). split; [exact A|].
  exists tx, f. split; [exact B|]. rewrite <- C. unfold rst_sendOwn, rbind at 1, rask. cbn [r_w]. rewrite G. reflexivity.
Qed.
Lemma fires_packet : forall s g, fires (st_sendPacket s g) (rst_sendPacket react inner s g).
Proof.
  intros s g w t w' t' E. unfold st_sendPacket in E. apply ask_inv in E. destruct E as (st & G & E). destruct (fires_tx w s st _ t w' t' G E) as (A & tx & f & B & C). split; [exact A|].
  exists tx, f. split; [exact B|]. rewrite <- C. unfold rst_sendPacket, rbind at 1, rask. cbn [r_w]. rewrite G. reflexivity.
Qed.
End Single.

(** ** The frames of requests *)
Lemma void_config : forall st d, hash_ok st -> void (st_frame st kRequestConfigData d).
Proof.
  intros st d H w s st1 E. cbn [step st_step]. unfold st_handlePacket. cbv zeta. unfold st_frame. cbn [fid fdata].
  replace (id_getCommand (mkId kRequestConfigData (st_hash st))) with kRequestConfigData; [reflexivity|].
  symmetry. rewrite mkId_value; [apply id_getCommand_value; apply hash_fields|..]; try (unfold byte; cbv; split; congruence); exact H.
Qed.
Lemma void_function : forall st u i, hash_ok st -> void (st_frame st kLocoFunction (dset (setLocid (set_dlc data0 5) u) 4 i)).
Proof.
  intros st u i H w s st1 E. cbn [step st_step]. unfold st_handlePacket. cbv zeta. unfold st_frame. cbn [fid fdata].
  replace (id_getCommand (mkId kLocoFunction (st_hash st))) with kLocoFunction; [|symmetry; rewrite mkId_value; [apply id_getCommand_value; apply hash_fields|..]; try (unfold byte; cbv; split; congruence); exact H].
  cbn -[dset setLocid nth_error]. unfold st_handleLocoFunction, ask, get_station, at_. rewrite E. reflexivity.
Qed.

Lemma direct_step : forall n o w t w1 t1 w2 t2, proper_hashes w -> hears_existing w hears ->
  step lw o w = Ok (w1, t1) -> run lw (backlog hears t1) w1 = Ok (w2, t2) ->
  good hash_ok (List.length (w_stations w)) w2 /\
  rstep lw react (rexec lw react (S n)) o (mkR w t) = (Ok tt, mkR w2 (t ++ t1 ++ t2)).
Proof.
  intros n o w t w1 t1 w2 t2 P H E1 E2.
  assert (MILD : (forall st f, hash_ok st -> may_send st o f -> void f) -> good hash_ok (List.length (w_stations w)) w2 /\ rstep lw react (rexec lw react (S n)) o (mkR w t) = (Ok tt, mkR w2 (t ++ t1 ++ t2))).
  { intros M. destruct (mild_run n [o] w t w1 t1) as (G & F & R); [intros o' st f [<-|[]]; apply M|exact P|exact H|cbn [run]; unfold World.seq; rewrite E1; cbn [bind skip]; rewrite app_nil_r; reflexivity|].
    assert (H1 : hears_existing w1 hears) by (intros x; rewrite (proj1 G); apply H).
    rewrite (kept_mild w1 t1 F H1) in E2. inversion E2; subst. split; [exact G|]. rewrite app_nil_r. cbn [ops_code] in R.
    change (rexec lw react (S (S n)) (Call o (fun _ _ => Ret)) (mkR w t)) with ((rstep lw react (rexec lw react (S n)) o ~;; (fun s => (Ok tt, s))) (mkR w t)) in R.
    unfold rbind in R. destruct (rstep lw react (rexec lw react (S n)) o (mkR w t)) as [[[]|u] s]; [inversion R; reflexivity|discriminate]. }
  assert (FIRE : fires (S n) (step lw o) (rstep lw react (rexec lw react (S n)) o) -> good hash_ok (List.length (w_stations w)) w2 /\ rstep lw react (rexec lw react (S n)) o (mkR w t) = (Ok tt, mkR w2 (t ++ t1 ++ t2))).
  { intros F. destruct (F w t w1 t1 E1) as (-> & tx & f & -> & R). cbn [backlog flat_map] in E2. rewrite app_nil_r in E2. rewrite R, direct_snoc.
    destruct (mild_run O (deliveries hears tx f) w [] w2 t2) as (G & _ & _); [intros o' st g I S M; exfalso; eapply deliveries_quiet; [exact I|exact M]|exact P|exact H|exact E2|].
    split; [exact G|]. rewrite app_assoc. apply quiet_run; [intros o' st g I; eapply deliveries_quiet; exact I|exact P|exact E2]. }
  destruct o as [s x| | | | | | | | | | |]; try (apply MILD; intros ? ? _ []).
  destruct x; try (apply MILD; intros ? ? _ []; fail); try (apply FIRE; first [apply fires_own|apply fires_packet]).
  - apply MILD. intros st g S (d & ->). apply void_config. exact S.
  - apply MILD. intros st g S (d & ->). apply void_config. exact S.
  - cbn [step st_step rstep rst_step] in *. unfold st_sendEngineDirection in *.
    destruct ((direction =? DIR_FORWARD) || (direction =? DIR_REVERSE) || (direction =? DIR_CHANGE)); [apply FIRE; apply fires_packet|].
    inversion E1; subst. inversion E2; subst. split; [split; [reflexivity|exact P]|]. rewrite app_nil_r. reflexivity.
  - apply MILD. intros st g S (i & ->). apply void_function. exact S.
Qed.
Lemma direct_queued : forall n ops w t w' t', proper_hashes w -> hears_existing w hears -> queued lw hears ops w = Ok (w', t') ->
  rexec lw react (S (S n)) (ops_code ops) (mkR w t) = (Ok tt, mkR w' (t ++ t')).
Proof.
  intros n ops. induction ops as [|o ops IH]; intros w t w' t' P H E.
  - inversion E; subst. rewrite app_nil_r. reflexivity.
  - cbn [queued] in E. destruct (step lw o w) as [[w1 t1]|u] eqn:E1; [|discriminate E]. cbn [bind] in E.
    destruct (run lw (backlog hears t1) w1) as [[w2 t2]|u] eqn:E2; [|discriminate E]. cbn [bind] in E.
    destruct (queued lw hears ops w2) as [[w3 t3]|u] eqn:E3; [|discriminate E]. inversion E; subst.
    change (rexec lw react (S (S n)) (ops_code (o :: ops)) (mkR w t)) with ((rstep lw react (rexec lw react (S n)) o ~;; rexec lw react (S (S n)) (ops_code ops)) (mkR w t)).
    destruct (direct_step n o w t w1 t1 w2 t2 P H E1 E2) as ([G1 G2] & R). unfold rbind. rewrite R.
    rewrite (IH w2 (t ++ t1 ++ t2) w' t3 G2); [rewrite <- !app_assoc; reflexivity| |exact E3]. intros x. rewrite G1. apply H.
Qed.
End Direct.

(** ** Commands *)
Lemma notices_app : forall a b, notices (a ++ b) = notices a ++ notices b.
Proof. intros. apply filter_app. Qed.
Lemma handles_command : forall lw w f o l, conveys lw w f o -> Forall (fun i => exists st', station_at w i st' /\ cb_eng (st_cbs st') <> None) l ->
  exists t, run lw (map (fun s => OnStation s (HandlePacket f)) l) w = Ok (w, t) /\
    notices t = flat_map (fun i => match nth_error (w_stations w) i with Some st' => reception (st_cbs st') o | None => [] end) l.
Proof.
  intros lw w f o l (CAN & TE & C) F. induction F as [|i l (st & S0 & E) _ (t & IH & N)]; [exists []; split; reflexivity|].
  destruct (C i st S0 E) as (tr & R). exists (tr ++ t). cbn [map run]. unfold World.seq. rewrite R. cbn [bind]. rewrite IH. split; [reflexivity|].
  rewrite notices_app, N. cbn [flat_map]. rewrite (proj1 S0). destruct (receive _ _ _ _ _ _ _ S0 CAN R) as (_ & _ & K3). rewrite K3, TE. reflexivity.
Qed.
Lemma queued_commands : forall lw hears w ops, Forall (direct_command w hears) ops ->
  exists t, queued lw hears ops w = Ok (w, t) /\ notices t = flat_map (told_directly w hears) ops.
Proof.
  intros lw hears w ops F. induction F as [|o ops D _ (t & IH & N)]; [exists []; split; reflexivity|].
  destruct o as [s x| | | | | | | | | | |]; try contradiction. destruct D as (IC & A & st & tx & S0 & T & L).
  destruct (command_frame lw w s st tx x S0 T A IC) as (f & E & C). destruct (handles_command lw w f x (hears tx) C L) as (t2 & R & N2).
  exists ([EvTx tx f] ++ t2 ++ t). cbn [queued]. rewrite E. cbn [bind backlog flat_map]. rewrite app_nil_r. unfold deliveries. rewrite R. cbn [bind]. rewrite IH. split; [reflexivity|].
  rewrite !notices_app, N2, N. cbn [notices filter is_notice app flat_map told_directly]. rewrite (proj1 S0), T. reflexivity.
Qed.
Lemma direct_commands : forall lw hears n ops w t, proper_hashes w -> hears_existing w hears -> Forall (direct_command w hears) ops ->
  exists t', rexec lw (SpecBus.direct hears) (S (S n)) (ops_code ops) (mkR w t) = (Ok tt, mkR w (t ++ t')) /\ notices t' = flat_map (told_directly w hears) ops.
Proof.
  intros lw hears n ops w t P H F. destruct (queued_commands lw hears w ops F) as (t' & E & N). exists t'. split; [|exact N].
  apply direct_queued; assumption.
Qed.

(** ** Repeaters *)
Section Repeaters.
Variable lw : Z.
Variable react : list event -> code.
Variable hears : nat -> list nat.
Variable w : world.
Hypothesis D : delivers react hears.
Hypothesis R : repeats react w.
Hypothesis RI : ring w hears.
Definition stuck (a : ract unit) (t : list event) (n : nat) : Prop :=
  exists s', a (mkR w t) = (UB TooDeep, s') /\ frames_given (r_t s') = (frames_given t + n)%nat.
Lemma given_app : forall a b, frames_given (a ++ b) = (frames_given a + frames_given b)%nat.
Proof. intros. unfold frames_given, sent. rewrite map_app, concat_app, app_length. reflexivity. Qed.
Lemma stuck_bind : forall (a : ract unit) (b : unit -> ract unit) t n, stuck a t n -> stuck (rbind a b) t n.
Proof. intros a b t n (s' & E & H). exists s'. split; [|exact H]. unfold rbind. rewrite E. reflexivity. Qed.
Lemma stuck_ask : forall A (g : world -> res A) x (f : A -> ract unit) t n, g w = Ok x -> stuck (f x) t n -> stuck (rbind (rask g) f) t n.
Proof. intros A g x f t n G (s' & E & H). exists s'. split; [|exact H]. unfold rbind, rask. cbn [r_w]. rewrite G. exact E. Qed.
Lemma stuck_print : forall b (f : ract unit) t n, (forall t, stuck f t n) -> stuck (rlift (print b) ~;; f) t n.
Proof.
  intros b f t n H. unfold print, rlift, rbind, emit. destruct (H (t ++ [EvPrint b])) as (s' & E & K). exists s'. cbn [r_w r_t]. split; [exact E|].
  rewrite K, given_app. cbn. lia.
Qed.
Lemma ring_station : forall s st, nth_error (w_stations w) s = Some st -> is_u16 (st_hash st) /\
  exists tx a i st', cb_tx (st_cbs st) = Some tx /\ cb_acc (st_cbs st) = Some a /\ In i (firstn 1 (hears tx)) /\ nth_error (w_stations w) i = Some st'.
Proof.
  intros s st E. destruct RI as (P & H & F). pose proof (nth_forall _ _ _ _ _ P E) as U. pose proof (nth_forall _ _ _ _ _ F E) as (A & tx & T & L).
  split; [exact U|]. destruct (cb_acc (st_cbs st)) as [a|]; [|congruence]. destruct (hears tx) as [|i l] eqn:HE; [congruence|].
  specialize (H tx). rewrite HE in H. inversion H; subst. destruct (len_nth _ (w_stations w) i) as (st' & E'); [assumption|]. exists tx, a, i, st'.
  rewrite HE. cbn. auto.
Qed.
Definition accessory (f : CanFrame) : Prop := id_getCommand (fid f) = kAccessorySwitch.
Lemma forever : forall n,
  (forall s st x p d pw k t, nth_error (w_stations w) s = Some st -> stuck (rexec lw react n (Call (OnStation s (SendAccessoryPacket x p d pw)) k)) t (Nat.div2 (S n))) /\
  (forall s st f k t, nth_error (w_stations w) s = Some st -> accessory f -> stuck (rexec lw react n (Call (OnStation s (HandlePacket f)) k)) t (Nat.div2 n)).
Proof.
  induction n as [|n [IH1 IH2]].
  - split; intros; eexists; (split; [reflexivity|cbn [r_t Nat.div2]; lia]).
  - split.
    + intros s st x p d pw k t E. destruct (ring_station s st E) as (U & tx & a & i & st' & T & _ & I & E').
      change (rexec lw react (S n) (Call (OnStation s (SendAccessoryPacket x p d pw)) k)) with (rstep lw react (rexec lw react n) (OnStation s (SendAccessoryPacket x p d pw)) ~;; (fun s => rexec lw react (S n) (k (r_w s) (r_t s)) s)).
      apply stuck_bind. cbn [rstep rst_step]. unfold rst_sendOwn. assert (G : get_station s w = Ok st) by (unfold get_station, at_; rewrite E; reflexivity).
      eapply stuck_ask; [exact G|]. unfold rtx_send. eapply stuck_ask; [exact G|]. rewrite T. eapply stuck_ask; [reflexivity|].
      unfold ucall, rbind, rlift, emit, stuck. cbn [r_w r_t]. rewrite D. unfold deliveries. destruct (hears tx) as [|j l]; [contradiction|].
      destruct I as [->|[]]. cbn [map ops_code].
      destruct (IH2 i st' (st_frame st kAccessorySwitch (accessory_data x p d pw)) (fun _ _ => ops_code (map (fun s0 => OnStation s0 (HandlePacket (st_frame st kAccessorySwitch (accessory_data x p d pw)))) l)) (t ++ [EvTx tx (st_frame st kAccessorySwitch (accessory_data x p d pw))]) E') as (s' & X & Y).
      { unfold accessory, st_frame. cbn [fid]. rewrite mkId_value; [apply id_getCommand_value; apply hash_fields|..]; try (unfold byte; cbv; split; congruence); exact U. }
      exists s'. split; [exact X|]. rewrite Y, given_app. unfold frames_given at 2. cbn [sent map List.concat app List.length Nat.div2]. lia.
    + intros s st f k t E A. destruct (ring_station s st E) as (U & tx & a & _ & _ & _ & AC & _).
      change (rexec lw react (S n) (Call (OnStation s (HandlePacket f)) k)) with (rstep lw react (rexec lw react n) (OnStation s (HandlePacket f)) ~;; (fun s => rexec lw react (S n) (k (r_w s) (r_t s)) s)).
      apply stuck_bind. cbn [rstep rst_step]. unfold rst_handlePacket. cbv zeta. unfold accessory in A. rewrite A. cbn -[rst_handleAccessoryPacket puts Nat.div2]. unfold puts. apply stuck_print. intros t1.
      apply stuck_bind. unfold rst_handleAccessoryPacket. apply stuck_print. intros t2. eapply stuck_ask; [unfold get_station, at_; rewrite E; reflexivity|].
      rewrite AC. cbn [rwhen_some]. unfold ucall, rbind, rlift, emit, stuck. cbn [r_w r_t].
      destruct (R s st a E AC t2 (fdata f) (id_isResponse (fid f))) as (x & p & d & pw & k' & RE). rewrite RE.
      destruct (IH1 s st x p d pw k' (t2 ++ [EvAccessory a (fdata f) (id_isResponse (fid f))]) E) as (s' & X & Y). exists s'. split; [exact X|].
      rewrite Y, given_app. change (frames_given [EvAccessory a (fdata f) (id_isResponse (fid f))]) with 0%nat.
 lia.
Qed.
End Repeaters.
Lemma repeaters : forall lw react hears w, delivers react hears -> repeats react w -> ring w hears ->
  forall n s st x p d pw k t, nth_error (w_stations w) s = Some st ->
  exists s', rexec lw react n (Call (OnStation s (SendAccessoryPacket x p d pw)) k) (mkR w t) = (UB TooDeep, s') /\
             frames_given (r_t s') = (frames_given t + Nat.div2 (S n))%nat.
Proof. intros lw react hears w D R RI n s st x p d pw k t E. exact (proj1 (forever lw react hears w D R RI n) s st x p d pw k t E). Qed.
