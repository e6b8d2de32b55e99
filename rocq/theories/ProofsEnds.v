(* ProofsEnds.v -- proofs for C71. *)
From Verif Require Import ZLib SpecEnds ProofsWorld ProofsStation ProofsRequest ProofsStream.

Definition startcalls (t : list event) : nat := List.length (filter is_start_call t).
Lemma startcalls_app : forall a b, startcalls (a ++ b) = (startcalls a + startcalls b)%nat.
Proof. intros. unfold startcalls. rewrite filter_app, app_length. reflexivity. Qed.
Lemma endcb_app : forall a b, end_callbacks (a ++ b) = end_callbacks a ++ end_callbacks b. Proof. intros. apply filter_app. Qed.
Lemma conscalls_app : forall a b, consumer_calls (a ++ b) = consumer_calls a ++ consumer_calls b. Proof. intros. apply filter_app. Qed.

Definition good (a : act) : Prop := forall w w' t, a w = Ok (w', t) ->
  (List.length (ends t) + open_streams w' <= open_streams w + startcalls t)%nat /\
  (List.length (end_callbacks t) <= List.length (ends t))%nat /\
  (open_streams w = 0%nat -> startcalls t = 0%nat -> consumer_calls t = []).
Definition plain (e : event) : bool := negb (is_consumer_call e) && negb (is_start_call e).
Lemma plain_all : forall t, Forall (fun e => plain e = true) t -> ends t = [] /\ startcalls t = 0%nat /\ end_callbacks t = [] /\ consumer_calls t = [].
Proof.
  intros t H. unfold startcalls. induction H as [|e t P _ (A & B & C & D)]; [repeat split|].
  unfold ends, end_callbacks, consumer_calls in *. cbn [filter]. rewrite A, C, D.
  destruct e; try discriminate P; cbn [is_end is_start_call is_end_callback is_consumer_call]; auto. destruct c; try discriminate P; auto.
Qed.
Definition neutral (a : act) : Prop := forall w w' t, a w = Ok (w', t) -> w_parsers w' = w_parsers w /\ Forall (fun e => plain e = true) t.
Lemma good_neutral : forall a, neutral a -> good a.
Proof.
  intros a N w w' t H. apply N in H. destruct H as (P & F). destruct (plain_all _ F) as (A & B & C & D). rewrite A, B, C. unfold open_streams. rewrite P. cbn. split; [lia|]. split; [lia|auto].
Qed.
Lemma good_seq : forall a b, good a -> good b -> good (World.seq a b).
Proof.
  intros a b A B w w' t H. apply seq_inv in H. destruct H as (w1 & t1 & t2 & H1 & H2 & ->). apply A in H1. apply B in H2.
  destruct H1 as (A1 & A2 & A3), H2 as (B1 & B2 & B3). rewrite ends_app, startcalls_app, endcb_app, conscalls_app, !app_length. split; [lia|]. split; [lia|].
  intros O S. rewrite A3, B3 by lia. reflexivity.
Qed.
Lemma good_ask : forall A (f : world -> res A) k, (forall x, good (k x)) -> good (ask f k).
Proof. intros A f k K w w' t H. apply ask_inv in H. destruct H as (x & _ & H). exact (K x _ _ _ H). Qed.
Lemma good_skip : good skip.
Proof. apply good_neutral. intros w w' t H. inversion H; subst. auto. Qed.
Lemma good_emit : forall e, plain e = true -> good (emit e).
Proof. intros e P. apply good_neutral. intros w w' t H. inversion H; subst. split; [reflexivity|]. constructor; [exact P|constructor]. Qed.
Lemma good_when : forall A (q : option A) k, (forall x, good (k x)) -> good (when_some q k).
Proof. intros A [x|] k K; cbn [when_some]; [apply K|apply good_skip]. Qed.
Lemma good_if : forall (b : bool) a c, good a -> good c -> good (if b then a else c).
Proof. intros [] a c A C; assumption. Qed.
Lemma good_fail : forall u, good (fail u). Proof. intros u w w' t H. discriminate. Qed.

(** ** Parsers *)
Lemma open_upd : forall l p x y, nth_error l p = Some x ->
  (List.length (filter open_obj (upd p y l)) + (if open_obj x then 1 else 0) = List.length (filter open_obj l) + (if open_obj y then 1 else 0))%nat.
Proof.
  induction l as [|z l IH]; intros [|p] x y H; cbn [nth_error] in H; try discriminate.
  - injection H as ->. cbn [upd filter]. destruct (open_obj x), (open_obj y); cbn [List.length]; lia.
  - cbn [upd filter]. specialize (IH p x y H). destruct (open_obj z); cbn [List.length]; lia.
Qed.
Definition polite (a : act) : Prop := forall w w' t, a w = Ok (w', t) -> startcalls t = 0%nat /\ (List.length (end_callbacks t) <= List.length (ends t))%nat.
Definition mute (a : act) : Prop := forall w w' t, a w = Ok (w', t) -> startcalls t = 0%nat /\ end_callbacks t = [].
Lemma polite_mute : forall a, mute a -> polite a.
Proof. intros a M w w' t H. apply M in H. destruct H as (A & B). rewrite B. cbn. split; [exact A|lia]. Qed.
Lemma polite_seq : forall a b, polite a -> polite b -> polite (World.seq a b).
Proof.
  intros a b A B w w' t H. apply seq_inv in H. destruct H as (w1 & t1 & t2 & H1 & H2 & ->). apply A in H1. apply B in H2. destruct H1, H2.
  rewrite startcalls_app, endcb_app, ends_app, !app_length. split; lia.
Qed.
Lemma polite_ask : forall A (f : world -> res A) k, (forall x, polite (k x)) -> polite (ask f k).
Proof. intros A f k K w w' t H. apply ask_inv in H. destruct H as (x & _ & H). exact (K x _ _ _ H). Qed.
Lemma polite_when : forall A (q : option A) k, (forall x, polite (k x)) -> polite (when_some q k).
Proof. intros A [x|] k K; cbn [when_some]; [apply K|]. apply polite_mute. intros w w' t H. inversion H; subst. auto. Qed.
Lemma polite_if : forall (b : bool) a c, polite a -> polite c -> polite (if b then a else c).
Proof. intros [] a c A C; assumption. Qed.
Lemma polite_put : forall p x, polite (put_parser p x).
Proof. intros p x w w' t H. inversion H; subst. cbn. auto. Qed.
Lemma polite_print : forall x, polite (print x).
Proof. intros x w w' t H. inversion H; subst. cbn. auto. Qed.
Lemma polite_skip : polite skip.
Proof. intros w w' t H. inversion H; subst. cbn. auto. Qed.
Lemma mute_seq : forall a b, mute a -> mute b -> mute (World.seq a b).
Proof.
  intros a b A B w w' t H. apply seq_inv in H. destruct H as (w1 & t1 & t2 & H1 & H2 & ->). apply A in H1. apply B in H2. destruct H1 as [? X], H2 as [? Y].
  rewrite startcalls_app, endcb_app, X, Y. split; [lia|reflexivity].
Qed.
Lemma mute_ask : forall A (f : world -> res A) k, (forall x, mute (k x)) -> mute (ask f k).
Proof. intros A f k K w w' t H. apply ask_inv in H. destruct H as (x & _ & H). exact (K x _ _ _ H). Qed.
Lemma mute_emit : forall e, is_end_callback e = false -> is_start_call e = false -> mute (emit e).
Proof. intros e P Q w w' t H. inversion H; subst. unfold startcalls, end_callbacks. cbn [filter]. rewrite P, Q. auto. Qed.
Lemma mute_put_cons : forall c x, mute (put_cons c x). Proof. intros c x w w' t H. inversion H; subst. auto. Qed.
Lemma mute_put_engine : forall c x, mute (put_engine c x). Proof. intros c x w w' t H. inversion H; subst. auto. Qed.
Lemma mute_skip : mute skip. Proof. intros w w' t H. inversion H; subst. auto. Qed.
Lemma mute_print_res : forall r, mute (print_res r).
Proof. intros r. unfold print_res. apply mute_ask. intros x. apply mute_emit; reflexivity. Qed.
Lemma mute_consume : forall lw c s k v, mute (cons_consume lw c s k v).
Proof.
  intros lw c s k v. unfold cons_consume. apply mute_seq; [apply mute_emit; reflexivity|]. apply mute_ask. intros [engine cb|co infos n off cb|].
  - unfold loco_consume. apply mute_ask. intros [e|]; [|apply mute_skip]. apply mute_ask. intros l. apply mute_ask. intros l'. apply mute_put_engine.
  - unfold list_consume. apply mute_ask. intros [].
    + destruct (findFirstFreeEntry infos); [|apply mute_emit; reflexivity]. apply mute_ask. intros text. apply mute_seq; [apply mute_emit; reflexivity|]. apply mute_ask. intros si. apply mute_put_cons.
    + apply mute_ask. intros [].
      * apply mute_ask. intros []; [|apply mute_skip]. apply mute_ask. intros x. apply mute_put_cons.
      * apply mute_ask. intros text. apply mute_emit; reflexivity.
  - apply mute_skip.
Qed.
Lemma mute_consume_all : forall lw c l, mute (cons_consume_all lw c l).
Proof. induction l as [|[[s k] v] l IH]; cbn [cons_consume_all]; [apply mute_skip|]. apply mute_seq; [apply mute_consume|exact IH]. Qed.
(** an end notification and then at most one end callback *)
Definition once (a : act) : Prop := forall w w' t, a w = Ok (w', t) -> startcalls t = 0%nat /\ (List.length (end_callbacks t) <= 1)%nat.
Lemma polite_told : forall e a, is_end e = true -> once a -> polite (World.seq (emit e) a).
Proof.
  intros e a E O w w' t H. apply seq_inv in H. destruct H as (w1 & t1 & t2 & H1 & H2 & ->). apply O in H2. destruct H2. inversion H1; subst.
  destruct e; try discriminate E; unfold startcalls in *; cbn [app filter is_start_call end_callbacks is_end_callback ends is_end List.length]; split; try assumption; fold (ends t2); fold (end_callbacks t2); lia.
Qed.
Lemma once_mute_seq : forall a b, mute a -> once b -> once (World.seq a b).
Proof.
  intros a b A B w w' t H. apply seq_inv in H. destruct H as (w1 & t1 & t2 & H1 & H2 & ->). apply A in H1. apply B in H2. destruct H1 as [? X], H2.
  rewrite startcalls_app, endcb_app, X. cbn [app]. split; [lia|assumption].
Qed.
Lemma once_ask : forall A (f : world -> res A) k, (forall x, once (k x)) -> once (ask f k).
Proof. intros A f k K w w' t H. apply ask_inv in H. destruct H as (x & _ & H). exact (K x _ _ _ H). Qed.
Lemma once_skip : once skip. Proof. intros w w' t H. inversion H; subst. cbn. auto. Qed.
Lemma once_emit : forall e, is_start_call e = false -> once (emit e).
Proof. intros e P w w' t H. inversion H; subst. unfold startcalls, end_callbacks. cbn [filter]. rewrite P. destruct (is_end_callback e); cbn; auto. Qed.
Lemma once_cb : forall (q : mu (option nat)) (e : nat -> event), (forall x, is_start_call (e x) = false) -> once (ask (fun _ => mread q) (fun cb => when_some cb (fun cb => emit (e cb)))).
Proof. intros q e E. apply once_ask. intros [x|]; cbn [when_some]; [apply once_emit, E|apply once_skip]. Qed.
Lemma polite_complete : forall c, polite (cons_complete c).
Proof.
  intros c. unfold cons_complete. apply polite_told; [reflexivity|]. apply once_ask. intros [engine cb|co infos n off cb|].
  - apply once_ask. intros [e|]; [|apply once_skip]. apply once_ask. intros l. apply once_mute_seq; [apply mute_put_engine|].
    apply once_mute_seq; [apply mute_emit; reflexivity|]. apply once_mute_seq; [apply mute_print_res|]. apply once_mute_seq; [apply mute_emit; reflexivity|].
    apply (once_cb cb (fun cb => EvEndComplete cb c)). reflexivity.
  - apply once_mute_seq; [apply mute_put_cons|]. apply (once_cb cb (fun cb => EvEndComplete cb c)). reflexivity.
  - apply once_skip.
Qed.
Lemma polite_aborted : forall c, polite (cons_aborted c).
Proof.
  intros c. unfold cons_aborted. apply polite_told; [reflexivity|]. apply once_ask. intros [engine cb|co infos n off cb|].
  - apply (once_cb cb (fun cb => EvEndAborted cb c)). reflexivity.
  - apply once_mute_seq; [apply mute_put_cons|]. apply (once_cb cb (fun cb => EvEndAborted cb c)). reflexivity.
  - apply once_skip.
Qed.
Lemma polite_reset : forall p, polite (lib_reset p).
Proof.
  intros p. unfold lib_reset. apply polite_ask. intros sp. apply polite_seq; [apply polite_if; [apply polite_when; apply polite_aborted|apply polite_skip]|].
  apply polite_ask. intros sp'. apply polite_ask. intros t. apply polite_put.
Qed.
Lemma polite_add : forall lw p d, polite (lib_addMessage lw p d).
Proof.
  intros lw p d. unfold lib_addMessage. apply polite_ask. intros sp. destruct (sp_state sp); try apply polite_print.
  - apply polite_if; [|apply polite_if; (apply polite_seq; [apply polite_print|apply polite_reset])]. cbv zeta.
    apply polite_if; [apply polite_put|]. apply polite_seq; [apply polite_put|]. apply polite_when. apply polite_complete.
  - apply polite_if; [apply polite_seq; [apply polite_print|apply polite_reset]|]. cbv zeta. apply polite_ask. intros crc. apply polite_ask. intros te.
    apply polite_seq; [apply polite_put|]. apply polite_seq; [apply polite_when; intros c; apply polite_mute, mute_consume_all|].
    apply polite_if; [|apply polite_skip]. apply polite_ask. intros []; (apply polite_seq; [apply polite_put|]); apply polite_when; [apply polite_complete|apply polite_aborted].
Qed.

Lemma open_pot : forall w p sp sp', lib_at w p sp -> forall l, l = upd p (LibP sp') (w_parsers w) ->
  (List.length (filter open_obj l) + pot sp = open_streams w + pot sp')%nat.
Proof. intros w p sp sp' L l ->. unfold open_streams, pot. exact (open_upd _ _ _ (LibP sp') L). Qed.
Lemma closed_here : forall w p sp, lib_at w p sp -> open_streams w = 0%nat -> in_progress sp = false.
Proof.
  intros w p sp L O. unfold open_streams in O. destruct (in_progress sp) eqn:I; [|reflexivity]. exfalso.
  assert (In (LibP sp) (filter open_obj (w_parsers w))) by (apply filter_In; split; [eapply nth_error_In; exact L|exact I]).
  destruct (filter open_obj (w_parsers w)); [assumption|discriminate O].
Qed.
Lemma good_reset : forall p, good (lib_reset p).
Proof.
  intros p w w' t H. pose proof (polite_reset p _ _ _ H) as (S0 & EC).
  assert (L : exists sp, lib_at w p sp) by (pose proof H as X; unfold lib_reset in X; apply ask_inv in X; destruct X as (sp & G & _); exists sp; apply lib_inv; exact G).
  destruct L as (sp & L). destruct (reset_inv _ _ sp _ _ L H) as (tx & T & P & _ & E).
  pose proof (open_pot w p sp _ L _ P) as B. split; [|split; [exact EC|]].
  - unfold open_streams at 1. rewrite E. unfold pot in B. cbn in B. destruct (note_len (sp_cons sp)). destruct (in_progress sp); cbn [List.length]; lia.
  - intros O _. pose proof (closed_here _ _ _ L O) as C. unfold lib_reset in H. rewrite (ask_ok _ _ _ _ _ (lib_get _ _ _ L)) in H.
    unfold in_progress in C. replace (ss_processing (sp_state sp)) with false in H by (destruct (sp_state sp); try reflexivity; discriminate C).
    apply seq_inv in H. destruct H as (w1 & t1 & t2 & H1 & H2 & ->). inversion H1; subst. apply ask_inv in H2. destruct H2 as (x & _ & H2). apply ask_inv in H2. destruct H2 as (y & _ & H2). inversion H2; subst. reflexivity.
Qed.
Lemma good_add : forall lw p d, good (lib_addMessage lw p d).
Proof.
  intros lw p d w w' t H. pose proof (polite_add lw p d _ _ _ H) as (S0 & EC).
  assert (L : exists sp, lib_at w p sp) by (pose proof H as X; unfold lib_addMessage in X; apply ask_inv in X; destruct X as (sp & G & _); exists sp; apply lib_inv; exact G).
  destruct L as (sp & L). destruct (add_inv _ _ _ sp _ _ _ L H) as (sp' & e & A & P & _ & E).
  pose proof (open_pot w p sp sp' L _ P) as B. pose proof (added_pot _ _ _ _ A) as Q. split; [|split; [exact EC|]].
  - unfold open_streams at 1. rewrite E. lia.
  - intros O _. pose proof (closed_here _ _ _ L O) as C. unfold lib_addMessage in H. rewrite (ask_ok _ _ _ _ _ (lib_get _ _ _ L)) in H.
    unfold in_progress in C. destruct (sp_state sp); try discriminate C; inversion H; subst; reflexivity.
Qed.
Lemma good_cfg_call : forall lw p c, good (cfg_call lw p c).
Proof.
  intros lw p c w w' t H. unfold cfg_call in H. apply seq_inv in H. destruct H as (w1 & t1 & t2 & H1 & H2 & ->). inversion H1; subst. clear H1.
  apply ask_inv in H2. destruct H2 as (o & G & H2). unfold get_parser, at_ in G. destruct (nth_error (w_parsers w1) p) as [x|] eqn:N; [|discriminate]. injection G as ->.
  destruct o as [sp|beh h].
  - destruct c as [|d|].
    + inversion H2; subst. pose proof (open_pot w1 p sp (sp_startStream sp) N _ eq_refl) as B. unfold open_streams at 1. cbn [w_parsers app ends filter is_end List.length startcalls is_start_call end_callbacks is_end_callback consumer_calls is_consumer_call].
      unfold pot in B. cbn in B. split; [unfold startcalls; cbn; lia|]. split; [lia|]. reflexivity.
    + destruct (good_add lw p d _ _ _ H2) as (A & B & C). unfold startcalls in *. cbn. auto.
    + destruct (good_reset p _ _ _ H2) as (A & B & C). unfold startcalls in *. cbn. auto.
  - inversion H2; subst. pose proof (open_upd _ _ _ (UserP beh (h ++ [c])) N) as B. cbn [open_obj] in B. unfold open_streams at 1. cbn [w_parsers app].
    fold (open_streams w1) in B. destruct c; unfold startcalls; cbn; split; [lia|split; [lia|reflexivity]|lia|split; [lia|reflexivity]|lia|split; [lia|reflexivity]].
Qed.

(** ** Stations *)
Lemma good_put_station : forall s x, good (put_station s x).
Proof. intros s x. apply good_neutral. intros w w' t H. inversion H; subst. auto. Qed.
Lemma good_print : forall x, good (print x). Proof. intros. apply good_emit. reflexivity. Qed.
Lemma good_print_res : forall r, good (print_res r).
Proof. intros r. unfold print_res. apply good_ask. intros x. apply good_print. Qed.
Ltac gwalk := repeat (cbv zeta; lazymatch goal with
  | |- good (World.seq _ _) => apply good_seq
  | |- good (ask _ _) => apply good_ask; intros ?x
  | |- good (when_some _ _) => apply good_when; intros ?x
  | |- good (if ?b then _ else _) => destruct b
  | |- good (emit _) => apply good_emit; reflexivity
  | |- good (print _) => apply good_print
  | |- good (puts _) => apply good_print
  | |- good (print_res _) => apply good_print_res
  | |- good skip => apply good_skip
  | |- good (fail _) => apply good_fail
  | |- good (put_station _ _) => apply good_put_station
  | |- good (cfg_call _ _ _) => apply good_cfg_call
  end).
Lemma good_finish : forall lw s, good (st_finish lw s).
Proof. intros lw s. unfold st_finish. gwalk. Qed.
Lemma good_tx : forall c f, good (tx_send c f).
Proof. intros. unfold tx_send. gwalk. Qed.
Lemma good_system : forall s i d, good (st_handleSystemCommand s i d).
Proof. intros. unfold st_handleSystemCommand. gwalk. Qed.
Lemma good_accessory : forall s d r, good (st_handleAccessoryPacket s d r).
Proof. intros. unfold st_handleAccessoryPacket. gwalk. Qed.
Lemma good_config : forall lw s d, good (st_handleConfigDataStream lw s d).
Proof. intros. unfold st_handleConfigDataStream. apply good_ask. intros st. apply good_ask. intros [p|]; gwalk. Qed.
Lemma good_direction : forall s d, good (st_handleLocoDirection s d).
Proof. intros. unfold st_handleLocoDirection. gwalk. Qed.
Lemma good_speed : forall s d, good (st_handleLocoSpeed s d).
Proof. intros. unfold st_handleLocoSpeed. gwalk. Qed.
Lemma good_function : forall s d, good (st_handleLocoFunction s d).
Proof. intros. unfold st_handleLocoFunction. gwalk. Qed.
Lemma good_handle : forall lw s f, good (st_handlePacket lw s f).
Proof.
  intros lw s f. unfold st_handlePacket. gwalk; lazymatch goal with
    | |- good (st_handleSystemCommand _ _ _) => apply good_system
    | |- good (st_handleAccessoryPacket _ _ _) => apply good_accessory
    | |- good (st_handleConfigDataStream _ _ _) => apply good_config
    | |- good (st_handleLocoDirection _ _) => apply good_direction
    | |- good (st_handleLocoSpeed _ _) => apply good_speed
    | |- good (st_handleLocoFunction _ _) => apply good_function
    end.
Qed.
Lemma good_list : forall lw s off q, good (st_requestEngineList lw s off q).
Proof.
  intros. unfold st_requestEngineList. apply good_seq; [apply good_finish|]. apply good_ask. intros st. apply good_seq; [apply good_put_station|]. apply good_ask. intros b1.
  cbv zeta. destruct (snprintf9 (list_request_text off)) as [b2 n]. gwalk; apply good_tx.
Qed.
Lemma good_engine : forall lw s e q, good (st_requestEngine lw s e q).
Proof.
  intros. unfold st_requestEngine. gwalk; lazymatch goal with |- good (tx_send _ _) => apply good_tx | |- good (st_abort _ _) => apply good_finish end.
Qed.
Lemma good_sendPacket : forall s f, good (st_sendPacket s f).
Proof. intros. unfold st_sendPacket. apply good_ask. intros st. apply good_tx. Qed.
Lemma good_functions : forall st u n i, good (send_functions st u i n).
Proof. intros st u n. induction n as [|n IH]; intros i; cbn [send_functions]; [apply good_skip|]. apply good_seq; [apply good_tx|apply IH]. Qed.
Lemma good_keep : forall a : act, (forall w w' t, a w = Ok (w', t) -> w_parsers w' = w_parsers w /\ t = []) -> good a.
Proof. intros a A. apply good_neutral. intros w w' t H. apply A in H. destruct H as [H ->]. auto. Qed.
Lemma good_step : forall lw o, is_start o = false -> good (step lw o).
Proof.
  intros lw o O. destruct o; cbn [step is_start] in *; try discriminate O.
  - destruct o; cbn [st_step].
    all: lazymatch goal with
       | |- context [skip] => apply good_skip
       | |- context [st_begin] => unfold st_begin; apply good_seq; [apply good_finish|gwalk]
       | |- context [st_handlePacket] => apply good_handle
       | |- context [st_handleAccessoryPacket] => apply good_accessory
       | |- context [st_handleConfigDataStream] => apply good_config
       | |- context [st_handleSystemCommand] => apply good_system
       | |- context [st_handleLocoDirection] => apply good_direction
       | |- context [st_handleLocoSpeed] => apply good_speed
       | |- context [st_handleLocoFunction] => apply good_function
       | |- context [st_finish] => apply good_finish
       | |- context [st_abort] => apply good_finish
       | |- context [st_requestEngineList] => apply good_list
       | |- context [st_requestEngine] => apply good_engine
       | |- context [st_sendPacket] => apply good_sendPacket
       | |- _ => idtac
       end.
    all: unfold st_sendAccessoryPacket, st_requestEngineDirection, st_sendEngineDirection, st_requestEngineVelocity, st_sendEngineVelocity,
         st_requestEngineFunction, st_requestEngineAllFunctions, st_sendEngineFunction, st_sendEmergencyStop, st_sendSystemStop, st_sendSystemGo.
    all: lazymatch goal with
       | |- context [if _ then st_sendPacket _ _ else skip] => apply good_if; [apply good_sendPacket|apply good_skip]
       | |- context [st_sendPacket] => apply good_sendPacket
       | |- context [send_functions] => apply good_ask; intros st; apply good_functions
       | |- _ => apply good_ask; intros st; cbv zeta; apply good_tx
       end.
  - intros w w' t H. apply ask_inv in H. destruct H as (sp & G & H). apply lib_inv in G. inversion H; subst.
    pose proof (open_pot w p sp (sp_setConsumer sp c) G _ eq_refl) as B. unfold open_streams at 1. cbn [w_parsers]. unfold pot, in_progress in B. cbn in B |- *.
    destruct (sp_state sp); unfold startcalls; cbn in *; split; [lia|split; [lia|reflexivity]|lia|split; [lia|reflexivity]|lia|split; [lia|reflexivity]|lia|split; [lia|reflexivity]].
  - apply good_add.
  - apply good_reset.
  - apply good_ask. intros []; try apply good_fail; apply good_keep; intros w w' t H; inversion H; subst; auto.
  - apply good_ask. intros []; try apply good_fail; apply good_keep; intros w w' t H; inversion H; subst; auto.
  - apply good_ask. intros []; try apply good_fail; apply good_keep; intros w w' t H; inversion H; subst; auto.
  - apply good_ask. intros []; try apply good_fail; apply good_keep; intros w w' t H; inversion H; subst; auto.
  - apply good_ask. intros []; try apply good_fail; apply good_keep; intros w w' t H; inversion H; subst; auto.
  - apply good_ask. intros []; try apply good_fail. apply good_ask. intros n. gwalk.
  - apply good_ask. intros l. apply good_ask. intros l'. apply good_keep. intros w w' t H. inversion H; subst; auto.
Qed.
Lemma good_start : forall lw p w w' t, step lw (ParserStartStream p) w = Ok (w', t) -> t = [] /\ (open_streams w' <= open_streams w + 1)%nat.
Proof.
  intros lw p w w' t H. cbn [step] in H. apply ask_inv in H. destruct H as (sp & G & H). apply lib_inv in G. inversion H; subst. split; [reflexivity|].
  pose proof (open_pot w p sp (sp_startStream sp) G _ eq_refl) as B. unfold open_streams at 1. cbn [w_parsers]. unfold pot in B. cbn in B. lia.
Qed.
Lemma run_ends : forall lw ops w w' t, run lw ops w = Ok (w', t) ->
  (List.length (ends t) + open_streams w' <= open_streams w + stream_starts ops t)%nat /\
  (List.length (end_callbacks t) <= List.length (ends t))%nat /\
  (open_streams w = 0%nat -> stream_starts ops t = 0%nat -> consumer_calls t = []).
Proof.
  intros lw ops. unfold stream_starts. induction ops as [|o ops IH]; intros w w' t H; cbn [run] in H.
  - inversion H; subst. cbn. split; [lia|]. split; [lia|auto].
  - apply seq_inv in H. destruct H as (w1 & t1 & t2 & H1 & H2 & ->). destruct (IH _ _ _ H2) as (A & B & C).
    fold (startcalls t2) in A, C. fold (startcalls (t1 ++ t2)). rewrite startcalls_app, ends_app, endcb_app, conscalls_app, !app_length. cbn [filter].
    destruct (is_start o) eqn:S0.
    + destruct o; try discriminate S0. destruct (good_start _ _ _ _ _ H1) as (-> & D). cbn [List.length app]. unfold startcalls at 1 3. cbn [filter List.length ends end_callbacks].
      split; [cbn; lia|]. split; [exact B|]. intros _ X. discriminate X.
    + destruct (good_step lw o S0 _ _ _ H1) as (D & E & F). split; [lia|]. split; [lia|]. intros O S1. rewrite F, C by lia. reflexivity.
Qed.
