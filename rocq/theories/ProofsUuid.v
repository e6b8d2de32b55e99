(** * Proofs for C120 *)

From Coq Require Import ZArith List Bool Lia.
From Verif Require Import CTypes Messages World ZLib SpecCodec ProofsCodec SpecStation ProofsStation Reentry SpecUuid.
Import ListNotations.
Open Scope Z_scope.

Definition Rel (a b : act) : Prop := forall w v, world_alike w v -> outcome_alike (a w) (b v).

Lemma rel_skip : Rel skip skip.
Proof. intros w v H. constructor; [exact H|constructor]. Qed.
Lemma rel_emit : forall e f, event_alike e f -> Rel (emit e) (emit f).
Proof. intros e f E w v H. constructor; [exact H|repeat constructor; exact E]. Qed.
Lemma rel_fail : forall u, Rel (fail u) (fail u).
Proof. intros u w v H. constructor. Qed.
Lemma rel_seq : forall a b c d, Rel a c -> Rel b d -> Rel (World.seq a b) (World.seq c d).
Proof.
  intros a b c d A B w v H. unfold World.seq. specialize (A w v H). inversion A as [u E1 E2 | w1 v1 t1 s1 A1 A2 E1 E2].
  - cbn [bind]. constructor.
  - cbn [bind]. specialize (B w1 v1 A1). inversion B as [u F1 F2 | w2 v2 t2 s2 B1 B2 F1 F2]; cbn [bind].
    + constructor.
    + constructor; [exact B1|]. apply Forall2_app; assumption.
Qed.
Lemma rel_ask : forall A (f : world -> res A) k l, (forall w v, world_alike w v -> f w = f v) ->
  (forall x, Rel (k x) (l x)) -> Rel (ask f k) (ask f l).
Proof.
  intros A f k l F K w v H. unfold ask. rewrite (F w v H). destruct (f v) as [x|u]; cbn [bind].
  - apply K. exact H.
  - constructor.
Qed.
Lemma rel_ask_station : forall s k l, (forall a b, station_alike a b -> Rel (k a) (l b)) ->
  Rel (ask (get_station s) k) (ask (get_station s) l).
Proof.
  intros s k l K w v H. unfold ask, get_station, at_. destruct H as (S & Rest).
  assert (N : match nth_error (w_stations w) s, nth_error (w_stations v) s with
              | Some a, Some b => station_alike a b | None, None => True | _, _ => False end).
  { clear Rest. revert s. induction S as [|a b l1 l2 AB S IH]; intros [|s]; cbn [nth_error]; try exact Logic.I; [exact AB|apply IH]. }
  destruct (nth_error (w_stations w) s) as [a|], (nth_error (w_stations v) s) as [b|]; cbn [bind]; try contradiction.
  - apply K; [exact N|]. split; assumption.
  - constructor.
Qed.
Lemma rel_when : forall A (p : option A) k l, (forall x, Rel (k x) (l x)) -> Rel (when_some p k) (when_some p l).
Proof. intros A [x|] k l K; [apply K|apply rel_skip]. Qed.

Lemma upd_forall2 : forall A (P : A -> A -> Prop) l m i x y, Forall2 P l m -> P x y -> Forall2 P (upd i x l) (upd i y m).
Proof.
  intros A P l m i x y F XY. revert i. induction F as [|a b l m AB F IH]; intros [|i]; cbn [upd]; try constructor; auto.
Qed.
Lemma rel_put_station : forall s a b, station_alike a b -> Rel (put_station s a) (put_station s b).
Proof.
  intros s a b AB w v (S & P & C & E). constructor; [|constructor].
  split; [|now split; [|split]]. cbn [w_stations]. now apply upd_forall2.
Qed.
Lemma rel_put_parser : forall p x, Rel (put_parser p x) (put_parser p x).
Proof.
  intros p x w v (S & P & C & E). constructor; [|constructor].
  split; [exact S|]. cbn. rewrite P. now split; [|split].
Qed.
Lemma rel_put_lib : forall p x, Rel (put_lib p x) (put_lib p x).
Proof. intros. apply rel_put_parser. Qed.
Lemma rel_put_cons : forall p x, Rel (put_cons p x) (put_cons p x).
Proof.
  intros p x w v (S & P & C & E). constructor; [|constructor].
  split; [exact S|]. cbn. rewrite C. now split; [|split].
Qed.
Lemma rel_put_engine : forall p x, Rel (put_engine p x) (put_engine p x).
Proof.
  intros p x w v (S & P & C & E). constructor; [|constructor].
  split; [exact S|]. cbn. rewrite E. now split; [|split].
Qed.
Lemma rel_print : forall b, Rel (print b) (print b).
Proof. intros. apply rel_emit. constructor. Qed.

(** expressions that do not look at the stations *)
Ltac same_expr :=
  let HP := fresh "HP" in let HC := fresh "HC" in let HE := fresh "HE" in
  intros ? ? (_ & HP & HC & HE);
  unfold get_lib, get_parser, get_cons, get_engine, get_short, cfg_isProcessing, get_parser, get_engine, get_cons;
  rewrite ?HP, ?HC, ?HE; reflexivity.

Ltac rel :=
  repeat match goal with
  | |- Rel skip skip => apply rel_skip
  | |- Rel (emit _) (emit _) => apply rel_emit; constructor
  | |- Rel (print _) (print _) => apply rel_print
  | |- Rel (puts _) (puts _) => apply rel_print
  | |- Rel (fail _) (fail _) => apply rel_fail
  | |- Rel (World.seq _ _) (World.seq _ _) => apply rel_seq
  | |- Rel (ask (get_station _) _) (ask (get_station _) _) => apply rel_ask_station; intros
  | |- Rel (ask _ _) (ask _ _) => apply rel_ask; [same_expr|intros]
  | |- Rel (when_some _ _) (when_some _ _) => apply rel_when; intros
  | |- Rel (put_parser _ _) (put_parser _ _) => apply rel_put_parser
  | |- Rel (put_lib _ _) (put_lib _ _) => apply rel_put_lib
  | |- Rel (put_cons _ _) (put_cons _ _) => apply rel_put_cons
  | |- Rel (put_engine _ _) (put_engine _ _) => apply rel_put_engine
  | |- Rel (print_res _) (print_res _) => unfold print_res
  | |- Rel (match ?x with _ => _ end) _ => destruct x
  end.

Section Long.
Variable lw : Z.

Lemma rel_loco_consume : forall e s k v, Rel (loco_consume lw e s k v) (loco_consume lw e s k v).
Proof. intros. unfold loco_consume. rel. Qed.
Lemma rel_list_consume : forall c co i n o e s k v, Rel (list_consume lw c co i n o e s k v) (list_consume lw c co i n o e s k v).
Proof. intros. unfold list_consume. rel. Qed.
Lemma rel_consume : forall c s k v, Rel (cons_consume lw c s k v) (cons_consume lw c s k v).
Proof.
  intros. unfold cons_consume. rel; [apply rel_loco_consume|apply rel_list_consume].
Qed.
Lemma rel_consume_all : forall c l, Rel (cons_consume_all lw c l) (cons_consume_all lw c l).
Proof.
  intros c l. induction l as [|[[s k] v] l IH]; cbn [cons_consume_all]; [apply rel_skip|].
  apply rel_seq; [apply rel_consume|exact IH].
Qed.
Lemma rel_complete : forall c, Rel (cons_complete c) (cons_complete c).
Proof. intros. unfold cons_complete. rel. Qed.
Lemma rel_aborted : forall c, Rel (cons_aborted c) (cons_aborted c).
Proof. intros. unfold cons_aborted. rel. Qed.
Lemma rel_lib_reset : forall p, Rel (lib_reset p) (lib_reset p).
Proof. intros. unfold lib_reset. rel; apply rel_aborted. Qed.
Lemma rel_lib_add : forall p d, Rel (lib_addMessage lw p d) (lib_addMessage lw p d).
Proof.
  intros. unfold lib_addMessage. rel; first [apply rel_lib_reset|apply rel_aborted|apply rel_complete|apply rel_consume_all].
Qed.
Lemma rel_cfg : forall p c, Rel (cfg_call lw p c) (cfg_call lw p c).
Proof. intros. unfold cfg_call. rel; first [apply rel_lib_add|apply rel_lib_reset]. Qed.

Lemma frame_alike_refl : forall f, frame_alike f f.
Proof. intros. split; reflexivity. Qed.

(** the hash never reaches the bits above it *)
Lemma set_hash_high : forall i j g h, id_alike i j -> 0 <= g < 65536 -> 0 <= h < 65536 ->
  id_alike (id_setHash i g) (id_setHash j h).
Proof.
  unfold id_alike, id_setHash. intros i j g h H G L. change 65536 with (2 ^ 16) in *.
  rewrite <- !Z.shiftr_div_pow2 in * by lia. rewrite !Z.shiftr_lor, !Z.shiftr_land, H.
  f_equal. rewrite !Z.shiftr_div_pow2 by lia. rewrite !Z.div_small by lia. reflexivity.
Qed.
Lemma rel_tx : forall a b f g, station_alike a b -> frame_alike f g -> Rel (tx_send (st_cbs a) f) (tx_send (st_cbs b) g).
Proof.
  intros a b f g (C & _) F. unfold tx_send. rewrite C. apply rel_ask; [reflexivity|]. intros x. apply rel_emit. now constructor.
Qed.
Lemma frame_of : forall a b c d, station_alike a b -> frame_alike (st_frame a c d) (st_frame b c d).
Proof.
  intros a b c d (_ & A & B). split; [|reflexivity]. unfold st_frame, mkId. cbn [fid].
  apply set_hash_high; [reflexivity|assumption|assumption].
Qed.
Lemma set_cfg_alike : forall a b p, station_alike a b -> station_alike (set_cfg a p) (set_cfg b p).
Proof. intros a b p (C & A & B). unfold set_cfg. rewrite C. now split; [|split]. Qed.

Lemma rel_finish : forall s, Rel (st_finish lw s) (st_finish lw s).
Proof.
  intros s. unfold st_finish. apply rel_ask_station. intros a b AB. destruct AB as (C & A & B). rewrite C.
  rel; [apply rel_cfg|]. apply rel_put_station. now apply set_cfg_alike.
Qed.
Lemma hash_16 : forall u, 0 <= computeSenderHash u < 65536.
Proof. intros. unfold computeSenderHash, u16. apply Z.mod_pos_bound. lia. Qed.

Lemma rel_begin : forall s u v c, Rel (st_begin lw s u c) (st_begin lw s v c).
Proof.
  intros s u v c. unfold st_begin, st_abort. apply rel_seq; [apply rel_finish|]. apply rel_ask_station. intros a b (C & A & B).
  apply rel_seq; apply rel_put_station; (split; [reflexivity|split]); cbn [st_hash]; try assumption; apply hash_16.
Qed.

Ltac txs := repeat match goal with
  | |- Rel (tx_send _ (st_frame _ _ _)) _ => apply rel_tx; [assumption|apply frame_of; assumption] end.

Lemma rel_list : forall s o p, Rel (st_requestEngineList lw s o p) (st_requestEngineList lw s o p).
Proof.
  intros. unfold st_requestEngineList, st_abort. apply rel_seq; [apply rel_finish|]. apply rel_ask_station. intros a b AB.
  rel; txs; first [apply rel_cfg | apply rel_put_station; now apply set_cfg_alike].
Qed.
Lemma rel_engine : forall s e p, Rel (st_requestEngine lw s e p) (st_requestEngine lw s e p).
Proof.
  intros. unfold st_requestEngine, st_abort. apply rel_ask; [same_expr|]. intros si. destruct (negb (si_isNameKnown si)); [apply rel_skip|].
  apply rel_ask_station. intros a b AB. destruct AB as (C & A & B). rewrite C. apply rel_ask; [same_expr|].
  intros [|]; [apply rel_skip|]. apply rel_seq; [apply rel_finish|]. apply rel_ask_station. clear. intros a b AB.
  rel; txs; first [apply rel_cfg | apply rel_put_station; now apply set_cfg_alike].
Qed.
Lemma rel_send : forall s f g, frame_alike f g -> Rel (st_sendPacket s f) (st_sendPacket s g).
Proof.
  intros s f g (F & D). unfold st_sendPacket. apply rel_ask_station. intros a b AB. apply rel_tx; [exact AB|].
  destruct AB as (C & A & B). split; [|exact D]. cbn [fid]. now apply set_hash_high.
Qed.
Lemma rel_functions : forall n a b u i, station_alike a b -> Rel (send_functions a u i n) (send_functions b u i n).
Proof.
  induction n as [|n IH]; intros a b u i AB; cbn [send_functions]; [apply rel_skip|].
  apply rel_seq; [txs|apply IH; exact AB].
Qed.

(** what a received identifier is asked for lies above the hash *)
Lemma command_alike : forall i j, id_alike i j -> id_getCommand i = id_getCommand j.
Proof.
  unfold id_alike, id_getCommand. intros i j H. f_equal. change 17 with (16 + 1). rewrite <- !Z.shiftr_shiftr by lia.
  f_equal. rewrite !Z.shiftr_div_pow2 by lia. exact H.
Qed.
Lemma response_alike : forall i j, id_alike i j -> id_isResponse i = id_isResponse j.
Proof.
  unfold id_alike, id_isResponse. intros i j H. rewrite !land_bit16. change (2 ^ 16) with 65536 in *. now rewrite ?H.
Qed.

Lemma rel_system : forall s i j d, id_alike i j -> Rel (st_handleSystemCommand s i d) (st_handleSystemCommand s j d).
Proof.
  intros s i j d H. unfold st_handleSystemCommand. apply rel_ask_station. intros a b (C & _). rewrite C, (response_alike i j H).
  cbv zeta. rel.
Qed.
Lemma rel_accessory : forall s d r, Rel (st_handleAccessoryPacket s d r) (st_handleAccessoryPacket s d r).
Proof. intros. unfold st_handleAccessoryPacket. apply rel_ask_station. intros a b (C & _). rewrite C. rel. Qed.
Lemma rel_direction : forall s d, Rel (st_handleLocoDirection s d) (st_handleLocoDirection s d).
Proof. intros. unfold st_handleLocoDirection. apply rel_ask_station. intros a b (C & _). rewrite C. cbv zeta. rel. Qed.
Lemma rel_speed : forall s d, Rel (st_handleLocoSpeed s d) (st_handleLocoSpeed s d).
Proof. intros. unfold st_handleLocoSpeed. apply rel_ask_station. intros a b (C & _). rewrite C. cbv zeta. rel. Qed.
Lemma rel_function : forall s d, Rel (st_handleLocoFunction s d) (st_handleLocoFunction s d).
Proof. intros. unfold st_handleLocoFunction. apply rel_ask_station. intros a b (C & _). rewrite C. cbv zeta. rel. Qed.
Lemma rel_stream : forall s d, Rel (st_handleConfigDataStream lw s d) (st_handleConfigDataStream lw s d).
Proof. intros. unfold st_handleConfigDataStream. apply rel_ask_station. intros a b (C & _). rewrite C. rel. apply rel_cfg. Qed.
Lemma rel_packet : forall s f g, frame_alike f g -> Rel (st_handlePacket lw s f) (st_handlePacket lw s g).
Proof.
  intros s f g (F & D). unfold st_handlePacket. rewrite D, (command_alike _ _ F), (response_alike _ _ F). cbv zeta.
  rel; first [ now apply rel_system | apply rel_accessory | apply rel_direction | apply rel_speed | apply rel_function | apply rel_stream ].
Qed.

Lemma rel_sop : forall s o, Rel (st_step lw s o) (st_step lw s o).
Proof.
  intros s o. destruct o; cbn [st_step]; unfold st_abort, st_sendEngineDirection, st_sendEngineVelocity, st_sendEngineFunction;
  match goal with
  | |- Rel skip _ => apply rel_skip
  | |- Rel (st_finish _ _) _ => apply rel_finish
  | |- Rel (st_begin _ _ _ _) _ => apply rel_begin
  | |- Rel (st_handlePacket _ _ _) _ => apply rel_packet, frame_alike_refl
  | |- Rel (st_handleAccessoryPacket _ _ _) _ => apply rel_accessory
  | |- Rel (st_handleConfigDataStream _ _ _) _ => apply rel_stream
  | |- Rel (st_handleSystemCommand _ _ _) _ => apply rel_system; reflexivity
  | |- Rel (st_handleLocoDirection _ _) _ => apply rel_direction
  | |- Rel (st_handleLocoSpeed _ _) _ => apply rel_speed
  | |- Rel (st_handleLocoFunction _ _) _ => apply rel_function
  | |- Rel (st_requestEngineList _ _ _ _) _ => apply rel_list
  | |- Rel (st_requestEngine _ _ _ _) _ => apply rel_engine
  | |- Rel (st_sendPacket _ _) _ => apply rel_send, frame_alike_refl
  | |- Rel (if _ then _ else _) _ => rel; apply rel_send, frame_alike_refl
  | |- Rel (st_requestEngineAllFunctions _ _) _ =>
      unfold st_requestEngineAllFunctions; apply rel_ask_station; intros; now apply rel_functions
  | |- _ => unfold st_sendAccessoryPacket, st_requestEngineDirection, st_requestEngineVelocity, st_requestEngineFunction, st_sendEmergencyStop,
      st_sendSystemStop, st_sendSystemGo; apply rel_ask_station; intros; cbv zeta; txs
  end.
Qed.
Lemma rel_step : forall o p, op_alike o p -> Rel (step lw o) (step lw p).
Proof.
  intros o p H. destruct H as [s u v c|s f g F|s i j d F|s f g F|o]; cbn [step st_step].
  - apply rel_begin.
  - now apply rel_packet.
  - now apply rel_system.
  - now apply rel_send.
  - destruct o; cbn [step]; first [apply rel_sop | apply rel_lib_add | apply rel_lib_reset | rel].
Qed.
Lemma rel_run : forall os ps, Forall2 op_alike os ps -> Rel (run lw os) (run lw ps).
Proof.
  intros os ps H. induction H as [|o p os ps OP H IH]; cbn [run]; [apply rel_skip|].
  apply rel_seq; [now apply rel_step|exact IH].
Qed.
End Long.

(** ** User code that calls back *)
Definition RRel {A} (P : A -> A -> Prop) (a b : ract A) : Prop := forall s r, seen_alike s r ->
  seen_alike (snd (a s)) (snd (b r)) /\
  match fst (a s), fst (b r) with Ok x, Ok y => P x y | UB u, UB v => u = v | _, _ => False end.

Lemma rr_ret : forall A (P : A -> A -> Prop) x y, P x y -> RRel P (rret x) (rret y).
Proof. intros A P x y H s r S. split; [exact S|exact H]. Qed.
Lemma rr_bind : forall A B (P : A -> A -> Prop) (Q : B -> B -> Prop) a b f g, RRel P a b -> (forall x y, P x y -> RRel Q (f x) (g y)) ->
  RRel Q (rbind a f) (rbind b g).
Proof.
  intros A B P Q a b f g H K s r S. unfold rbind. specialize (H s r S). destruct (a s) as [[x|u] s1], (b r) as [[y|v] r1];
  cbn [fst snd] in *; destruct H as [S1 E]; try contradiction.
  - apply K; assumption.
  - split; assumption.
Qed.
Lemma rr_ask : forall A (f g : world -> res A), (forall w v, world_alike w v -> f w = g v) -> RRel eq (rask f) (rask g).
Proof.
  intros A f g F s r S. split; [exact S|]. unfold rask. cbn [fst]. rewrite (F _ _ (proj1 S)). destruct (g (r_w r)); reflexivity.
Qed.
Lemma rr_val : forall A (x : res A), RRel eq (rval x) (rval x).
Proof. intros. apply rr_ask. reflexivity. Qed.
Lemma rr_ask_station : forall s, RRel station_alike (rask (get_station s)) (rask (get_station s)).
Proof.
  intros s x y S. split; [exact S|]. destruct S as [W _].
  unfold rask. cbn [fst]. unfold get_station, at_. destruct W as (F & _). revert s.
  induction F as [|a b l1 l2 AB F IH]; intros [|s]; cbn [nth_error]; try reflexivity; [exact AB|apply IH].
Qed.
Lemma rr_lift : forall a b, Rel a b -> RRel eq (rlift a) (rlift b).
Proof.
  intros a b H s r [W T]. unfold rlift. specialize (H _ _ W). inversion H as [u E1 E2 | w v t t' W' T' E1 E2]; cbn [fst snd].
  - split; [split; assumption|reflexivity].
  - split; [|reflexivity]. split; [exact W'|]. cbn [r_t]. apply Forall2_app; assumption.
Qed.
Lemma rr_when : forall A (p : option A) k l, (forall x, RRel eq (k x) (l x)) -> RRel eq (rwhen_some p k) (rwhen_some p l).
Proof. intros A [x|] k l K; [apply K|now apply rr_ret]. Qed.

Section Inside.
Variable lw : Z.
Variables react react' : list event -> code.
Variables inner inner' : code -> ract unit.
Hypothesis reacts : react_alike react react'.
Hypothesis inners : forall c d, code_alike c d -> RRel eq (inner c) (inner' d).

Lemma rr_ucall : forall e f, event_alike e f -> RRel eq (ucall react inner e) (ucall react' inner' f).
Proof.
  intros e f E. unfold ucall. eapply rr_bind; [apply rr_lift, rel_emit, E|]. intros [] [] _ s r S.
  apply inners; [|exact S]. apply reacts. exact (proj2 S).
Qed.

Ltac rr1 :=
  match goal with
  | |- RRel eq (rret _) (rret _) => apply rr_ret; reflexivity
  | |- RRel _ (rbind (rask (get_station _)) _) _ => eapply rr_bind; [apply rr_ask_station | intros ?x ?y ?AB]
  | |- RRel _ (rbind _ _) (rbind _ _) => eapply (rr_bind _ _ eq); [ | intros ? ?y ->]
  | |- RRel eq (rval _) (rval _) => apply rr_val
  | |- RRel eq (rask _) (rask _) => apply rr_ask; same_expr
  | |- RRel eq (ucall _ _ _) (ucall _ _ _) => apply rr_ucall; constructor
  | |- RRel eq (rwhen_some _ _) (rwhen_some _ _) => apply rr_when; intros ?x
  | |- RRel eq (rlift (loco_consume _ _ _ _ _)) _ => apply rr_lift, rel_loco_consume
  | |- RRel eq (rlift (list_consume _ _ _ _ _ _ _ _ _ _)) _ => apply rr_lift, rel_list_consume
  | |- RRel eq (rlift (put_station _ _)) _ => fail 1
  | |- RRel eq (rlift _) (rlift _) => apply rr_lift; rel
  | |- RRel _ (match ?x with _ => _ end) _ => destruct x
  end.
Ltac rr := repeat rr1.

Lemma rr_consume : forall c s k v, RRel eq (rcons_consume lw react inner c s k v) (rcons_consume lw react' inner' c s k v).
Proof. intros. unfold rcons_consume. rr. Qed.
Lemma rr_complete : forall c, RRel eq (rcons_complete react inner c) (rcons_complete react' inner' c).
Proof. intros. unfold rcons_complete. rr. Qed.
Lemma rr_aborted : forall c, RRel eq (rcons_aborted react inner c) (rcons_aborted react' inner' c).
Proof. intros. unfold rcons_aborted. rr. Qed.
Lemma rr_tp : forall p, RRel eq (rtp p) (rtp p).
Proof. intros. unfold rtp. rr. Qed.
Lemma rr_put : forall p t, RRel eq (rtp_put p t) (rtp_put p t).
Proof. intros. unfold rtp_put. rr. Qed.
Lemma rr_report : forall p, RRel eq (rtp_report lw react inner p) (rtp_report lw react' inner' p).
Proof. intros. unfold rtp_report. rr; first [apply rr_tp|apply rr_consume]. Qed.
Lemma rr_error : forall p, RRel eq (rtp_reportParseError lw react inner p) (rtp_reportParseError lw react' inner' p).
Proof. intros. unfold rtp_reportParseError. rr; first [apply rr_tp|apply rr_put|apply rr_report]. Qed.
Ltac rp := rr; try first [apply rr_tp|apply rr_put|apply rr_report|apply rr_error].
Lemma rr_find : forall p o c d, RRel eq (rtp_findToken lw react inner p o c d) (rtp_findToken lw react' inner' p o c d).
Proof. intros. unfold rtp_findToken. rp. Qed.
Lemma rr_iteration : forall p c, RRel eq (rtp_iteration lw react inner p c) (rtp_iteration lw react' inner' p c).
Proof. intros. unfold rtp_iteration. rp; apply rr_find. Qed.
Lemma rr_process : forall p n c, RRel eq (rtp_process lw react inner p n c) (rtp_process lw react' inner' p n c).
Proof.
  intros p n. induction n as [|n IH]; intros c; cbn [rtp_process]; rp; first [apply rr_iteration|apply IH].
Qed.
Lemma rr_processBuffer : forall p, RRel eq (rtp_processBuffer lw react inner p) (rtp_processBuffer lw react' inner' p).
Proof. intros. unfold rtp_processBuffer. rp. apply rr_process. Qed.
Lemma rr_addLoop : forall p n i c, RRel eq (rtp_addLoop lw react inner p n i c) (rtp_addLoop lw react' inner' p n i c).
Proof.
  intros p n i. induction n as [|n IH]; intros c; cbn [rtp_addLoop]; rp; first [apply rr_processBuffer|apply IH].
Qed.
Lemma rr_addText : forall p i, RRel eq (rtp_addText lw react inner p i) (rtp_addText lw react' inner' p i).
Proof. intros. unfold rtp_addText. rp; apply rr_addLoop. Qed.
Lemma rr_reset : forall p, RRel eq (rlib_reset react inner p) (rlib_reset react' inner' p).
Proof. intros. unfold rlib_reset. rr; apply rr_aborted. Qed.
Lemma rr_state : forall p x, RRel eq (rput_state p x) (rput_state p x).
Proof. intros. unfold rput_state. rr. Qed.
Lemma rr_add : forall p d, RRel eq (rlib_addMessage lw react inner p d) (rlib_addMessage lw react' inner' p d).
Proof.
  intros. unfold rlib_addMessage. rr; first [apply rr_state|apply rr_reset|apply rr_complete|apply rr_aborted|apply rr_addText].
Qed.
Lemma rr_cfg : forall p c, RRel eq (rcfg_call lw react inner p c) (rcfg_call lw react' inner' p c).
Proof. intros. unfold rcfg_call. rr; first [apply rr_add|apply rr_reset]. Qed.

Lemma rr_tx : forall s f g, frame_alike f g -> RRel eq (rtx_send react inner s f) (rtx_send react' inner' s g).
Proof.
  intros s f g F. unfold rtx_send. eapply rr_bind; [apply rr_ask_station|]. intros a b (C & _). rewrite C.
  eapply rr_bind; [apply rr_val|]. intros ? x ->. apply rr_ucall. now constructor.
Qed.
Ltac rput := match goal with |- RRel eq (rlift (put_station _ _)) _ => apply rr_lift, rel_put_station, set_cfg_alike; assumption end.
Lemma rr_finish : forall s, RRel eq (rst_finish lw react inner s) (rst_finish lw react' inner' s).
Proof.
  intros s. unfold rst_finish. eapply rr_bind; [apply rr_ask_station|]. intros a b (C & _). rewrite C.
  rr; [apply rr_cfg|rput].
Qed.
Lemma rr_begin : forall s u v c, RRel eq (rst_begin lw react inner s u c) (rst_begin lw react' inner' s v c).
Proof.
  intros. unfold rst_begin. rr; [apply rr_finish| |].
  - apply rr_lift, rel_put_station. destruct AB as (C & A & B). now split; [|split].
  - apply rr_lift, rel_put_station. split; [reflexivity|]. split; apply hash_16.
Qed.
Lemma rr_stream : forall s d, RRel eq (rst_handleConfigDataStream lw react inner s d) (rst_handleConfigDataStream lw react' inner' s d).
Proof.
  intros. unfold rst_handleConfigDataStream. eapply rr_bind; [apply rr_ask_station|]. intros a b (C & _). rewrite C. rr. apply rr_cfg.
Qed.
Lemma rr_system : forall s i j d, id_alike i j ->
  RRel eq (rst_handleSystemCommand react inner s i d) (rst_handleSystemCommand react' inner' s j d).
Proof.
  intros s i j d H. unfold rst_handleSystemCommand. eapply rr_bind; [apply rr_ask_station|]. intros a b (C & _).
  rewrite C, (response_alike i j H). cbv zeta. rr.
Qed.
Ltac rtxs := first [ apply rr_tx, frame_of; assumption | rput | apply rr_cfg | apply rr_finish ].
Lemma rr_list : forall s o p, RRel eq (rst_requestEngineList lw react inner s o p) (rst_requestEngineList lw react' inner' s o p).
Proof. intros. unfold rst_requestEngineList. cbv zeta. rr; rtxs. Qed.
Lemma rr_engine : forall s e p, RRel eq (rst_requestEngine lw react inner s e p) (rst_requestEngine lw react' inner' s e p).
Proof.
  intros. unfold rst_requestEngine. eapply (rr_bind _ _ eq); [rr|]. intros ? si ->.
  destruct (negb (si_isNameKnown si)); [rr|]. eapply rr_bind; [apply rr_ask_station|]. intros a b (C & _). rewrite C.
  rr; rtxs.
Qed.
Lemma rr_send : forall s f g, frame_alike f g -> RRel eq (rst_sendPacket react inner s f) (rst_sendPacket react' inner' s g).
Proof.
  intros s f g (F & D). unfold rst_sendPacket. rr. apply rr_tx. destruct AB as (C & A & B). split; [|exact D]. cbn [fid].
  now apply set_hash_high.
Qed.
Lemma rr_own : forall s c d, RRel eq (rst_sendOwn react inner s c d) (rst_sendOwn react' inner' s c d).
Proof. intros. unfold rst_sendOwn. rr; rtxs. Qed.
Lemma rr_functions : forall n s a b u i, station_alike a b ->
  RRel eq (rsend_functions react inner s a u i n) (rsend_functions react' inner' s b u i n).
Proof.
  induction n as [|n IH]; intros s a b u i AB; cbn [rsend_functions]; rr; first [rtxs|now apply IH].
Qed.
Lemma rr_accessory : forall s d r, RRel eq (rst_handleAccessoryPacket react inner s d r) (rst_handleAccessoryPacket react' inner' s d r).
Proof. intros. unfold rst_handleAccessoryPacket. rr. destruct AB as (C & _). rewrite C. rr. Qed.
Lemma rr_direction : forall s d, RRel eq (rst_handleLocoDirection react inner s d) (rst_handleLocoDirection react' inner' s d).
Proof. intros. unfold rst_handleLocoDirection. cbv zeta. eapply rr_bind; [apply rr_ask_station|]. intros a b (C & _). rewrite C. rr. Qed.
Lemma rr_speed : forall s d, RRel eq (rst_handleLocoSpeed react inner s d) (rst_handleLocoSpeed react' inner' s d).
Proof. intros. unfold rst_handleLocoSpeed. eapply rr_bind; [apply rr_ask_station|]. intros a b (C & _). rewrite C. rr. Qed.
Lemma rr_function : forall s d, RRel eq (rst_handleLocoFunction react inner s d) (rst_handleLocoFunction react' inner' s d).
Proof. intros. unfold rst_handleLocoFunction. eapply rr_bind; [apply rr_ask_station|]. intros a b (C & _). rewrite C. rr. Qed.
Lemma rr_packet : forall s f g, frame_alike f g -> RRel eq (rst_handlePacket lw react inner s f) (rst_handlePacket lw react' inner' s g).
Proof.
  intros s f g (F & D). unfold rst_handlePacket. rewrite D, (command_alike _ _ F), (response_alike _ _ F). cbv zeta.
  rr; first [ now apply rr_system | apply rr_accessory | apply rr_direction | apply rr_speed | apply rr_function | apply rr_stream ].
Qed.
Lemma rr_sop : forall s o, RRel eq (rst_step lw react inner s o) (rst_step lw react' inner' s o).
Proof.
  intros s o. destruct o; cbn [rst_step];
  match goal with
  | |- RRel eq (rret _) _ => apply rr_ret; reflexivity
  | |- RRel eq (rst_finish _ _ _ _) _ => apply rr_finish
  | |- RRel eq (rst_begin _ _ _ _ _ _) _ => apply rr_begin
  | |- RRel eq (rst_handlePacket _ _ _ _ _) _ => apply rr_packet, frame_alike_refl
  | |- RRel eq (rst_handleAccessoryPacket _ _ _ _ _) _ => apply rr_accessory
  | |- RRel eq (rst_handleConfigDataStream _ _ _ _ _) _ => apply rr_stream
  | |- RRel eq (rst_handleSystemCommand _ _ _ _ _) _ => apply rr_system; reflexivity
  | |- RRel eq (rst_handleLocoDirection _ _ _ _) _ => apply rr_direction
  | |- RRel eq (rst_handleLocoSpeed _ _ _ _) _ => apply rr_speed
  | |- RRel eq (rst_handleLocoFunction _ _ _ _) _ => apply rr_function
  | |- RRel eq (rst_requestEngineList _ _ _ _ _ _) _ => apply rr_list
  | |- RRel eq (rst_requestEngine _ _ _ _ _ _) _ => apply rr_engine
  | |- RRel eq (rst_sendPacket _ _ _ _) _ => apply rr_send, frame_alike_refl
  | |- RRel eq (rst_sendOwn _ _ _ _ _) _ => apply rr_own
  | |- RRel eq (if _ then _ else _) _ => rr; apply rr_send, frame_alike_refl
  | |- RRel eq (rbind _ _) _ => rr; now apply rr_functions
  end.
Qed.
Lemma rr_step : forall o p, op_alike o p -> RRel eq (rstep lw react inner o) (rstep lw react' inner' p).
Proof.
  intros o p H. destruct H as [s u v c|s f g F|s i j d F|s f g F|o]; cbn [rstep rst_step].
  - apply rr_begin.
  - now apply rr_packet.
  - now apply rr_system.
  - now apply rr_send.
  - destruct o; cbn [rstep]; first [apply rr_sop | apply rr_add | apply rr_reset | apply rr_lift, rel_step, alike_op].
Qed.
End Inside.

Lemma rr_exec : forall lw react react', react_alike react react' -> forall n c d, code_alike c d ->
  RRel eq (rexec lw react n c) (rexec lw react' n d).
Proof.
  intros lw react react' R n. induction n as [|n IH]; intros c d H.
  - destruct H; cbn [rexec]; [now apply rr_ret|apply rr_val].
  - induction H as [|o p k l OP K IHK]; [now apply rr_ret|].
    change (rexec lw react (Datatypes.S n) (Call o k)) with
      (rstep lw react (rexec lw react n) o ~;; (fun s => rexec lw react (Datatypes.S n) (k (r_w s) (r_t s)) s)).
    change (rexec lw react' (Datatypes.S n) (Call p l)) with
      (rstep lw react' (rexec lw react' n) p ~;; (fun s => rexec lw react' (Datatypes.S n) (l (r_w s) (r_t s)) s)).
    eapply (rr_bind _ _ eq); [apply rr_step; [exact R|exact IH|exact OP]|]. intros [] [] _ s r S.
    apply IHK; [exact (proj1 S)|exact (proj2 S)|exact S].
Qed.

Lemma exec_alike : forall lw react react' n c d s r, react_alike react react' -> code_alike c d -> seen_alike s r ->
  end_alike (rexec lw react n c s) (rexec lw react' n d r).
Proof.
  intros lw react react' n c d s r R C S. destruct (rr_exec lw react react' R n c d C s r S) as [A B].
  split; [|exact A]. destruct (fst (rexec lw react n c s)) as [[]|u], (fst (rexec lw react' n d r)) as [[]|v]; try contradiction; congruence.
Qed.

(** ** Which UUIDs can be told apart *)

Lemma begin_result : forall lw w s u c w1 t1, st_begin lw s u c w = Ok (w1, t1) ->
  nth_error (w_stations w1) s = Some (mkStation (computeSenderHash u) c) /\
  forall v, exists w2, st_begin lw s v c w = Ok (w2, t1) /\ nth_error (w_stations w2) s = Some (mkStation (computeSenderHash v) c).
Proof.
  intros lw w s u c w1 t1 H. unfold st_begin, World.seq in *. destruct (st_abort lw s w) as [[w0 t0]|]; [|discriminate]. cbn [bind] in *.
  unfold ask, get_station, at_ in *. destruct (nth_error (w_stations w0) s) as [st|] eqn:N; [|discriminate]. cbn [bind] in *.
  unfold put_station in *. cbn [bind w_stations w_parsers w_conss w_engines] in *. injection H as <- <-.
  assert (U : forall A (l : list A) i x y z, nth_error l i = Some x -> nth_error (upd i z (upd i y l)) i = Some z).
  { intros A l. induction l as [|h l IH]; intros [|i] x y z E; cbn in *; try discriminate; [reflexivity|]. eapply IH, E. }
  split; [cbn [w_stations]; eapply U, N|]. intros v. eexists. split; [reflexivity|]. cbn [w_stations]. eapply U, N.
Qed.

Lemma told_apart : forall lw w s u v c x w1 t1, is_u16 u -> is_u16 v -> cb_tx c = Some x ->
  run lw [OnStation s (Begin u c)] w = Ok (w1, t1) ->
  ((forall ops, run lw (OnStation s (Begin u c) :: ops) w = run lw (OnStation s (Begin v c) :: ops) w) <->
   u mod 128 = v mod 128 /\ u / 2048 = v / 2048).
Proof.
  intros lw w s u v c x w1 t1 U V X B. rewrite <- (hash_collide u v U V). split.
  - intros H. specialize (H [OnStation s SendSystemGo]). cbn [run step st_step] in B, H. unfold World.seq, skip in B, H.
    destruct (st_begin lw s u c w) as [[wu tu]|] eqn:BU; [|discriminate]. cbn [bind] in H.
    destruct (begin_result lw w s u c wu tu BU) as [NU K]. destruct (K v) as (wv & BV & NV). rewrite BV in H. cbn [bind] in H.
    unfold st_sendSystemGo, ask, get_station, at_ in H. rewrite NU, NV in H. cbn [bind st_cbs] in H. unfold tx_send, ask in H.
    rewrite X in H. cbn [deref bind] in H. unfold emit in H. cbn [bind] in H. injection H as _ E. cbn [app] in E.
    apply app_inv_head in E. injection E as E. unfold st_frame in E. cbn [st_hash fid] in E.
    assert (HU := hash_16 u). assert (HV := hash_16 v).
    rewrite !mkId_value in E by (unfold byte, kSystemCommand, is_u16; lia). unfold id_value in E. lia.
  - intros E ops. cbn [run step st_step]. unfold World.seq.
    replace (st_begin lw s v c w) with (st_begin lw s u c w); [reflexivity|]. unfold st_begin. rewrite E. reflexivity.
Qed.
