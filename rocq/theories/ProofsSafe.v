(* ProofsSafe.v -- absence of undefined behaviour (C57): every action keeps the world sound. *)
From Verif Require Import ZLib SpecSafe ProofsBuffer ProofsCrc ProofsLoco ProofsText ProofsStation ProofsRequest ProofsStream ProofsConsumer.

(** ** Objects keep their class *)
Lemma same_refl : forall w, same_objects w w. Proof. intros. repeat split. Qed.

Lemma upd_len : forall A n (x : A) l, List.length (upd n x l) = List.length l.
Proof. induction n; intros x [|y l]; cbn; auto. Qed.
Lemma upd_map : forall A B (f : A -> B) n x y l, nth_error l n = Some y -> f x = f y -> map f (upd n x l) = map f l.
Proof.
  induction n; intros x y [|z l] H E; cbn in *; try discriminate.
  - injection H as ->. rewrite E. reflexivity.
  - rewrite (IHn x y l H E). reflexivity.
Qed.
Lemma upd_forall : forall A (P : A -> Prop) n x l, Forall P l -> P x -> Forall P (upd n x l).
Proof. intros A P n x l H X. revert n. induction H; intros [|n]; cbn; auto. Qed.
Lemma nth_forall : forall A (P : A -> Prop) n x l, Forall P l -> nth_error l n = Some x -> P x.
Proof. intros A P n x l H E. rewrite Forall_forall in H. apply H. eapply nth_error_In. exact E. Qed.
Lemma map_nth : forall A B (f : A -> B) l l' n x, map f l' = map f l -> nth_error l n = Some x -> exists y, nth_error l' n = Some y /\ f y = f x.
Proof.
  intros A B f l l' n x E H. assert (K : nth_error (map f l') n = Some (f x)) by (rewrite E; apply map_nth_error; exact H).
  destruct (nth_error l' n) as [y|] eqn:N; [|exfalso; apply nth_error_None in N; assert (nth_error (map f l') n = None) by (apply nth_error_None; rewrite map_length; exact N); congruence].
  exists y. split; [reflexivity|]. rewrite (map_nth_error f _ _ N) in K. congruence.
Qed.
Lemma len_nth : forall A (l : list A) n, (n < List.length l)%nat -> exists x, nth_error l n = Some x.
Proof. intros A l n H. destruct (nth_error l n) as [x|] eqn:E; [eauto|]. apply nth_error_None in E. lia. Qed.

(** ** Small facts about strings *)
Lemma strncpy_len : forall n src, (n <= List.length src)%nat -> exists bs, strncpy_bytes src n = Ok bs.
Proof.
  induction n; intros src H; [destruct src; cbn; eauto|]. destruct src as [|c src]; [cbn [List.length] in H; lia|]. cbn [strncpy_bytes List.length] in *. destruct (c =? 0); [eauto|].
  destruct (IHn src ltac:(lia)) as (bs & ->). cbn [bind]. eauto.
Qed.
Lemma strncpy_out : forall n src bs, strncpy_bytes src n = Ok bs -> List.length bs = n.
Proof.
  induction n; intros src bs H; [destruct src; injection H as <-; reflexivity|]. destruct src as [|c src]; [discriminate|]. cbn [strncpy_bytes] in H.
  destruct (c =? 0); [injection H as <-; cbn; rewrite repeat_length; reflexivity|]. destruct (strncpy_bytes src n) as [b|] eqn:E; [|discriminate].
  cbn in H. injection H as <-. cbn. rewrite (IHn _ _ E). reflexivity.
Qed.
Lemma strncpy_ok : forall dst src n, 0 <= n -> n <= zlen dst -> n <= zlen src -> exists x, c_strncpy dst src n = Ok x.
Proof.
  intros dst src n N D S. unfold c_strncpy. replace (zlen dst <? n) with false by lia. destruct (strncpy_len (Z.to_nat n) src) as (bs & E); [unfold zlen in *; lia|].
  rewrite E. cbn [bind]. apply strncpy_out in E. unfold wr. replace (_ && _) with true by (unfold zlen in *; lia). eauto.
Qed.
Lemma str_of : forall t m, shows_name m t -> c_str m = Ok t /\ (exists n, c_strlen m = Ok n) /\ List.length m = 33%nat.
Proof.
  intros t m H. destruct (shows_name_str _ _ H) as (A & B). split; [exact A|]. split; [|destruct H as (_ & L & ->); rewrite app_length, repeat_length; lia].
  destruct H as (N & L32 & ->). replace (33 - List.length t)%nat with (S (32 - List.length t)) by lia. cbn [repeat]. eexists. apply c_strlen_eq. exact N.
Qed.
Lemma str_in : forall m, In 0 m -> exists t, c_str m = Ok t.
Proof.
  induction m as [|c m IH]; intros H; [contradiction|]. cbn [c_str]. destruct (c =? 0) eqn:E; [eauto|]. destruct H as [->|H]; [discriminate|].
  destruct (IH H) as (t & ->). cbn [bind]. eauto.
Qed.

Section Safe.
Variable lw : Z.
Variable w0 : world.

(** sound, with pointers counted by the objects of w0 *)
Definition G (w : world) : Prop :=
  same_objects w0 w /\ Forall (fun st => sound_cbs w0 (st_cbs st)) (w_stations w) /\ Forall (sound_parser w0) (w_parsers w) /\
  Forall (sound_consumer w0) (w_conss w) /\ Forall sound_engine (w_engines w).
Definition safe_at (w : world) (a : act) : Prop := exists w' t, a w = Ok (w', t) /\ G w'.
Definition safe (a : act) : Prop := forall w, G w -> safe_at w a.

Lemma s_skip : safe skip. Proof. intros w g. exists w, []. split; [reflexivity|exact g]. Qed.
Lemma s_emit : forall e, safe (emit e). Proof. intros e w g. exists w, [e]. split; [reflexivity|exact g]. Qed.
Lemma s_print : forall bs, safe (print bs). Proof. intros. apply s_emit. Qed.
Lemma s_puts : forall s, safe (puts s). Proof. intros. apply s_emit. Qed.
Lemma s_print_res : forall r, (exists x, r = Ok x) -> safe (print_res r).
Proof. intros r (x & ->) w g. exists w, [EvPrint x]. split; [reflexivity|exact g]. Qed.
Lemma s_seq_at : forall w a c, safe_at w a -> safe c -> safe_at w (a ;;; c).
Proof.
  intros w a c (w1 & t1 & E & g1) C. destruct (C w1 g1) as (w2 & t2 & E2 & g2). exists w2, (t1 ++ t2). split; [|exact g2].
  unfold World.seq. rewrite E. cbn [bind]. rewrite E2. reflexivity.
Qed.
Lemma s_seq : forall a c, safe a -> safe c -> safe (a ;;; c).
Proof. intros a c A C w g. apply s_seq_at; [apply A; exact g|exact C]. Qed.
Lemma s_emit_at : forall w e a, safe_at w a -> safe_at w (emit e ;;; a).
Proof. intros w e a (w' & t & E & g). exists w', (e :: t). rewrite emit_seq, E. auto. Qed.
Lemma s_ask : forall A (P : A -> Prop) (f : world -> res A) k, (forall w, G w -> exists x, f w = Ok x /\ P x) -> (forall x, P x -> safe (k x)) -> safe (ask f k).
Proof.
  intros A P f k F K w g. destruct (F w g) as (x & E & p). destruct (K x p w g) as (w' & t & E' & g'). exists w', t. split; [|exact g'].
  unfold ask. rewrite E. exact E'.
Qed.
Lemma s_ask_pure : forall A (r : res A) k x, r = Ok x -> safe (k x) -> safe (ask (fun _ => r) k).
Proof. intros A r k x E K. apply s_ask with (P := fun y => y = x); [intros; exists x; auto|]. intros y ->. exact K. Qed.
Lemma s_when : forall A (o : option A) k, (forall x, o = Some x -> safe (k x)) -> safe (when_some o k).
Proof. intros A [x|] k H; [apply H; reflexivity|apply s_skip]. Qed.

(** reading and writing objects *)
Lemma s_station : forall s k, (s < List.length (w_stations w0))%nat -> (forall st, sound_cbs w0 (st_cbs st) -> safe (k st)) -> safe (ask (get_station s) k).
Proof.
  intros s k H K. apply s_ask with (P := fun st => sound_cbs w0 (st_cbs st)); [|exact K]. intros w ((L & _) & S & _).
  destruct (len_nth _ (w_stations w) s ltac:(lia)) as (st & E). exists st. unfold get_station, at_. rewrite E. split; [reflexivity|]. exact (nth_forall _ _ _ _ _ S E).
Qed.
Lemma s_put_station : forall s st, sound_cbs w0 (st_cbs st) -> safe (put_station s st).
Proof.
  intros s st H w ((L1 & L2 & L3 & L4) & S & P & C & E). eexists. eexists. split; [reflexivity|]. unfold G, same_objects. cbn [w_stations w_parsers w_conss w_engines].
  rewrite upd_len. repeat (split; try assumption). apply upd_forall; assumption.
Qed.
Lemma parser_there : forall w p o, G w -> nth_error (w_parsers w0) p = Some o -> exists o', nth_error (w_parsers w) p = Some o' /\ pkind o' = pkind o /\ sound_parser w0 o'.
Proof.
  intros w p o ((_ & L & _) & _ & P & _) H. destruct (map_nth _ _ _ _ _ _ _ L H) as (y & E & K). exists y. split; [exact E|]. split; [exact K|]. exact (nth_forall _ _ _ _ _ P E).
Qed.
Lemma s_parser : forall p o k, nth_error (w_parsers w0) p = Some o -> (forall o', pkind o' = pkind o -> sound_parser w0 o' -> safe (k o')) -> safe (ask (get_parser p) k).
Proof.
  intros p o k H K. apply s_ask with (P := fun o' => pkind o' = pkind o /\ sound_parser w0 o').
  - intros w g. destruct (parser_there w p o g H) as (o' & E & A). exists o'. unfold get_parser, at_. rewrite E. auto.
  - intros x (A & B). apply K; assumption.
Qed.
Lemma s_put_parser : forall p o x, nth_error (w_parsers w0) p = Some o -> pkind x = pkind o -> sound_parser w0 x -> safe (put_parser p x).
Proof.
  intros p o x H KX SX w g. destruct (parser_there w p o g H) as (o' & E & KO & _). destruct g as ((L1 & L2 & L3 & L4) & S & P & C & EN). eexists. eexists. split; [reflexivity|].
  unfold G, same_objects. cbn [w_stations w_parsers w_conss w_engines].
  rewrite (upd_map _ _ pkind p x o') by (try assumption; congruence). repeat (split; try assumption). apply upd_forall; assumption.
Qed.
Definition lib0 (p : nat) : Prop := exists sp, lib_at w0 p sp.
Lemma lib_there : forall w p, G w -> lib0 p -> exists sp, lib_at w p sp /\ sound_parser w0 (LibP sp).
Proof.
  intros w p g (sp0 & H). destruct (parser_there w p _ g H) as ([sp|] & E & K & S); [|discriminate]. exists sp. split; assumption.
Qed.
Lemma s_lib : forall p k, lib0 p -> (forall sp, sound_parser w0 (LibP sp) -> safe (k sp)) -> safe (ask (get_lib p) k).
Proof.
  intros p k H K. apply s_ask with (P := fun sp => sound_parser w0 (LibP sp)); [|exact K]. intros w g. destruct (lib_there w p g H) as (sp & L & S). exists sp.
  split; [apply lib_get; exact L|exact S].
Qed.
Lemma s_put_lib : forall p sp, lib0 p -> sound_parser w0 (LibP sp) -> safe (put_lib p sp).
Proof. intros p sp (sp0 & H) S. apply (s_put_parser p (LibP sp0)); [exact H|reflexivity|exact S]. Qed.
Lemma cons_there : forall w c o, G w -> nth_error (w_conss w0) c = Some o -> exists o', nth_error (w_conss w) c = Some o' /\ kind o' = kind o /\ sound_consumer w0 o'.
Proof.
  intros w c o ((_ & _ & L & _) & _ & _ & C & _) H. destruct (map_nth _ _ _ _ _ _ _ L H) as (y & E & K). exists y. split; [exact E|]. split; [exact K|]. exact (nth_forall _ _ _ _ _ C E).
Qed.
Lemma s_cons : forall c o k, nth_error (w_conss w0) c = Some o -> (forall o', kind o' = kind o -> sound_consumer w0 o' -> safe (k o')) -> safe (ask (get_cons c) k).
Proof.
  intros c o k H K. apply s_ask with (P := fun o' => kind o' = kind o /\ sound_consumer w0 o').
  - intros w g. destruct (cons_there w c o g H) as (o' & E & A). exists o'. unfold get_cons, at_. rewrite E. auto.
  - intros x (A & B). apply K; assumption.
Qed.
Lemma s_put_cons : forall c o x, nth_error (w_conss w0) c = Some o -> kind x = kind o -> sound_consumer w0 x -> safe (put_cons c x).
Proof.
  intros c o x H KX SX w g. destruct (cons_there w c o g H) as (o' & E & KO & _). destruct g as ((L1 & L2 & L3 & L4) & S & P & C & EN). eexists. eexists. split; [reflexivity|].
  unfold G, same_objects. cbn [w_stations w_parsers w_conss w_engines].
  rewrite (upd_map _ _ kind c x o') by (try assumption; congruence). repeat (split; try assumption). apply upd_forall; assumption.
Qed.
Lemma s_engine : forall e k, (e < List.length (w_engines w0))%nat -> (forall l, sound_engine l -> safe (k l)) -> safe (ask (get_engine e) k).
Proof.
  intros e k H K. apply s_ask with (P := sound_engine); [|exact K]. intros w ((_ & _ & _ & L) & _ & _ & _ & E).
  destruct (len_nth _ (w_engines w) e ltac:(lia)) as (l & N). exists l. unfold get_engine, at_. rewrite N. split; [reflexivity|]. exact (nth_forall _ _ _ _ _ E N).
Qed.
Lemma s_put_engine : forall e l, sound_engine l -> safe (put_engine e l).
Proof.
  intros e l H w ((L1 & L2 & L3 & L4) & S & P & C & E). eexists. eexists. split; [reflexivity|]. unfold G, same_objects. cbn [w_stations w_parsers w_conss w_engines].
  rewrite upd_len. repeat (split; try assumption). apply upd_forall; assumption.
Qed.

(** ** Consumers *)
Lemma line_none : forall l s k v, attribute_of s k = None -> loco_line lw l (zb max_section s) (zb max_key k) v = Ok l.
Proof.
  intros l s k v A. destruct words as (W1 & W2 & W3 & W4 & _). unfold loco_line, kEngineResult, kEngineKeyUid, kEngineKeyProtocol, kEngineKeyAddress.
  unfold attribute_of in A. rewrite !lit_word by assumption. cbn [bind].
  destruct (taken_for (zs "lokomotive") s); [|reflexivity]. destruct (taken_for (zs "uid") k); [discriminate|]. destruct (taken_for (zs "typ") k); [discriminate|].
  destruct (taken_for (zs "adresse") k); [discriminate|]. reflexivity.
Qed.
Lemma line_sound : forall l s k v, sound_engine l -> (List.length v <= 26)%nat ->
  ~ ((attribute_of s k <> None /\ List.length v = 26%nat) \/ (attribute_of s k = Some Protocol /\ (8 <= List.length (until_nul v))%nat)) ->
  exists l', loco_line lw l (zb max_section s) (zb max_key k) (zb max_value v) = Ok l' /\ sound_engine l'.
Proof.
  intros l s k v (N & P8 & P0) V X. destruct (attribute_of s k) as [a|] eqn:A; [|exists l; split; [apply line_none; exact A|split; auto]].
  exists (after_line lw l (s, k, v)). assert (V' : (List.length v < 26)%nat) by (destruct (Nat.eq_dec (List.length v) 26); [exfalso; apply X; left; split; [discriminate|assumption]|lia]).
  split; [apply line_spec; assumption|]. split; [rewrite line_info; exact N|]. split; [apply line_proto; exact P8|].
  unfold after_line. rewrite A. destruct a; cbn [with_attribute lo_proto]; try exact P0.
  destruct (8 - List.length (until_nul v))%nat eqn:E; [exfalso; apply X; right; split; [reflexivity|lia]|]. apply in_or_app. right. left. reflexivity.
Qed.
Lemma named_sound : forall t, nulfree t -> (List.length t <= 32)%nat -> sound_short (named t).
Proof. intros t N L. exists t. split; [exact N|]. split; [exact L|reflexivity]. Qed.
Definition in_limits (c : nat) (r : report) : Prop :=
  let '(s, k, v) := r in forall x, nth_error (w_conss w0) c = Some x -> ~ excessive x r.
Lemma excessive_kind : forall x y r, kind x = kind y -> excessive x r -> excessive y r.
Proof. intros [] [] ((s & k) & v) K H; try discriminate; exact H. Qed.
Lemma s_consume : forall c r, a_consumer w0 c -> ok_report r -> (forall x, nth_error (w_conss w0) c = Some x -> ~ excessive x r) ->
  safe (let '(s, k, v) := as_buffers r in cons_consume lw c s k v).
Proof.
  intros c ((s & k) & v) HC (OS & OK & OV) X. cbn [as_buffers]. unfold max_section, max_key, max_value in OS, OK, OV.
  destruct (len_nth _ _ _ HC) as (x & NX). specialize (X x NX). unfold cons_consume. apply s_seq; [apply s_emit|]. apply (s_cons c x); [exact NX|].
  intros y KY SY. assert (XY : ~ excessive y (s, k, v)) by (intros Z; apply X; apply (excessive_kind y); assumption).
  destruct y as [e cb|co i n off cb|]; [| |apply s_skip].
  - destruct SY as ((e' & -> & PE) & _). unfold loco_consume. apply s_ask_pure with (x := e'); [reflexivity|]. destruct e' as [e'|]; [|apply s_skip].
    apply s_engine; [exact PE|]. intros l SL. destruct (line_sound l s k v SL OV XY) as (l' & E & SL'). apply s_ask_pure with (x := l'); [exact E|]. apply s_put_engine. exact SL'.
  - destruct words as (_ & _ & _ & _ & W1 & W2 & W3). destruct SY as (ICO & INUM & IOFF & ICB & FI). unfold excessive, list_entry_of in XY.
    unfold list_consume, kEngineNames, kSectionNumEngines, kGenericValue.
    apply s_ask_pure with (x := taken_for (zs "loknamen") s); [apply buf_word; assumption|]. destruct (taken_for (zs "loknamen") s).
    + assert (V' : (List.length v < 26)%nat) by lia. pose proof (first_free i (until_nul v)) as F. destruct (findFirstFreeEntry i) as [j|]; [|apply s_print].
      destruct (until_nul_split v (repeat 0 (max_value - S (List.length v)))) as (r' & E & N). rewrite zb_mem, pad_nul by exact V'. rewrite E.
      apply s_ask_pure with (x := until_nul v); [apply c_str_eq; exact N|]. apply s_seq; [apply s_print|].
      assert (L32 : firstn 32 (until_nul v) = until_nul v) by (apply firstn_all2; pose proof (until_nul_len v); lia).
      apply s_ask_pure with (x := named (until_nul v)).
      { unfold si_setName. change (si_name si_reset) with erased_name. rewrite name_copy by assumption. cbn [bind]. rewrite L32. reflexivity. }
      apply (s_put_cons c x); [exact NX|rewrite <- KY; cbn [kind]; rewrite upd_len; reflexivity|]. repeat (split; [assumption|]). apply upd_forall; [exact FI|].
      apply named_sound; [exact N|]. pose proof (until_nul_len v). lia.
    + apply s_ask_pure with (x := taken_for (zs "numloks") s); [apply buf_word; assumption|]. destruct (taken_for (zs "numloks") s).
      * apply s_ask_pure with (x := taken_for (zs "wert") k); [apply buf_word; assumption|]. destruct (taken_for (zs "wert") k); [|apply s_skip].
        assert (V' : (List.length v < 26)%nat) by lia. unfold basUint8. rewrite zb_mem, pad_nul by exact V'.
        apply s_ask_pure with (x := u8 (dec_value lw v)); [rewrite dec_read; reflexivity|].
        apply (s_put_cons c x); [exact NX|exact KY|]. split; [assumption|]. split; [eexists; reflexivity|]. auto.
      * assert (S' : (List.length s < 11)%nat) by lia. destruct (until_nul_split s (repeat 0 (max_section - S (List.length s)))) as (r' & E & N). rewrite zb_mem, pad_nul by (unfold max_section; lia).
        rewrite E. apply s_ask_pure with (x := until_nul s); [apply c_str_eq; exact N|]. apply s_print.
Qed.
Lemma s_consume_all : forall c rs, a_consumer w0 c -> Forall ok_report rs -> (forall x, nth_error (w_conss w0) c = Some x -> ~ Exists (excessive x) rs) ->
  safe (cons_consume_all lw c (map as_buffers rs)).
Proof.
  intros c rs HC F. induction F as [|r rs O F IH]; intros X; [apply s_skip|]. cbn [map cons_consume_all].
  pose proof (s_consume c r HC O) as S1. destruct (as_buffers r) as ((bs & bk) & bv). apply s_seq.
  - apply S1. intros x N Z. apply (X x N). left. exact Z.
  - apply IH. intros x N Z. apply (X x N). right. exact Z.
Qed.
Lemma s_callback : forall cb (f : nat -> event), initialised cb -> safe (ask (fun _ => mread cb) (fun o => when_some o (fun x => emit (f x)))).
Proof. intros cb f (o & ->). apply s_ask_pure with (x := o); [reflexivity|]. apply s_when. intros. apply s_emit. Qed.
Lemma full_sound : forall l a, sound_engine l -> sound_engine (lo_setAvailability l a).
Proof. intros l a H. exact H. Qed.
Lemma s_complete : forall c, a_consumer w0 c -> safe (cons_complete c).
Proof.
  intros c HC. destruct (len_nth _ _ _ HC) as (x & NX). unfold cons_complete. apply s_seq; [apply s_emit|]. apply (s_cons c x); [exact NX|]. intros y KY SY.
  destruct y as [e cb|co i n off cb|]; [| |apply s_skip].
  - destruct SY as ((e' & -> & PE) & ICB). apply s_ask_pure with (x := e'); [reflexivity|]. destruct e' as [e'|]; [|apply s_skip].
    apply s_engine; [exact PE|]. intros l SL. apply s_seq; [apply s_put_engine; apply full_sound; exact SL|]. apply s_seq; [apply s_puts|]. apply s_seq; [|apply s_seq; [apply s_print|apply s_callback; exact ICB]].
    apply s_print_res. destruct SL as ((t & N) & _ & P0). rewrite (lo_print_full _ t) by (try reflexivity; exact N). destruct (str_in _ P0) as (p & E). cbn [lo_setAvailability lo_proto]. rewrite E. cbn [bind]. eauto.
  - destruct SY as (ICO & INUM & IOFF & ICB & FI). apply s_seq; [|apply s_callback; exact ICB]. apply (s_put_cons c x); [exact NX|exact KY|]. split; [eexists; reflexivity|]. auto.
Qed.
Lemma cleared_sound : forall i, Forall sound_short (list_cleared i).
Proof. induction i; constructor; [|assumption]. exists []. split; [constructor|]. split; [cbn; lia|reflexivity]. Qed.
Lemma s_aborted : forall c, a_consumer w0 c -> safe (cons_aborted c).
Proof.
  intros c HC. destruct (len_nth _ _ _ HC) as (x & NX). unfold cons_aborted. apply s_seq; [apply s_emit|]. apply (s_cons c x); [exact NX|]. intros y KY SY.
  destruct y as [e cb|co i n off cb|]; [| |apply s_skip].
  - destruct SY as (_ & ICB). apply s_callback. exact ICB.
  - destruct SY as (ICO & INUM & IOFF & ICB & FI). apply s_seq; [|apply s_callback; exact ICB].
    apply (s_put_cons c x); [exact NX|rewrite <- KY; cbn; unfold list_cleared; rewrite map_length; reflexivity|].
    repeat (split; [eexists; reflexivity|]). split; [exact ICB|apply cleared_sound].
Qed.

(** ** Parsers *)
Lemma s_reset : forall p, lib0 p -> safe (lib_reset p).
Proof.
  intros p H. unfold lib_reset. apply s_lib; [exact H|]. intros sp (U & PC & _). apply s_seq.
  - destruct (ss_processing (sp_state sp)); [|apply s_skip]. apply s_when. intros c E. rewrite E in PC. apply s_aborted. exact PC.
  - apply s_lib; [exact H|]. intros sp' ((a & F & T) & _). rewrite T. apply s_ask_pure with (x := tp_new); [apply reset_spec; exact F|].
    apply s_put_lib; [exact H|]. split; [exists astart; split; [apply start_fits|reflexivity]|]. split; exact Logic.I.
Qed.
Lemma feed_ok : forall bs c, initialised (crc_acc c) -> exists c', crc_feed c bs = Ok c' /\ initialised (crc_acc c') /\ crc_ref c' = crc_ref c.
Proof.
  induction bs as [|x bs IH]; intros c (a & E); [exists c; repeat split; eexists; exact E|]. cbn [crc_feed]. unfold crc_updateCrc. rewrite E. cbn [mread bind].
  destruct (IH (mkCrc (Def (crc_update a x)) (crc_ref c))) as (c' & E' & I' & R'); [eexists; reflexivity|]. exists c'. auto.
Qed.
Definition fine (w : world) (p : nat) (d : Data) : Prop :=
  forall sp a c x, lib_at w p sp -> sp_state sp = SS_DATA -> dlc d = 8 -> sp_text sp = parser a (sp_cons sp) -> sp_cons sp = Some c ->
    consumer_at w c x -> ~ Exists (excessive x) (snd (aadd a (content d))).
Lemma s_add_at : forall w p d, G w -> lib0 p -> valid_frame d -> fine w p d -> safe_at w (lib_addMessage lw p d).
Proof.
  intros w p d g H (PD & D8) FI. destruct (lib_there w p g H) as (sp & L & (U & PC & CR)). unfold lib_addMessage.
  assert (X : forall k, safe_at w (k sp) -> safe_at w (ask (get_lib p) k)).
  { intros k (w' & t & E & g'). exists w', t. rewrite (ask_ok _ _ _ _ _ (lib_get _ _ _ L)). auto. }
  apply X. clear X. destruct (sp_state sp) eqn:ST; try (apply s_print; exact g).
  - destruct ((dlc d =? 6) || (dlc d =? 7)).
    + cbv zeta. destruct (sp_remaining _ >? 0).
      * apply s_put_lib; [exact H| |exact g]. split; [exact U|]. split; [exact PC|]. cbn. split; [exact CR|eexists; reflexivity].
      * apply s_seq; [| |exact g]; [apply s_put_lib; [exact H|split; [exact U|split; [exact PC|exact Logic.I]]]|]. apply s_when. cbn [sp_cons]. intros c E. rewrite E in PC. apply s_complete. exact PC.
    + destruct (dlc d >=? 8); (apply s_seq; [apply s_print|apply s_reset; exact H|exact g]).
  - destruct (negb (dlc d =? 8)) eqn:E8; [apply s_seq; [apply s_print|apply s_reset; exact H|exact g]|]. assert (D : dlc d = 8) by lia.
    destruct U as (a & F & T). destruct CR as (CA & CF). cbv zeta.
    destruct (feed_ok (content d) _ CA) as (crc & FE & CA' & CF'). rewrite <- CF' in CF.
    assert (X1 : (bs <- data_visited d ;; crc_feed (sp_crc sp) bs) = Ok crc) by (rewrite (visited_data _ PD D); exact FE).
    assert (X2 : tp_addText (sp_text sp) (mkBuf (dbytes d) CanDataMaxLength (dlc d)) = Ok (parser (fst (aadd a (content d))) (sp_cons sp), told (sp_cons sp) (snd (aadd a (content d))))).
    { rewrite T. rewrite (addText_spec _ _ _ _ F (holds_data _ PD D)). reflexivity. }
    set (a' := fst (aadd a (content d))) in *. set (rs := snd (aadd a (content d))) in *.
    apply s_ask_pure with (x := crc); [exact X1| |exact g]. apply s_ask_pure with (x := (parser a' (sp_cons sp), told (sp_cons sp) rs)); [exact X2|]. cbn [fst snd].
    assert (U' : usable (mkSP SS_DATA 0 (parser a' (sp_cons sp)) crc (sp_cons sp))) by (exists a'; split; [apply aadd_fits; exact F|reflexivity]).
    apply s_seq; [apply s_put_lib; [exact H|]; split; [exact U'|]; split; [exact PC|]; split; assumption|].
    apply s_seq.
    + rewrite T. cbn [tp_cons parser]. apply s_when. intros c E. rewrite E. cbn [told]. rewrite E in PC. apply s_consume_all; [exact PC|apply aadd_reports; exact F|].
      intros x N Z. destruct (cons_there w c x g N) as (y & NY & KY & _). apply (FI sp a c y L ST D T E NY).
      fold rs. clear - KY Z. clearbody rs. induction Z; [left; eapply excessive_kind; [symmetry; exact KY|assumption]|right; assumption].
    + destruct (u32 _ =? 0); [|apply s_skip]. destruct CA' as (va & CA'). destruct CF as (vr & CF). apply s_ask_pure with (x := (va =? vr)).
      { unfold crc_isValid. rewrite CA', CF. reflexivity. }
      destruct (va =? vr); (apply s_seq; [apply s_put_lib; [exact H|split; [exact U'|split; [exact PC|exact Logic.I]]]|]); apply s_when; intros c E; rewrite E in PC; [apply s_complete|apply s_aborted]; exact PC.
Qed.
Definition parser0 (p : nat) : Prop := (p < List.length (w_parsers w0))%nat.
Lemma start_sound : forall sp, sound_parser w0 (LibP sp) -> sound_parser w0 (LibP (sp_startStream sp)).
Proof. intros sp (U & PC & _). split; [exact U|]. split; [exact PC|]. cbn. eexists. reflexivity. Qed.
Lemma s_cfg : forall p c, parser0 p -> (forall d, c <> CAdd d) -> safe (cfg_call lw p c).
Proof.
  intros p c H NA. destruct (len_nth _ _ _ H) as (o & N). unfold cfg_call. apply s_seq; [apply s_emit|]. apply (s_parser p o); [exact N|]. intros [sp|beh h] K S.
  - assert (L0 : lib0 p) by (destruct o as [sp0|]; [exists sp0; exact N|discriminate]). destruct c; [apply s_put_lib; [exact L0|apply start_sound; exact S]|exfalso; eapply NA; reflexivity|apply s_reset; exact L0].
  - apply (s_put_parser p o); [exact N|exact K|exact Logic.I].
Qed.
Lemma s_cfg_add_at : forall w p d, G w -> parser0 p -> valid_frame d -> fine w p d -> safe_at w (cfg_call lw p (CAdd d)).
Proof.
  intros w p d g H V FI. destruct (len_nth _ _ _ H) as (o & N). unfold cfg_call. apply s_emit_at. destruct (parser_there w p o g N) as (o' & E & K & S).
  assert (X : forall k, safe_at w (k o') -> safe_at w (ask (get_parser p) k)).
  { intros k (w' & t & E' & g'). exists w', t. unfold ask, get_parser, at_. rewrite E. auto. }
  apply X. destruct o' as [sp|beh h].
  - apply s_add_at; try assumption. destruct o as [sp0|]; [exists sp0; exact N|discriminate].
  - apply (s_put_parser p o); [exact N|exact K|exact Logic.I|exact g].
Qed.

(** ** Stations *)
Definition station0 (s : nat) : Prop := (s < List.length (w_stations w0))%nat.
Lemma s_tx : forall st f, sound_cbs w0 (st_cbs st) -> safe (tx_send (st_cbs st) f).
Proof. intros st f (T & _). unfold tx_send. destruct (cb_tx (st_cbs st)) as [x|]; [|congruence]. apply s_ask_pure with (x := x); [reflexivity|apply s_emit]. Qed.
Lemma s_finish : forall s, station0 s -> safe (st_finish lw s).
Proof.
  intros s H. unfold st_finish. apply s_station; [exact H|]. intros st (T & E & P). apply s_when. intros p C. rewrite C in P.
  apply s_seq; [apply s_cfg; [exact P|discriminate]|]. apply s_station; [exact H|]. intros st' (T' & E' & _). apply s_put_station. split; [exact T'|]. split; [exact E'|exact Logic.I].
Qed.
Lemma set_cfg_sound : forall st p, sound_cbs w0 (st_cbs st) -> points (w_parsers w0) p -> sound_cbs w0 (st_cbs (set_cfg st p)).
Proof. intros st p (T & E & _) P. split; [exact T|]. split; [exact E|exact P]. Qed.
Lemma s_begin : forall s u c, station0 s -> sound_cbs w0 c -> safe (st_begin lw s u c).
Proof.
  intros s u c H C. unfold st_begin, st_abort. apply s_seq; [apply s_finish; exact H|]. apply s_station; [exact H|]. intros st _.
  apply s_seq; apply s_put_station; exact C.
Qed.
Lemma s_request_list : forall s off p, station0 s -> points (w_parsers w0) p -> safe (st_requestEngineList lw s off p).
Proof.
  intros s off p H P. unfold st_requestEngineList, st_abort. apply s_seq; [apply s_finish; exact H|]. apply s_station; [exact H|]. intros st SC.
  apply s_seq; [apply s_put_station; apply set_cfg_sound; assumption|]. apply s_ask_pure with (x := zs "loknamen" ++ [0]); [reflexivity|].
  destruct (snprintf9 _) as (b2 & n). destruct (u8 n <=? CanDataMaxLength); [|apply s_skip].
  apply s_seq; [apply s_when; intros q E; rewrite E in P; apply s_cfg; [exact P|discriminate]|]. apply s_seq; apply s_tx; exact SC.
Qed.
Lemma short_there : forall w r, G w -> valid_ref w0 r -> exists si, get_short r w = Ok si /\ sound_short si.
Proof.
  intros w [e|c k|s] g V; cbn [valid_ref get_short] in *.
  - destruct g as ((_ & _ & _ & L) & _ & _ & _ & E). destruct (len_nth _ (w_engines w) e ltac:(lia)) as (l & N). exists (lo_info l). unfold get_engine, at_. rewrite N. split; [reflexivity|].
    exact (proj1 (nth_forall _ _ _ _ _ E N)).
  - destruct V as (co & i & n & off & cb & C & K). destruct (cons_there w c _ g C) as ([|co' i' n' off' cb'|] & E & KK & S); try discriminate.
    unfold get_cons, at_ at 1. rewrite E. cbn [bind]. injection KK as KK. destruct (len_nth _ i' k ltac:(lia)) as (x & N). exists x. unfold at_. rewrite N. split; [reflexivity|].
    destruct S as (_ & _ & _ & _ & F). exact (nth_forall _ _ _ _ _ F N).
  - exists s. split; [reflexivity|exact V].
Qed.
Lemma s_request : forall s r p, station0 s -> valid_ref w0 r -> points (w_parsers w0) p -> safe (st_requestEngine lw s r p).
Proof.
  intros s r p H V P. unfold st_requestEngine, st_abort. apply s_ask with (P := sound_short); [intros w g; exact (short_there w r g V)|]. intros si _.
  destruct (negb (si_isNameKnown si)); [apply s_skip|]. apply s_station; [exact H|]. intros st SC.
  apply s_ask with (P := fun _ => True).
  { intros w g. destruct SC as (_ & _ & PC). destruct (cb_cfg (st_cbs st)) as [q|]; [|exists false; auto]. destruct (len_nth _ _ _ PC) as (o & N). destruct (parser_there w q o g N) as (o' & E & _).
    eexists. unfold cfg_isProcessing, get_parser, at_. rewrite E. cbn [bind]. split; [reflexivity|exact Logic.I]. }
  intros busy _. destruct busy; [apply s_skip|]. apply s_seq; [apply s_finish; exact H|]. apply s_station; [exact H|]. intros st' SC'.
  apply s_seq; [apply s_put_station; apply set_cfg_sound; assumption|]. apply s_seq; [apply s_when; intros q E; rewrite E in P; apply s_cfg; [exact P|discriminate]|].
  apply s_ask_pure with (x := zs "lokinfo" ++ [0; 0]); [reflexivity|]. apply s_seq; [apply s_tx; exact SC'|]. apply s_ask with (P := sound_short); [intros w g; exact (short_there w r g V)|].
  intros si' (t & N). destruct (str_of _ _ N) as (_ & (n & LN) & L33). apply s_ask_pure with (x := n); [exact LN|].
  destruct (strncpy_ok (dbytes data0) (si_name si') CanDataMaxLength) as (b2 & E2); [vm_compute; discriminate|vm_compute; discriminate|unfold zlen, CanDataMaxLength; lia|].
  apply s_ask_pure with (x := b2); [exact E2|]. apply s_seq; [apply s_tx; exact SC'|].
  destruct (strncpy_ok (dbytes data0) (skipn (Z.to_nat CanDataMaxLength) (si_name si')) CanDataMaxLength) as (b3 & E3); [vm_compute; discriminate|vm_compute; discriminate| |].
  { unfold zlen. rewrite skipn_length, L33. vm_compute. discriminate. }
  destruct (n >? CanDataMaxLength); [apply s_ask_pure with (x := b3); [exact E3|]|apply s_ask_pure with (x := dbytes data0); [reflexivity|]]; apply s_tx; exact SC'.
Qed.
Lemma text_ok : forall d, valid_frame d -> exists bs, printAsText d = Ok bs.
Proof. intros d (P & D). unfold printAsText. rewrite visited_ok; [eauto|assumption|lia]. Qed.
Lemma s_stream_at : forall w s d st, G w -> station0 s -> valid_frame d -> nth_error (w_stations w) s = Some st ->
  (forall p, cb_cfg (st_cbs st) = Some p -> fine w p d) -> safe_at w (st_handleConfigDataStream lw s d).
Proof.
  intros w s d st g H V N FI. unfold st_handleConfigDataStream.
  assert (X : forall k, safe_at w (k st) -> safe_at w (ask (get_station s) k)).
  { intros k (w' & t & E' & g'). exists w', t. unfold ask, get_station, at_. rewrite N. auto. }
  apply X. clear X. pose proof g as (_ & S & _). pose proof (nth_forall _ _ _ _ _ S N) as (_ & _ & PC). cbn beta in PC.
  assert (Y : forall A (f : world -> res A) k x, f w = Ok x -> safe_at w (k x) -> safe_at w (ask f k)).
  { intros A f k x E (w' & t & E' & g'). exists w', t. unfold ask. rewrite E. auto. }
  assert (Q : safe (puts "Ignoring ConfigData Stream: " ;;; print_res (printAsText d))) by (apply s_seq; [apply s_puts|apply s_print_res; apply text_ok; exact V]).
  destruct (cb_cfg (st_cbs st)) as [p|].
  - destruct (len_nth _ _ _ PC) as (o & NO). destruct (parser_there w p o g NO) as (o' & E & _).
    apply Y with (x := if ss_processing (pobj_state o') then Some p else None). { unfold cfg_isProcessing, get_parser, at_. rewrite E. reflexivity. }
    destruct (ss_processing (pobj_state o')); [|apply Q; exact g]. apply s_cfg_add_at; try assumption. apply FI. reflexivity.
  - apply Y with (x := None); [reflexivity|]. apply Q. exact g.
Qed.
Lemma s_system : forall s i d, station0 s -> safe (st_handleSystemCommand s i d).
Proof.
  intros s i d H. unfold st_handleSystemCommand. apply s_station; [exact H|]. intros st _. cbv zeta.
  repeat first [apply s_seq|apply s_puts|apply s_print|apply s_emit|apply s_when; intros|match goal with |- safe (if ?x then _ else _) => destruct x end].
Qed.
Lemma s_acc : forall s d r, station0 s -> safe (st_handleAccessoryPacket s d r).
Proof. intros s d r H. unfold st_handleAccessoryPacket. apply s_station; [exact H|]. intros st _. apply s_seq; [apply s_print|apply s_when; intros; apply s_emit]. Qed.
Lemma s_eng : forall st k, sound_cbs w0 (st_cbs st) -> (forall o, safe (k o)) -> safe (ask (fun _ => deref (cb_eng (st_cbs st))) k).
Proof. intros st k (_ & E & _) K. destruct (cb_eng (st_cbs st)) as [x|]; [|congruence]. apply s_ask_pure with (x := x); [reflexivity|apply K]. Qed.
Lemma s_dir : forall s d, station0 s -> safe (st_handleLocoDirection s d).
Proof.
  intros s d H. unfold st_handleLocoDirection. apply s_station; [exact H|]. intros st SC. cbv zeta.
  destruct (_ =? _); [|apply s_skip]. destruct (_ || _); [apply s_eng; [exact SC|intros; apply s_emit]|]. destruct (_ =? _); [apply s_eng; [exact SC|intros; apply s_emit]|apply s_skip].
Qed.
Lemma s_speed : forall s d, station0 s -> safe (st_handleLocoSpeed s d).
Proof. intros s d H. unfold st_handleLocoSpeed. apply s_station; [exact H|]. intros st SC. cbv zeta. destruct (_ =? _); [|apply s_skip]. apply s_when. intros. apply s_emit. Qed.
Lemma s_fun : forall s d, station0 s -> safe (st_handleLocoFunction s d).
Proof. intros s d H. unfold st_handleLocoFunction. apply s_station; [exact H|]. intros st SC. destruct (_ =? _); [|apply s_skip]. apply s_eng; [exact SC|intros; apply s_emit]. Qed.
Lemma s_send : forall s f, station0 s -> safe (st_sendPacket s f).
Proof. intros s f H. unfold st_sendPacket. apply s_station; [exact H|]. intros. apply s_tx. assumption. Qed.
Lemma s_send_functions : forall st u n i, sound_cbs w0 (st_cbs st) -> safe (send_functions st u i n).
Proof. intros st u n. induction n; intros i H; [apply s_skip|]. cbn [send_functions]. apply s_seq; [apply s_tx; exact H|apply IHn; exact H]. Qed.
Lemma s_packet_at : forall w s f st, G w -> station0 s -> valid_frame (fdata f) -> nth_error (w_stations w) s = Some st ->
  (forall p, id_getCommand (fid f) = CMD_CONFIG_DATA -> cb_cfg (st_cbs st) = Some p -> fine w p (fdata f)) -> safe_at w (st_handlePacket lw s f).
Proof.
  intros w s f st g H V N FI. unfold st_handlePacket. cbv zeta.
  destruct (id_getCommand (fid f) =? kSystemCommand); [apply s_system; assumption|].
  destruct (id_getCommand (fid f) =? kPing); [apply s_skip; exact g|].
  destruct (id_getCommand (fid f) =? kAccessorySwitch); [apply s_seq; [apply s_puts|apply s_seq; [apply s_acc; exact H|apply s_print]|exact g]|].
  destruct (id_getCommand (fid f) =? kLocoDirection); [apply s_dir; assumption|].
  destruct (id_getCommand (fid f) =? kLocoSpeed); [apply s_speed; assumption|].
  destruct (id_getCommand (fid f) =? kLocoFunction); [apply s_fun; assumption|].
  destruct (id_getCommand (fid f) =? kRequestConfigData); [apply s_skip; exact g|].
  destruct (id_getCommand (fid f) =? kConfigDataStream) eqn:E.
  { apply (s_stream_at w s _ st); try assumption. intros p. apply FI. apply Z.eqb_eq in E. exact E. }
  destruct (id_getCommand (fid f) =? kDebugText).
  - apply s_seq; [apply s_puts|apply s_seq; [apply s_print_res; apply text_ok; exact V|apply s_print]|exact g].
  - apply s_seq; [apply s_print|apply s_seq; [apply s_print_res|apply s_print]|exact g]. destruct V as (P & D). apply hex_ok; [exact P|lia].
Qed.
Lemma s_eop : forall l o, sound_engine l -> valid_eop o -> exists l', eop_apply l o = Ok l' /\ sound_engine l'.
Proof.
  intros l o SL V. destruct o; cbn [eop_apply valid_eop] in *; try (eexists; split; [reflexivity|exact SL]).
  - destruct V as (t & r & -> & N). assert (X : exists l', lo_setName l (t ++ 0 :: r) = Ok l' /\ sound_engine l').
    { unfold lo_setName. change (si_name (lo_info lo_reset)) with erased_name. rewrite name_copy by exact N. cbn [bind]. eexists. split; [reflexivity|].
      split; [|cbn; auto]. exists (firstn 32 t). split; [apply Forall_firstn; exact N|]. split; [rewrite firstn_length; lia|reflexivity]. }
    exact X.
  - destruct V as (t & r & -> & N). destruct SL as ((n & SN) & P8 & P0). destruct (lo_setNameConditional_spec l n t r SN N) as (A & B).
    assert (D : (si_avail (lo_info l) <> EMPTY /\ firstn 32 t = n) \/ (si_avail (lo_info l) = EMPTY \/ firstn 32 t <> n)).
    { destruct (list_eq_dec Z.eq_dec (firstn 32 t) n); [|auto]. destruct (si_avail (lo_info l)); auto; left; split; auto; discriminate. }
    destruct D as [D|D]; [rewrite (A D); exists l; split; [reflexivity|split; [exists n; exact SN|auto]]|]. destruct (B D) as (l' & E & E2). rewrite E. exists l'. split; [reflexivity|].
    unfold lo_setName in E2. change (si_name (lo_info lo_reset)) with erased_name in E2. rewrite name_copy in E2 by exact N. cbn [bind] in E2. injection E2 as <-.
    split; [|cbn; auto]. exists (firstn 32 t). split; [apply Forall_firstn; exact N|]. split; [rewrite firstn_length; lia|reflexivity].
  - eexists. split; [reflexivity|]. split; [exists []; split; [constructor|split; [cbn; lia|reflexivity]]|cbn; auto].
  - unfold ld_setFunction, fmask. replace (f <? 32) with true by lia. cbn [bind]. eexists. split; [reflexivity|exact SL].
  - destruct V as (t & r & -> & N & L). destruct SL as (SN & P8 & P0). destruct (proto_spec l t r P8 N) as (l' & E & I' & D' & P'). exists l'. split; [exact E|]. split; [rewrite I'; exact SN|].
    rewrite P', app_length, firstn_length, repeat_length. split; [lia|]. apply in_or_app. right. replace (8 - List.length t)%nat with (S (7 - List.length t)) by lia. left. reflexivity.
Qed.
Lemma fine_of : forall w o p d, ~ excessive_line w o -> hands_over w o p d -> fine w p d.
Proof. intros w o p d X H sp a c x L ST D T C N E. apply X. exists p, d, sp, a, c, x. auto 10. Qed.
Lemma list0 : forall c, a_list_consumer w0 c -> exists o, nth_error (w_conss w0) c = Some o /\ exists co i n off cb, o = ListC co i n off cb.
Proof. intros c (co & i & n & off & cb & H). eexists. split; [exact H|]. eauto 10. Qed.
Lemma s_list : forall c k, a_list_consumer w0 c ->
  (forall o co i n off cb, nth_error (w_conss w0) c = Some o -> kind (ListC co i n off cb) = kind o -> sound_consumer w0 (ListC co i n off cb) -> safe (k (ListC co i n off cb))) -> safe (ask (get_cons c) k).
Proof.
  intros c k H K. destruct (list0 c H) as (o & N & (co & i & n & off & cb & ->)). apply (s_cons c _ _ N). intros o' KO SO. destruct o'; try discriminate. eapply K; eassumption.
Qed.
Lemma print_ok : forall i, Forall sound_short i -> exists bs, list_print i = Ok bs.
Proof.
  intros i H. induction H as [|x i (t & N) F (bs & IH)]; [cbn; eauto|]. cbn [list_print]. destruct (str_of _ _ N) as (E & _). assert (P : exists a, si_print x = Ok a).
  { unfold si_print. rewrite E. destruct (si_avail x); cbn [bind]; eauto. }
  destruct P as (a & ->). cbn [bind]. rewrite IH. cbn [bind]. eauto.
Qed.
Lemma step_safe : forall w o, G w -> valid_op w0 o -> ~ excessive_line w o -> safe_at w (step lw o).
Proof.
  intros w o g V X. destruct o as [s o|p|p c|p d|p|c cb|c e|c off|c|c|c|e o]; cbn [step valid_op] in *.
  - destruct V as (H & V). destruct (len_nth _ (w_stations w) s) as (st & N); [destruct g as ((L & _) & _); rewrite L; exact H|].
    destruct o; cbn [st_step valid_sop] in *; try (apply s_skip; exact g); try (apply s_finish; assumption); try (apply s_acc; assumption);
      try (apply s_dir; assumption); try (apply s_speed; assumption); try (apply s_fun; assumption); try (apply s_system; assumption); try (apply s_send; assumption).
    + apply s_begin; assumption.
    + apply (s_packet_at w s f st); try assumption. intros p CMD C. apply (fine_of w _ p _ X). right. exists s, st. split; [exact N|]. split; [exact C|]. right. exists f. auto.
    + apply (s_stream_at w s d st); try assumption. intros p C. apply (fine_of w _ p _ X). right. exists s, st. auto.
    + unfold st_sendAccessoryPacket. apply s_station; [exact H| |exact g]. intros. cbv zeta. apply s_tx. assumption.
    + apply s_request; try apply V; assumption.
    + apply s_request_list; assumption.
    + unfold st_requestEngineDirection. apply s_station; [exact H| |exact g]. intros. apply s_tx. assumption.
    + unfold st_sendEngineDirection. destruct (_ || _); [apply s_send; assumption|apply s_skip; exact g].
    + unfold st_requestEngineVelocity. apply s_station; [exact H| |exact g]. intros. apply s_tx. assumption.
    + unfold st_requestEngineFunction. apply s_station; [exact H| |exact g]. intros. apply s_tx. assumption.
    + unfold st_requestEngineAllFunctions. apply s_station; [exact H| |exact g]. intros. apply s_send_functions. assumption.
    + unfold st_sendEmergencyStop. apply s_station; [exact H| |exact g]. intros. apply s_tx. assumption.
    + unfold st_sendSystemStop. apply s_station; [exact H| |exact g]. intros. apply s_tx. assumption.
    + unfold st_sendSystemGo. apply s_station; [exact H| |exact g]. intros. apply s_tx. assumption.
  - apply s_lib; [exact V| |exact g]. intros sp S. apply s_put_lib; [exact V|apply start_sound; exact S].
  - destruct V as (V & PC). apply s_lib; [exact V| |exact g]. intros sp ((a & F & T) & _ & CR). apply s_put_lib; [exact V|]. split; [exists a; split; [exact F|cbn; rewrite T; reflexivity]|]. split; [exact PC|exact CR].
  - destruct V as (V & VF). apply s_add_at; try assumption. apply (fine_of w _ p d X). left. reflexivity.
  - apply s_reset; assumption.
  - destruct (len_nth _ _ _ V) as (o & N). apply (s_cons c o); [exact N| |exact g]. intros [e cb'|co i n off cb'|] K S; [| |apply s_skip].
    + apply (s_put_cons c o); [exact N|exact K|]. split; [apply S|eexists; reflexivity].
    + apply (s_put_cons c o); [exact N|exact K|]. destruct S as (A & B & C & _ & F). repeat (split; [assumption|]). split; [eexists; reflexivity|exact F].
  - destruct V as ((e0 & cb0 & N) & PE). apply (s_cons c _ _ N); [|exact g]. intros [e' cb'| |] K S; try discriminate. apply (s_put_cons c _ _ N); [exact K|]. split; [eexists; split; [reflexivity|exact PE]|apply S].
  - apply s_list; [exact V| |exact g]. intros o co i n off' cb N K (A & B & C & D & F). apply (s_put_cons c _ _ N); [exact K|]. repeat (split; [first [assumption|eexists; reflexivity]|]). exact F.
  - apply s_list; [exact V| |exact g]. intros o co i n off' cb N K (A & B & C & D & F). apply (s_put_cons c _ _ N); [rewrite <- K; cbn; unfold list_cleared; rewrite map_length; reflexivity|].
    repeat (split; [first [assumption|eexists; reflexivity]|]). apply cleared_sound.
  - apply s_list; [exact V| |exact g]. intros o co i n off' cb N K (A & B & C & D & F). apply (s_put_cons c _ _ N); [rewrite <- K; cbn; unfold list_cleared; rewrite map_length; reflexivity|].
    repeat (split; [first [assumption|eexists; reflexivity]|]). apply cleared_sound.
  - apply s_list; [exact V| |exact g]. intros o co i n off' cb N K (A & (n' & ->) & C & D & F). apply s_ask_pure with (x := n'); [reflexivity|]. apply s_seq; [apply s_print|]. apply s_print_res. apply print_ok. exact F.
  - destruct V as (H & V). apply s_engine; [exact H| |exact g]. intros l SL. destruct (s_eop l o SL V) as (l' & E & SL'). apply s_ask_pure with (x := l'); [exact E|]. apply s_put_engine. exact SL'.
Qed.
End Safe.

Lemma G_sound : forall w0 w, G w0 w -> sound w.
Proof.
  intros w0 w ((L1 & L2 & L3 & L4) & S & P & C & E). assert (LP : List.length (w_parsers w) = List.length (w_parsers w0)) by (rewrite <- (map_length pkind), L2; apply map_length).
  assert (LC : List.length (w_conss w) = List.length (w_conss w0)) by (rewrite <- (map_length kind), L3; apply map_length).
  assert (PT : forall A B (l : list A) (l' : list B) p, List.length l = List.length l' -> points l' p -> points l p) by (intros A B l l' [p|] Q; cbn; [rewrite Q; auto|auto]).
  split; [|split; [|split; [|exact E]]].
  - eapply Forall_impl; [|exact S]. intros st (A & B & D). split; [exact A|]. split; [exact B|]. eapply PT; eassumption.
  - eapply Forall_impl; [|exact P]. intros [sp|]; [|auto]. intros (A & B & D). split; [exact A|]. split; [|exact D]. eapply PT; eassumption.
  - eapply Forall_impl; [|exact C]. intros [e cb| |]; auto. intros ((e' & A & B) & D). split; [|exact D]. exists e'. split; [exact A|]. eapply PT; eassumption.
Qed.
Lemma sound_G : forall w, sound w -> G w w.
Proof. intros w (S & P & C & E). split; [apply same_refl|]. auto. Qed.
(** whether a line is excessive can be decided *)
Lemma excessive_dec : forall x r, {excessive x r} + {~ excessive x r}.
Proof.
  intros x ((s & k) & v). destruct x; cbn [excessive]; [| |right; tauto].
  - destruct (attribute_of s k) as [a|]; [|right; intuition congruence]. destruct (Nat.eq_dec (List.length v) 26); [left; left; split; [discriminate|assumption]|].
    destruct a; try (right; intuition congruence). destruct (le_dec 8 (List.length (until_nul v))); [left; right; auto|right; intuition].
  - destruct (list_entry_of (s, k, v)); apply Nat.eq_dec.
Qed.
Lemma zb_inj : forall cap x y, zb cap x = zb cap y -> x = y.
Proof.
  intros cap x y E. unfold zb in E. injection E as E1 E2. assert (L : List.length x = List.length y) by (unfold zlen in E2; lia).
  apply (f_equal (firstn (List.length x))) in E1. rewrite firstn_app, firstn_all, Nat.sub_diag in E1. rewrite L, firstn_app, firstn_all, Nat.sub_diag in E1. cbn in E1. rewrite !app_nil_r in E1. exact E1.
Qed.
Lemma parser_inj : forall a a' c, parser a c = parser a' c -> a = a'.
Proof.
  intros [wh s k v] [wh' s' k' v'] c E. unfold parser in E. cbn [a_at a_sec a_key a_val] in E. apply (f_equal tp_state) in E as E1. apply (f_equal tp_sec) in E as E2. apply (f_equal tp_key) in E as E3. apply (f_equal tp_val) in E as E4. cbn [tp_state tp_sec tp_key tp_val] in *.
  assert (X : forall u u', pstate u = pstate u' -> u = u') by (intros [] []; cbn; congruence). apply X in E1. subst wh'. f_equal; eapply zb_inj; eassumption.
Qed.
Definition bad_line (w : world) (p : nat) (d : Data) : Prop :=
  exists sp a c x, lib_at w p sp /\ sp_state sp = SS_DATA /\ dlc d = 8 /\ sp_text sp = parser a (sp_cons sp) /\ sp_cons sp = Some c /\
  consumer_at w c x /\ Exists (excessive x) (snd (aadd a (content d))).
Lemma bad_dec : forall w p d, all_usable w -> bad_line w p d \/ ~ bad_line w p d.
Proof.
  intros w p d U. unfold bad_line, lib_at. destruct (nth_error (w_parsers w) p) as [[sp|]|] eqn:L; try (right; intros (sp' & ? & ? & ? & E & _); discriminate).
  destruct (U p sp L) as (a & F & T). assert (ST : sp_state sp = SS_DATA \/ sp_state sp <> SS_DATA) by (destruct (sp_state sp); auto; right; discriminate).
  destruct ST as [ST|ST]; [|right; intros (sp' & a' & c & x & E & ST' & _); injection E as <-; contradiction].
  destruct (Z.eq_dec (dlc d) 8) as [D|D]; [|right; intros (sp' & a' & c & x & _ & _ & D' & _); contradiction].
  destruct (sp_cons sp) as [c|] eqn:C; [|right; intros (sp' & a' & c & x & E & _ & _ & _ & C' & _); injection E as <-; congruence].
  unfold consumer_at. destruct (nth_error (w_conss w) c) as [x|] eqn:N; [|right; intros (sp' & a' & c' & x & E & _ & _ & _ & C' & N' & _); injection E as <-; congruence].
  destruct (Exists_dec (excessive x) (snd (aadd a (content d))) (excessive_dec x)) as [X|X].
  - left. exists sp, a, c, x. rewrite C. auto 10.
  - right. intros (sp' & a' & c' & x' & E & _ & _ & T' & C' & N' & X'). injection E as <-. rewrite C in *. injection C' as <-. rewrite N in N'. injection N' as <-.
    rewrite T in T'. apply parser_inj in T'. subst a'. contradiction.
Qed.
Lemma line_dec : forall w o, all_usable w -> excessive_line w o \/ ~ excessive_line w o.
Proof.
  intros w o U. assert (IFF : excessive_line w o <-> exists p d, hands_over w o p d /\ bad_line w p d).
  { unfold excessive_line, bad_line. split; [intros (p & d & sp & a & c & x & H & R); exists p, d; split; [exact H|exists sp, a, c, x; exact R]|intros (p & d & H & sp & a & c & x & R); exists p, d, sp, a, c, x; auto]. }
  rewrite IFF. clear IFF.
  assert (K : (exists p d, hands_over w o p d /\ forall p' d', hands_over w o p' d' -> p' = p /\ d' = d) \/ forall p d, ~ hands_over w o p d).
  { destruct o; try (right; intros p' d' [E|(s' & st & _ & _ & [E|(f & E & _)])]; discriminate).
    - assert (Q : forall d, (forall p' d', hands_over w (OnStation s o) p' d' -> d' = d /\ exists st, nth_error (w_stations w) s = Some st /\ cb_cfg (st_cbs st) = Some p') ->
        (forall p' st, nth_error (w_stations w) s = Some st -> cb_cfg (st_cbs st) = Some p' -> hands_over w (OnStation s o) p' d) ->
        (exists p0 d0, hands_over w (OnStation s o) p0 d0 /\ forall p' d', hands_over w (OnStation s o) p' d' -> p' = p0 /\ d' = d0) \/ forall p0 d0, ~ hands_over w (OnStation s o) p0 d0).
      { intros d A B. destruct (nth_error (w_stations w) s) as [st|] eqn:N; [|right; intros p' d' H; destruct (A _ _ H) as (_ & st & E & _); discriminate].
        destruct (cb_cfg (st_cbs st)) as [p|] eqn:C; [|right; intros p' d' H; destruct (A _ _ H) as (_ & st' & E & C'); injection E as <-; congruence].
        left. exists p, d. split; [apply (B p st); auto|]. intros p' d' H. destruct (A _ _ H) as (E & st' & E' & C'). injection E' as <-. split; congruence. }
      destruct o; try (right; intros p' d' [E|(s' & st & _ & _ & [E|(f' & E & _)])]; discriminate).
      + destruct (Z.eq_dec (id_getCommand (fid f)) CMD_CONFIG_DATA) as [CMD|CMD].
        * apply (Q (fdata f)).
          -- intros p' d' [E|(s' & st & N & C & [E|(f' & E & D & CMD')])]; try discriminate. injection E as <- <-. split; [congruence|]. eauto.
          -- intros p' st N C. right. exists s, st. split; [exact N|]. split; [exact C|]. right. exists f. auto.
        * right. intros p' d' [E|(s' & st & N & C & [E|(f' & E & D & CMD')])]; try discriminate. injection E as <- <-. contradiction.
      + apply (Q d).
        * intros p' d' [E|(s' & st & N & C & [E|(f' & E & D & CMD')])]; try discriminate. injection E as <- <-. split; [reflexivity|]. eauto.
        * intros p' st N C. right. exists s, st. auto.
    - left. exists p, d. split; [left; reflexivity|]. intros p' d' [E|(s' & st & _ & _ & [E|(f & E & _)])]; try discriminate. injection E as <- <-. auto. }
  destruct K as [(p & d & H & UN)|H]; [|right; intros (p & d & H' & _); exact (H _ _ H')].
  destruct (bad_dec w p d U) as [B|B]; [left; eauto|]. right. intros (p' & d' & H' & B'). destruct (UN _ _ H') as (-> & ->). contradiction.
Qed.
Lemma G_usable : forall w0 w, G w0 w -> all_usable w.
Proof. intros w0 w (_ & _ & P & _) p sp L. exact (proj1 (nth_forall _ _ _ _ _ P L)). Qed.
(** any history: it runs to the end, or an excessive line is reported on the way *)
Lemma run_safe : forall lw w0 ops w, G w0 w -> Forall (valid_op w0) ops ->
  (exists w' t, run lw ops w = Ok (w', t) /\ G w0 w') \/
  (exists pre o post w1 t1, ops = pre ++ o :: post /\ run lw pre w = Ok (w1, t1) /\ G w0 w1 /\ excessive_line w1 o).
Proof.
  intros lw w0 ops. induction ops as [|o ops IH]; intros w g F.
  - left. exists w, []. split; [reflexivity|exact g].
  - inversion F; subst. destruct (line_dec w o (G_usable _ _ g)) as [X|X].
    + right. exists [], o, ops, w, []. split; [reflexivity|]. split; [reflexivity|]. split; [exact g|exact X].
    + destruct (step_safe lw w0 w o g H1 X) as (w1 & t1 & E1 & g1). destruct (IH w1 g1 H2) as [(w2 & t2 & E2 & g2)|(pre & o' & post & w2 & t2 & -> & E2 & g2 & X2)].
      * left. exists w2, (t1 ++ t2). split; [|exact g2]. cbn [run]. unfold World.seq. rewrite E1. cbn [bind]. rewrite E2. reflexivity.
      * right. exists (o :: pre), o', post, w2, (t1 ++ t2). split; [reflexivity|]. split; [|auto]. cbn [run]. unfold World.seq. rewrite E1. cbn [bind]. rewrite E2. reflexivity.
Qed.
Lemma history_safe : forall lw w ops, sound w -> Forall (valid_op w) ops ->
  (exists w' t, run lw ops w = Ok (w', t) /\ sound w') \/
  (exists pre o post w1 t1, ops = pre ++ o :: post /\ run lw pre w = Ok (w1, t1) /\ sound w1 /\ excessive_line w1 o).
Proof.
  intros lw w ops S F. destruct (run_safe lw w ops w (sound_G w S) F) as [(w' & t & E & g)|(pre & o & post & w1 & t1 & E & E1 & g & X)].
  - left. exists w', t. split; [exact E|eapply G_sound; exact g].
  - right. exists pre, o, post, w1, t1. repeat (split; [assumption|]). split; [eapply G_sound; exact g|exact X].
Qed.
Lemma quiet_history_safe : forall lw w ops, sound w -> Forall (valid_op w) ops -> Forall no_config_data ops -> exists w' t, run lw ops w = Ok (w', t) /\ sound w'.
Proof.
  intros lw w ops S F Q. destruct (history_safe lw w ops S F) as [H|(pre & o & post & w1 & t1 & -> & _ & _ & X)]; [exact H|].
  apply Forall_app in Q. destruct Q as (_ & Q). inversion Q as [|? ? Q0]; subst. destruct X as (p & d & _ & _ & _ & _ & [->|(s & st & _ & _ & [->|(f & -> & _ & C)])] & _); cbn in Q0; contradiction.
Qed.
