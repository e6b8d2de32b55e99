(* ProofsExact.v -- the exact boundary of undefined behaviour (C113, C114): every operation on decent
   objects either breaks one of the listed limits and reads out of bounds, or is defined and leaves
   the objects decent.  The lemmas d_* are those of ProofsSafe.v for objects whose engines may have an
   unterminated protocol string. *)
From Verif Require Import ZLib SpecExact ProofsBuffer ProofsCrc ProofsLoco ProofsText ProofsStation ProofsRequest ProofsStream ProofsConsumer ProofsNumber ProofsSafe.

(** ** Reading numbers to the end of memory *)
Lemma digits_end : forall base ds acc, Forall (fun c => exists d, c_digit c = Some d /\ d <? base = true) ds -> c_digits base acc ds = UB OutOfBounds.
Proof. intros base ds acc H. revert acc. induction H as [|c ds (d & E & L) F IH]; intros acc; cbn [c_digits]; [reflexivity|]. rewrite E, L. apply IH. Qed.
Lemma digits_cases : forall base ds acc, (Forall (fun c => exists d, c_digit c = Some d /\ d <? base = true) ds /\ c_digits base acc ds = UB OutOfBounds) \/
  (exists x, c_digits base acc ds = Ok x /\ c_digits base acc (ds ++ [0]) = Ok x).
Proof.
  intros base ds. induction ds as [|c ds IH]; intros acc; [left; split; [constructor|reflexivity]|]. cbn [c_digits app].
  destruct (c_digit c) as [d|] eqn:E; [|right; eauto]. destruct (d <? base) eqn:L; [|right; eauto].
  destruct (IH (acc * base + d)) as [(F & U)|R]; [left|right; exact R]. split; [constructor; eauto|exact U].
Qed.
Lemma skip_end : forall b, Forall whitespace b -> c_skip_space b = UB OutOfBounds.
Proof. intros b H. induction H as [|c b W F IH]; [reflexivity|]. cbn [c_skip_space]. apply blank_spec in W. rewrite W. exact IH. Qed.
Lemma skip_to : forall b t, Forall whitespace b -> t <> [] -> stops whitespace t -> c_skip_space (b ++ t) = Ok t.
Proof.
  intros b t H. induction H as [|c b W F IH]; intros N S; cbn [app].
  - destruct t as [|c t]; [congruence|]. cbn [c_skip_space]. rewrite (not_blank c S). reflexivity.
  - cbn [c_skip_space]. apply blank_spec in W. rewrite W. apply IH; assumption.
Qed.
Lemma skip_cases : forall v, (Forall whitespace v /\ c_skip_space v = UB OutOfBounds) \/
  (exists b m, v = b ++ m /\ Forall whitespace b /\ m <> [] /\ stops whitespace m /\ c_skip_space v = Ok m /\ c_skip_space (v ++ [0]) = Ok (m ++ [0])).
Proof.
  induction v as [|c v IH]; [left; split; [constructor|reflexivity]|]. cbn [c_skip_space app]. destruct (c_isspace c) eqn:E.
  - apply blank_spec in E. destruct IH as [(F & U)|(b & m & -> & F & N & S & A & B)]; [left; split; [constructor; assumption|exact U]|].
    right. exists (c :: b), m. repeat (split; [first [reflexivity|assumption|constructor; assumption]|]). exact B.
  - right. exists [], (c :: v). repeat (split; [first [reflexivity|discriminate|constructor]|]). split; [|split; reflexivity].
    intros W. apply blank_spec in W. congruence.
Qed.
Lemma hexchar_not : forall c, is_hexdigit c -> ~ whitespace c /\ c <> 43 /\ c <> 45 /\ c <> 120 /\ c <> 88.
Proof. intros c (d & H). unfold hexdigit, whitespace in *. lia. Qed.
Lemma decchar_not : forall c, is_decdigit c -> ~ whitespace c /\ c <> 43 /\ c <> 45.
Proof. intros c (d & H). unfold decdigit, whitespace in *. lia. Qed.
Lemma hex_all : forall ds, Forall is_hexdigit ds <-> Forall (fun c => exists d, c_digit c = Some d /\ d <? 16 = true) ds.
Proof. intros ds. split; intros H; (eapply Forall_impl; [|exact H]); intros c; apply hex_spec. Qed.
Lemma dec_all : forall ds, Forall is_decdigit ds <-> Forall (fun c => exists d, c_digit c = Some d /\ d <? 10 = true) ds.
Proof. intros ds. split; intros H; (eapply Forall_impl; [|exact H]); intros c; apply dec_spec. Qed.
Lemma sign_cases : forall m, m <> [] -> exists sg minus r, m = sg ++ r /\ sign sg minus /\ c_sign m = Ok (minus, r) /\ c_sign (m ++ [0]) = Ok (minus, r ++ [0]).
Proof.
  intros [|c m] N; [congruence|]. cbn [c_sign app]. destruct (c =? 45) eqn:A; [|destruct (c =? 43) eqn:B].
  - exists (zs "-"), true, m. apply Z.eqb_eq in A. subst c. repeat split. constructor.
  - exists (zs "+"), false, m. apply Z.eqb_eq in B. subst c. repeat split. constructor.
  - exists [], false, (c :: m). repeat split. constructor.
Qed.
Lemma mark_cases : forall m, (hexmark m /\ c_hexprefix m = UB OutOfBounds) \/
  (exists mk r, m = mk ++ r /\ (mk = [] \/ hexmark mk) /\ c_hexprefix m = Ok r /\ c_hexprefix (m ++ [0]) = Ok (r ++ [0])).
Proof.
  intros [|z [|x m]].
  - right. exists [], []. repeat split. left. reflexivity.
  - right. exists [], [z]. split; [reflexivity|]. split; [left; reflexivity|]. split; [reflexivity|]. cbn. rewrite andb_false_r. reflexivity.
  - cbn [c_hexprefix app]. destruct ((z =? 48) && ((x =? 120) || (x =? 88))) eqn:E.
    + assert (MK : hexmark [z; x]).
      { apply andb_prop in E. destruct E as (A & B). apply Z.eqb_eq in A. subst z. apply orb_prop in B. destruct B as [B|B]; apply Z.eqb_eq in B; subst x; [left|right]; reflexivity. }
      destruct m as [|c m]; [left; split; [exact MK|reflexivity]|]. cbn [app]. right. destruct (is_digit_of 16 c).
      * exists [z; x], (c :: m). auto.
      * exists [], (z :: x :: c :: m). auto.
    + right. exists [], (z :: x :: m). auto.
Qed.
Lemma hex_unended : forall v lw, unended_hex v -> c_strtoul16 lw v = UB OutOfBounds.
Proof.
  intros v lw (b & sg & minus & mk & ds & -> & W & S & M & D). unfold c_strtoul16.
  destruct (sg ++ mk ++ ds) as [|c0 t0] eqn:T; [rewrite app_nil_r, (skip_end b W); reflexivity|]. rewrite <- T.
  assert (ST : stops whitespace (sg ++ mk ++ ds)).
  { destruct S; cbn; [|unfold whitespace; lia..]. destruct M as [-> |[-> | ->]]; cbn; [|unfold whitespace; lia..]. destruct D as [|c ds D]; cbn; [exact Logic.I|]. apply hexchar_not. exact D. }
  rewrite (skip_to b _ W); [|rewrite T; discriminate|exact ST]. cbn [bind].
  assert (SG : c_sign (sg ++ mk ++ ds) = Ok (minus, mk ++ ds) ).
  { destruct S; cbn [app]; [|reflexivity|reflexivity]. cbn [app] in T. destruct M as [-> |[-> | ->]]; [|reflexivity|reflexivity]. cbn [app] in *. destruct D as [|c ds D F]; [discriminate|].
    cbn [c_sign]. destruct (hexchar_not c D) as (_ & A & B & _). replace (c =? 45) with false by lia. replace (c =? 43) with false by lia. reflexivity. }
  rewrite SG. cbn [bind]. assert (U : c_digits 16 0 ds = UB OutOfBounds) by (apply digits_end; apply hex_all; exact D).
  destruct M as [->|M].
  - cbn [app]. assert (P : c_hexprefix ds = Ok ds).
    { destruct D as [|c ds' D1 [|c2 ds2 D2 F]]; [reflexivity|reflexivity|]. cbn [c_hexprefix]. destruct (hexchar_not c2 D2) as (_ & _ & _ & A & B).
      replace (c2 =? 120) with false by lia. replace (c2 =? 88) with false by lia. rewrite andb_false_r. reflexivity. }
    rewrite P. cbn [bind]. rewrite U. reflexivity.
  - destruct D as [|c ds D F]; [destruct M as [-> | ->]; reflexivity|]. assert (P : c_hexprefix (mk ++ c :: ds) = Ok (c :: ds)).
    { apply hex_spec in D. destruct D as (d & D1 & D2). destruct M as [-> | ->]; cbn; unfold is_digit_of; rewrite D1, D2; reflexivity. }
    rewrite P. cbn [bind]. rewrite U. reflexivity.
Qed.
Lemma hex_cases : forall v lw, (unended_hex v /\ c_strtoul16 lw v = UB OutOfBounds) \/ (~ unended_hex v /\ c_strtoul16 lw v = Ok (hex_value lw v)).
Proof.
  intros v lw. assert (K : (unended_hex v /\ c_strtoul16 lw v = UB OutOfBounds) \/ c_strtoul16 lw v = Ok (hex_value lw v)).
  { unfold hex_value, c_strtoul16. destruct (skip_cases v) as [(W & U)|(b & m & -> & W & N & S & A & B)].
    - left. rewrite U. split; [|reflexivity]. exists v, [], false, [], []. rewrite app_nil_r. repeat split; [exact W|constructor|left; reflexivity|constructor].
    - rewrite A, B. cbn [bind]. destruct (sign_cases m N) as (sg & minus & r & -> & SG & A1 & B1). rewrite A1, B1. cbn [bind].
      destruct (mark_cases r) as [(M & U)|(mk & r' & -> & M & A2 & B2)].
      + left. rewrite U. split; [|reflexivity]. exists b, sg, minus, r, []. rewrite app_nil_r. repeat split; [exact W|exact SG|right; exact M|constructor].
      + rewrite A2, B2. cbn [bind]. destruct (digits_cases 16 r' 0) as [(D & U)|(x & A3 & B3)].
        * left. rewrite U. split; [|reflexivity]. exists b, sg, minus, mk, r'. repeat split; [exact W|exact SG|exact M|apply hex_all; exact D].
        * right. rewrite A3, B3. reflexivity. }
  destruct K as [K|K]; [left; exact K|right]. split; [|exact K]. intros X. rewrite (hex_unended v lw X) in K. discriminate.
Qed.
Lemma dec_unended : forall v lw, unended_dec v -> c_strtol10 lw v = UB OutOfBounds.
Proof.
  intros v lw (b & sg & minus & ds & -> & W & S & D). unfold c_strtol10.
  destruct (sg ++ ds) as [|c0 t0] eqn:T; [rewrite app_nil_r, (skip_end b W); reflexivity|]. rewrite <- T.
  assert (ST : stops whitespace (sg ++ ds)).
  { destruct S; cbn; [|unfold whitespace; lia..]. destruct D as [|c ds D]; cbn; [exact Logic.I|]. apply decchar_not. exact D. }
  rewrite (skip_to b _ W); [|rewrite T; discriminate|exact ST]. cbn [bind].
  assert (SG : c_sign (sg ++ ds) = Ok (minus, ds) ).
  { destruct S; cbn [app]; [|reflexivity|reflexivity]. cbn [app] in T. destruct D as [|c ds D F]; [discriminate|].
    cbn [c_sign]. destruct (decchar_not c D) as (_ & A & B). replace (c =? 45) with false by lia. replace (c =? 43) with false by lia. reflexivity. }
  rewrite SG. cbn [bind]. rewrite (digits_end 10 ds 0) by (apply dec_all; exact D). reflexivity.
Qed.
Lemma dec_cases : forall v lw, (unended_dec v /\ c_strtol10 lw v = UB OutOfBounds) \/ (~ unended_dec v /\ c_strtol10 lw v = Ok (dec_value lw v)).
Proof.
  intros v lw. assert (K : (unended_dec v /\ c_strtol10 lw v = UB OutOfBounds) \/ c_strtol10 lw v = Ok (dec_value lw v)).
  { unfold dec_value, c_strtol10. destruct (skip_cases v) as [(W & U)|(b & m & -> & W & N & S & A & B)].
    - left. rewrite U. split; [|reflexivity]. exists v, [], false, []. rewrite app_nil_r. repeat split; [exact W|constructor|constructor].
    - rewrite A, B. cbn [bind]. destruct (sign_cases m N) as (sg & minus & r & -> & SG & A1 & B1). rewrite A1, B1. cbn [bind].
      destruct (digits_cases 10 r 0) as [(D & U)|(x & A3 & B3)].
      + left. rewrite U. split; [|reflexivity]. exists b, sg, minus, r. repeat split; [exact W|exact SG|apply dec_all; exact D].
      + right. rewrite A3, B3. reflexivity. }
  destruct K as [K|K]; [left; exact K|right]. split; [|exact K]. intros X. rewrite (dec_unended v lw X) in K. discriminate.
Qed.
Section Safe.
Variable lw : Z.
Variable w0 : world.

(** sound, with pointers counted by the objects of w0 *)
Definition GD (w : world) : Prop :=
  same_objects w0 w /\ Forall (fun st => sound_cbs w0 (st_cbs st)) (w_stations w) /\ Forall (sound_parser w0) (w_parsers w) /\
  Forall (sound_consumer w0) (w_conss w) /\ Forall decent_engine (w_engines w).
Definition dsafe_at (w : world) (a : act) : Prop := exists w' t, a w = Ok (w', t) /\ GD w'.
Definition dsafe (a : act) : Prop := forall w, GD w -> dsafe_at w a.

Lemma d_skip : dsafe skip. Proof. intros w g. exists w, []. split; [reflexivity|exact g]. Qed.
Lemma d_emit : forall e, dsafe (emit e). Proof. intros e w g. exists w, [e]. split; [reflexivity|exact g]. Qed.
Lemma d_print : forall bs, dsafe (print bs). Proof. intros. apply d_emit. Qed.
Lemma d_puts : forall s, dsafe (puts s). Proof. intros. apply d_emit. Qed.
Lemma d_print_res : forall r, (exists x, r = Ok x) -> dsafe (print_res r).
Proof. intros r (x & ->) w g. exists w, [EvPrint x]. split; [reflexivity|exact g]. Qed.
Lemma d_seq_at : forall w a c, dsafe_at w a -> dsafe c -> dsafe_at w (a ;;; c).
Proof.
  intros w a c (w1 & t1 & E & g1) C. destruct (C w1 g1) as (w2 & t2 & E2 & g2). exists w2, (t1 ++ t2). split; [|exact g2].
  unfold World.seq. rewrite E. cbn [bind]. rewrite E2. reflexivity.
Qed.
Lemma d_seq : forall a c, dsafe a -> dsafe c -> dsafe (a ;;; c).
Proof. intros a c A C w g. apply d_seq_at; [apply A; exact g|exact C]. Qed.
Lemma d_emit_at : forall w e a, dsafe_at w a -> dsafe_at w (emit e ;;; a).
Proof. intros w e a (w' & t & E & g). exists w', (e :: t). rewrite emit_seq, E. auto. Qed.
Lemma d_ask : forall A (P : A -> Prop) (f : world -> res A) k, (forall w, GD w -> exists x, f w = Ok x /\ P x) -> (forall x, P x -> dsafe (k x)) -> dsafe (ask f k).
Proof.
  intros A P f k F K w g. destruct (F w g) as (x & E & p). destruct (K x p w g) as (w' & t & E' & g'). exists w', t. split; [|exact g'].
  unfold ask. rewrite E. exact E'.
Qed.
Lemma d_ask_pure : forall A (r : res A) k x, r = Ok x -> dsafe (k x) -> dsafe (ask (fun _ => r) k).
Proof. intros A r k x E K. apply d_ask with (P := fun y => y = x); [intros; exists x; auto|]. intros y ->. exact K. Qed.
Lemma d_when : forall A (o : option A) k, (forall x, o = Some x -> dsafe (k x)) -> dsafe (when_some o k).
Proof. intros A [x|] k H; [apply H; reflexivity|apply d_skip]. Qed.

(** reading and writing objects *)
Lemma d_station : forall s k, (s < List.length (w_stations w0))%nat -> (forall st, sound_cbs w0 (st_cbs st) -> dsafe (k st)) -> dsafe (ask (get_station s) k).
Proof.
  intros s k H K. apply d_ask with (P := fun st => sound_cbs w0 (st_cbs st)); [|exact K]. intros w ((L & _) & S & _).
  destruct (len_nth _ (w_stations w) s ltac:(lia)) as (st & E). exists st. unfold get_station, at_. rewrite E. split; [reflexivity|]. exact (nth_forall _ _ _ _ _ S E).
Qed.
Lemma d_put_station : forall s st, sound_cbs w0 (st_cbs st) -> dsafe (put_station s st).
Proof.
  intros s st H w ((L1 & L2 & L3 & L4) & S & P & C & E). eexists. eexists. split; [reflexivity|]. unfold GD, same_objects. cbn [w_stations w_parsers w_conss w_engines].
  rewrite upd_len. repeat (split; try assumption). apply upd_forall; assumption.
Qed.
Lemma parser_there_d : forall w p o, GD w -> nth_error (w_parsers w0) p = Some o -> exists o', nth_error (w_parsers w) p = Some o' /\ pkind o' = pkind o /\ sound_parser w0 o'.
Proof.
  intros w p o ((_ & L & _) & _ & P & _) H. destruct (map_nth _ _ _ _ _ _ _ L H) as (y & E & K). exists y. split; [exact E|]. split; [exact K|]. exact (nth_forall _ _ _ _ _ P E).
Qed.
Lemma d_parser : forall p o k, nth_error (w_parsers w0) p = Some o -> (forall o', pkind o' = pkind o -> sound_parser w0 o' -> dsafe (k o')) -> dsafe (ask (get_parser p) k).
Proof.
  intros p o k H K. apply d_ask with (P := fun o' => pkind o' = pkind o /\ sound_parser w0 o').
  - intros w g. destruct (parser_there_d w p o g H) as (o' & E & A). exists o'. unfold get_parser, at_. rewrite E. auto.
  - intros x (A & B). apply K; assumption.
Qed.
Lemma d_put_parser : forall p o x, nth_error (w_parsers w0) p = Some o -> pkind x = pkind o -> sound_parser w0 x -> dsafe (put_parser p x).
Proof.
  intros p o x H KX SX w g. destruct (parser_there_d w p o g H) as (o' & E & KO & _). destruct g as ((L1 & L2 & L3 & L4) & S & P & C & EN). eexists. eexists. split; [reflexivity|].
  unfold GD, same_objects. cbn [w_stations w_parsers w_conss w_engines].
  rewrite (upd_map _ _ pkind p x o') by (try assumption; congruence). repeat (split; try assumption). apply upd_forall; assumption.
Qed.
Definition lib0_d (p : nat) : Prop := exists sp, lib_at w0 p sp.
Lemma lib_there_d : forall w p, GD w -> lib0_d p -> exists sp, lib_at w p sp /\ sound_parser w0 (LibP sp).
Proof.
  intros w p g (sp0 & H). destruct (parser_there_d w p _ g H) as ([sp|] & E & K & S); [|discriminate]. exists sp. split; assumption.
Qed.
Lemma d_lib : forall p k, lib0_d p -> (forall sp, sound_parser w0 (LibP sp) -> dsafe (k sp)) -> dsafe (ask (get_lib p) k).
Proof.
  intros p k H K. apply d_ask with (P := fun sp => sound_parser w0 (LibP sp)); [|exact K]. intros w g. destruct (lib_there_d w p g H) as (sp & L & S). exists sp.
  split; [apply lib_get; exact L|exact S].
Qed.
Lemma d_put_lib : forall p sp, lib0_d p -> sound_parser w0 (LibP sp) -> dsafe (put_lib p sp).
Proof. intros p sp (sp0 & H) S. apply (d_put_parser p (LibP sp0)); [exact H|reflexivity|exact S]. Qed.
Lemma cons_there_d : forall w c o, GD w -> nth_error (w_conss w0) c = Some o -> exists o', nth_error (w_conss w) c = Some o' /\ kind o' = kind o /\ sound_consumer w0 o'.
Proof.
  intros w c o ((_ & _ & L & _) & _ & _ & C & _) H. destruct (map_nth _ _ _ _ _ _ _ L H) as (y & E & K). exists y. split; [exact E|]. split; [exact K|]. exact (nth_forall _ _ _ _ _ C E).
Qed.
Lemma d_cons : forall c o k, nth_error (w_conss w0) c = Some o -> (forall o', kind o' = kind o -> sound_consumer w0 o' -> dsafe (k o')) -> dsafe (ask (get_cons c) k).
Proof.
  intros c o k H K. apply d_ask with (P := fun o' => kind o' = kind o /\ sound_consumer w0 o').
  - intros w g. destruct (cons_there_d w c o g H) as (o' & E & A). exists o'. unfold get_cons, at_. rewrite E. auto.
  - intros x (A & B). apply K; assumption.
Qed.
Lemma d_put_cons : forall c o x, nth_error (w_conss w0) c = Some o -> kind x = kind o -> sound_consumer w0 x -> dsafe (put_cons c x).
Proof.
  intros c o x H KX SX w g. destruct (cons_there_d w c o g H) as (o' & E & KO & _). destruct g as ((L1 & L2 & L3 & L4) & S & P & C & EN). eexists. eexists. split; [reflexivity|].
  unfold GD, same_objects. cbn [w_stations w_parsers w_conss w_engines].
  rewrite (upd_map _ _ kind c x o') by (try assumption; congruence). repeat (split; try assumption). apply upd_forall; assumption.
Qed.
Lemma d_engine : forall e k, (e < List.length (w_engines w0))%nat -> (forall l, decent_engine l -> dsafe (k l)) -> dsafe (ask (get_engine e) k).
Proof.
  intros e k H K. apply d_ask with (P := decent_engine); [|exact K]. intros w ((_ & _ & _ & L) & _ & _ & _ & E).
  destruct (len_nth _ (w_engines w) e ltac:(lia)) as (l & N). exists l. unfold get_engine, at_. rewrite N. split; [reflexivity|]. exact (nth_forall _ _ _ _ _ E N).
Qed.
Lemma d_put_engine : forall e l, decent_engine l -> dsafe (put_engine e l).
Proof.
  intros e l H w ((L1 & L2 & L3 & L4) & S & P & C & E). eexists. eexists. split; [reflexivity|]. unfold GD, same_objects. cbn [w_stations w_parsers w_conss w_engines].
  rewrite upd_len. repeat (split; try assumption). apply upd_forall; assumption.
Qed.


Lemma d_callback : forall cb (f : nat -> event), initialised cb -> dsafe (ask (fun _ => mread cb) (fun o => when_some o (fun x => emit (f x)))).
Proof. intros cb f (o & ->). apply d_ask_pure with (x := o); [reflexivity|]. apply d_when. intros. apply d_emit. Qed.

Lemma d_aborted : forall c, a_consumer w0 c -> dsafe (cons_aborted c).
Proof.
  intros c HC. destruct (len_nth _ _ _ HC) as (x & NX). unfold cons_aborted. apply d_seq; [apply d_emit|]. apply (d_cons c x); [exact NX|]. intros y KY SY.
  destruct y as [e cb|co i n off cb|]; [| |apply d_skip].
  - destruct SY as (_ & ICB). apply d_callback. exact ICB.
  - destruct SY as (ICO & INUM & IOFF & ICB & FI). apply d_seq; [|apply d_callback; exact ICB].
    apply (d_put_cons c x); [exact NX|rewrite <- KY; cbn; unfold list_cleared; rewrite map_length; reflexivity|].
    repeat (split; [eexists; reflexivity|]). split; [exact ICB|apply cleared_sound].
Qed.


(** ** Parsers *)
Lemma d_reset : forall p, lib0_d p -> dsafe (lib_reset p).
Proof.
  intros p H. unfold lib_reset. apply d_lib; [exact H|]. intros sp (U & PC & _). apply d_seq.
  - destruct (ss_processing (sp_state sp)); [|apply d_skip]. apply d_when. intros c E. rewrite E in PC. apply d_aborted. exact PC.
  - apply d_lib; [exact H|]. intros sp' ((a & F & T) & _). rewrite T. apply d_ask_pure with (x := tp_new); [apply reset_spec; exact F|].
    apply d_put_lib; [exact H|]. split; [exists astart; split; [apply start_fits|reflexivity]|]. split; exact Logic.I.
Qed.

Definition parser0_d (p : nat) : Prop := (p < List.length (w_parsers w0))%nat.
Lemma d_cfg : forall p c, parser0_d p -> (forall d, c <> CAdd d) -> dsafe (cfg_call lw p c).
Proof.
  intros p c H NA. destruct (len_nth _ _ _ H) as (o & N). unfold cfg_call. apply d_seq; [apply d_emit|]. apply (d_parser p o); [exact N|]. intros [sp|beh h] K S.
  - assert (L0 : lib0_d p) by (destruct o as [sp0|]; [exists sp0; exact N|discriminate]). destruct c; [apply d_put_lib; [exact L0|apply start_sound; exact S]|exfalso; eapply NA; reflexivity|apply d_reset; exact L0].
  - apply (d_put_parser p o); [exact N|exact K|exact Logic.I].
Qed.

(** ** Stations *)
Definition station0_d (s : nat) : Prop := (s < List.length (w_stations w0))%nat.
Lemma d_tx : forall st f, sound_cbs w0 (st_cbs st) -> dsafe (tx_send (st_cbs st) f).
Proof. intros st f (T & _). unfold tx_send. destruct (cb_tx (st_cbs st)) as [x|]; [|congruence]. apply d_ask_pure with (x := x); [reflexivity|apply d_emit]. Qed.
Lemma d_finish : forall s, station0_d s -> dsafe (st_finish lw s).
Proof.
  intros s H. unfold st_finish. apply d_station; [exact H|]. intros st (T & E & P). apply d_when. intros p C. rewrite C in P.
  apply d_seq; [apply d_cfg; [exact P|discriminate]|]. apply d_station; [exact H|]. intros st' (T' & E' & _). apply d_put_station. split; [exact T'|]. split; [exact E'|exact Logic.I].
Qed.
Lemma set_cfg_d : forall st p, sound_cbs w0 (st_cbs st) -> points (w_parsers w0) p -> sound_cbs w0 (st_cbs (set_cfg st p)).
Proof. intros st p (T & E & _) P. split; [exact T|]. split; [exact E|exact P]. Qed.
Lemma d_begin : forall s u c, station0_d s -> sound_cbs w0 c -> dsafe (st_begin lw s u c).
Proof.
  intros s u c H C. unfold st_begin, st_abort. apply d_seq; [apply d_finish; exact H|]. apply d_station; [exact H|]. intros st _.
  apply d_seq; apply d_put_station; exact C.
Qed.
Lemma d_request_list : forall s off p, station0_d s -> points (w_parsers w0) p -> dsafe (st_requestEngineList lw s off p).
Proof.
  intros s off p H P. unfold st_requestEngineList, st_abort. apply d_seq; [apply d_finish; exact H|]. apply d_station; [exact H|]. intros st SC.
  apply d_seq; [apply d_put_station; apply set_cfg_d; assumption|]. apply d_ask_pure with (x := zs "loknamen" ++ [0]); [reflexivity|].
  destruct (snprintf9 _) as (b2 & n). destruct (u8 n <=? CanDataMaxLength); [|apply d_skip].
  apply d_seq; [apply d_when; intros q E; rewrite E in P; apply d_cfg; [exact P|discriminate]|]. apply d_seq; apply d_tx; exact SC.
Qed.
Lemma short_there_d : forall w r, GD w -> valid_ref w0 r -> exists si, get_short r w = Ok si /\ sound_short si.
Proof.
  intros w [e|c k|s] g V; cbn [valid_ref get_short] in *.
  - destruct g as ((_ & _ & _ & L) & _ & _ & _ & E). destruct (len_nth _ (w_engines w) e ltac:(lia)) as (l & N). exists (lo_info l). unfold get_engine, at_. rewrite N. split; [reflexivity|].
    exact (proj1 (nth_forall _ _ _ _ _ E N)).
  - destruct V as (co & i & n & off & cb & C & K). destruct (cons_there_d w c _ g C) as ([|co' i' n' off' cb'|] & E & KK & S); try discriminate.
    unfold get_cons, at_ at 1. rewrite E. cbn [bind]. injection KK as KK. destruct (len_nth _ i' k ltac:(lia)) as (x & N). exists x. unfold at_. rewrite N. split; [reflexivity|].
    destruct S as (_ & _ & _ & _ & F). exact (nth_forall _ _ _ _ _ F N).
  - exists s. split; [reflexivity|exact V].
Qed.
Lemma d_request : forall s r p, station0_d s -> valid_ref w0 r -> points (w_parsers w0) p -> dsafe (st_requestEngine lw s r p).
Proof.
  intros s r p H V P. unfold st_requestEngine, st_abort. apply d_ask with (P := sound_short); [intros w g; exact (short_there_d w r g V)|]. intros si _.
  destruct (negb (si_isNameKnown si)); [apply d_skip|]. apply d_station; [exact H|]. intros st SC.
  apply d_ask with (P := fun _ => True).
  { intros w g. destruct SC as (_ & _ & PC). destruct (cb_cfg (st_cbs st)) as [q|]; [|exists false; auto]. destruct (len_nth _ _ _ PC) as (o & N). destruct (parser_there_d w q o g N) as (o' & E & _).
    eexists. unfold cfg_isProcessing, get_parser, at_. rewrite E. cbn [bind]. split; [reflexivity|exact Logic.I]. }
  intros busy _. destruct busy; [apply d_skip|]. apply d_seq; [apply d_finish; exact H|]. apply d_station; [exact H|]. intros st' SC'.
  apply d_seq; [apply d_put_station; apply set_cfg_d; assumption|]. apply d_seq; [apply d_when; intros q E; rewrite E in P; apply d_cfg; [exact P|discriminate]|].
  apply d_ask_pure with (x := zs "lokinfo" ++ [0; 0]); [reflexivity|]. apply d_seq; [apply d_tx; exact SC'|]. apply d_ask with (P := sound_short); [intros w g; exact (short_there_d w r g V)|].
  intros si' (t & N). destruct (str_of _ _ N) as (_ & (n & LN) & L33). apply d_ask_pure with (x := n); [exact LN|].
  destruct (strncpy_ok (dbytes data0) (si_name si') CanDataMaxLength) as (b2 & E2); [vm_compute; discriminate|vm_compute; discriminate|unfold zlen, CanDataMaxLength; lia|].
  apply d_ask_pure with (x := b2); [exact E2|]. apply d_seq; [apply d_tx; exact SC'|].
  destruct (strncpy_ok (dbytes data0) (skipn (Z.to_nat CanDataMaxLength) (si_name si')) CanDataMaxLength) as (b3 & E3); [vm_compute; discriminate|vm_compute; discriminate| |].
  { unfold zlen. rewrite skipn_length, L33. vm_compute. discriminate. }
  destruct (n >? CanDataMaxLength); [apply d_ask_pure with (x := b3); [exact E3|]|apply d_ask_pure with (x := dbytes data0); [reflexivity|]]; apply d_tx; exact SC'.
Qed.

Lemma d_system : forall s i d, station0_d s -> dsafe (st_handleSystemCommand s i d).
Proof.
  intros s i d H. unfold st_handleSystemCommand. apply d_station; [exact H|]. intros st _. cbv zeta.
  repeat first [apply d_seq|apply d_puts|apply d_print|apply d_emit|apply d_when; intros|match goal with |- dsafe (if ?x then _ else _) => destruct x end].
Qed.
Lemma d_acc : forall s d r, station0_d s -> dsafe (st_handleAccessoryPacket s d r).
Proof. intros s d r H. unfold st_handleAccessoryPacket. apply d_station; [exact H|]. intros st _. apply d_seq; [apply d_print|apply d_when; intros; apply d_emit]. Qed.
Lemma d_eng : forall st k, sound_cbs w0 (st_cbs st) -> (forall o, dsafe (k o)) -> dsafe (ask (fun _ => deref (cb_eng (st_cbs st))) k).
Proof. intros st k (_ & E & _) K. destruct (cb_eng (st_cbs st)) as [x|]; [|congruence]. apply d_ask_pure with (x := x); [reflexivity|apply K]. Qed.
Lemma d_dir : forall s d, station0_d s -> dsafe (st_handleLocoDirection s d).
Proof.
  intros s d H. unfold st_handleLocoDirection. apply d_station; [exact H|]. intros st SC. cbv zeta.
  destruct (_ =? _); [|apply d_skip]. destruct (_ || _); [apply d_eng; [exact SC|intros; apply d_emit]|]. destruct (_ =? _); [apply d_eng; [exact SC|intros; apply d_emit]|apply d_skip].
Qed.
Lemma d_speed : forall s d, station0_d s -> dsafe (st_handleLocoSpeed s d).
Proof. intros s d H. unfold st_handleLocoSpeed. apply d_station; [exact H|]. intros st SC. cbv zeta. destruct (_ =? _); [|apply d_skip]. apply d_when. intros. apply d_emit. Qed.
Lemma d_fun : forall s d, station0_d s -> dsafe (st_handleLocoFunction s d).
Proof. intros s d H. unfold st_handleLocoFunction. apply d_station; [exact H|]. intros st SC. destruct (_ =? _); [|apply d_skip]. apply d_eng; [exact SC|intros; apply d_emit]. Qed.
Lemma d_send : forall s f, station0_d s -> dsafe (st_sendPacket s f).
Proof. intros s f H. unfold st_sendPacket. apply d_station; [exact H|]. intros. apply d_tx. assumption. Qed.
Lemma d_send_functions : forall st u n i, sound_cbs w0 (st_cbs st) -> dsafe (send_functions st u i n).
Proof. intros st u n. induction n; intros i H; [apply d_skip|]. cbn [send_functions]. apply d_seq; [apply d_tx; exact H|apply IHn; exact H]. Qed.

Lemma list0_d : forall c, a_list_consumer w0 c -> exists o, nth_error (w_conss w0) c = Some o /\ exists co i n off cb, o = ListC co i n off cb.
Proof. intros c (co & i & n & off & cb & H). eexists. split; [exact H|]. eauto 10. Qed.
Lemma d_list : forall c k, a_list_consumer w0 c ->
  (forall o co i n off cb, nth_error (w_conss w0) c = Some o -> kind (ListC co i n off cb) = kind o -> sound_consumer w0 (ListC co i n off cb) -> dsafe (k (ListC co i n off cb))) -> dsafe (ask (get_cons c) k).
Proof.
  intros c k H K. destruct (list0_d c H) as (o & N & (co & i & n & off & cb & ->)). apply (d_cons c _ _ N). intros o' KO SO. destruct o'; try discriminate. eapply K; eassumption.
Qed.

(** ** Lines, exactly *)
Definition after_report (x : CObj) (r : report) : CObj :=
  match x with
  | ListC co i n o cb => match list_entry_of r with
                         | NameEntry v => ListC co (filled i [until_nul v]) n o cb
                         | CountEntry v => ListC co i (Def (dec_value lw v mod 256)) o cb
                         | NoEntry => ListC co i n o cb
                         end
  | _ => x
  end.
Definition engines_after (x : CObj) (rs : list report) (es : list Loco) : list Loco :=
  match x with
  | LocoC (Def (Some e)) _ => match nth_error es e with Some l => upd e (after_lines lw l rs) es | None => es end
  | _ => es
  end.
Lemma GD_engine : forall w e l, GD w -> decent_engine l -> GD (with_engine w e l).
Proof. intros w e l g D. destruct (d_put_engine e l D w g) as (w' & t & E & g'). injection E as <- _. exact g'. Qed.
Lemma GD_consumer : forall w c x y, GD w -> consumer_at w c x -> kind y = kind x -> sound_consumer w0 y -> GD (with_consumer w c y).
Proof.
  intros w c x y ((L1 & L2 & L3 & L4) & S & P & C & EN) N K SY. unfold GD, same_objects, with_consumer. cbn [w_stations w_parsers w_conss w_engines].
  rewrite (upd_map _ _ kind c y x) by assumption. repeat (split; try assumption). apply upd_forall; assumption.
Qed.
Lemma cons_sound : forall w c x, GD w -> consumer_at w c x -> sound_consumer w0 x.
Proof. intros w c x (_ & _ & _ & C & _) N. exact (nth_forall _ _ _ _ _ C N). Qed.
Lemma loco_line_eq : forall l s k b, loco_line lw l (zb max_section s) (zb max_key k) b =
  match attribute_of s k with
  | Some Uid => v <- c_strtoul16 lw (mem b) ;; Ok (lo_upd_data l (ld_setUid (lo_data l) (u32 v)))
  | Some Protocol => lo_setProtocolString l (mem b)
  | Some Address => v <- c_strtoul16 lw (mem b) ;; Ok (lo_upd_data l (ld_setAddress (lo_data l) (u32 v)))
  | None => Ok l
  end.
Proof.
  intros l s k b. destruct words as (W1 & W2 & W3 & W4 & _). unfold loco_line, kEngineResult, kEngineKeyUid, kEngineKeyProtocol, kEngineKeyAddress, attribute_of.
  rewrite !lit_word by assumption. cbn [bind]. destruct (taken_for (zs "lokomotive") s); [|reflexivity]. destruct (taken_for (zs "uid") k); [reflexivity|].
  destruct (taken_for (zs "typ") k); [reflexivity|]. destruct (taken_for (zs "adresse") k); reflexivity.
Qed.
Lemma strncpy_more : forall n v x, (n <= List.length v)%nat -> strncpy_bytes (v ++ x) n = strncpy_bytes v n.
Proof.
  induction n; intros v x L; [destruct v; [destruct x|]; reflexivity|]. destruct v as [|c v]; [cbn in L; lia|]. cbn [app strncpy_bytes]. destruct (c =? 0); [reflexivity|].
  rewrite IHn by (cbn in L; lia). reflexivity.
Qed.
Lemma long_protocol : forall l v, List.length (lo_proto l) = 8%nat -> (8 <= List.length v)%nat -> lo_setProtocolString l v = Ok (with_attribute lw l Protocol v).
Proof.
  intros l v P8 L. assert (E : lo_setProtocolString l v = lo_setProtocolString l (v ++ [0])).
  { unfold lo_setProtocolString, c_strncpy. destruct (zlen (lo_proto l) <? kProtocolNameMaxLength); [reflexivity|]. rewrite (strncpy_more _ v [0]); [reflexivity|]. unfold kProtocolNameMaxLength. cbn. lia. }
  rewrite E. destruct (until_nul_split v []) as (r' & E' & N). rewrite E'. destruct (proto_spec l (until_nul v) r' P8 N) as (l' & E1 & E2 & E3 & E4).
  rewrite E1. destruct l'; cbn in *. subst. reflexivity.
Qed.
Lemma zb_full : forall cap v, List.length v = cap -> mem (zb cap v) = v.
Proof. intros cap v L. rewrite zb_mem, L, Nat.sub_diag. apply app_nil_r. Qed.
Lemma decent_line : forall l r, decent_engine l -> decent_engine (after_line lw l r).
Proof. intros l r (N & P8). split; [rewrite line_info; exact N|apply line_proto; exact P8]. Qed.
Lemma loco_exact : forall l s k v, decent_engine l -> (List.length v <= 26)%nat ->
  let bad := (attribute_of s k = Some Uid \/ attribute_of s k = Some Address) /\ List.length v = 26%nat /\ unended_hex v in
  (bad /\ loco_line lw l (zb max_section s) (zb max_key k) (zb max_value v) = UB OutOfBounds) \/
  (~ bad /\ loco_line lw l (zb max_section s) (zb max_key k) (zb max_value v) = Ok (after_line lw l (s, k, v))).
Proof.
  intros l s k v (_ & P8) V bad. destruct (Nat.eq_dec (List.length v) 26) as [L|L]; [|right; split; [intros (_ & X & _); contradiction|apply line_spec; [exact P8|lia]]].
  rewrite loco_line_eq, zb_full by exact L. unfold after_line, bad. destruct (attribute_of s k) as [[]|].
  - destruct (hex_cases v lw) as [(U & E)|(U & E)]; rewrite E; [left|right]; (split; [|reflexivity]); [auto|tauto].
  - right. split; [intros ([X|X] & _); discriminate|]. apply long_protocol; [exact P8|lia].
  - destruct (hex_cases v lw) as [(U & E)|(U & E)]; rewrite E; [left|right]; (split; [|reflexivity]); [auto|tauto].
  - right. split; [intros ([X|X] & _); discriminate|reflexivity].
Qed.
Lemma nul_or_not : forall v : list Z, nulfree v \/ In 0 v.
Proof. induction v as [|c v IH]; [left; constructor|]. destruct (Z.eq_dec c 0) as [->|N]; [right; left; reflexivity|]. destruct IH as [H|H]; [left; constructor; assumption|right; right; exact H]. Qed.
Lemma until_nul_in : forall v, In 0 v -> exists r, v = until_nul v ++ 0 :: r /\ nulfree (until_nul v).
Proof.
  induction v as [|c v IH]; intros H; [contradiction|]. cbn. destruct (c =? 0) eqn:E; [apply Z.eqb_eq in E; subst; exists v; split; [reflexivity|constructor]|].
  destruct H as [->|H]; [discriminate|]. destruct (IH H) as (r & E' & N). exists r. split; [cbn; f_equal; exact E'|]. constructor; [lia|exact N].
Qed.
Lemma str_end : forall v, nulfree v -> c_str v = UB OutOfBounds.
Proof. intros v H. induction H; cbn; [reflexivity|]. replace (x =? 0) with false by lia. rewrite IHForall. reflexivity. Qed.
Lemma full_cases : forall cap v, (List.length v <= cap)%nat -> (full cap v /\ c_str (mem (zb cap v)) = UB OutOfBounds) \/
  (~ full cap v /\ exists r, mem (zb cap v) = until_nul v ++ 0 :: r /\ nulfree (until_nul v)).
Proof.
  intros cap v L. destruct (Nat.eq_dec (List.length v) cap) as [E|E].
  - rewrite zb_full by exact E. destruct (nul_or_not v) as [N|N].
    + left. split; [split; assumption|]. apply str_end. exact N.
    + right. split; [|apply until_nul_in; exact N]. intros (_ & F). unfold nulfree in F. rewrite Forall_forall in F. exact (F 0 N eq_refl).
  - right. split; [intros (X & _); contradiction|]. rewrite zb_mem, pad_nul by lia. apply until_nul_split.
Qed.
Lemma free_exists : forall t, match findFirstFreeEntry t with Some _ => Exists (fun i => free_entry i = true) t | None => ~ Exists (fun i => free_entry i = true) t end.
Proof.
  intros t. pose proof (first_free t []) as F. destruct (findFirstFreeEntry t) as [k|].
  - destruct F as (L & _ & F). apply Exists_exists. exists (nth k t si_reset). split; [apply nth_In; exact L|exact F].
  - destruct F as (_ & F). intros X. apply Exists_exists in X. destruct X as (i & I' & T). rewrite (F i I') in T. discriminate.
Qed.
Lemma same_consumer : forall w c x, consumer_at w c x -> with_consumer w c x = w.
Proof. intros w c x C. unfold with_consumer. rewrite ZLib.upd_same_id by exact C. destruct w; reflexivity. Qed.
Lemma consumer_put : forall w c x y, consumer_at w c x -> consumer_at (with_consumer w c y) c y.
Proof. intros w c x y C. unfold consumer_at, with_consumer. cbn [w_conss]. eapply upd_at. exact C. Qed.
Lemma list_exact : forall w c co i n o cb s k v, GD w -> consumer_at w c (ListC co i n o cb) -> ok_report (s, k, v) ->
  let a := list_consume lw c co i n o cb (zb max_section s) (zb max_key k) (zb max_value v) in
  (fatal (ListC co i n o cb) (s, k, v) /\ a w = UB OutOfBounds) \/
  (~ fatal (ListC co i n o cb) (s, k, v) /\ exists t, a w = Ok (with_consumer w c (after_report (ListC co i n o cb) (s, k, v)), t) /\
   GD (with_consumer w c (after_report (ListC co i n o cb) (s, k, v)))).
Proof.
  intros w c co i n o cb s k v g C (OS & OK & OV) a. unfold a, list_consume, kEngineNames, kSectionNumEngines, kGenericValue. clear a.
  pose proof (cons_sound _ _ _ g C) as SC. destruct SC as (ICO & INUM & IOFF & ICB & FI).
  destruct words as (_ & _ & _ & _ & W1 & W2 & W3). erewrite ask_ok by (apply buf_word; assumption). cbn beta iota. unfold fatal, after_report, list_entry_of.
  destruct (taken_for (zs "loknamen") s).
  - pose proof (first_free i (until_nul v)) as F. pose proof (free_exists i) as X. destruct (findFirstFreeEntry i) as [j|].
    + destruct F as (JL & -> & FC). destruct (full_cases max_value v OV) as [(U & E)|(U & r & E & N)].
      * left. split; [split; [exact X|exact U]|]. unfold ask. rewrite E. reflexivity.
      * right. split; [intros (_ & Y); contradiction|]. rewrite E. erewrite ask_ok by (apply c_str_eq; exact N). cbn beta. unfold print. rewrite emit_seq.
        unfold si_setName.
        assert (L32 : firstn 32 (until_nul v) = until_nul v) by (apply firstn_all2; pose proof (until_nul_len v); unfold max_value in OV; lia).
        change (si_name si_reset) with erased_name. rewrite name_copy by assumption. cbn [bind]. rewrite L32. erewrite ask_ok by reflexivity. unfold put_cons.
        eexists. split; [reflexivity|]. apply (GD_consumer _ _ _ _ g C); [cbn [kind]; rewrite upd_len; reflexivity|]. repeat (split; [assumption|]). apply upd_forall; [exact FI|].
        apply named_sound; [exact N|]. pose proof (until_nul_len v). unfold max_value in OV. lia.
    + destruct F as (-> & _). right. split; [intros (Y & _); contradiction|]. rewrite same_consumer by exact C. eexists. split; [reflexivity|exact g].
  - erewrite ask_ok by (apply buf_word; assumption). cbn beta iota. destruct (taken_for (zs "numloks") s).
    + erewrite ask_ok by (apply buf_word; assumption). cbn beta iota. destruct (taken_for (zs "wert") k).
      * unfold basUint8. destruct (Nat.eq_dec (List.length v) 26) as [L|L].
        -- rewrite (zb_full max_value v L). destruct (dec_cases v lw) as [(U & E)|(U & E)]; rewrite E.
           ++ left. split; [auto|reflexivity].
           ++ right. split; [tauto|]. erewrite ask_ok by reflexivity. eexists. split; [reflexivity|]. apply (GD_consumer _ _ _ _ g C); [reflexivity|].
              split; [assumption|]. split; [eexists; reflexivity|]. auto.
        -- right. split; [tauto|]. rewrite zb_mem, pad_nul by (unfold max_value in *; lia). rewrite dec_read. erewrite ask_ok by reflexivity. eexists. split; [reflexivity|].
           apply (GD_consumer _ _ _ _ g C); [reflexivity|]. split; [assumption|]. split; [eexists; reflexivity|]. auto.
      * right. split; [intros (Y & _); discriminate|]. rewrite same_consumer by exact C. eexists. split; [reflexivity|exact g].
    + destruct (full_cases max_section s OS) as [(U & E)|(U & r & E & N)].
      * left. split; [split; [reflexivity|exact U]|]. unfold ask. rewrite E. reflexivity.
      * right. split; [tauto|]. rewrite E. erewrite ask_ok by (apply c_str_eq; exact N). rewrite same_consumer by exact C. eexists. split; [reflexivity|exact g].
Qed.
Lemma line_exact : forall w c x s k v, GD w -> consumer_at w c x -> ok_report (s, k, v) ->
  let a := cons_consume lw c (zb max_section s) (zb max_key k) (zb max_value v) in
  (fatal x (s, k, v) /\ a w = UB OutOfBounds) \/
  (~ fatal x (s, k, v) /\ exists w' t, a w = Ok (w', t) /\ GD w' /\ consumer_at w' c (after_report x (s, k, v)) /\ w_engines w' = engines_after x [(s, k, v)] (w_engines w) /\
   w_parsers w' = w_parsers w).
Proof.
  intros w c x s k v g C O a. unfold a, cons_consume. clear a. rewrite emit_seq. rewrite (ask_ok _ _ _ _ _ (get_cons_ok _ _ _ C)). cbn beta iota.
  destruct x as [e cb|co i n off cb|].
  - pose proof (cons_sound _ _ _ g C) as ((e' & -> & PE) & ICB). unfold loco_consume. erewrite ask_ok by reflexivity. cbn beta iota. destruct e' as [e|].
    + pose proof g as ((_ & _ & _ & LE) & _ & _ & _ & EN). cbn [points] in PE. destruct (len_nth _ (w_engines w) e ltac:(lia)) as (l & NL).
      rewrite (ask_ok _ _ _ _ _ (get_engine_ok _ _ _ NL)). cbn beta. pose proof (nth_forall _ _ _ _ _ EN NL) as DL.
      destruct (loco_exact l s k v DL (proj2 (proj2 O))) as [(B & E)|(B & E)].
      * left. split; [exact B|]. unfold ask. rewrite E. reflexivity.
      * right. split; [exact B|]. rewrite (ask_ok _ _ _ _ _ E). eexists. eexists. split; [reflexivity|]. split; [exact (GD_engine w e _ g (decent_line _ _ DL))|].
        split; [exact C|]. split; [|reflexivity]. cbn [engines_after]. rewrite NL. reflexivity.
    + right. split; [intros []|]. eexists. eexists. split; [reflexivity|]. auto.
  - destruct (list_exact w c co i n off cb s k v g C O) as [(B & E)|(B & t & E & g')].
    + left. split; [exact B|]. rewrite E. reflexivity.
    + right. split; [exact B|]. rewrite E. eexists. eexists. split; [reflexivity|]. split; [exact g'|]. split; [eapply consumer_put; exact C|split; reflexivity].
  - right. split; [intros []|]. eexists. eexists. split; [reflexivity|]. auto.
Qed.
Lemma fatal_like : forall co co' i n n' o o' cb cb' r, fatal (ListC co i n o cb) r -> fatal (ListC co' i n' o' cb') r.
Proof. intros co co' i n n' o o' cb cb' ((s & k) & v) H. exact H. Qed.
Lemma fatal_step : forall x r rs, fatal_lines x (r :: rs) <-> fatal x r \/ fatal_lines (after_report x r) rs.
Proof.
  intros x r rs. assert (A0 : forall r', fatal (at_line x []) r' <-> fatal x r').
  { intros r'. destruct x; try reflexivity. cbn [at_line names_in flat_map]. rewrite filled_nil. reflexivity. }
  assert (A1 : forall b r', fatal (at_line x (r :: b)) r' <-> fatal (at_line (after_report x r) b) r').
  { intros b r'. destruct x as [| |]; try reflexivity. cbn [at_line after_report]. unfold names_in at 1. cbn [flat_map]. fold (names_in b).
    destruct (list_entry_of r); cbn [at_line app]; try (split; apply fatal_like). rewrite <- (filled_app [until_nul v]). reflexivity. }
  split.
  - intros (b & r' & a & E & F). destruct b as [|r0 b]; cbn [app] in E; injection E as -> ->; [left; apply A0; exact F|]. right. exists b, r', a. split; [reflexivity|]. apply A1. exact F.
  - intros [F|(b & r' & a & -> & F)]; [exists [], r, rs; split; [reflexivity|apply A0; exact F]|]. exists (r :: b), r', a. split; [reflexivity|]. apply A1. exact F.
Qed.
Lemma engines_step : forall x r rs es, engines_after (after_report x r) rs (engines_after x [r] es) = engines_after x (r :: rs) es.
Proof.
  intros [[|[e|]] cb|co i n off cb|] r rs es; try reflexivity.
  - cbn [after_report engines_after]. destruct (nth_error es e) as [l|] eqn:N; [|rewrite N; reflexivity]. rewrite (upd_at _ _ _ _ _ N). cbn [after_lines fold_left].
    clear. revert e. induction es as [|y es IH]; intros [|e]; cbn; try reflexivity. rewrite IH. reflexivity.
  - cbn [after_report]. destruct (list_entry_of r); reflexivity.
Qed.
Lemma lines_exact : forall c rs w x, GD w -> consumer_at w c x -> Forall ok_report rs ->
  (fatal_lines x rs /\ cons_consume_all lw c (map as_buffers rs) w = UB OutOfBounds) \/
  (~ fatal_lines x rs /\ exists w' t, cons_consume_all lw c (map as_buffers rs) w = Ok (w', t) /\ GD w' /\ w_engines w' = engines_after x rs (w_engines w) /\
   w_parsers w' = w_parsers w /\ exists x', consumer_at w' c x' /\ forall e cb, x = LocoC e cb <-> x' = LocoC e cb).
Proof.
  intros c rs. induction rs as [|((s & k) & v) rs IH]; intros w x g C F.
  - right. split; [intros (b & r & a & E & _); destruct b; discriminate|]. exists w, []. split; [reflexivity|]. split; [exact g|]. split; [|split; [reflexivity|exists x; split; [exact C|reflexivity]]].
    destruct x as [[|[e|]] cb| |]; try reflexivity. cbn [engines_after]. destruct (nth_error (w_engines w) e) as [l|] eqn:N; [|reflexivity]. symmetry. apply ZLib.upd_same_id. exact N.
  - inversion F; subst. cbn [map cons_consume_all as_buffers]. destruct (line_exact w c x s k v g C H1) as [(B & E)|(B & w1 & t1 & E & g1 & C1 & EE & EP)].
    + left. split; [apply fatal_step; left; exact B|]. unfold World.seq. rewrite E. reflexivity.
    + destruct (IH w1 _ g1 C1 H2) as [(B2 & E2)|(B2 & w2 & t2 & E2 & g2 & EE2 & EP2 & x' & C2 & X2)].
      * left. split; [apply fatal_step; right; exact B2|]. unfold World.seq. rewrite E. cbn [bind]. rewrite E2. reflexivity.
      * right. split; [rewrite fatal_step; tauto|]. exists w2, (t1 ++ t2). split; [unfold World.seq; rewrite E; cbn [bind]; rewrite E2; reflexivity|]. split; [exact g2|].
        split; [rewrite EE2, EE; apply engines_step|]. split; [congruence|]. exists x'. split; [exact C2|]. intros e cb. rewrite <- X2. destruct x; cbn [after_report]; try reflexivity.
        destruct (list_entry_of (s, k, v)); split; discriminate.
Qed.

(** ** Ends of streams and frames, exactly *)
Lemma unprintable_now : forall w c, unprintable lw w c [] <-> exists e cb l, consumer_at w c (LocoC (Def (Some e)) cb) /\ engine_at w e l /\ nulfree (lo_proto l).
Proof. intros. reflexivity. Qed.
Lemma complete_exact : forall w c x, GD w -> consumer_at w c x ->
  (unprintable lw w c [] /\ cons_complete c w = UB OutOfBounds) \/ (~ unprintable lw w c [] /\ dsafe_at w (cons_complete c)).
Proof.
  intros w c x g C. rewrite unprintable_now. assert (AC : a_consumer w0 c).
  { unfold a_consumer. pose proof g as ((_ & _ & L & _) & _). assert (LC : List.length (w_conss w) = List.length (w_conss w0)) by (rewrite <- (map_length kind), L; apply map_length).
    rewrite <- LC. apply nth_error_Some. unfold consumer_at in C. rewrite C. discriminate. }
  pose proof (cons_sound _ _ _ g C) as SC. destruct x as [e cb|co i n off cb|].
  - destruct SC as ((e' & -> & PE) & (cb' & ->)). destruct e' as [e|].
    + pose proof g as ((_ & _ & _ & LE) & _ & _ & _ & EN). cbn [points] in PE. destruct (len_nth _ (w_engines w) e ltac:(lia)) as (l & NL).
      pose proof (nth_forall _ _ _ _ _ EN NL) as ((nm & SN) & P8). destruct (nul_or_not (lo_proto l)) as [N|N].
      * left. split; [exists e, (Def cb'), l; auto|]. apply (complete_loco_ub w c e cb' l nm C NL SN). apply str_end. exact N.
      * right. split.
        { intros (e2 & cb2 & l2 & C2 & E2 & N2). unfold consumer_at, engine_at in *. rewrite C in C2. injection C2 as <- <-. rewrite NL in E2. injection E2 as <-.
          unfold nulfree in N2. rewrite Forall_forall in N2. exact (N2 0 N eq_refl). }
        destruct (str_in _ N) as (p & EP). destruct (complete_loco w c e cb' l nm p C NL SN EP) as (t & E & _). exists (with_engine w e (lo_setAvailability l FULL_DETAILS)), t.
        split; [exact E|]. apply GD_engine; [exact g|]. split; [exists nm; exact SN|exact P8].
    + right. split; [intros (e2 & cb2 & l2 & C2 & _); unfold consumer_at in *; congruence|]. unfold cons_complete. apply d_emit_at. exists w, [].
      rewrite (ask_ok _ _ _ _ _ (get_cons_ok _ _ _ C)). split; [reflexivity|exact g].
  - right. split; [intros (e2 & cb2 & l2 & C2 & _); unfold consumer_at in *; congruence|]. destruct SC as (ICO & INUM & IOFF & (cb' & ->) & FI).
    eexists. eexists. split; [exact (complete_list w c co i n off cb' C)|].
    apply (GD_consumer _ _ _ _ g C); [reflexivity|]. split; [eexists; reflexivity|]. repeat (split; [assumption|]). split; [eexists; reflexivity|exact FI].
  - right. split; [intros (e2 & cb2 & l2 & C2 & _); unfold consumer_at in *; congruence|]. unfold cons_complete. apply d_emit_at. exists w, [].
    rewrite (ask_ok _ _ _ _ _ (get_cons_ok _ _ _ C)). split; [reflexivity|exact g].
Qed.
Lemma GD_parser : forall w p sp x, GD w -> lib_at w p sp -> sound_parser w0 (LibP x) -> GD (with_parser w p (LibP x)).
Proof.
  intros w p sp x ((L1 & L2 & L3 & L4) & S & P & C & EN) N SX. unfold GD, same_objects, with_parser. cbn [w_stations w_parsers w_conss w_engines].
  rewrite (upd_map _ _ pkind p (LibP x) (LibP sp)) by first [assumption|reflexivity]. repeat (split; try assumption). apply upd_forall; assumption.
Qed.
Lemma header_zero : forall d, payload_ok d -> ((header_length d >? 0) = false <-> dget d 0 = 0 /\ dget d 1 = 0 /\ dget d 2 = 0 /\ dget d 3 = 0).
Proof.
  intros d PD. assert (B : forall i, 0 <= dget d i < 256).
  { intros i. unfold dget. destruct PD as (_ & _ & PD). destruct (nth_in_or_default i (dbytes d) 0) as [IN | ->]; [|lia]. rewrite Forall_forall in PD. exact (PD _ IN). }
  pose proof (B 0%nat) as B0. pose proof (B 1%nat) as B1. pose proof (B 2%nat) as B2. pose proof (B 3%nat) as B3. clear B.
  unfold header_length. remember (dget d 0) as x0. remember (dget d 1) as x1. remember (dget d 2) as x2. remember (dget d 3) as x3. clear - B0 B1 B2 B3.
  set (h := Z.lor _ _). assert (H0 : 0 <= h) by (unfold h; repeat (apply Z.lor_nonneg; split); try apply Z.shiftl_nonneg; lia).
  assert (HZ : h = 0 <-> x0 = 0 /\ x1 = 0 /\ x2 = 0 /\ x3 = 0).
  { unfold h. rewrite !Z.lor_eq_0_iff, !Z.shiftl_eq_0_iff by lia. tauto. }
  rewrite <- HZ. rewrite Z.gtb_ltb, Z.ltb_ge. lia.
Qed.
Lemma breaks_at : forall w p d sp, lib_at w p sp -> (breaks lw w p d <-> exists c x, sp_cons sp = Some c /\ consumer_at w c x /\
    ((sp_state sp = SS_FIRST /\ announces_nothing d /\ unprintable lw w c []) \/
     (sp_state sp = SS_DATA /\ dlc d = 8 /\ exists a, sp_text sp = parser a (Some c) /\
      (fatal_lines x (snd (aadd a (content d))) \/ (ends_well sp d /\ unprintable lw w c (snd (aadd a (content d)))))))).
Proof.
  intros w p d sp L. split; [|intros (c & x & H); exists sp, c, x; auto]. intros (sp' & c & x & L' & H). unfold lib_at in *. rewrite L in L'. injection L' as <-. eauto.
Qed.
Lemma consumer_there : forall w c, GD w -> a_consumer w0 c -> exists x, consumer_at w c x.
Proof. intros w c g H. destruct (len_nth _ _ _ H) as (x & N). destruct (cons_there_d w c x g N) as (y & E & _). exists y. exact E. Qed.
Lemma add_exact : forall w p d, GD w -> lib0_d p -> valid_frame d ->
  (breaks lw w p d /\ lib_addMessage lw p d w = UB OutOfBounds) \/ (~ breaks lw w p d /\ dsafe_at w (lib_addMessage lw p d)).
Proof.
  intros w p d g H (PD & D8). destruct (lib_there_d w p g H) as (sp & L & (U & PC & CR)). rewrite (breaks_at w p d sp L). unfold lib_addMessage.
  assert (X : forall (P : Prop) k, (P /\ k sp w = UB OutOfBounds) \/ (~ P /\ dsafe_at w (k sp)) -> (P /\ ask (get_lib p) k w = UB OutOfBounds) \/ (~ P /\ dsafe_at w (ask (get_lib p) k))).
  { intros P k [(A & B)|(A & w' & t & E & g')]; [left|right]; (split; [exact A|]). - rewrite (ask_ok _ _ _ _ _ (lib_get _ _ _ L)). exact B. - exists w', t. rewrite (ask_ok _ _ _ _ _ (lib_get _ _ _ L)). auto. }
  apply X. clear X.
  assert (NO : forall (P : Prop) a, ~ P -> dsafe_at w a -> (P /\ a w = UB OutOfBounds) \/ (~ P /\ dsafe_at w a)) by auto.
  destruct (sp_state sp) eqn:ST; try (apply NO; [intros (c & x & _ & _ & [(Y & _)|(Y & _)]); discriminate|apply d_print; exact g]).
  - destruct ((dlc d =? 6) || (dlc d =? 7)) eqn:D67.
    + cbv zeta. cbn [sp_remaining sp_cons]. destruct (header_length d >? 0) eqn:HL.
      * apply NO.
        { intros (c & x & _ & _ & [(_ & (_ & Y) & _)|(Y & _)]); [|discriminate]. apply (header_zero d PD) in Y. congruence. }
        apply d_put_lib; [exact H| |exact g]. split; [exact U|]. split; [exact PC|]. cbn. split; [exact CR|eexists; reflexivity].
      * rewrite put_lib_seq. set (w1 := with_parser w p _).
        assert (g1 : GD w1) by (apply (GD_parser w p sp); [exact g|exact L|split; [exact U|split; [exact PC|exact Logic.I]]]).
        assert (AN : announces_nothing d) by (split; [lia|apply header_zero; assumption]).
        assert (S0 : forall a : act, dsafe_at w1 a -> dsafe_at w (put_lib p (mkSP SS_DONE (header_length d) (sp_text sp) (crc_loadReference (sp_crc sp) (header_crc d)) (sp_cons sp)) ;;; a)).
        { intros a (w' & t & E & g'). exists w', t. rewrite put_lib_seq. auto. }
        destruct (sp_cons sp) as [c|] eqn:SC; cbn [when_some].
        -- destruct (consumer_there w c g PC) as (x & C). destruct (complete_exact w1 c x g1 C) as [(B & E)|(B & E)].
           ++ left. split; [|exact E]. exists c, x. split; [reflexivity|]. split; [exact C|]. left. auto.
           ++ right. split; [|apply S0; exact E]. intros (c' & x' & CE & C' & [(_ & _ & Y)|(Y & _)]); [|discriminate]. injection CE as <-. apply B. exact Y.
        -- right. split; [intros (c' & x' & CE & _); discriminate|]. apply S0. apply d_skip. exact g1.
    + apply NO.
      { intros (c & x & _ & _ & [(_ & (Y & _) & _)|(Y & _)]); [lia|discriminate]. }
      destruct (dlc d >=? 8); (apply d_seq; [apply d_print|apply d_reset; exact H|exact g]).
  - destruct (negb (dlc d =? 8)) eqn:E8.
    { apply NO; [|apply d_seq; [apply d_print|apply d_reset; exact H|exact g]]. intros (c & x & _ & _ & [(Y & _)|(_ & Y & _)]); [discriminate|]. rewrite Y in E8. discriminate. }
    assert (D : dlc d = 8) by lia. destruct U as (a & F & T). destruct CR as (CA & CF). cbv zeta.
    destruct (feed_ok (content d) _ CA) as (crc & FE & CA' & CF'). rewrite <- CF' in CF.
    assert (X1 : (bs <- data_visited d ;; crc_feed (sp_crc sp) bs) = Ok crc) by (rewrite (visited_data _ PD D); exact FE).
    assert (X2 : tp_addText (sp_text sp) (mkBuf (dbytes d) CanDataMaxLength (dlc d)) = Ok (parser (fst (aadd a (content d))) (sp_cons sp), told (sp_cons sp) (snd (aadd a (content d))))).
    { rewrite T. rewrite (addText_spec _ _ _ _ F (holds_data _ PD D)). reflexivity. }
    assert (FR : Forall ok_report (snd (aadd a (content d)))) by (apply aadd_reports; exact F).
    assert (F' : fits (fst (aadd a (content d)))) by (apply aadd_fits; exact F).
    assert (AU : forall a', sp_text sp = parser a' (sp_cons sp) -> a' = a) by (intros a' T'; rewrite T in T'; apply parser_inj in T'; congruence).
    set (a' := fst (aadd a (content d))) in *. remember (snd (aadd a (content d))) as rs eqn:RS.
    set (rem := u32 (sp_remaining sp - dlc d)).
    assert (U' : forall st r, usable (mkSP st r (parser a' (sp_cons sp)) crc (sp_cons sp))) by (intros st r; exists a'; split; [exact F'|reflexivity]).
    set (w1 := with_parser w p (LibP (mkSP SS_DATA rem (parser a' (sp_cons sp)) crc (sp_cons sp)))).
    assert (g1 : GD w1) by (apply (GD_parser w p sp); [exact g|exact L|split; [apply U'|split; [exact PC|split; assumption]]]).
    set (fin := (if rem =? 0 then ask (fun _ : world => crc_isValid crc) (fun valid : bool => if valid then
        put_lib p (mkSP SS_DONE rem (parser a' (sp_cons sp)) crc (sp_cons sp)) ;;; when_some (sp_cons sp) cons_complete
        else put_lib p (mkSP SS_IDLE rem (parser a' (sp_cons sp)) crc (sp_cons sp)) ;;; when_some (sp_cons sp) cons_aborted) else skip) : act).
    match goal with |- (?P /\ ?A w = UB OutOfBounds) \/ _ => assert (GOAL : A w = (when_some (sp_cons sp) (fun c => cons_consume_all lw c (told (sp_cons sp) rs)) ;;; fin) w1) end.
    { rewrite (ask_ok _ _ _ _ _ X1). rewrite (ask_ok _ _ _ _ _ X2). cbn [fst snd]. rewrite put_lib_seq. rewrite T at 1. reflexivity. }
    unfold dsafe_at. rewrite !GOAL. clear GOAL X1 X2.
    assert (RZ : (rem =? 0) = true <-> (sp_remaining sp - 8) mod 2 ^ 32 = 0) by (unfold rem; rewrite D; unfold u32; rewrite Z.eqb_eq; reflexivity).
    destruct (sp_cons sp) as [c|] eqn:SC; cbn [when_some told] in *.
    + destruct (consumer_there w c g PC) as (x & C). assert (LB : lib_at w1 p (mkSP SS_DATA rem (parser a' (Some c)) crc (Some c))) by (eapply lib_with; exact L).
      destruct (lines_exact c rs w1 x g1 C FR) as [(B & E)|(B & w2 & t2 & E & g2 & EE & EP & x2 & C2 & X2)].
      * left. split; [|unfold World.seq; rewrite E; reflexivity]. exists c, x. split; [reflexivity|]. split; [exact C|]. right. split; [reflexivity|]. split; [exact D|]. exists a. split; [exact T|]. left. rewrite <- RS. exact B.
      * assert (L2 : forall q, lib_at w1 p q -> lib_at w2 p q) by (intros q; unfold lib_at; rewrite EP; auto). specialize (L2 _ LB).
        assert (UP : forall st, unprintable lw (with_parser w2 p (LibP (mkSP st rem (parser a' (Some c)) crc (Some c)))) c [] <-> unprintable lw w c rs).
        { intros st. rewrite unprintable_now. unfold unprintable, consumer_at, engine_at, with_parser. cbn [w_conss w_engines]. rewrite EE.
          assert (EQ : w_engines w1 = w_engines w) by reflexivity. rewrite EQ. unfold consumer_at in C, C2. change (w_conss w1) with (w_conss w) in *. rewrite C, C2. split.
          - intros (e & cb & l & CE & EL & N). injection CE as CE. apply X2 in CE. subst x. exists e, cb. cbn [engines_after] in EL. destruct (nth_error (w_engines w) e) as [l0|] eqn:N0; [|congruence].
            rewrite (upd_at _ _ _ _ _ N0) in EL. injection EL as <-. eauto.
          - intros (e & cb & l & CE & EL & N). injection CE as ->. exists e, cb, (after_lines lw l rs). split; [f_equal; apply X2; reflexivity|]. split; [|exact N]. cbn [engines_after]. rewrite EL. eapply upd_at. exact EL. }
        assert (SQ : (cons_consume_all lw c (map as_buffers rs) ;;; fin) w1 = match fin w2 with Ok (w', t') => Ok (w', t2 ++ t') | UB u => UB u end).
        { unfold World.seq. rewrite E. cbn [bind]. destruct (fin w2) as [[]|]; reflexivity. }
        change (fun c0 : nat => cons_consume_all lw c0 (map as_buffers rs)) with (fun c0 : nat => cons_consume_all lw c0 (map as_buffers rs)) in *. rewrite !SQ. clear SQ.
        assert (BR : (exists c0 x0, Some c = Some c0 /\ consumer_at w c0 x0 /\ ((SS_DATA = SS_FIRST /\ announces_nothing d /\ unprintable lw w c0 []) \/
            (SS_DATA = SS_DATA /\ dlc d = 8 /\ exists a0, sp_text sp = parser a0 (Some c0) /\ (fatal_lines x0 (snd (aadd a0 (content d))) \/ (ends_well sp d /\ unprintable lw w c0 (snd (aadd a0 (content d)))))))) <->
            ends_well sp d /\ unprintable lw w c rs).
        { split.
          - intros (c0 & x0 & CE & C0 & [(Y & _)|(_ & _ & a0 & T0 & Y)]); [discriminate|]. injection CE as <-. rewrite (AU a0 T0) in Y. rewrite <- RS in Y. unfold consumer_at in *. rewrite C in C0. injection C0 as <-. tauto.
          - intros Y. exists c, x. split; [reflexivity|]. split; [exact C|]. right. split; [reflexivity|]. split; [exact D|]. exists a. rewrite <- RS. auto. }
        rewrite BR. clear BR. destruct CA' as (va & CA'). destruct CF as (vr & CF). assert (CV : crc_isValid crc = Ok (va =? vr)) by (unfold crc_isValid; rewrite CA', CF; reflexivity).
        assert (EW : ends_well sp d <-> (rem =? 0) = true /\ (va =? vr) = true).
        { unfold ends_well. rewrite RZ. split; [intros (A & crc2 & E2 & V2); rewrite FE in E2; injection E2 as <-; rewrite CV in V2; injection V2 as ->; auto|].
          intros (A & V). split; [exact A|]. exists crc. split; [exact FE|]. rewrite CV, V. reflexivity. }
        rewrite EW. unfold fin. destruct (rem =? 0); [|right; split; [intros ((Y & _) & _); discriminate|]; eexists; eexists; split; [reflexivity|exact g2]].
        rewrite (ask_ok _ _ _ _ _ CV). destruct (va =? vr).
        -- rewrite put_lib_seq. set (w3 := with_parser w2 p _). assert (g3 : GD w3) by (eapply GD_parser; [exact g2|exact L2|split; [apply U'|split; [exact PC|exact Logic.I]]]).
           destruct (complete_exact w3 c x2 g3 C2) as [(B3 & E3)|(B3 & w4 & t4 & E3 & g4)].
           ++ left. split; [split; [auto|apply (UP SS_DONE); exact B3]|]. cbn [when_some]. rewrite E3. reflexivity.
           ++ right. split; [intros (_ & Y); apply B3; apply (UP SS_DONE); exact Y|]. cbn [when_some]. rewrite E3. eexists. eexists. split; [reflexivity|exact g4].
        -- right. split; [intros ((_ & Y) & _); discriminate|]. rewrite put_lib_seq. set (w3 := with_parser w2 p _). assert (g3 : GD w3) by (eapply GD_parser; [exact g2|exact L2|split; [apply U'|split; [exact PC|exact Logic.I]]]).
           cbn [when_some]. destruct (d_aborted c PC w3 g3) as (w4 & t4 & E4 & g4). rewrite E4. eexists. eexists. split; [reflexivity|exact g4].
    + right. split; [intros (c & x & Y & _); discriminate|]. assert (SF : dsafe fin).
      { unfold fin. destruct (rem =? 0); [|apply d_skip]. destruct CA' as (va & CA'). destruct CF as (vr & CF). apply d_ask_pure with (x := (va =? vr)).
        { unfold crc_isValid. rewrite CA', CF. reflexivity. }
        destruct (va =? vr); (apply d_seq; [apply d_put_lib; [exact H|split; [apply U'|split; exact Logic.I]]|apply d_skip]). }
      exact (d_seq skip fin d_skip SF w1 g1).
Qed.
(** ** From a payload to an operation *)
Definition exactly (P : Prop) (w : world) (a : act) : Prop := (P /\ a w = UB OutOfBounds) \/ (~ P /\ dsafe_at w a).
Lemma x_ask : forall A (P : Prop) w (f : world -> res A) k x, f w = Ok x -> exactly P w (k x) -> exactly P w (ask f k).
Proof. intros A P w f k x E [(B & X)|(B & w' & t & X & g)]; [left|right]; (split; [exact B|]); [|exists w', t]; unfold ask; rewrite E; auto. Qed.
Lemma x_emit : forall P w e a, exactly P w a -> exactly P w (emit e ;;; a).
Proof.
  intros P w e a [(B & X)|(B & X)]; [left|right]; (split; [exact B|]); [|apply d_emit_at; exact X]. unfold World.seq, emit. cbn [bind]. rewrite X. reflexivity.
Qed.
Lemma x_iff : forall (P Q : Prop) w a, (P <-> Q) -> exactly P w a -> exactly Q w a.
Proof. unfold exactly. intros. tauto. Qed.
Lemma x_safe : forall (P : Prop) w a, ~ P -> dsafe_at w a -> exactly P w a.
Proof. unfold exactly. auto. Qed.
Lemma cfg_exact : forall w p d, GD w -> parser0_d p -> valid_frame d -> exactly (breaks lw w p d) w (cfg_call lw p (CAdd d)).
Proof.
  intros w p d g H V. destruct (len_nth _ _ _ H) as (o & N). unfold cfg_call. apply x_emit. destruct (parser_there_d w p o g N) as (o' & E & K & S).
  apply x_ask with (x := o'); [unfold get_parser, at_; rewrite E; reflexivity|]. destruct o' as [sp|beh h].
  - apply add_exact; try assumption. destruct o as [sp0|]; [exists sp0; exact N|discriminate].
  - apply x_safe; [|apply (d_put_parser p o); [exact N|exact K|exact Logic.I|exact g]]. intros (sp & c & x & L & _). unfold lib_at in L. congruence.
Qed.
Lemma stream_exact : forall w s d st, GD w -> station0_d s -> valid_frame d -> nth_error (w_stations w) s = Some st ->
  exactly (exists p, cb_cfg (st_cbs st) = Some p /\ breaks lw w p d) w (st_handleConfigDataStream lw s d).
Proof.
  intros w s d st g H V N. unfold st_handleConfigDataStream. apply x_ask with (x := st); [unfold get_station, at_; rewrite N; reflexivity|].
  pose proof g as (_ & S & _). pose proof (nth_forall _ _ _ _ _ S N) as (_ & _ & PC). cbn beta in PC.
  assert (Q : dsafe (puts "Ignoring ConfigData Stream: " ;;; print_res (printAsText d))) by (apply d_seq; [apply d_puts|apply d_print_res; apply text_ok; exact V]).
  destruct (cb_cfg (st_cbs st)) as [p|].
  - destruct (len_nth _ _ _ PC) as (o & NO). destruct (parser_there_d w p o g NO) as (o' & E & _).
    apply x_ask with (x := if ss_processing (pobj_state o') then Some p else None). { unfold cfg_isProcessing, get_parser, at_. rewrite E. reflexivity. }
    destruct (ss_processing (pobj_state o')) eqn:PR.
    + apply x_iff with (P := breaks lw w p d); [|apply cfg_exact; assumption]. split; [eauto|]. intros (p' & Y & B). injection Y as <-. exact B.
    + apply x_safe; [|apply Q; exact g]. intros (p' & Y & sp & c & x & L & _ & _ & B). injection Y as <-. unfold lib_at in L. rewrite E in L. injection L as ->. cbn [pobj_state] in PR.
      destruct B as [(B & _)|(B & _)]; rewrite B in PR; discriminate.
  - apply x_ask with (x := None); [reflexivity|]. apply x_safe; [intros (p' & Y & _); discriminate|]. apply Q. exact g.
Qed.
Lemma packet_exact : forall w s f st, GD w -> station0_d s -> valid_frame (fdata f) -> nth_error (w_stations w) s = Some st ->
  exactly (id_getCommand (fid f) = CMD_CONFIG_DATA /\ exists p, cb_cfg (st_cbs st) = Some p /\ breaks lw w p (fdata f)) w (st_handlePacket lw s f).
Proof.
  intros w s f st g H V N. unfold st_handlePacket. cbv zeta.
  assert (NO : forall cmd a, cmd <> CMD_CONFIG_DATA -> (id_getCommand (fid f) =? cmd) = true -> dsafe a ->
    exactly (id_getCommand (fid f) = CMD_CONFIG_DATA /\ exists p, cb_cfg (st_cbs st) = Some p /\ breaks lw w p (fdata f)) w a).
  { intros cmd a NE E SA. apply x_safe; [|apply SA; exact g]. intros (Y & _). apply Z.eqb_eq in E. congruence. }
  destruct (id_getCommand (fid f) =? kSystemCommand) eqn:E1; [apply (NO kSystemCommand); [discriminate|exact E1|apply d_system; exact H]|].
  destruct (id_getCommand (fid f) =? kPing) eqn:E2; [apply (NO kPing); [discriminate|exact E2|apply d_skip]|].
  destruct (id_getCommand (fid f) =? kAccessorySwitch) eqn:E3; [apply (NO kAccessorySwitch); [discriminate|exact E3|apply d_seq; [apply d_puts|apply d_seq; [apply d_acc; exact H|apply d_print]]]|].
  destruct (id_getCommand (fid f) =? kLocoDirection) eqn:E4; [apply (NO kLocoDirection); [discriminate|exact E4|apply d_dir; exact H]|].
  destruct (id_getCommand (fid f) =? kLocoSpeed) eqn:E5; [apply (NO kLocoSpeed); [discriminate|exact E5|apply d_speed; exact H]|].
  destruct (id_getCommand (fid f) =? kLocoFunction) eqn:E6; [apply (NO kLocoFunction); [discriminate|exact E6|apply d_fun; exact H]|].
  destruct (id_getCommand (fid f) =? kRequestConfigData) eqn:E7; [apply (NO kRequestConfigData); [discriminate|exact E7|apply d_skip]|].
  destruct (id_getCommand (fid f) =? kConfigDataStream) eqn:E8.
  { eapply x_iff; [|apply (stream_exact w s (fdata f) st); assumption]. apply Z.eqb_eq in E8. rewrite E8. change kConfigDataStream with CMD_CONFIG_DATA. tauto. }
  apply x_safe. { intros (Y & _). apply Z.eqb_neq in E8. apply E8. exact Y. }
  destruct (id_getCommand (fid f) =? kDebugText).
  - apply d_seq; [apply d_puts|apply d_seq; [apply d_print_res; apply text_ok; exact V|apply d_print]|exact g].
  - apply d_seq; [apply d_print|apply d_seq; [apply d_print_res|apply d_print]|exact g]. destruct V as (P & D). apply hex_ok; [exact P|lia].
Qed.
Lemma d_eop : forall l o, decent_engine l -> valid_eop o \/ (exists s, o = ESetProtocolString s /\ c_string s) -> exists l', eop_apply l o = Ok l' /\ decent_engine l'.
Proof.
  intros l o SL V. assert (PR : forall s, c_string s -> exists l', lo_setProtocolString l s = Ok l' /\ decent_engine l').
  { intros s (t & r & -> & N). destruct SL as (SN & P8). destruct (proto_spec l t r P8 N) as (l' & E & I' & D' & P'). exists l'. split; [exact E|]. split; [rewrite I'; exact SN|].
    rewrite P', app_length, firstn_length, repeat_length. lia. }
  destruct V as [V|(s & -> & V)]; [|exact (PR s V)].
  destruct o; cbn [eop_apply valid_eop] in *; try (eexists; split; [reflexivity|exact SL]).
  - destruct V as (t & r & -> & N). assert (X : exists l', lo_setName l (t ++ 0 :: r) = Ok l' /\ decent_engine l').
    { unfold lo_setName. change (si_name (lo_info lo_reset)) with erased_name. rewrite name_copy by exact N. cbn [bind]. eexists. split; [reflexivity|].
      split; [|cbn; auto]. exists (firstn 32 t). split; [apply Forall_firstn; exact N|]. split; [rewrite firstn_length; lia|reflexivity]. }
    exact X.
  - destruct V as (t & r & -> & N). destruct SL as ((n & SN) & P8). destruct (lo_setNameConditional_spec l n t r SN N) as (A & B).
    assert (D : (si_avail (lo_info l) <> EMPTY /\ firstn 32 t = n) \/ (si_avail (lo_info l) = EMPTY \/ firstn 32 t <> n)).
    { destruct (list_eq_dec Z.eq_dec (firstn 32 t) n); [|auto]. destruct (si_avail (lo_info l)); auto; left; split; auto; discriminate. }
    destruct D as [D|D]; [rewrite (A D); exists l; split; [reflexivity|split; [exists n; exact SN|auto]]|]. destruct (B D) as (l' & E & E2). rewrite E. exists l'. split; [reflexivity|].
    unfold lo_setName in E2. change (si_name (lo_info lo_reset)) with erased_name in E2. rewrite name_copy in E2 by exact N. cbn [bind] in E2. injection E2 as <-.
    split; [|cbn; auto]. exists (firstn 32 t). split; [apply Forall_firstn; exact N|]. split; [rewrite firstn_length; lia|reflexivity].
  - eexists. split; [reflexivity|]. split; [exists []; split; [constructor|split; [cbn; lia|reflexivity]]|cbn; auto].
  - unfold ld_setFunction, fmask. replace (f <? 32) with true by lia. cbn [bind]. eexists. split; [reflexivity|exact SL].
  - apply PR. destruct V as (t & r & -> & N & _). exists t, r. auto.
Qed.
Lemma step_exact : forall w o, GD w -> legal_op w0 o -> exactly (undefined_by lw w o) w (step lw o).
Proof.
  intros w o g LG.
  assert (NO : forall a, (forall p d, ~ hands_over w o p d) -> dsafe_at w a -> exactly (undefined_by lw w o) w a).
  { intros a H SA. apply x_safe; [|exact SA]. intros (p & d & Y & _). exact (H p d Y). }
  destruct LG as [V|(e & s & -> & H & V)].
  2:{ apply NO; [intros p d [E|(s' & st & _ & _ & [E|(f & E & _)])]; discriminate|]. cbn [step]. apply d_engine; [exact H| |exact g]. intros l SL.
      destruct (d_eop l (ESetProtocolString s) SL) as (l' & E & SL'); [right; eauto|]. apply d_ask_pure with (x := l'); [exact E|]. apply d_put_engine. exact SL'. }
  destruct o as [s o|p|p c|p d|p|c cb|c e|c off|c|c|c|e o]; cbn [step valid_op] in *;
    try (apply NO; [intros p' d' [E|(s' & st & _ & _ & [E|(f & E & _)])]; discriminate|]).
  - destruct V as (H & V). destruct (len_nth _ (w_stations w) s) as (st & N); [destruct g as ((L & _) & _); rewrite L; exact H|].
    destruct o; cbn [st_step valid_sop] in *; try (apply NO; [intros p' d' [E|(s' & st' & _ & _ & [E|(f' & E & _)])]; discriminate|]);
      try (apply d_skip; exact g); try (apply d_finish; assumption); try (apply d_acc; assumption);
      try (apply d_dir; assumption); try (apply d_speed; assumption); try (apply d_fun; assumption); try (apply d_system; assumption); try (apply d_send; assumption).
    + apply d_begin; assumption.
    + eapply x_iff; [|apply (packet_exact w s f st); assumption]. split.
      * intros (CMD & p & C & B). exists p, (fdata f). split; [|exact B]. right. exists s, st. split; [exact N|]. split; [exact C|]. right. exists f. auto.
      * intros (p & d & [E|(s' & st' & N' & C & [E|(f' & E & D & CMD)])] & B); try discriminate. injection E as <- <-. rewrite N in N'. injection N' as <-. subst d. split; [exact CMD|]. eauto.
    + eapply x_iff; [|apply (stream_exact w s d st); assumption]. split.
      * intros (p & C & B). exists p, d. split; [|exact B]. right. exists s, st. auto.
      * intros (p & d' & [E|(s' & st' & N' & C & [E|(f' & E & D & CMD)])] & B); try discriminate. injection E as <- <-. rewrite N in N'. injection N' as <-. eauto.
    + unfold st_sendAccessoryPacket. apply d_station; [exact H| |exact g]. intros. cbv zeta. apply d_tx. assumption.
    + apply d_request; try apply V; assumption.
    + apply d_request_list; assumption.
    + unfold st_requestEngineDirection. apply d_station; [exact H| |exact g]. intros. apply d_tx. assumption.
    + unfold st_sendEngineDirection. destruct (_ || _); [apply d_send; assumption|apply d_skip; exact g].
    + unfold st_requestEngineVelocity. apply d_station; [exact H| |exact g]. intros. apply d_tx. assumption.
    + unfold st_requestEngineFunction. apply d_station; [exact H| |exact g]. intros. apply d_tx. assumption.
    + unfold st_requestEngineAllFunctions. apply d_station; [exact H| |exact g]. intros. apply d_send_functions. assumption.
    + unfold st_sendEmergencyStop. apply d_station; [exact H| |exact g]. intros. apply d_tx. assumption.
    + unfold st_sendSystemStop. apply d_station; [exact H| |exact g]. intros. apply d_tx. assumption.
    + unfold st_sendSystemGo. apply d_station; [exact H| |exact g]. intros. apply d_tx. assumption.
  - apply d_lib; [exact V| |exact g]. intros sp S. apply d_put_lib; [exact V|apply start_sound; exact S].
  - destruct V as (V & PC). apply d_lib; [exact V| |exact g]. intros sp ((a & F & T) & _ & CR). apply d_put_lib; [exact V|]. split; [exists a; split; [exact F|cbn; rewrite T; reflexivity]|]. split; [exact PC|exact CR].
  - destruct V as (V & VF). eapply x_iff; [|apply add_exact; assumption]. split; [intros B; exists p, d; split; [left; reflexivity|exact B]|].
    intros (p' & d' & [E|(s' & st & _ & _ & [E|(f & E & _)])] & B); try discriminate. injection E as <- <-. exact B.
  - apply d_reset; assumption.
  - destruct (len_nth _ _ _ V) as (o & N). apply (d_cons c o); [exact N| |exact g]. intros [e cb'|co i n off cb'|] K S; [| |apply d_skip].
    + apply (d_put_cons c o); [exact N|exact K|]. split; [apply S|eexists; reflexivity].
    + apply (d_put_cons c o); [exact N|exact K|]. destruct S as (A & B & C & _ & F). repeat (split; [assumption|]). split; [eexists; reflexivity|exact F].
  - destruct V as ((e0 & cb0 & N) & PE). apply (d_cons c _ _ N); [|exact g]. intros [e' cb'| |] K S; try discriminate. apply (d_put_cons c _ _ N); [exact K|]. split; [eexists; split; [reflexivity|exact PE]|apply S].
  - apply d_list; [exact V| |exact g]. intros o co i n off' cb N K (A & B & C & D & F). apply (d_put_cons c _ _ N); [exact K|]. repeat (split; [first [assumption|eexists; reflexivity]|]). exact F.
  - apply d_list; [exact V| |exact g]. intros o co i n off' cb N K (A & B & C & D & F). apply (d_put_cons c _ _ N); [rewrite <- K; cbn; unfold list_cleared; rewrite map_length; reflexivity|].
    repeat (split; [first [assumption|eexists; reflexivity]|]). apply cleared_sound.
  - apply d_list; [exact V| |exact g]. intros o co i n off' cb N K (A & B & C & D & F). apply (d_put_cons c _ _ N); [rewrite <- K; cbn; unfold list_cleared; rewrite map_length; reflexivity|].
    repeat (split; [first [assumption|eexists; reflexivity]|]). apply cleared_sound.
  - apply d_list; [exact V| |exact g]. intros o co i n off' cb N K (A & (n' & ->) & C & D & F). apply d_ask_pure with (x := n'); [reflexivity|]. apply d_seq; [apply d_print|]. apply d_print_res. apply print_ok. exact F.
  - destruct V as (H & V). apply d_engine; [exact H| |exact g]. intros l SL. destruct (d_eop l o SL (or_introl V)) as (l' & E & SL'). apply d_ask_pure with (x := l'); [exact E|]. apply d_put_engine. exact SL'.
Qed.
End Safe.
Lemma GD_decent : forall w0 w, GD w0 w -> decent w.
Proof.
  intros w0 w ((L1 & L2 & L3 & L4) & S & P & C & E). assert (LP : List.length (w_parsers w) = List.length (w_parsers w0)) by (rewrite <- (map_length pkind), L2; apply map_length).
  assert (LC : List.length (w_conss w) = List.length (w_conss w0)) by (rewrite <- (map_length kind), L3; apply map_length).
  assert (PT : forall A B (l : list A) (l' : list B) p, List.length l = List.length l' -> points l' p -> points l p) by (intros A B l l' [p|] Q; cbn; [rewrite Q; auto|auto]).
  split; [|split; [|split; [|exact E]]].
  - eapply Forall_impl; [|exact S]. intros st (A & B & D). split; [exact A|]. split; [exact B|]. eapply PT; eassumption.
  - eapply Forall_impl; [|exact P]. intros [sp|]; [|auto]. intros (A & B & D). split; [exact A|]. split; [|exact D]. eapply PT; eassumption.
  - eapply Forall_impl; [|exact C]. intros [e cb| |]; auto. intros ((e' & A & B) & D). split; [|exact D]. exists e'. split; [exact A|]. eapply PT; eassumption.
Qed.
Lemma decent_GD : forall w, decent w -> GD w w.
Proof. intros w (S & P & C & E). split; [apply same_refl|]. auto. Qed.
Lemma one_exact : forall lw w o, decent w -> legal_op w o ->
  (undefined_by lw w o /\ step lw o w = UB OutOfBounds) \/ (~ undefined_by lw w o /\ exists w' t, step lw o w = Ok (w', t) /\ decent w' /\ same_objects w w').
Proof.
  intros lw w o D L. destruct (step_exact lw w w o (decent_GD w D) L) as [H|(N & w' & t & E & g)]; [left; exact H|right]. split; [exact N|]. exists w', t. split; [exact E|].
  split; [exact (GD_decent w w' g)|exact (proj1 g)].
Qed.
Lemma run_exact : forall lw w0 ops w, GD w0 w -> Forall (legal_op w0) ops ->
  (exists w' t, run lw ops w = Ok (w', t) /\ GD w0 w' /\ forall pre o post w1 t1, ops = pre ++ o :: post -> run lw pre w = Ok (w1, t1) -> ~ undefined_by lw w1 o) \/
  (exists pre o post w1 t1, ops = pre ++ o :: post /\ run lw pre w = Ok (w1, t1) /\ GD w0 w1 /\ undefined_by lw w1 o /\ run lw ops w = UB OutOfBounds).
Proof.
  intros lw w0 ops. induction ops as [|o ops IH]; intros w g F.
  - left. exists w, []. split; [reflexivity|]. split; [exact g|]. intros pre o post w1 t1 E. destruct pre; discriminate.
  - inversion F; subst. destruct (step_exact lw w0 w o g H1) as [(B & E)|(B & w1 & t1 & E1 & g1)].
    + right. exists [], o, ops, w, []. split; [reflexivity|]. split; [reflexivity|]. split; [exact g|]. split; [exact B|]. cbn [run]. unfold World.seq. rewrite E. reflexivity.
    + destruct (IH w1 g1 H2) as [(w2 & t2 & E2 & g2 & NB)|(pre & o' & post & w2 & t2 & -> & E2 & g2 & X2 & R2)].
      * left. exists w2, (t1 ++ t2). split; [cbn [run]; unfold World.seq; rewrite E1; cbn [bind]; rewrite E2; reflexivity|]. split; [exact g2|].
        intros [|o1 pre] o' post w3 t3 EQ E3; cbn [app] in EQ; injection EQ as <- EQ.
        -- cbn [run] in E3. unfold skip in E3. injection E3 as <- _. exact B.
        -- cbn [run] in E3. unfold World.seq in E3. rewrite E1 in E3. cbn [bind] in E3. destruct (run lw pre w1) as [(w4 & t4)|] eqn:E4; [|discriminate]. cbn [bind] in E3. injection E3 as <- _.
           exact (NB pre o' post w4 t4 EQ E4).
      * right. exists (o :: pre), o', post, w2, (t1 ++ t2). split; [reflexivity|]. split; [cbn [run]; unfold World.seq; rewrite E1; cbn [bind]; rewrite E2; reflexivity|].
        split; [exact g2|]. split; [exact X2|]. cbn [run]. unfold World.seq. rewrite E1. cbn [bind]. rewrite R2. reflexivity.
Qed.
Lemma history_exact : forall lw w ops, decent w -> Forall (legal_op w) ops ->
  (forall u, run lw ops w = UB u <-> u = OutOfBounds /\ exists pre o post w1 t1, ops = pre ++ o :: post /\ run lw pre w = Ok (w1, t1) /\ undefined_by lw w1 o) /\
  (forall w' t, run lw ops w = Ok (w', t) -> decent w').
Proof.
  intros lw w ops D F. destruct (run_exact lw w ops w (decent_GD w D) F) as [(w' & t & E & g & NB)|(pre & o & post & w1 & t1 & EQ & E1 & g & X & R)].
  - split.
    + intros u. split; [congruence|]. intros (_ & pre & o & post & w1 & t1 & EQ & E1 & X). destruct (NB _ _ _ _ _ EQ E1 X).
    + intros w2 t2 E2. rewrite E in E2. injection E2 as <- <-. exact (GD_decent w w' g).
  - split; [|congruence]. intros u. split; [|intros (-> & _); exact R]. intros E. split; [congruence|]. exists pre, o, post, w1, t1. auto.
Qed.
