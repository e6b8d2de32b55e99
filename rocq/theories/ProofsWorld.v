(* ProofsWorld.v -- a small program logic for the actions of World.v: object invariants, write
   permissions, allowed events and allowed kinds of undefined behaviour. *)
From Verif Require Import ZLib World.

Section Logic.
(** invariants of the objects, by class and index *)
Variables (Ist : nat -> Station -> Prop) (Ipa : nat -> PObj -> Prop) (Ico : nat -> CObj -> Prop) (Ien : nat -> Loco -> Prop).
(** which objects may be written *)
Variables (Wst Wpa Wco Wen : nat -> Prop).
(** which events may happen, which undefined behaviour is tolerated *)
Variables (E : event -> Prop) (U : ub -> Prop).

Definition allx {A} (I : nat -> A -> Prop) (l : list A) : Prop := forall i x, nth_error l i = Some x -> I i x.
Definition inv (w : world) : Prop :=
  allx Ist (w_stations w) /\ allx Ipa (w_parsers w) /\ allx Ico (w_conss w) /\ allx Ien (w_engines w).
Definition fr {A} (W : nat -> Prop) (l l' : list A) : Prop :=
  List.length l' = List.length l /\ forall i, ~ W i -> nth_error l' i = nth_error l i.
Definition frame (w w' : world) : Prop :=
  fr Wst (w_stations w) (w_stations w') /\ fr Wpa (w_parsers w) (w_parsers w') /\
  fr Wco (w_conss w) (w_conss w') /\ fr Wen (w_engines w) (w_engines w').

Definition tri (a : act) : Prop := forall w, inv w ->
  match a w with Ok (w', t) => inv w' /\ frame w w' /\ Forall E t | UB u => U u end.

Lemma fr_refl : forall A W (l : list A), fr W l l. Proof. intros; split; auto. Qed.
Lemma fr_trans : forall A W (a c d : list A), fr W a c -> fr W c d -> fr W a d.
Proof. intros A W a c d [L1 H1] [L2 H2]. split; [congruence|]. intros i Hi. rewrite H2, H1 by assumption. reflexivity. Qed.
Lemma fr_upd : forall A (W : nat -> Prop) k (x : A) l, W k -> fr W l (upd k x l).
Proof. intros A W k x l H. split; [apply upd_length|]. intros i Hi. apply nth_error_upd_other. intros ->. contradiction. Qed.
Lemma frame_refl : forall w, frame w w. Proof. intros; unfold frame; repeat split; auto. Qed.
Lemma frame_trans : forall a c d, frame a c -> frame c d -> frame a d.
Proof. intros a c d (A & B & C & D) (A' & B' & C' & D'). unfold frame. split; [|split; [|split]]; eapply fr_trans; eassumption. Qed.
Lemma allx_upd : forall A (I : nat -> A -> Prop) k x l, allx I l -> I k x -> allx I (upd k x l).
Proof.
  intros A I k x l H X i y Hy. destruct (Nat.eq_dec k i) as [<-|N].
  - destruct (nth_error l k) as [z|] eqn:Z.
    + rewrite (nth_error_upd_same _ _ x _ z Z) in Hy. inversion Hy; subst. assumption.
    + apply nth_error_None in Z. assert (nth_error (upd k x l) k = None) by (apply nth_error_None; rewrite upd_length; assumption). congruence.
  - rewrite nth_error_upd_other in Hy by assumption. apply H; assumption.
Qed.

Lemma tri_skip : tri skip.
Proof. intros w I. cbn. split; [assumption|split; [apply frame_refl|constructor]]. Qed.
Lemma tri_fail : forall u, U u -> tri (fail u). Proof. intros u H w I. exact H. Qed.
Lemma tri_emit : forall e, E e -> tri (emit e).
Proof. intros e H w I. cbn. split; [assumption|split; [apply frame_refl|constructor; [assumption|constructor]]]. Qed.
Lemma tri_seq : forall a c, tri a -> tri c -> tri (a ;;; c).
Proof.
  intros a c A C w I. unfold World.seq. specialize (A w I). destruct (a w) as [[w1 t1]|u]; cbn; [|assumption].
  destruct A as (I1 & F1 & E1). specialize (C w1 I1). destruct (c w1) as [[w2 t2]|u]; cbn; [|assumption].
  destruct C as (I2 & F2 & E2). split; [assumption|split; [eapply frame_trans; eassumption|apply Forall_app; auto]].
Qed.
Lemma tri_ask : forall A (f : world -> res A) (k : A -> act) (Q : A -> Prop),
  (forall w, inv w -> match f w with Ok x => Q x | UB u => U u end) -> (forall x, Q x -> tri (k x)) -> tri (ask f k).
Proof.
  intros A f k Q F K w I. unfold ask. specialize (F w I). destruct (f w) as [x|u]; cbn; [|assumption]. apply K; assumption.
Qed.
Lemma tri_when : forall A (p : option A) k, (forall x, p = Some x -> tri (k x)) -> tri (when_some p k).
Proof. intros A [x|] k H; [apply H; reflexivity|apply tri_skip]. Qed.
Lemma tri_if : forall (x : bool) a c, (x = true -> tri a) -> (x = false -> tri c) -> tri (if x then a else c).
Proof. intros [] a c A C; auto. Qed.
Lemma tri_print_res : forall r, (forall bs, r = Ok bs -> E (EvPrint bs)) -> (forall u, r = UB u -> U u) -> tri (print_res r).
Proof.
  intros r A B. unfold print_res. apply tri_ask with (Q := fun bs => r = Ok bs).
  - intros w _. destruct r; [reflexivity|apply B; reflexivity].
  - intros bs ->. apply tri_emit. apply A. reflexivity.
Qed.

Lemma tri_put_station : forall s x, Wst s -> Ist s x -> tri (put_station s x).
Proof.
  intros s x W X w (A & B & C & D). cbn. split; [|split; [|constructor]].
  - unfold inv; cbn. split; [apply allx_upd; assumption|auto].
  - unfold frame; cbn. split; [apply fr_upd; assumption|]. repeat split; auto.
Qed.
Lemma tri_put_parser : forall s x, Wpa s -> Ipa s x -> tri (put_parser s x).
Proof.
  intros s x W X w (A & B & C & D). cbn. split; [|split; [|constructor]].
  - unfold inv; cbn. split; [assumption|split; [apply allx_upd; assumption|auto]].
  - unfold frame; cbn. split; [apply fr_refl|split; [apply fr_upd; assumption|]]. repeat split; auto.
Qed.
Lemma tri_put_cons : forall s x, Wco s -> Ico s x -> tri (put_cons s x).
Proof.
  intros s x W X w (A & B & C & D). cbn. split; [|split; [|constructor]].
  - unfold inv; cbn. split; [assumption|split; [assumption|split; [apply allx_upd; assumption|auto]]].
  - unfold frame; cbn. split; [apply fr_refl|split; [apply fr_refl|split; [apply fr_upd; assumption|]]]. repeat split; auto.
Qed.
Lemma tri_put_engine : forall s x, Wen s -> Ien s x -> tri (put_engine s x).
Proof.
  intros s x W X w (A & B & C & D). cbn. split; [|split; [|constructor]].
  - unfold inv; cbn. split; [assumption|split; [assumption|split; [assumption|apply allx_upd; assumption]]].
  - unfold frame; cbn. split; [apply fr_refl|split; [apply fr_refl|split; [apply fr_refl|apply fr_upd; assumption]]].
Qed.

Lemma tri_get_station : forall s k, (forall w, inv w -> nth_error (w_stations w) s = None -> U Dangling) ->
  (forall x, Ist s x -> tri (k x)) -> tri (ask (get_station s) k).
Proof.
  intros s k N K. apply tri_ask with (Q := Ist s); [|assumption]. intros w I. unfold get_station, at_.
  destruct (nth_error (w_stations w) s) eqn:X; [apply I; assumption|eapply N; eassumption].
Qed.
Lemma tri_get_parser : forall s k, (forall w, inv w -> nth_error (w_parsers w) s = None -> U Dangling) ->
  (forall x, Ipa s x -> tri (k x)) -> tri (ask (get_parser s) k).
Proof.
  intros s k N K. apply tri_ask with (Q := Ipa s); [|assumption]. intros w I. unfold get_parser, at_.
  destruct (nth_error (w_parsers w) s) eqn:X; [apply I; assumption|eapply N; eassumption].
Qed.
Lemma tri_get_cons : forall s k, (forall w, inv w -> nth_error (w_conss w) s = None -> U Dangling) ->
  (forall x, Ico s x -> tri (k x)) -> tri (ask (get_cons s) k).
Proof.
  intros s k N K. apply tri_ask with (Q := Ico s); [|assumption]. intros w I. unfold get_cons, at_.
  destruct (nth_error (w_conss w) s) eqn:X; [apply I; assumption|eapply N; eassumption].
Qed.
Lemma tri_get_engine : forall s k, (forall w, inv w -> nth_error (w_engines w) s = None -> U Dangling) ->
  (forall x, Ien s x -> tri (k x)) -> tri (ask (get_engine s) k).
Proof.
  intros s k N K. apply tri_ask with (Q := Ien s); [|assumption]. intros w I. unfold get_engine, at_.
  destruct (nth_error (w_engines w) s) eqn:X; [apply I; assumption|eapply N; eassumption].
Qed.
Lemma tri_get_lib : forall s k, (forall w, inv w -> (forall sp, nth_error (w_parsers w) s <> Some (LibP sp)) -> U Dangling) ->
  (forall sp, Ipa s (LibP sp) -> tri (k sp)) -> tri (ask (get_lib s) k).
Proof.
  intros s k N K. apply tri_ask with (Q := fun sp => Ipa s (LibP sp)); [|assumption]. intros w I. unfold get_lib, get_parser, at_.
  destruct (nth_error (w_parsers w) s) as [[sp|]|] eqn:X; cbn; [apply I; assumption| |];
    (eapply N; [eassumption|]; intros sp; rewrite X; discriminate).
Qed.
(** a computation that does not look at the world *)
Lemma tri_pure : forall A (r : res A) (k : A -> act),
  (forall u, r = UB u -> U u) -> (forall x, r = Ok x -> tri (k x)) -> tri (ask (fun _ => r) k).
Proof.
  intros A r k N K. apply tri_ask with (Q := fun x => r = Ok x); [|assumption]. intros w _. destruct r; [reflexivity|apply N; reflexivity].
Qed.
End Logic.


(** ** No computation of the parsers and consumers goes through a null pointer *)
Definition nonull {A} (r : res A) : Prop := r <> UB NullDeref.
Lemma nn_ok : forall A (x : A), nonull (Ok x). Proof. unfold nonull; discriminate. Qed.
Lemma nn_ub : forall A u, u <> NullDeref -> nonull (@UB A u). Proof. unfold nonull; congruence. Qed.
Lemma nn_bind : forall A B (r : res A) (f : A -> res B), nonull r -> (forall x, nonull (f x)) -> nonull (bind r f).
Proof. intros A B [x|u] f H K; cbn; [apply K|unfold nonull in *; congruence]. Qed.
Create HintDb nn.
Ltac nn1 := match goal with
  | |- nonull (Ok _) => apply nn_ok
  | |- nonull (UB _) => apply nn_ub; discriminate
  | |- nonull (bind _ _) => apply nn_bind; [|intros]
  | |- nonull (match ?x with _ => _ end) => destruct x
  | |- nonull (let _ := _ in _) => cbv zeta
  | |- nonull _ => solve [auto with nn nocore]
  end.
Ltac nn0 := repeat nn1.
Lemma nn_rd : forall m i, nonull (rd m i). Proof. intros; unfold rd; nn0. Qed.
Lemma nn_wr : forall m i l, nonull (wr m i l). Proof. intros; unfold wr; nn0. Qed.
Lemma nn_rd_blk : forall m i n, nonull (rd_blk m i n). Proof. intros; unfold rd_blk; nn0. Qed.
Lemma nn_mread : forall A (x : mu A), nonull (mread x). Proof. intros; unfold mread; nn0. Qed.
Lemma nn_strlen : forall m, nonull (c_strlen m). Proof. induction m; cbn [c_strlen]; nn0. Qed.
Lemma nn_str : forall m, nonull (c_str m). Proof. induction m; cbn [c_str]; nn0. Qed.
Lemma nn_strncpy_bytes : forall n s, nonull (strncpy_bytes s n).
Proof. intros n s; revert n; induction s; intros [|n]; cbn [strncpy_bytes]; nn0. Qed.
#[export] Hint Resolve nn_rd nn_wr nn_rd_blk nn_mread nn_strlen nn_str nn_strncpy_bytes : nn.
Lemma nn_strncpy : forall d s n, nonull (c_strncpy d s n). Proof. intros; unfold c_strncpy; nn0. Qed.
Lemma nn_strncmp : forall n a c, nonull (strncmp_eq a c n). Proof. intros n a; revert n; induction a; intros [|n] c; cbn [strncmp_eq]; nn0. Qed.
Lemma nn_skip_space : forall m, nonull (c_skip_space m). Proof. induction m; cbn [c_skip_space]; nn0. Qed.
Lemma nn_sign : forall m, nonull (c_sign m). Proof. intros; unfold c_sign; nn0. Qed.
Lemma nn_hexprefix : forall m, nonull (c_hexprefix m). Proof. intros; unfold c_hexprefix; nn0. Qed.
Lemma nn_digits : forall m g acc, nonull (c_digits g acc m). Proof. induction m; intros; cbn [c_digits]; nn0. Qed.
#[export] Hint Resolve nn_strncpy nn_strncmp nn_skip_space nn_sign nn_hexprefix nn_digits : nn.
Lemma nn_strtoul : forall l s, nonull (c_strtoul16 l s). Proof. intros; unfold c_strtoul16; nn0. Qed.
Lemma nn_strtol : forall l s, nonull (c_strtol10 l s). Proof. intros; unfold c_strtol10; nn0. Qed.
#[export] Hint Resolve nn_strtoul nn_strtol : nn.
Lemma nn_find_loop : forall m h n i, nonull (bfind_loop m h i n). Proof. induction n; intros; cbn [bfind_loop]; nn0. Qed.
#[export] Hint Resolve nn_find_loop : nn.
Lemma nn_find_chars : forall q c o, nonull (bfind_chars q c o). Proof. intros; unfold bfind_chars; nn0. Qed.
Lemma nn_bget : forall q i, nonull (bget q i). Proof. intros; unfold bget; nn0. Qed.
Lemma nn_berase : forall q, nonull (berase q). Proof. intros; unfold berase; nn0. Qed.
#[export] Hint Resolve nn_find_chars nn_bget nn_berase : nn.
Lemma nn_bpop : forall q n, nonull (bpop_front q n). Proof. intros; unfold bpop_front; nn0. Qed.
Lemma nn_bpush : forall q o, nonull (bpush q o). Proof. intros; unfold bpush; nn0. Qed.
Lemma nn_bset : forall q o, nonull (bset q o). Proof. intros; unfold bset; nn0. Qed.
Lemma nn_bsub : forall q a c, nonull (bsub q a c). Proof. intros; unfold bsub; nn0. Qed.
Lemma nn_bstrncmp : forall q o, nonull (bstrncmp q o). Proof. intros; unfold bstrncmp; nn0. Qed.
Lemma nn_basUint8 : forall l q, nonull (basUint8 l q). Proof. intros; unfold basUint8; nn0. Qed.
#[export] Hint Resolve nn_bpop nn_bpush nn_bset nn_bsub nn_bstrncmp nn_basUint8 : nn.
Lemma nn_bsub1 : forall q a, nonull (bsub1 q a). Proof. intros; unfold bsub1; nn0. Qed.
Lemma nn_report : forall t, nonull (tp_reportParseError t). Proof. intros; unfold tp_reportParseError; nn0. Qed.
#[export] Hint Resolve nn_bsub1 nn_report : nn.
Lemma nn_findToken : forall t o c d, nonull (tp_findToken t o c d). Proof. intros; unfold tp_findToken; nn0. Qed.
#[export] Hint Resolve nn_findToken : nn.
Lemma nn_iteration : forall t c, nonull (tp_iteration t c). Proof. intros; unfold tp_iteration; nn0. Qed.
#[export] Hint Resolve nn_iteration : nn.
Lemma nn_process : forall n t c, nonull (tp_process n t c). Proof. induction n; intros; cbn [tp_process]; nn0. Qed.
#[export] Hint Resolve nn_process : nn.
Lemma nn_addLoop : forall n t q i, nonull (tp_addLoop n t q i).
Proof. induction n; intros; cbn [tp_addLoop]; unfold tp_processBuffer; nn0. Qed.
#[export] Hint Resolve nn_addLoop : nn.
Lemma nn_addText : forall t q, nonull (tp_addText t q). Proof. intros; unfold tp_addText; nn0. Qed.
Lemma nn_tp_reset : forall t, nonull (tp_reset t). Proof. intros; unfold tp_reset; nn0. Qed.
Lemma nn_updateCrc : forall c i, nonull (crc_updateCrc c i). Proof. intros; unfold crc_updateCrc; nn0. Qed.
#[export] Hint Resolve nn_addText nn_tp_reset nn_updateCrc : nn.
Lemma nn_crc_feed : forall l c, nonull (crc_feed c l). Proof. induction l; intros; cbn [crc_feed]; nn0. Qed.
Lemma nn_crc_valid : forall c, nonull (crc_isValid c). Proof. intros; unfold crc_isValid; nn0. Qed.
Lemma nn_visited : forall d, nonull (data_visited d). Proof. intros; unfold data_visited; nn0. Qed.
#[export] Hint Resolve nn_crc_feed nn_crc_valid nn_visited : nn.
Lemma nn_text : forall d, nonull (printAsText d). Proof. intros; unfold printAsText; nn0. Qed.
Lemma nn_hex : forall d, nonull (printAsHex d). Proof. intros; unfold printAsHex; nn0. Qed.
Lemma nn_si_setName : forall s n, nonull (si_setName s n). Proof. intros; unfold si_setName; nn0. Qed.
Lemma nn_si_print : forall s, nonull (si_print s). Proof. intros; unfold si_print; nn0. Qed.
Lemma nn_setProto : forall l s, nonull (lo_setProtocolString l s). Proof. intros; unfold lo_setProtocolString; nn0. Qed.
#[export] Hint Resolve nn_text nn_hex nn_si_setName nn_si_print nn_setProto : nn.
Lemma nn_lo_print : forall l, nonull (lo_print l). Proof. intros; unfold lo_print; nn0. Qed.
Lemma nn_lit : forall l q, nonull (lit_strncmp l q). Proof. intros; unfold lit_strncmp; nn0. Qed.
#[export] Hint Resolve nn_lo_print nn_lit : nn.
Lemma nn_line : forall l e s k v, nonull (loco_line l e s k v). Proof. intros; unfold loco_line; nn0. Qed.
#[export] Hint Resolve nn_line : nn.

(** ** Pass A: frames, events and null pointers.  Other undefined behaviour is tolerated. *)
Section PassA.
Variable lw : Z.
(** the parsers, consumers and engines an operation may reach *)
Variables (Ps Cs Es : nat -> Prop).
(** the end-of-stream callback a consumer may call *)
Variable Bs : nat -> nat -> Prop.
Variable X : event -> Prop.
Variable U : ub -> Prop.
Hypothesis HU : forall u, u <> NullDeref -> U u.
Hypothesis X_cfg : forall p c, Ps p -> X (EvCfg p c).
Hypothesis X_consume : forall c s k v, Cs c -> X (EvConsume c s k v).
Hypothesis X_complete : forall c, Cs c -> X (EvStreamComplete c).
Hypothesis X_aborted : forall c, Cs c -> X (EvStreamAborted c).
Hypothesis X_end1 : forall cb c, Cs c -> Bs c cb -> X (EvEndComplete cb c).
Hypothesis X_end2 : forall cb c, Cs c -> Bs c cb -> X (EvEndAborted cb c).
Hypothesis X_print : forall bs, X (EvPrint bs).
Variable Ist : nat -> Station -> Prop.
Variable Wst : nat -> Prop.

Definition optin {A} (P : A -> Prop) (o : option A) : Prop := match o with Some x => P x | None => True end.
Definition Ipa (p : nat) (x : PObj) : Prop :=
  Ps p -> match x with LibP sp => optin Cs (sp_cons sp) /\ optin Cs (tp_cons (sp_text sp)) | UserP _ _ => True end.
Definition Ico (c : nat) (x : CObj) : Prop :=
  Cs c -> match x with LocoC (Def e) _ => optin Es e | _ => True end /\
          match x with LocoC _ (Def cb) | ListC _ _ _ _ (Def cb) => optin (Bs c) cb | _ => True end.
Definition Ien (e : nat) (x : Loco) : Prop := True.
Notation triA := (tri Ist Ipa Ico Ien Wst Ps Cs Es X U).

Ltac triv := intros; first [exact I|apply HU; discriminate
  |match goal with H : _ = UB ?u |- _ => apply HU; intros ->; revert H; match goal with |- ?r = UB NullDeref -> False => change (nonull r) end; nn0 end].

Lemma A_loco_consume : forall engine s k v, match engine with Def e => optin Es e | _ => True end -> triA (loco_consume lw engine s k v).
Proof.
  intros engine s k v H. unfold loco_consume. apply tri_pure; [triv|]. intros cur R. destruct engine as [|e]; [discriminate|]. inversion R; subst.
  destruct cur as [e|]; [|apply tri_skip]. apply tri_get_engine; [triv|]. intros l _. apply tri_pure; [triv|]. intros l' _. apply tri_put_engine; [exact H|exact I].
Qed.
Lemma A_list_consume : forall c co infos n off cb s k v, Cs c -> match cb with Def q => optin (Bs c) q | _ => True end -> triA (list_consume lw c co infos n off cb s k v).
Proof.
  intros c co infos n off cb s k v H HB. unfold list_consume. apply tri_pure; [triv|]. intros [] _.
  - destruct (findFirstFreeEntry infos); [|apply tri_emit, X_print]. apply tri_pure; [triv|]. intros text _.
    apply tri_seq; [apply tri_emit, X_print|]. apply tri_pure; [triv|]. intros si _. apply tri_put_cons; [assumption|intros _; split; [exact I|apply HB]].
  - apply tri_pure; [triv|]. intros [] _.
    + apply tri_pure; [triv|]. intros [] _; [|apply tri_skip]. apply tri_pure; [triv|]. intros m _. apply tri_put_cons; [assumption|intros _; split; [exact I|apply HB]].
    + apply tri_pure; [triv|]. intros text _. apply tri_emit, X_print.
Qed.
Lemma A_consume : forall c s k v, Cs c -> triA (cons_consume lw c s k v).
Proof.
  intros c s k v H. unfold cons_consume. apply tri_seq; [apply tri_emit, X_consume; assumption|]. apply tri_get_cons; [triv|]. intros [engine cb|co infos n off cb|] O.
  - apply A_loco_consume. apply O; assumption.
  - apply A_list_consume; [assumption|]. apply (O H).
  - apply tri_skip.
Qed.
Lemma A_consume_all : forall l c, Cs c -> triA (cons_consume_all lw c l).
Proof. induction l as [|[[s k] v] l IH]; intros c H; cbn [cons_consume_all]; [apply tri_skip|]. apply tri_seq; [apply A_consume|apply IH]; assumption. Qed.
Lemma A_complete : forall c, Cs c -> triA (cons_complete c).
Proof.
  intros c H. unfold cons_complete. apply tri_seq; [apply tri_emit, X_complete; assumption|]. apply tri_get_cons; [triv|]. intros [engine cb|co infos n off cb|] O.
  - apply tri_pure; [triv|]. intros cur R. destruct engine as [|e']; [discriminate|]. inversion R; subst. destruct cur as [e|]; [|apply tri_skip].
    apply tri_get_engine; [triv|]. intros l _. apply tri_seq; [apply tri_put_engine; [apply O; assumption|exact I]|].
    apply tri_seq; [apply tri_emit, X_print|]. apply tri_seq; [apply tri_print_res; [intros; apply X_print|triv]|].
    apply tri_seq; [apply tri_emit, X_print|]. apply tri_pure; [triv|]. intros q Q. destruct cb; [discriminate|]. inversion Q; subst. apply tri_when. intros x ->. apply tri_emit, X_end1; [assumption|apply (O H)].
  - apply tri_seq; [apply tri_put_cons; [assumption|intros _; split; [exact I|apply (O H)]]|]. apply tri_pure; [triv|]. intros q Q. destruct cb; [discriminate|]. inversion Q; subst. apply tri_when. intros x ->. apply tri_emit, X_end1; [assumption|apply (O H)].
  - apply tri_skip.
Qed.
Lemma A_aborted : forall c, Cs c -> triA (cons_aborted c).
Proof.
  intros c H. unfold cons_aborted. apply tri_seq; [apply tri_emit, X_aborted; assumption|]. apply tri_get_cons; [triv|]. intros [engine cb|co infos n off cb|] O.
  - apply tri_pure; [triv|]. intros q Q. destruct cb; [discriminate|]. inversion Q; subst. apply tri_when. intros x ->. apply tri_emit, X_end2; [assumption|apply (O H)].
  - apply tri_seq; [apply tri_put_cons; [assumption|intros _; split; [exact I|apply (O H)]]|]. apply tri_pure; [triv|]. intros q Q. destruct cb; [discriminate|]. inversion Q; subst. apply tri_when. intros x ->. apply tri_emit, X_end2; [assumption|apply (O H)].
  - apply tri_skip.
Qed.
Lemma A_lib_reset : forall p, Ps p -> triA (lib_reset p).
Proof.
  intros p H. unfold lib_reset. apply tri_get_lib; [triv|]. intros sp O. apply tri_seq.
  - apply tri_if; intros _; [|apply tri_skip]. apply tri_when. intros c C. apply A_aborted. destruct (O H) as [O1 _]. rewrite C in O1. exact O1.
  - apply tri_get_lib; [triv|]. intros sp' O'. apply tri_pure; [triv|]. intros t T. apply tri_put_parser; [assumption|].
    intros _. cbn. split; [exact I|]. unfold tp_reset in T.
    destruct (berase (tp_buf (sp_text sp'))); [cbn in T|discriminate]. destruct (berase (tp_sec (sp_text sp'))); [cbn in T|discriminate].
    destruct (berase (tp_key (sp_text sp'))); [cbn in T|discriminate]. destruct (berase (tp_val (sp_text sp'))); [cbn in T|discriminate].
    inversion T; subst. exact I.
Qed.

(** addText keeps the consumer pointer *)
Lemma report_cons : forall t t' e, tp_reportParseError t = Ok (t', e) -> tp_cons t' = tp_cons t.
Proof.
  intros t t' e H. unfold tp_reportParseError in H. cbv zeta in H. cbn [tp_sec tp_key tp_val set_state] in H.
  destruct (bset (tp_sec t) (lit "ERROR")); [cbn [bind] in H|discriminate]. destruct (bset (tp_key t) (lit "ERROR")); [cbn [bind] in H|discriminate].
  destruct (bset (tp_val t) (lit "ERROR")); [cbn [bind] in H|discriminate]. inversion H; subst. reflexivity.
Qed.
Lemma findToken_cons : forall t o cs d t' e r, tp_findToken t o cs d = Ok (t', e, r) -> tp_cons t' = tp_cons t.
Proof.
  intros t o cs d t' e r H. unfold tp_findToken in H. destruct (bfind_chars (tp_buf t) cs o) as [f|]; [cbn [bind] in H|discriminate].
  match type of H with bind ?q _ = _ => destruct q as [[[consumed success] mch]|]; [cbn [bind] in H|discriminate] end.
  destruct d as [d|]; cbn [bind] in H; [|inversion H; subst; reflexivity].
  destruct (bsub (tp_buf t) o consumed) as [pa|]; [cbn [bind] in H|discriminate].
  destruct (bpush (dest_get t d) pa) as [[b' pushed]|]; [cbn [bind] in H|discriminate].
  assert (D : tp_cons (dest_set t d b') = tp_cons t) by (destruct d; reflexivity).
  destruct (pushed <? blen pa).
  - destruct (tp_reportParseError (dest_set t d b')) as [[t2 e2]|] eqn:R; cbn [bind] in H; [|discriminate].
    inversion H; subst. rewrite (report_cons _ _ _ R). exact D.
  - cbn [bind] in H. inversion H; subst. exact D.
Qed.
Lemma iteration_cons : forall t c t' e c' r, tp_iteration t c = Ok (t', e, c', r) -> tp_cons t' = tp_cons t.
Proof.
  intros t c t' e c' r H. unfold tp_iteration in H.
  destruct (tp_state t).
  - destruct (tp_findToken t c kKeyOrSectionStart None) as [[[t1 e1] r1]|] eqn:F; cbn [bind] in H; [|discriminate]. apply findToken_cons in F.
    destruct (ft_success r1); [|inversion H; subst; assumption].
    destruct (bget (tp_buf t1) (u8 (ft_consumed r1 - 1))) as [ch|]; cbn [bind] in H; [|discriminate].
    destruct (ch =? kSectionStart).
    + destruct (berase (tp_sec t1)); cbn [bind] in H; [|discriminate]. inversion H; subst. assumption.
    + destruct (ch =? kKeyStart); [inversion H; subst; assumption|].
      destruct (tp_reportParseError t1) as [[t2 e2]|] eqn:R; cbn [bind] in H; [|discriminate]. inversion H; subst. rewrite (report_cons _ _ _ R). assumption.
  - destruct (tp_findToken t c kSectionStop (Some DSec)) as [[[t1 e1] r1]|] eqn:F; cbn [bind] in H; [|discriminate]. apply findToken_cons in F.
    inversion H; subst. destruct (ft_success r1); assumption.
  - destruct (tp_findToken t c kKeyOrValueStop (Some DKey)) as [[[t1 e1] r1]|] eqn:F; cbn [bind] in H; [|discriminate]. apply findToken_cons in F.
    destruct (ft_success r1); [|inversion H; subst; assumption]. destruct (ft_match r1 =? kKeyStop); [inversion H; subst; assumption|].
    destruct (ft_match r1 =? kValueStop); [|inversion H; subst; assumption].
    destruct (berase (tp_val t1)); cbn [bind] in H; [|discriminate]. cbv zeta in H.
    match type of H with bind ?q _ = _ => destruct q; cbn [bind] in H; [|discriminate] end. inversion H; subst. assumption.
  - destruct (tp_findToken t c kValueStop_str (Some DVal)) as [[[t1 e1] r1]|] eqn:F; cbn [bind] in H; [|discriminate]. apply findToken_cons in F.
    destruct (ft_success r1); [|inversion H; subst; assumption].
    destruct (berase (tp_key t1)); cbn [bind] in H; [|discriminate]. destruct (berase (tp_val t1)); cbn [bind] in H; [|discriminate].
    inversion H; subst. assumption.
  - inversion H; subst. reflexivity.
Qed.
Lemma process_cons : forall fuel t c t' e c', tp_process fuel t c = Ok (t', e, c') -> tp_cons t' = tp_cons t.
Proof.
  induction fuel as [|fuel IH]; intros t c t' e c' H; cbn [tp_process] in H; destruct (c <? blen (tp_buf t)); try discriminate;
    try (inversion H; subst; reflexivity).
  destruct (tp_iteration t c) as [[[[t1 e1] c1] ret]|] eqn:T; cbn [bind] in H; [|discriminate]. apply iteration_cons in T.
  destruct ret; [inversion H; subst; assumption|].
  destruct (tp_process fuel t1 c1) as [[[t2 e2] c2]|] eqn:P; cbn [bind] in H; [|discriminate]. apply IH in P. inversion H; subst. congruence.
Qed.
Lemma addLoop_cons : forall fuel t b i t' e, tp_addLoop fuel t b i = Ok (t', e) -> tp_cons t' = tp_cons t.
Proof.
  induction fuel as [|fuel IH]; intros t b i t' e H; cbn [tp_addLoop] in H; destruct (i <? blen b); try discriminate;
    try (inversion H; subst; reflexivity).
  destruct (_ || _); [eapply report_cons; eassumption|].
  destruct (bsub1 b i) as [v|]; cbn [bind] in H; [|discriminate]. destruct (bpush (tp_buf t) v) as [[b1 n]|]; cbn [bind] in H; [|discriminate].
  destruct (tp_processBuffer (set_buf t b1)) as [[[t1 e1] c1]|] eqn:P; cbn [bind] in H; [|discriminate].
  unfold tp_processBuffer in P. apply process_cons in P. cbn in P.
  destruct (bpop_front (tp_buf t1) c1) as [b2|]; cbn [bind] in H; [|discriminate].
  destruct (tp_addLoop fuel (set_buf t1 b2) b (u8 (i + n))) as [[t2 e2]|] eqn:L; cbn [bind] in H; [|discriminate]. apply IH in L. cbn in L. inversion H; subst. congruence.
Qed.
Lemma addText_cons : forall t b t' e, tp_addText t b = Ok (t', e) -> tp_cons t' = tp_cons t.
Proof. intros t b t' e H. unfold tp_addText in H. destruct (_ || _); [eapply report_cons|eapply addLoop_cons]; eassumption. Qed.

Lemma A_addMessage : forall p d, Ps p -> triA (lib_addMessage lw p d).
Proof.
  intros p d H. unfold lib_addMessage. apply tri_get_lib; [triv|]. intros sp O. destruct (O H) as [O1 O2].
  destruct (sp_state sp); try (apply tri_emit, X_print).
  - apply tri_if; intros _.
    + cbv zeta. cbn [sp_remaining sp_text sp_crc sp_cons]. apply tri_if; intros _; [apply tri_put_parser; [assumption|intros _; split; assumption]|].
      apply tri_seq; [apply tri_put_parser; [assumption|intros _; split; assumption]|]. apply tri_when. intros c C. apply A_complete. rewrite C in O1. exact O1.
    + apply tri_if; intros _; (apply tri_seq; [apply tri_emit, X_print|apply A_lib_reset; assumption]).
  - apply tri_if; intros _; [apply tri_seq; [apply tri_emit, X_print|apply A_lib_reset; assumption]|].
    cbv zeta. apply tri_pure; [triv|]. intros crc _. apply tri_pure; [triv|]. intros [t' e] T. cbn [fst snd].
    assert (T' : optin Cs (tp_cons t')) by (rewrite (addText_cons _ _ _ _ T); assumption).
    apply tri_seq; [apply tri_put_parser; [assumption|intros _; split; assumption]|].
    apply tri_seq; [apply tri_when; intros c C; apply A_consume_all; rewrite C in O2; exact O2|].
    apply tri_if; intros _; [|apply tri_skip]. apply tri_pure; [triv|]. intros [] _;
      (apply tri_seq; [apply tri_put_parser; [assumption|intros _; split; assumption]|]); apply tri_when; intros c C; rewrite C in O1;
      [apply A_complete|apply A_aborted]; exact O1.
Qed.
Lemma A_cfg_call : forall p c, Ps p -> triA (cfg_call lw p c).
Proof.
  intros p c H. unfold cfg_call. apply tri_seq; [apply tri_emit, X_cfg; assumption|]. apply tri_get_parser; [triv|]. intros [sp|beh h] O.
  - destruct c as [|d|].
    + apply tri_put_parser; [assumption|]. intros _. exact (O H).
    + apply A_addMessage; assumption.
    + apply A_lib_reset; assumption.
  - apply tri_put_parser; [assumption|]. intros _. exact I.
Qed.

(** ** Operations of one station *)
Variable s : nat.
(** the station's own callbacks; [c0] is its callback table *)
Variable c0 : Cbs.
Hypothesis W_s : Wst s.
Hypothesis I_s : forall st, Ist s st <-> (cb_tx (st_cbs st) = cb_tx c0 /\ cb_sys (st_cbs st) = cb_sys c0 /\
  cb_eng (st_cbs st) = cb_eng c0 /\ cb_acc (st_cbs st) = cb_acc c0 /\ optin Ps (cb_cfg (st_cbs st))).
Hypothesis X_tx : forall x f, cb_tx c0 = Some x -> X (EvTx x f).
Hypothesis X_sys : forall x a r, cb_sys c0 = Some x -> X (EvSystem x a r).
Hypothesis X_vel : forall x u v, cb_eng c0 = Some x -> X (EvVelocity x u v).
Hypothesis X_velall : forall x v, cb_eng c0 = Some x -> X (EvVelocityAll x v).
Hypothesis X_fun : forall x u f v, cb_eng c0 = Some x -> X (EvFunction x u f v).
Hypothesis X_dir : forall x u d, cb_eng c0 = Some x -> X (EvDirection x u d).
Hypothesis X_chg : forall x u, cb_eng c0 = Some x -> X (EvChangeDirection x u).
Hypothesis X_acc : forall x d r, cb_acc c0 = Some x -> X (EvAccessory x d r).

Lemma A_cfg : forall st p, Ist s st -> cb_cfg (st_cbs st) = Some p -> Ps p.
Proof. intros st p H P. apply I_s in H. destruct H as (_ & _ & _ & _ & H). rewrite P in H. exact H. Qed.
Lemma A_setcfg : forall st q, Ist s st -> optin Ps q -> Ist s (set_cfg st q).
Proof. intros st q H Q. apply I_s in H. apply I_s. cbn. tauto. Qed.
Lemma A_finish : triA (st_finish lw s).
Proof.
  unfold st_finish. apply tri_get_station; [triv|]. intros st H. apply tri_when. intros p P. apply tri_seq; [apply A_cfg_call; eapply A_cfg; eassumption|].
  apply tri_get_station; [triv|]. intros st' H'. apply tri_put_station; [assumption|]. apply A_setcfg; [assumption|exact I].
Qed.
Lemma A_text : forall r, nonull r -> triA (print_res r).
Proof. intros r N. apply tri_print_res; [intros; apply X_print|]. intros u Hu. apply HU. intros ->. contradiction. Qed.
Lemma A_config : forall d, triA (st_handleConfigDataStream lw s d).
Proof.
  intros d. unfold st_handleConfigDataStream. apply tri_get_station; [triv|]. intros st H.
  apply tri_ask with (Q := optin Ps).
  - intros w _. destruct (cb_cfg (st_cbs st)) as [p|] eqn:P; [|exact I]. unfold cfg_isProcessing, get_parser, at_.
    destruct (nth_error (w_parsers w) p) as [x|]; cbn; [|apply HU; discriminate]. destruct (ss_processing (pobj_state x)); cbn; try exact I. eapply A_cfg; eassumption.
  - intros [p|] Q; [apply A_cfg_call; exact Q|]. apply tri_seq; [apply tri_emit, X_print|apply A_text; nn0].
Qed.
Ltac pr := apply tri_emit, X_print.
Lemma A_system : forall i d, triA (st_handleSystemCommand s i d).
Proof.
  intros i d. unfold st_handleSystemCommand. apply tri_get_station; [triv|]. intros st H. apply I_s in H. destruct H as (_ & S0 & E0 & _).
  cbv zeta. apply tri_seq; [pr|]. apply tri_if; intros _; [|pr]. apply tri_seq; [pr|].
  apply tri_if; intros _. { apply tri_seq; [pr|]. apply tri_when. intros x Q. apply tri_emit, X_sys. congruence. }
  apply tri_if; intros _. { apply tri_seq; [pr|]. apply tri_when. intros x Q. apply tri_emit, X_velall. congruence. }
  apply tri_if; intros _. { apply tri_seq; [pr|]. apply tri_when. intros x Q. apply tri_emit, X_sys. congruence. }
  apply tri_if; intros _. { apply tri_when. intros x Q. apply tri_emit, X_vel. congruence. }
  repeat (apply tri_if; intros _; [pr|]). pr.
Qed.
Lemma A_accessory : forall d r, triA (st_handleAccessoryPacket s d r).
Proof.
  intros d r. unfold st_handleAccessoryPacket. apply tri_get_station; [triv|]. intros st H. apply I_s in H. apply tri_seq; [pr|].
  apply tri_when. intros x Q. apply tri_emit, X_acc. destruct H as (_ & _ & _ & H & _). congruence.
Qed.
(** from here on the station's own callbacks may be missing *)
Hypothesis HN : U NullDeref.
Lemma allU : forall u, U u.
Proof. intros u. destruct u; first [exact HN|apply HU; discriminate]. Qed.
Ltac triv ::= intros; first [exact I|apply allU].
Lemma A_tx : forall st f, Ist s st -> triA (tx_send (st_cbs st) f).
Proof.
  intros st f H. apply I_s in H. unfold tx_send. apply tri_pure; [triv|]. intros x Q. apply tri_emit, X_tx.
  destruct H as (<- & _). destruct (cb_tx (st_cbs st)); inversion Q; subst; reflexivity.
Qed.
Lemma deref_some : forall (q : option nat) x, deref q = Ok x -> q = Some x. Proof. intros [y|] x H; inversion H; reflexivity. Qed.
Lemma A_direction : forall d, triA (st_handleLocoDirection s d).
Proof.
  intros d. unfold st_handleLocoDirection. apply tri_get_station; [triv|]. intros st H. apply I_s in H. destruct H as (_ & _ & H & _).
  apply tri_if; intros _; [|apply tri_skip]. cbv zeta. apply tri_if; intros _; [|apply tri_if; intros _; [|apply tri_skip]];
  (apply tri_pure; [triv|]; intros x Q; apply deref_some in Q; apply tri_emit); [apply X_dir|apply X_chg]; congruence.
Qed.
Lemma A_speed : forall d, triA (st_handleLocoSpeed s d).
Proof.
  intros d. unfold st_handleLocoSpeed. apply tri_get_station; [triv|]. intros st H. apply I_s in H. destruct H as (_ & _ & H & _).
  apply tri_if; intros _; [|apply tri_skip]. cbv zeta. apply tri_when. intros x Q. apply tri_emit, X_vel. congruence.
Qed.
Lemma A_function : forall d, triA (st_handleLocoFunction s d).
Proof.
  intros d. unfold st_handleLocoFunction. apply tri_get_station; [triv|]. intros st H. apply I_s in H. destruct H as (_ & _ & H & _).
  apply tri_if; intros _; [|apply tri_skip]. apply tri_pure; [triv|]; intros x Q; apply deref_some in Q; apply tri_emit, X_fun. congruence.
Qed.
Lemma A_handle : forall f, triA (st_handlePacket lw s f).
Proof.
  intros f. unfold st_handlePacket. cbv zeta.
  apply tri_if; intros _; [apply A_system|]. apply tri_if; intros _; [apply tri_skip|].
  apply tri_if; intros _; [apply tri_seq; [pr|apply tri_seq; [apply A_accessory|pr]]|].
  apply tri_if; intros _; [apply A_direction|]. apply tri_if; intros _; [apply A_speed|]. apply tri_if; intros _; [apply A_function|].
  apply tri_if; intros _; [apply tri_skip|]. apply tri_if; intros _; [apply A_config|].
  apply tri_if; intros _; [apply tri_seq; [pr|apply tri_seq; [apply A_text; nn0|pr]]|].
  apply tri_seq; [pr|apply tri_seq; [apply A_text; nn0|pr]].
Qed.
Lemma A_list : forall off q, optin Ps q -> triA (st_requestEngineList lw s off q).
Proof.
  intros off q Q. unfold st_requestEngineList. apply tri_seq; [apply A_finish|]. apply tri_get_station; [triv|]. intros st H.
  apply tri_seq; [apply tri_put_station; [assumption|apply A_setcfg; assumption]|]. apply tri_pure; [triv|]. intros b1 _.
  destruct (snprintf9 (list_request_text off)) as [b2 n]. apply tri_if; intros _; [|apply tri_skip].
  apply tri_seq; [apply tri_when; intros p ->; apply A_cfg_call; exact Q|]. apply tri_seq; apply A_tx; assumption.
Qed.
Lemma A_engine : forall e q, optin Ps q -> triA (st_requestEngine lw s e q).
Proof.
  intros e q Q. unfold st_requestEngine. apply tri_ask with (Q := fun _ => True); [intros w _; destruct (get_short e w); triv|]. intros si _.
  apply tri_if; intros _; [apply tri_skip|]. apply tri_get_station; [triv|]. intros st H.
  apply tri_ask with (Q := fun _ => True); [intros w _; destruct (cb_cfg (st_cbs st)); [destruct (cfg_isProcessing n w)|]; triv|]. intros [] _; [apply tri_skip|].
  apply tri_seq; [apply A_finish|]. apply tri_get_station; [triv|]. intros st' H'.
  apply tri_seq; [apply tri_put_station; [assumption|apply A_setcfg; assumption]|].
  apply tri_seq; [apply tri_when; intros p ->; apply A_cfg_call; exact Q|]. apply tri_pure; [triv|]. intros b1 _. apply tri_seq; [apply A_tx; assumption|].
  apply tri_ask with (Q := fun _ => True); [intros w _; destruct (get_short e w); triv|]. intros si' _.
  apply tri_pure; [triv|]. intros n _. apply tri_pure; [triv|]. intros b2 _. apply tri_seq; [apply A_tx; assumption|].
  apply tri_pure; [triv|]. intros b3 _. apply A_tx; assumption.
Qed.
Lemma A_functions : forall st u n i, Ist s st -> triA (send_functions st u i n).
Proof.
  intros st u n. induction n as [|n IH]; intros i H; cbn [send_functions]; [apply tri_skip|]. apply tri_seq; [apply A_tx; assumption|apply IH; assumption].
Qed.
Lemma A_sendPacket : forall f, triA (st_sendPacket s f).
Proof. intros f. unfold st_sendPacket. apply tri_get_station; [triv|]. intros st H. apply A_tx. exact H. Qed.
Definition op_ptr (o : sop) : option nat := match o with RequestEngine _ q | RequestEngineList _ q => q | _ => None end.
Definition is_begin (o : sop) : bool := match o with Begin _ _ => true | _ => false end.
Lemma A_step : forall o, is_begin o = false -> optin Ps (op_ptr o) -> triA (st_step lw s o).
Proof.
  intros o B P. destruct o; try discriminate B; cbn [op_ptr] in P; cbn [st_step].
  all: lazymatch goal with
       | |- context [skip] => apply tri_skip
       | |- context [st_handlePacket] => apply A_handle
       | |- context [st_handleAccessoryPacket] => apply A_accessory
       | |- context [st_handleConfigDataStream] => apply A_config
       | |- context [st_handleSystemCommand] => apply A_system
       | |- context [st_handleLocoDirection] => apply A_direction
       | |- context [st_handleLocoSpeed] => apply A_speed
       | |- context [st_handleLocoFunction] => apply A_function
       | |- context [st_finish] => apply A_finish
       | |- context [st_abort] => apply A_finish
       | |- context [st_requestEngineList] => apply A_list; assumption
       | |- context [st_requestEngine] => apply A_engine; assumption
       | |- context [st_sendPacket] => apply A_sendPacket
       | |- _ => idtac
       end.
  all: unfold st_sendAccessoryPacket, st_requestEngineDirection, st_sendEngineDirection, st_requestEngineVelocity, st_sendEngineVelocity,
         st_requestEngineFunction, st_requestEngineAllFunctions, st_sendEngineFunction, st_sendEmergencyStop, st_sendSystemStop, st_sendSystemGo.
  all: lazymatch goal with
       | |- context [if _ then st_sendPacket _ _ else skip] => apply tri_if; intros _; [apply A_sendPacket|apply tri_skip]
       | |- context [st_sendPacket] => apply A_sendPacket
       | |- context [send_functions] => apply tri_get_station; [triv|]; intros st H; apply A_functions; exact H
       | |- _ => apply tri_get_station; [triv|]; intros st H; cbv zeta; apply A_tx; exact H
       end.
Qed.
End PassA.
