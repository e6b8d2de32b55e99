(* ProofsReach.v -- proofs for C56. *)
From Verif Require Import ZLib SpecReach ProofsWorld ProofsStation ProofsRequest.

Definition Ireach (w : world) (st : Station) (s : nat) (o : sop) (i : nat) (x : Station) : Prop :=
  i = s -> cb_tx (st_cbs x) = cb_tx (st_cbs st) /\ cb_sys (st_cbs x) = cb_sys (st_cbs st) /\
  cb_eng (st_cbs x) = cb_eng (st_cbs st) /\ cb_acc (st_cbs x) = cb_acc (st_cbs st) /\ optin (reach_parser w st o) (cb_cfg (st_cbs x)).
Lemma Ireach_iff : forall w st s o x, Ireach w st s o s x <->
  cb_tx (st_cbs x) = cb_tx (st_cbs st) /\ cb_sys (st_cbs x) = cb_sys (st_cbs st) /\
  cb_eng (st_cbs x) = cb_eng (st_cbs st) /\ cb_acc (st_cbs x) = cb_acc (st_cbs st) /\ optin (reach_parser w st o) (cb_cfg (st_cbs x)).
Proof. intros. unfold Ireach. split; [intros H; apply H; reflexivity|intros H _; exact H]. Qed.
Lemma inv_reach : forall w s st o, (forall x, nth_error (w_stations w) s = Some x -> x = st) ->
  inv (Ireach w st s o) (Ipa (reach_parser w st o) (reach_consumer w st o))
      (Ico (reach_consumer w st o) (reach_engine w st o) (reach_end w st o)) Ien w.
Proof.
  intros w s st o S0. unfold inv. split; [|split; [|split]].
  - intros i x Hx ->. apply S0 in Hx. subst x. repeat split.
    destruct (cb_cfg (st_cbs st)) as [p|] eqn:E; [left; exact E|exact I].
  - intros p x Hx R. destruct x as [sp|]; [|exact I]. split.
    + destruct (sp_cons sp) as [c|] eqn:E; [|exact I]. exists p, sp. auto.
    + destruct (tp_cons (sp_text sp)) as [c|] eqn:E; [|exact I]. exists p, sp. auto.
  - intros c x Hx R. destruct x as [[|[e|]] [|[cb|]]|co infos n off [|[cb|]]|]; split; try exact I; cbn.
    all: try (exists c; eexists; split; [exact R|exact Hx]).
    all: split; [exact R|]; first [left; eexists; exact Hx|right; do 4 eexists; exact Hx].
  - intros e x _. exact I.
Qed.
Lemma no_interference : forall lw w s st o w' t, (forall x, nth_error (w_stations w) s = Some x -> x = st) ->
  step lw (OnStation s o) w = Ok (w', t) ->
  fr (fun i => i = s) (w_stations w) (w_stations w') /\ fr (reach_parser w st o) (w_parsers w) (w_parsers w') /\
  fr (reach_consumer w st o) (w_conss w) (w_conss w') /\ fr (reach_engine w st o) (w_engines w) (w_engines w') /\
  Forall (own_call w st o) t.
Proof.
  intros lw w s st o w' t S0 H.
  assert (IV := inv_reach w s st o S0).
  destruct (is_begin o) eqn:B.
  - destruct o; try discriminate. cbn [step st_step] in H. unfold st_begin, st_abort in H.
    apply seq_inv in H. destruct H as (w1 & t1 & t2 & H1 & H2 & ->).
    assert (T : tri (Ireach w st s (Begin uuid callbacks)) (Ipa (reach_parser w st (Begin uuid callbacks)) (reach_consumer w st (Begin uuid callbacks)))
      (Ico (reach_consumer w st (Begin uuid callbacks)) (reach_engine w st (Begin uuid callbacks)) (reach_end w st (Begin uuid callbacks))) Ien
      (fun i => i = s) (reach_parser w st (Begin uuid callbacks)) (reach_consumer w st (Begin uuid callbacks)) (reach_engine w st (Begin uuid callbacks))
      (own_call w st (Begin uuid callbacks)) (fun _ => True) (st_finish lw s)).
    { apply (A_finish lw) with (c0 := st_cbs st); try (cbn; auto; fail). apply Ireach_iff. }
    specialize (T w IV). rewrite H1 in T. destruct T as (_ & (F1 & F2 & F3 & F4) & F5).
    apply ask_inv in H2. destruct H2 as (x & _ & H2). apply seq_inv in H2. destruct H2 as (w2 & t3 & t4 & H2 & H3 & ->).
    inversion H2; subst. inversion H3; subst. cbn. rewrite app_nil_r. repeat split; try apply F1; try apply F2; try apply F3; try apply F4; try assumption.
    + rewrite !upd_length. apply F1.
    + intros i Hi. rewrite !nth_error_upd_other by auto. apply F1. assumption.
  - assert (T : tri (Ireach w st s o) (Ipa (reach_parser w st o) (reach_consumer w st o))
      (Ico (reach_consumer w st o) (reach_engine w st o) (reach_end w st o)) Ien
      (fun i => i = s) (reach_parser w st o) (reach_consumer w st o) (reach_engine w st o) (own_call w st o) (fun _ => True) (st_step lw s o)).
    { apply (A_step lw) with (c0 := st_cbs st); try (cbn; auto; fail).
      - apply Ireach_iff.
      - destruct o; cbn; try exact I; destruct p; try exact I; right; reflexivity. }
    specialize (T w IV). cbn [step] in H. rewrite H in T. destruct T as (_ & (F1 & F2 & F3 & F4) & F5). repeat (split; [assumption|]). assumption.
Qed.

(** stations are only changed by operations on them *)
Lemma step_station : forall lw o w w' t i, on_station o <> Some i -> step lw o w = Ok (w', t) -> nth_error (w_stations w') i = nth_error (w_stations w) i.
Proof.
  intros lw o w w' t i N H.
  assert (K : forall a : act, tri (fun _ _ => True) (Ipa any any) (Ico any any any2) Ien (fun _ => False) any any any (fun _ => True) (fun _ => True) a -> a w = Ok (w', t) -> w_stations w' = w_stations w).
  { intros a T Q. specialize (T w (inv_any w)). rewrite Q in T. destruct T as (_ & (F & _) & _). apply fr_none. exact F. }
  assert (K2 : forall A (f : world -> res A) (g : A -> world -> res (world * list event)), (forall x, g x w = Ok (w', t) -> w_stations w' = w_stations w) ->
    ask f g w = Ok (w', t) -> w_stations w' = w_stations w).
  { intros A f g G Q. apply ask_inv in Q. destruct Q as (x & _ & Q). exact (G x Q). }
  destruct o; cbn [step on_station] in *.
  { destruct (nth_error (w_stations w) s) as [st|] eqn:S0.
    - destruct (no_interference lw w s st o w' t) as ([_ F] & _); [congruence|exact H|]. apply F. congruence.
    - destruct (no_interference lw w s (mkStation 0 (mkCbs None None None None None)) o w' t) as ([_ F] & _); [congruence|exact H|]. apply F. congruence. }
  all: f_equal.
  3:{ eapply K; [|exact H]. apply (A_addMessage lw); cbn; auto. exact I. }
  3:{ eapply K; [|exact H]. apply A_lib_reset; cbn; auto. exact I. }
  all: revert H; apply K2; intros x H.
  all: try (inversion H; subst; reflexivity).
  all: try (destruct x; inversion H; subst; reflexivity).
  - destruct x; try discriminate H. apply ask_inv in H. destruct H as (n & _ & H). apply seq_inv in H. destruct H as (w1 & t1 & t2 & H1 & H2 & _).
    inversion H1; subst. unfold print_res in H2. apply ask_inv in H2. destruct H2 as (y & _ & H2). inversion H2; subst. reflexivity.
  - apply ask_inv in H. destruct H as (n & _ & H). inversion H; subst. reflexivity.
Qed.
Lemma run_station : forall lw ops w w' t i, Forall (fun o => on_station o <> Some i) ops -> run lw ops w = Ok (w', t) ->
  nth_error (w_stations w') i = nth_error (w_stations w) i.
Proof.
  induction ops as [|o ops IH]; intros w w' t i F H; cbn [run] in H; [inversion H; subst; reflexivity|].
  apply seq_inv in H. destruct H as (w1 & t1 & t2 & H1 & H2 & _). inversion F; subst.
  rewrite (IH _ _ _ _ H4 H2). eapply step_station; eassumption.
Qed.
