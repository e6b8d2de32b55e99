(* PropsApart.v -- property theorems about objects that user code, callbacks included, has nothing to
   do with: C123, C124.  Vocabulary: SpecApart.v *)
From Verif Require Import SpecApart SpecRsafe SpecConsumer ProofsApart Demo DemoStream PropsReentry PropsLife.

(** ** C123 *)
(** Let X be any set of objects that no object outside X refers to, and let neither the program nor
    its callbacks, which may call the library in turn, name or look at an object of X.  Then no object
    of X is read, changed or called, at any depth: whatever the objects of X contain, or if they do
    not exist any more, the program ends in the same way, be it undefined behaviour, after the same
    calls, with the same effect on all other objects; and still nothing refers to X. *)
Theorem C123_unreferenced_objects_are_not_touched : forall lw (X : thing -> Prop) react n c w1 w2,
  unreferenced w1 X -> (forall t, unaware X (react t)) -> unaware X c -> same_outside X w1 w2 ->
  let '(e1, s1) := rexec lw react n c (mkR w1 []) in
  let '(e2, s2) := rexec lw react n c (mkR w2 []) in
  e1 = e2 /\ r_t s1 = r_t s2 /\ same_outside X (r_w s1) (r_w s2) /\ same_inside X w1 (r_w s1) /\ same_inside X w2 (r_w s2) /\ unreferenced (r_w s1) X /\
  (forall e x, In e (r_t s1) -> In x (callee e) -> ~ X x).
Proof. exact apart. Qed.
Print Assumptions C123_unreferenced_objects_are_not_touched.
(** Two installations with no pointers between them: a program and callbacks that use only one of
    them behave the same whatever the other is doing, call none of its objects and leave it as it is. *)
Theorem C123_two_installations : forall lw (side : thing -> bool) b react n c w v,
  separate side w -> (forall t, unaware (fun x => side x = negb b) (react t)) -> unaware (fun x => side x = negb b) c -> same_side side b w v ->
  let '(e1, s1) := rexec lw react n c (mkR w []) in
  let '(e2, s2) := rexec lw react n c (mkR v []) in
  e1 = e2 /\ r_t s1 = r_t s2 /\ same_side side b (r_w s1) (r_w s2) /\ same_side side (negb b) w (r_w s1) /\
  (forall e x, In e (r_t s1) -> In x (callee e) -> side x = b).
Proof. exact two_installations. Qed.
Print Assumptions C123_two_installations.
(** A list of calls is unaware of X exactly if none of them names an object of X. *)
Theorem C123_unaware_lists : forall (X : thing -> Prop) l, unaware X (ops_code l) <-> (forall o x, In o l -> names o x -> ~ X x).
Proof. exact list_unaware. Qed.
Print Assumptions C123_unaware_lists.

(** the download of an engine; its end callback asks for the engine once more *)
Definition once_more : list event -> code :=
  on_last (fun e => match e with EvEndComplete 7 _ => [OnStation 0 FinishCurrentConfigRequest; ParserSetConsumer 0 (Some 0%nat); OnStation 0 (RequestEngine (RefEngine 0) (Some 0%nat))] | _ => [] end).
Definition whole_download : code := ops_code (engine_download 0 0 0 0 demo_id (head (show_doc demo_doc) :: body (show_doc demo_doc))).
Example C123_case : unreferenced demo demo_unused /\ (forall t, unaware demo_unused (once_more t)) /\ unaware demo_unused whole_download /\ same_outside demo_unused demo demo_without /\
  exists w t, rexec 64 once_more 2 whole_download (mkR demo_without []) = (Ok tt, mkR w t) /\ In (EvEndComplete 7 0) t /\ List.length (sent t) = 6%nat /\ config_object w 0 = Some 0%nat.
Proof.
  destruct C88_case as (U & S & N & _). split; [exact U|]. split; [|split; [|split]].
  - intros t. unfold once_more, on_last. destruct (rev t) as [|e r]; [constructor|]. apply list_unaware. intros o x I M D.
    assert (K : In o [OnStation 0 FinishCurrentConfigRequest; ParserSetConsumer 0 (Some 0%nat); OnStation 0 (RequestEngine (RefEngine 0) (Some 0%nat))]).
    { repeat match goal with H : In _ (match ?x with _ => _ end) |- _ => destruct x end; try exact I; destruct I. }
    cbn [In] in K. destruct K as [<-|[<-|[<-|[]]]]; cbn in M;
      repeat (match type of M with _ \/ _ => destruct M as [M|M] | exists _, _ => destruct M as (? & ? & M) | False => destruct M end); subst;
      try match goal with H : Some _ = Some _ |- _ => injection H as <- end; repeat (destruct D as [D|D]; [discriminate|]); destruct D.
  - apply list_unaware. exact N.
  - exact S.
  - eexists. eexists. split; [vm_compute; reflexivity|]. split; [vm_compute; auto 60|]. split; vm_compute; reflexivity.
Qed.
(** It is not enough that the program names no object of X: its callbacks must not either.  An end
    callback that requests an engine of X makes the program depend on X. *)
Definition to_the_other : list event -> code :=
  on_last (fun e => match e with EvEndComplete 7 _ => [OnStation 0 (RequestEngine (RefEngine 1) (Some 0%nat))] | _ => [] end).
Theorem C123_only_the_program_unaware_refuted : exists s1 s2,
  unreferenced demo demo_unused /\ unaware demo_unused whole_download /\ same_outside demo_unused demo demo_without /\
  rexec 64 to_the_other 2 whole_download (mkR demo []) = (Ok tt, s1) /\
  rexec 64 to_the_other 2 whole_download (mkR demo_without []) = (UB Dangling, s2).
Proof.
  destruct C88_case as (U & S & N & _). eexists. eexists. split; [exact U|]. split; [apply list_unaware; exact N|]. split; [exact S|]. split; vm_compute; reflexivity.
Qed.
Print Assumptions C123_only_the_program_unaware_refuted.
(** the two sides of the example of C90 *)
Definition other_side : code := ops_code [ParserSetConsumer 1 (Some 1%nat); OnStation 1 (RequestEngineList 0 (Some 1%nat)); OnStation 1 FinishCurrentConfigRequest].
Definition list_again : list event -> code :=
  on_last (fun e => match e with EvEndAborted 8 _ => [OnStation 1 SendSystemStop] | _ => [] end).
Example C123_case_sides : separate demo_side demo /\ (forall t, unaware (fun x => demo_side x = negb true) (list_again t)) /\ unaware (fun x => demo_side x = negb true) other_side /\
  (exists v, same_side demo_side true demo v /\ v <> demo) /\
  exists w t, rexec 64 list_again 2 other_side (mkR demo []) = (Ok tt, mkR w t) /\ In (EvEndAborted 8 1) t /\ List.length (sent t) = 3%nat.
Proof.
  split; [exact (proj1 C90_case)|]. split; [|split; [|split]].
  - intros t. unfold list_again, on_last. destruct (rev t) as [|e r]; [constructor|]. apply list_unaware. intros o x I M D.
    assert (K : In o [OnStation 1 SendSystemStop]).
    { repeat match goal with H : In _ (match ?x with _ => _ end) |- _ => destruct x end; try exact I; destruct I. }
    destruct K as [<-|[]]. cbn in M. destruct M as [->|[]]. discriminate.
  - apply list_unaware. intros o x I M D. destruct I as [<-|[<-|[<-|[]]]]; cbn in M;
      repeat (match goal with H : _ \/ _ |- _ => destruct H | H : exists _, _ |- _ => destruct H | H : _ /\ _ |- _ => destruct H | H : Some _ = Some _ |- _ => injection H as <- | H : False |- _ => destruct H end);
      subst; discriminate.
  - exists (mkW (w_stations demo) (w_parsers demo) (w_conss demo) (upd 0 (mkLoco (mkSI EMPTY (si_name (lo_info demo_engine))) (lo_data demo_engine) (lo_proto demo_engine)) (w_engines demo))). split; [|vm_compute; discriminate].
    split; [reflexivity|]. split; [reflexivity|]. split; [reflexivity|]. intros i H. destruct i as [|i]; [destruct H; reflexivity|reflexivity].
  - eexists. eexists. split; [vm_compute; reflexivity|]. split; [vm_compute; auto 60|vm_compute; reflexivity].
Qed.

(** ** C124 *)
(** Let Y be a set of objects whose pointers do not lead out of it, and let the calls of the program
    and of its callbacks name objects of Y only; what user code looks at is up to it.  Then whatever
    happens, undefined behaviour included, and to whatever depth, the library has called objects of Y
    only, has changed objects of Y only, and no pointer leads out of Y. *)
Theorem C124_only_given_objects : forall lw (Y : thing -> bool) react n c w r s,
  (forall x y, refers w x y -> Y x = true -> Y y = true) ->
  only_calls (fun o => forall x, names o x -> Y x = true) c -> (forall t, only_calls (fun o => forall x, names o x -> Y x = true) (react t)) ->
  rexec lw react n c (mkR w []) = (r, s) ->
  (forall x y, refers (r_w s) x y -> Y x = true -> Y y = true) /\
  (forall e x, In e (r_t s) -> In x (callee e) -> Y x = true) /\ same_inside (fun x => Y x = false) w (r_w s).
Proof. exact only_given. Qed.
Print Assumptions C124_only_given_objects.
(** In particular every pointer the library ends up with was there before or leads to an object that
    a call has named. *)
Theorem C124_pointers_come_from_calls : forall lw (N : thing -> bool) react n c w r s,
  only_calls (fun o => forall x, names o x -> N x = true) c -> (forall t, only_calls (fun o => forall x, names o x -> N x = true) (react t)) ->
  rexec lw react n c (mkR w []) = (r, s) ->
  forall Y, (forall x y, refers w x y -> Y y = true) -> (forall x, N x = true -> Y x = true) -> forall x y, refers (r_w s) x y -> Y y = true.
Proof. exact pointers_from_calls. Qed.
Print Assumptions C124_pointers_come_from_calls.
(** everything but the unused objects of the example of C88 *)
Definition demo_used (x : thing) : bool := match x with OParser 1 | OConsumer 1 | OEndCb 8 | OEngine 1 => false | _ => true end%nat.
(** a program that sends one of two commands depending on an engine it does not pass to the library *)
Definition looking : code :=
  Call (OnStation 0 SendSystemGo) (fun w _ => match nth_error (w_engines w) 1 with Some l => Call (OnStation 0 SendSystemStop) done | None => whole_download end).
Example C124_case : (forall x y, refers demo x y -> demo_used x = true -> demo_used y = true) /\
  only_calls (fun o => forall x, names o x -> demo_used x = true) looking /\ (forall t, only_calls (fun o => forall x, names o x -> demo_used x = true) (once_more t)) /\
  ~ unaware demo_unused looking /\
  (exists s, rexec 64 once_more 2 looking (mkR demo []) = (Ok tt, s) /\ List.length (sent (r_t s)) = 2%nat) /\
  (exists s, rexec 64 once_more 2 looking (mkR demo_without []) = (Ok tt, s) /\ List.length (sent (r_t s)) = 7%nat).
Proof.
  destruct C123_case as (U & R & C & S & _).
  assert (D : forall x, demo_unused x <-> demo_used x = false).
  { intros x. unfold demo_unused. cbn [In]. split; [intros [<-|[<-|[<-|[<-|[]]]]]; reflexivity|]. intros E.
    destruct x; cbn in E; try discriminate; repeat match type of E with (match ?x with _ => _ end) = _ => destruct x; try discriminate end; auto. }
  assert (L : forall c d, blind demo_unused c d -> only_calls (fun o => forall x, names o x -> demo_used x = true) c).
  { intros c d B. induction B as [|o k l N K IH]; constructor; [|intros w t; apply (IH w w t); repeat split; reflexivity].
    intros x M. destruct (demo_used x) eqn:E; [reflexivity|]. apply D in E. destruct (N x M E). }
  split; [|split; [|split; [|split; [|split]]]].
  - intros x y F E. destruct (demo_used y) eqn:Q; [reflexivity|]. apply D in Q. assert (X := U x y F Q). apply D in X. congruence.
  - constructor; [intros x [->|[]]; reflexivity|]. intros w t. destruct (nth_error (w_engines w) 1); [|exact (L _ _ C)].
    constructor; [intros x [->|[]]; reflexivity|]. intros. constructor.
  - intros t. exact (L _ _ (R t)).
  - intros H. unfold unaware, looking in H. inversion H as [|o k l N K E1 E2]. subst. specialize (K demo demo_without [] S). vm_compute in K. inversion K.
  - eexists. split; [vm_compute; reflexivity|vm_compute; reflexivity].
  - eexists. split; [vm_compute; reflexivity|vm_compute; reflexivity].
Qed.
