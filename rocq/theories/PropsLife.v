(* PropsLife.v -- property theorems about references between objects and their lifetimes: C87-C90.
   Vocabulary: SpecLife.v *)
From Verif Require Import SpecLife SpecConsumer ProofsLife Demo DemoStream.

(** ** C87 *)
(** The pointers of all stations, config-data objects and consumers after any call. *)
Theorem C87_pointers_after_a_call : forall lw o w w' t, step lw o w = Ok (w', t) ->
  map st_cbs (w_stations w') = stations_after w o /\
  map consumer_of (w_parsers w') = consumers_after w o /\
  map wires (w_conss w') = wires_after w o.
Proof. intros lw o w w' t H. apply step_view in H. injection H as A B C. split; [|split]; assumption. Qed.
Print Assumptions C87_pointers_after_a_call.
(** The library never makes up a pointer: it was there before, or the call names its target. *)
Theorem C87_pointers_come_from_calls : forall lw o w w' t x y, step lw o w = Ok (w', t) -> refers w' x y -> refers w x y \/ names o y.
Proof. exact pointer_origin. Qed.
Print Assumptions C87_pointers_come_from_calls.
(** A call during which a stream is reported complete changes no pointer: the station still refers to
    its config-data object, that to the consumer, and the consumer to its engine and callback. *)
Theorem C87_completion_releases_nothing : forall lw o w w' t c, step lw o w = Ok (w', t) -> In (EvStreamComplete c) t ->
  forall x y, refers w' x y <-> refers w x y.
Proof. exact completion_releases_nothing. Qed.
Print Assumptions C87_completion_releases_nothing.
(** the last frame of an engine's description, and what still refers to what when it has been handled *)
Example C87_case_completion : let ops := engine_download 0 0 0 0 demo_id (head (show_doc demo_doc) :: body (show_doc demo_doc)) in
  exists w1 t1 w' t, run 64 (removelast ops) demo = Ok (w1, t1) /\ step 64 (last ops (ParserReset 0)) w1 = Ok (w', t) /\ In (EvStreamComplete 0) t /\
    refers w' (OStation 0) (OParser 0) /\ refers w' (OParser 0) (OConsumer 0) /\ refers w' (OConsumer 0) (OEngine 0).
Proof.
  cbv zeta. do 4 eexists. split; [vm_compute; reflexivity|]. split; [vm_compute; reflexivity|]. split; [vm_compute; tauto|].
  repeat split; vm_compute; eauto 8.
Qed.
Example C87_case : exists w' t, step 64 (OnStation 1 (RequestEngineList 0 (Some 1%nat))) demo = Ok (w', t) /\
  map cb_cfg (map st_cbs (w_stations w')) = [None; Some 1%nat; None] /\ map consumer_of (w_parsers w') = [(Some 0%nat, Some 0%nat); (Some 1%nat, Some 1%nat); (None, None)] /\
  exists w2 t2, step 64 (OnStation 1 FinishCurrentConfigRequest) w' = Ok (w2, t2) /\
    map cb_cfg (map st_cbs (w_stations w2)) = [None; None; None] /\ map consumer_of (w_parsers w2) = [(Some 0%nat, Some 0%nat); (None, None); (None, None)].
Proof. eexists. eexists. split; [vm_compute; reflexivity|]. split; [reflexivity|]. split; [reflexivity|]. eexists. eexists. split; [vm_compute; reflexivity|]. split; reflexivity. Qed.

(** ** C88 *)
(** Let X be any set of objects that no object outside X refers to, and let no call name an object
    of X.  Then no object of X is read, changed or called: whatever the objects of X contain, or if
    they do not exist any more, the history has the same outcome, the same calls and the same effect
    on all other objects; and still nothing refers to X. *)
Theorem C88_unreferenced_objects_are_not_touched : forall lw (X : thing -> Prop) ops w1 w2,
  unreferenced w1 X -> (forall o x, In o ops -> names o x -> ~ X x) -> same_outside X w1 w2 ->
  match run lw ops w1, run lw ops w2 with
  | Ok (v1, t1), Ok (v2, t2) =>
      t2 = t1 /\ same_outside X v1 v2 /\ same_inside X w1 v1 /\ same_inside X w2 v2 /\ unreferenced v1 X /\
      (forall e x, In e t1 -> In x (callee e) -> ~ X x)
  | UB u1, UB u2 => u1 = u2
  | _, _ => False
  end.
Proof. exact not_touched. Qed.
Print Assumptions C88_unreferenced_objects_are_not_touched.
(** the set in the example: parser 1, the list consumer and its end callback, engine 1 *)
Definition demo_unused (x : thing) : Prop := In x [OParser 1; OConsumer 1; OEndCb 8; OEngine 1]%nat.
(** the same world without these objects *)
Definition demo_without : world :=
  mkW (w_stations demo) [LibP (demo_parser (Some 0%nat)); UserP (fun _ => SS_FIRST) [CReset]; UserP demo_beh [CStart]]
      [LocoC (Def (Some 0%nat)) (Def (Some 7%nat))] [demo_engine].
Example C88_case : unreferenced demo demo_unused /\ same_outside demo_unused demo demo_without /\
  (forall o x, In o (engine_download 0 0 0 0 demo_id (head (show_doc demo_doc) :: body (show_doc demo_doc))) -> names o x -> ~ demo_unused x) /\
  exists v t, run 64 (engine_download 0 0 0 0 demo_id (head (show_doc demo_doc) :: body (show_doc demo_doc))) demo_without = Ok (v, t) /\ In (EvEndComplete 7 0) t.
Proof.
  split; [|split; [|split]].
  - assert (ST : forall s st y, nth_error (w_stations demo) s = Some st -> among (st_cbs st) y -> ~ demo_unused y).
    { intros [|[|[|s]]] st y E A D; cbn in E; [| | |destruct s; discriminate]; injection E as <-; repeat (destruct D as [<-|D]; [cbn in A; congruence|]); destruct D. }
    intros x y R D. destruct x; cbn in R; try contradiction.
    + destruct R as (st & E & A). destruct (ST _ _ _ E A D).
    + destruct R as (sp & c & E & -> & A). destruct p as [|[|[|p]]]; cbn in E; try discriminate; [|left; reflexivity|destruct p; discriminate].
      injection E as <-. cbn in A. assert (c = 0%nat) by (destruct A; congruence). subst c. repeat (destruct D as [D|D]; [discriminate|]). destruct D.
    + destruct R as (o & E & A). destruct c as [|[|c]]; cbn in E; [|right; left; reflexivity|destruct c; discriminate].
      injection E as <-. exfalso. destruct A as [(e & cb & Q & ->)|[(e & cb & Q & ->)|(co & i & n & off & cb & Q & ->)]]; [| |discriminate]; injection Q as <- <-; repeat (destruct D as [D|D]; [discriminate|]); destruct D.
  - split; [reflexivity|]. split; [|split]; intros i H.
    + destruct i as [|[|[|i]]]; try reflexivity. destruct H. left. reflexivity.
    + destruct i as [|[|i]]; [reflexivity|destruct H; right; left; reflexivity|destruct i; reflexivity].
    + destruct i as [|[|i]]; [reflexivity|destruct H; do 3 right; left; reflexivity|destruct i; reflexivity].
  - intros o x I N D. unfold engine_download in I. cbn [app In] in I.
    assert (K : x = OStation 0 \/ x = OParser 0 \/ x = OConsumer 0 \/ x = OEngine 0).
    { destruct I as [<-|[<-|[<-|I]]].
      - cbn in N. destruct N as [->|(q & Q & ->)]; [|injection Q as <-]; auto.
      - cbn in N. destruct N as [->|(q & Q & ->)]; [|injection Q as <-]; auto.
      - cbn in N. destruct N as [->|[->|(q & Q & ->)]]; [| |injection Q as <-]; auto.
      - apply in_map_iff in I. destruct I as (d & <- & _). cbn in N. destruct N as [->|[]]. auto. }
    destruct K as [->|[->|[->| ->]]]; repeat (destruct D as [D|D]; [discriminate|]); destruct D.
  - eexists. eexists. split; [vm_compute; reflexivity|]. vm_compute. auto 40.
Qed.

(** ** C89 *)
(** Destroying objects after finishing the request.  Let X be the objects to be destroyed; besides
    each other, at most station s and its config-data object p refer to them, s to p only.  Once s
    has finished its request, the objects of X may hold anything or not exist: as long as no call
    names them, no outcome depends on them. *)
Theorem C89_destroy_after_finishing : forall lw (X : thing -> Prop) w s p w1 t1 ops w2,
  config_object w s = Some p ->
  (forall x y, refers w x y -> X y -> X x \/ (x = OStation s /\ y = OParser p) \/ x = OParser p) ->
  step lw (OnStation s FinishCurrentConfigRequest) w = Ok (w1, t1) ->
  (forall o x, In o ops -> names o x -> ~ X x) -> same_outside X w1 w2 ->
  match run lw ops w1, run lw ops w2 with
  | Ok (v1, t1), Ok (v2, t2) => t2 = t1 /\ same_outside X v1 v2
  | UB u1, UB u2 => u1 = u2
  | _, _ => False
  end.
Proof. exact destroy_after_finishing. Qed.
Print Assumptions C89_destroy_after_finishing.
(** one station, one parser, one consumer, one engine *)
Definition only : world := mkW [demo_st0] [LibP (demo_parser (Some 0%nat))] [LocoC (Def (Some 0%nat)) (Def (Some 7%nat))] [demo_engine].
(** The end notification is not enough: destroying the parser after a complete download makes the
    next config frame undefined, although the stream is over and the same frame is harmless before. *)
Theorem C89_destroy_after_completion_refuted : exists w1 t1 w2 f,
  run 64 (engine_download 0 0 0 0 demo_id (head (show_doc demo_doc) :: body (show_doc demo_doc))) only = Ok (w1, t1) /\
  In (EvEndComplete 7 0) t1 /\ same_outside (fun x => x = OParser 0) w1 w2 /\
  (exists v t, run 64 [OnStation 0 (HandlePacket f)] w1 = Ok (v, t) /\ calls t = []) /\
  run 64 [OnStation 0 (HandlePacket f)] w2 = UB Dangling.
Proof.
  eexists. eexists. exists (mkW [now_using demo_st0 (Some 0%nat)] [] [LocoC (Def (Some 0%nat)) (Def (Some 7%nat))]
    [mkLoco (mkSI FULL_DETAILS (si_name (lo_info demo_engine))) (mkLD 0x4007 0 0 7 0) (zs "mfx" ++ repeat 0 5)]), (mkFrame demo_id (head (show_doc demo_doc))).
  split; [vm_compute; reflexivity|]. split; [vm_compute; auto 40|]. split; [|split].
  - split; [|split; [|split]]; cbn; intros i H; [reflexivity| |reflexivity|reflexivity]. destruct i as [|i]; [destruct (H eq_refl)|destruct i; reflexivity].
  - eexists. eexists. split; [vm_compute; reflexivity|reflexivity].
  - vm_compute. reflexivity.
Qed.
Print Assumptions C89_destroy_after_completion_refuted.
(** Nor may the consumer be destroyed while the stream runs: finishing the request calls it. *)
Theorem C89_destroy_before_finishing_refuted : exists w1 t1 w2,
  run 64 [ParserSetConsumer 0 (Some 0%nat); OnStation 0 (RequestEngine (RefEngine 0) (Some 0%nat))] only = Ok (w1, t1) /\
  same_outside (fun x => x = OConsumer 0) w1 w2 /\
  run 64 [OnStation 0 FinishCurrentConfigRequest] w2 = UB Dangling.
Proof.
  eexists. eexists. exists (mkW [now_using demo_st0 (Some 0%nat)] [LibP (sp_startStream (demo_parser (Some 0%nat)))] [] [demo_engine]).
  split; [vm_compute; reflexivity|]. split; [|vm_compute; reflexivity].
  split; [|split; [|split]]; cbn; intros i H; [reflexivity|reflexivity| |reflexivity]. destruct i as [|i]; [destruct (H eq_refl)|destruct i; reflexivity].
Qed.
Print Assumptions C89_destroy_before_finishing_refuted.
(** the hypotheses are met by the parser, the consumer and the engine of a running request *)
Example C89_case : exists w t w1 t1,
  run 64 [ParserSetConsumer 0 (Some 0%nat); OnStation 0 (RequestEngine (RefEngine 0) (Some 0%nat))] only = Ok (w, t) /\
  config_object w 0 = Some 0%nat /\ step 64 (OnStation 0 FinishCurrentConfigRequest) w = Ok (w1, t1) /\ calls t1 <> [] /\
  (let X := fun x => x = OParser 0 \/ x = OConsumer 0 \/ x = OEngine 0 in
   forall x y, refers w x y -> X y -> X x \/ (x = OStation 0 /\ y = OParser 0) \/ x = OParser 0) /\
  exists v s, run 64 [OnStation 0 (HandlePacket (mkFrame demo_id (head (show_doc demo_doc)))); OnStation 0 SendSystemGo] (mkW (w_stations w1) [] [] []) = Ok (v, s) /\ sent s <> [].
Proof.
  eexists. eexists. eexists. eexists. split; [vm_compute; reflexivity|]. split; [reflexivity|]. split; [vm_compute; reflexivity|]. split; [discriminate|]. split.
  - cbv zeta. intros x y R [->|[->| ->]]; destruct x; cbn in R; try contradiction.
    + destruct R as (st & E & A). destruct s as [|s]; [right; left; auto|destruct s; discriminate].
    + destruct R as (sp & c & E & Q & A). discriminate.
    + destruct R as (o & E & [(e & cb & -> & Q)|[(e & cb & -> & Q)|(co & i & n & off & cb & -> & Q)]]); discriminate.
    + destruct R as (st & E & []).
    + destruct p as [|p]; [auto|]. destruct R as (sp & c & E & _). destruct p; discriminate.
    + destruct R as (o & E & [(e & cb & -> & Q)|[(e & cb & -> & Q)|(co & i & n & off & cb & -> & Q)]]); discriminate.
    + destruct R as (st & E & []).
    + destruct R as (sp & c & E & Q & A). discriminate.
    + destruct c as [|c]; [auto|]. destruct R as (o & E & _). destruct c; discriminate.
  - eexists. eexists. split; [vm_compute; reflexivity|discriminate].
Qed.

(** ** C90 *)
(** Two installations in one program (say, two CAN buses), with no pointers between them.  However
    their calls are interleaved, each of them does exactly what it would do alone: every event
    belongs to one of the two, and dropping the other's calls and events leaves a run of its own with
    the same effect on its objects.  The program is undefined only if one of them alone is. *)
Theorem C90_interleaved_as_if_alone : forall lw (side : thing -> bool) (l : list (bool * op)) w,
  separate side w -> own_calls side l ->
  match run lw (map snd l) w with
  | Ok (w', t) => exists lt : list (bool * event), map snd lt = t /\
      forall b, exists v, run lw (part b l) w = Ok (v, part b lt) /\ same_side side b w' v
  | UB u => exists b, run lw (part b l) w = UB u
  end.
Proof. exact interleaved. Qed.
Print Assumptions C90_interleaved_as_if_alone.
(** So if each of them alone is defined, every interleaving is. *)
Theorem C90_defined_together : forall lw side l w, separate side w -> own_calls side l ->
  (forall b, exists v t, run lw (part b l) w = Ok (v, t)) -> exists v t, run lw (map snd l) w = Ok (v, t).
Proof. exact defined_together. Qed.
Print Assumptions C90_defined_together.
Definition demo_side (x : thing) : bool :=
  match x with
  | OStation 1 | OParser 1 | OParser 2 | OConsumer 1 | OEngine 1 | OEndCb 8 | OTx 10 | OSystem 11 | OEngineCb 12 | OAccessory 13 => true
  | _ => false
  end%nat.
Example C90_case : let l := [(false, ParserSetConsumer 0 (Some 0%nat)); (true, ParserSetConsumer 1 (Some 1%nat)); (true, OnStation 1 (RequestEngineList 0 (Some 1%nat)));
    (false, OnStation 0 (RequestEngine (RefEngine 0) (Some 0%nat))); (true, OnStation 1 FinishCurrentConfigRequest); (false, OnStation 0 (HandlePacket (mkFrame demo_id (head (show_doc demo_doc)))))] in
  separate demo_side demo /\ own_calls demo_side l /\ exists w' t, run 64 (map snd l) demo = Ok (w', t) /\ List.length (sent t) = 5%nat.
Proof.
  cbv zeta. split; [|split].
  - intros x y R. destruct x; cbn in R; try contradiction.
    + destruct R as (st & E & A). destruct s as [|[|[|s]]]; cbn in E; [| | |destruct s; discriminate]; injection E as <-; destruct y; cbn in A; try contradiction; try discriminate; injection A as <-; reflexivity.
    + destruct R as (sp & c & E & -> & A). destruct p as [|[|[|p]]]; cbn in E; try discriminate; [| |destruct p; discriminate]; injection E as <-; cbn in A.
      * assert (c = 0%nat) by (destruct A; congruence). subst. reflexivity.
      * assert (c = 1%nat) by (destruct A; congruence). subst. reflexivity.
    + destruct R as (o & E & A). destruct c as [|[|c]]; cbn in E; [| |destruct c; discriminate]; injection E as <-;
        destruct A as [(e & cb & Q & ->)|[(e & cb & Q & ->)|(co & i & n & off & cb & Q & ->)]]; try discriminate; injection Q; intros; subst; reflexivity.
  - unfold own_calls. repeat constructor; cbn; intros x N;
      repeat (match goal with H : _ \/ _ |- _ => destruct H | H : exists _, _ |- _ => destruct H | H : _ /\ _ |- _ => destruct H | H : Some _ = Some _ |- _ => injection H as <- | H : False |- _ => destruct H end); subst; reflexivity.
  - eexists. eexists. split; [vm_compute; reflexivity|reflexivity].
Qed.
