(* PropsLate.v -- property theorems about callbacks that are called last: C128.  Vocabulary:
   SpecLate.v; the model: Reentry.v. *)
From Verif Require Import ZLib SpecLate ProofsCrc ProofsText ProofsReentry ProofsPassive ProofsLate Demo DemoStream PropsSafe PropsReentry.

(** ** C128 *)
(** User objects that call the library only when told of a received system or engine command or of a
    complete download: the run is, in every respect and whether it is defined or not, the run in which
    user objects only take note and the program makes their calls after the call of the library has
    returned. *)
Theorem C128_same_as_afterwards : forall lw react n c s, late react -> rexec lw react n c s = afterwards lw react n c s.
Proof. intros lw react n c s L. apply same_afterwards. exact L. Qed.
Print Assumptions C128_same_as_afterwards.
(** One call, in terms of the library without re-entrance: first all the call does by itself, then
    what the last of its events calls for, then the rest of the program. *)
Theorem C128_one_call : forall lw react n o k w w1 t t1, late react -> step lw o w = Ok (w1, t1) ->
  rexec lw react (S n) (Call o k) (mkR w t) =
  (rexec lw react n (to_do react w1 t t1) ~;; (fun s => rexec lw react (S n) (k (r_w s) (r_t s)) s)) (mkR w1 (t ++ t1)).
Proof. exact late_call. Qed.
Print Assumptions C128_one_call.
(** The accessory callback is not among them: after it a newline is printed, so what it does shows up
    before the end of the call. *)
Definition on_accessory : list event -> code :=
  on_last (fun e => match e with EvAccessory _ _ _ => [OnStation 0 SendSystemStop] | _ => [] end).
Definition accessory_call : code := ops_code [OnStation 0 (HandlePacket (mkFrame (mkId kAccessorySwitch 0) (mkData 6 [0; 0; 0x30; 5; 1; 1; 0; 0; 0])))].
Theorem C128_accessory_refuted : exists lw react n c s, (forall h e, (forall o d r, e <> EvAccessory o d r) -> react (h ++ [e]) = Ret) /\
  exists s1 s2, rexec lw passive 1 c s = (Ok tt, s1) /\ rexec lw react n c s = (Ok tt, s2) /\ forall m, r_t s2 <> r_t s1 ++ m.
Proof.
  exists 64, on_accessory, 2%nat, accessory_call, (mkR demo_good []). split.
  - intros h e N. unfold on_accessory, on_last. rewrite rev_app_distr. cbn [rev app]. destruct e; try reflexivity. exfalso. eapply N. reflexivity.
  - eexists. eexists. split; [vm_compute; reflexivity|]. split; [vm_compute; reflexivity|]. intros m H. vm_compute in H. discriminate H.
Qed.
Print Assumptions C128_accessory_refuted.

(** ** Cases *)
(** a system command makes the callback feed the parser an engine description, whose end makes the end
    callback switch a turnout; both callbacks are called last *)
Definition on_end : list event -> code :=
  on_last (fun e => match e with
    | EvSystem _ _ _ => demo_ops 0 0 (show_doc demo_doc)
    | EvEndComplete _ _ => [OnStation 0 (SendAccessoryPacket 5 P_MM2 1 1)]
    | _ => [] end).
Definition system_op : op := OnStation 0 (HandleSystemCommand 0 (mkData 5 [0; 0; 0; 0; 0; 0; 0; 0; 0])).
Example C128_case : late on_end /\
  (exists s, rexec 64 on_end 3 (ops_code [system_op]) (mkR demo_good []) = (Ok tt, s) /\
     filter (fun e => match e with EvSystem _ _ _ | EvEndComplete _ _ | EvTx _ _ => true | _ => false end) (r_t s) =
       [EvSystem 1 false false; EvTx 0 (mkFrame 4195096 (mkData 8 (zs "loknamen" ++ [0]))); EvTx 0 (mkFrame 4195096 (mkData 3 (zs "0 2" ++ [0; 0; 0; 0; 0; 0]))); EvEndComplete 7 0;
        EvTx 0 (mkFrame 1442584 (mkData 6 [0; 0; 0x30; 5; 1; 1; 0; 0; 0]))]) /\
  (exists w1 t1, step 64 system_op demo_good = Ok (w1, t1) /\ to_do on_end w1 [] t1 = ops_code (demo_ops 0 0 (show_doc demo_doc))).
Proof.
  split; [|split].
  - intros h e E. unfold on_end, on_last. rewrite rev_app_distr. cbn [rev app]. destruct e; try reflexivity; discriminate E.
  - eexists. split; vm_compute; reflexivity.
  - eexists. eexists. split; vm_compute; reflexivity.
Qed.
