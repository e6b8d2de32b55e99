(* PropsLogged.v -- property theorems about the logging builds: C65, C66.
   Vocabulary: SpecLogged.v; the model of the logging sections: Logged.v.  [run] is the build with
   the template's setting, [lrun g] the build with setting g. *)
From Verif Require Import ZLib SpecLogged ProofsText ProofsSafe ProofsConsumer ProofsLogged Demo DemoStream PropsSafe.

(** ** C65 *)
(** Whatever is logged, a run that is defined leaves all objects as the unlogged run does, and its
    trace is that of the unlogged run with console output inserted. *)
Theorem C65_only_the_console_differs : forall lw g ops w w' t', lrun lw g ops w = Ok (w', t') ->
  exists t, run lw ops w = Ok (w', t) /\ more_output t t'.
Proof. intros lw g ops. exact (l_run lw g ops). Qed.
Print Assumptions C65_only_the_console_differs.
(** in particular the calls of callbacks and consumers and the frames sent are the same, in the same order *)
Theorem C65_same_calls : forall lw g g' ops w w1 t1 w2 t2, lrun lw g ops w = Ok (w1, t1) -> lrun lw g' ops w = Ok (w2, t2) -> w1 = w2 /\ calls t1 = calls t2.
Proof.
  intros lw g g' ops w w1 t1 w2 t2 H1 H2. destruct (l_run lw g ops _ _ _ H1) as (u1 & E1 & M1). destruct (l_run lw g' ops _ _ _ H2) as (u2 & E2 & M2).
  rewrite E1 in E2. injection E2 as <- <-. split; [reflexivity|]. rewrite <- (mo_calls _ _ M1), <- (mo_calls _ _ M2). reflexivity.
Qed.
Print Assumptions C65_same_calls.
(** a setting that enables no section is the template's *)
Theorem C65_silent_settings : forall lw g ops w, silent g -> lrun lw g ops w = run lw ops w.
Proof. intros lw g ops w S. exact (e_run lw g S ops w). Qed.
Print Assumptions C65_silent_settings.

(** ** C66 *)
(** From initialised objects and with valid arguments, an operation of a logging build is undefined
    exactly if it is undefined without logging or the build prints the lines of config data and the
    operation hands a library consumer a line whose section, key or value fills its buffer. *)
Theorem C66_undefined_iff : forall lw g w o, sound w -> valid_op w o ->
  ((exists u, lstep lw g o w = UB u) <-> (exists u, step lw o w = UB u) \/ (prints_lines g /\ overfull_line w o)).
Proof. exact step_undefined. Qed.
Print Assumptions C66_undefined_iff.
(** any history: it is defined and leaves the objects initialised, unless such a line or one that is
    excessive without logging (C57) is reported on the way *)
Theorem C66_no_undefined_behaviour : forall lw g w ops, sound w -> Forall (valid_op w) ops ->
  (exists w' t, lrun lw g ops w = Ok (w', t) /\ sound w') \/
  (exists pre o post w1 t1, ops = pre ++ o :: post /\ lrun lw g pre w = Ok (w1, t1) /\ sound w1 /\
     (excessive_line w1 o \/ (prints_lines g /\ overfull_line w1 o))).
Proof.
  intros lw g w ops S F. destruct (lrun_safe lw g w ops w (sound_G w S) F) as [(w' & t & E & gw)|(pre & o & post & w1 & t1 & E & E1 & gw & X)].
  - left. exists w', t. split; [exact E|eapply G_sound; exact gw].
  - right. exists pre, o, post, w1, t1. split; [exact E|]. split; [exact E1|]. split; [eapply G_sound; exact gw|exact X].
Qed.
Print Assumptions C66_no_undefined_behaviour.
(** logging is not harmless: a stream with a key of 11 characters is fine in the template's build
    and undefined in one that prints lines *)
Definition verbose : logcfg := mkLog 10 true true true.
Theorem C66_logging_is_harmless_refuted : exists w ops w' t, sound w /\ Forall (valid_op w) ops /\
  run 64 ops w = Ok (w', t) /\ lrun 64 verbose ops w = UB OutOfBounds.
Proof.
  exists demo_good, (demo_ops 0 0 (zs "[lokomotive] .funktionenX=1" ++ nl)). eexists. eexists. split; [exact demo_sound|]. split; [|split; vm_compute; reflexivity].
  apply demo_valid; [cbn; lia|exists (demo_parser (Some 0%nat)); reflexivity|cbn; lia|cbn; lia|vm_compute; reflexivity].
Qed.
Print Assumptions C66_logging_is_harmless_refuted.

(** ** Cases *)
(** an ordinary engine description, printed in full *)
Example C65_case : exists w' t t', run 64 (demo_ops 0 0 (show_doc demo_doc)) demo_good = Ok (w', t) /\ lrun 64 verbose (demo_ops 0 0 (show_doc demo_doc)) demo_good = Ok (w', t') /\
  (List.length t < List.length t')%nat /\ notes t' = [EvStreamComplete 0; EvEndComplete 7 0] /\
  In (EvPrint (zs "EngineControl::consumeConfigData(""lokomotive"", ""uid"", ""0x4007"")" ++ nl)) t' /\
  ~ In (EvPrint (zs "EngineControl::consumeConfigData(""lokomotive"", ""uid"", ""0x4007"")" ++ nl)) t.
Proof.
  eexists. eexists. eexists. split; [vm_compute; reflexivity|]. split; [vm_compute; reflexivity|]. split; [vm_compute; lia|]. split; [vm_compute; reflexivity|].
  split; [vm_compute; repeat (first [left; reflexivity|right])|]. vm_compute. intros H. repeat (destruct H as [H|H]; [discriminate|]). exact H.
Qed.
(** a silent setting other than the template's *)
Example C65_silent_case : silent (mkLog 1 false false false). Proof. repeat split; reflexivity. Qed.
(** the hypotheses of C66 hold of a station that waits for data, and of a line that overfills *)
Example C66_case : sound demo_good /\ Forall (valid_op demo_good) (demo_ops 0 0 (show_doc demo_doc)) /\
  (exists w' t, lrun 64 verbose (demo_ops 0 0 (show_doc demo_doc)) demo_good = Ok (w', t)) /\ overfull (zs "lokomotive", zs "funktionenX", zs "1") /\ ~ overfull (zs "lokomotive", zs "funktionen", zs "1").
Proof.
  split; [exact demo_sound|]. split; [apply demo_valid; [cbn; lia|exists (demo_parser (Some 0%nat)); reflexivity|cbn; lia|cbn; lia|vm_compute; reflexivity]|].
  split; [eexists; eexists; vm_compute; reflexivity|]. split.
  - right. left. split; [reflexivity|]. repeat constructor; discriminate.
  - intros [(E & _)|[(E & _)|(E & _)]]; discriminate.
Qed.
