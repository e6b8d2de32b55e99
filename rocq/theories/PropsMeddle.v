(* PropsMeddle.v -- property theorems C102-C104: the text parser with consumers that change the
   section, key and value buffers they are handed.  Vocabulary: SpecMeddle.v *)
From Verif Require Import SpecMeddle ProofsText ProofsMeddle.

(** example consumers: one moves the value into a buffer of its own and erases the key, *)
Definition mover : consumer := fun _ _ => mkVisit [zb 26 []] [BMove 3 2; BErase 1].
Definition mover_leaves : conduct := fun _ r => let '(s, k, v) := r in (s, [], skipn (List.length (firstn 26 v)) v).
(** one appends an 'X' to the value, *)
Definition marker : consumer := fun _ _ => mkVisit [] [BPushChar 2 88].
Definition marker_leaves : conduct := fun _ r => let '(s, k, v) := r in (s, k, v ++ firstn (26 - List.length v) [88]).
(** and one gives the section another name at its second call *)
Definition renamer : consumer := fun log _ => match log with [_] => mkVisit [] [BSet 0 (zs "x")] | _ => mkVisit [] [] end.
Definition renamer_leaves : conduct := fun log r => let '(s, k, v) := r in match log with [_] => (zs "x", k, v) | _ => r end.
Lemma examples_leave : leaves mover mover_leaves /\ leaves marker marker_leaves /\ leaves renamer renamer_leaves.
Proof.
  split; [|split]; intros log [[s k] v] (H1 & H2 & H3).
  - exists [mkQ 26 []], [mkQ 26 (firstn 26 v)], [zlen (firstn 26 v); 0]. split; [|reflexivity].
    constructor; [|constructor]. split; [reflexivity|]. apply (zb_holds 26 []); cbn; lia.
  - eexists [], [], _. split; [constructor|]. reflexivity.
  - exists [], []. destruct log as [|r0 [|r1 log]]; (eexists; split; [constructor|]; reflexivity).
Qed.
Definition line (s : string) : bufm := zb 20 (zs s ++ [10]).
Definition demo_text : list tcall := [TConsumer (Some 0%nat); TText (line "[lok]"); TText (line " .flag"); TText (line " .a=1"); TText (line " .b=2")].

(** ** C102 *)
(** Whatever operations a consumer performs on the buffers it is handed, in every history of calls:
    no undefined behaviour, and parser and calls are those of the automaton of SpecMeddle.v. *)
Theorem C102_predicted : forall q f l, leaves q f -> Forall valid_call l ->
  mrun (code_of q) (tp_new, []) l = Ok (as_code (expected f l)).
Proof. exact predicted_calls. Qed.
Print Assumptions C102_predicted.
(** reset() leaves no trace of what the consumer did *)
Theorem C102_reset : forall q f l t log, leaves q f -> Forall valid_call l ->
  mrun (code_of q) (tp_new, []) l = Ok (t, log) -> tp_reset t = Ok tp_new.
Proof. exact reset_clean. Qed.
Print Assumptions C102_reset.
(** with a consumer that leaves the buffers alone, these are the functions of TextParser.v *)
Theorem C102_leaving_them_alone : forall l t log, mrun (fun _ x => Ok x) (t, log) l = '(t', e) <- trun t l ;; Ok (t', log ++ e).
Proof. exact idle_run. Qed.
Print Assumptions C102_leaving_them_alone.
Example C102_case : leaves mover mover_leaves /\ leaves renamer renamer_leaves /\ Forall valid_call demo_text /\
  expected renamer_leaves demo_text =
    mkPicture (mkA Between (zs "x") [] []) (Some 0%nat) [(zs "lok", zs "flag", []); (zs "lok", zs "a", zs "1"); (zs "x", zs "b", zs "2")].
Proof.
  split; [apply examples_leave|]. split; [apply examples_leave|]. split; [|vm_compute; reflexivity].
  repeat constructor; eexists; apply zb_holds; cbn; lia.
Qed.

(** ** C103 *)
(** A consumer that leaves the section as it is and an empty value empty, and does what it likes
    with the key and with the value of a line that has one, is called exactly like one that
    leaves everything alone. *)
Theorem C103_harmless : forall q f l, leaves q f -> harmless f -> Forall valid_call l ->
  exists t t' log, mrun (code_of q) (tp_new, []) l = Ok (t, log) /\ trun tp_new l = Ok (t', log) /\
    tp_state t = tp_state t' /\ tp_cons t = tp_cons t' /\ (tp_state t <> ERROR -> t = t').
Proof. exact harmless_same. Qed.
Print Assumptions C103_harmless.
(** Both restrictions are needed: the calls of a consumer that changes the section, or puts
    something into the value of a line without one, are others. *)
Theorem C103_section_refuted : exists q f l t t' log log', leaves q f /\ (forall lg s k, snd (f lg (s, k, [])) = []) /\ Forall valid_call l /\
  mrun (code_of q) (tp_new, []) l = Ok (t, log) /\ trun tp_new l = Ok (t', log') /\ log <> log'.
Proof.
  exists renamer, renamer_leaves, demo_text. do 4 eexists. split; [apply examples_leave|].
  split; [intros lg s k; cbn [renamer_leaves]; destruct lg as [|? [|? ?]]; reflexivity|].
  split; [repeat constructor; eexists; apply zb_holds; cbn; lia|]. split; [vm_compute; reflexivity|]. split; [vm_compute; reflexivity|discriminate].
Qed.
Print Assumptions C103_section_refuted.
Theorem C103_value_refuted : exists q f l t t' log log', leaves q f /\ (forall lg s k v, fst (fst (f lg (s, k, v))) = s) /\ Forall valid_call l /\
  mrun (code_of q) (tp_new, []) l = Ok (t, log) /\ trun tp_new l = Ok (t', log') /\ log <> log'.
Proof.
  exists marker, marker_leaves, demo_text. do 4 eexists. split; [apply examples_leave|]. split; [reflexivity|].
  split; [repeat constructor; eexists; apply zb_holds; cbn; lia|]. split; [vm_compute; reflexivity|]. split; [vm_compute; reflexivity|discriminate].
Qed.
Print Assumptions C103_value_refuted.
Example C103_case : leaves mover mover_leaves /\ harmless mover_leaves /\ Forall valid_call demo_text /\
  (exists t, trun tp_new demo_text = Ok (t, map as_buffers [(zs "lok", zs "flag", []); (zs "lok", zs "a", zs "1"); (zs "lok", zs "b", zs "2")])).
Proof.
  split; [apply examples_leave|]. split; [intros log s k v; split; [reflexivity|intros ->; reflexivity]|].
  split; [repeat constructor; eexists; apply zb_holds; cbn; lia|]. eexists. vm_compute. reflexivity.
Qed.

(** ** C104 *)
(** A document, cut in any way, read by any consumer: a changed section stays until the next
    section line; what is left in the value of a line without value comes in front of the next
    value; anything else the consumer changes is forgotten.  The parser fails exactly if a value
    becomes too long that way. *)
Theorem C104_documents : forall q f n d gap cut bs, leaves q f -> doc_ok d -> free_of [SQ_OPEN; DOT] gap ->
  List.concat cut = show_doc d ++ gap -> short cut -> texts cut bs ->
  exists t log, mrun (code_of q) (tp_new, []) (TConsumer (Some n) :: map TText bs) = Ok (t, log) /\
    (tp_state t <> ERROR <-> values_fit f [] [] [] d) /\
    (values_fit f [] [] [] d -> log = map as_buffers (meddled f [] [] [] d)).
Proof. exact read_doc. Qed.
Print Assumptions C104_documents.
Definition C104_doc : doc := [([], ISection (zs "lok")); ([10; 32], IFlag (zs "ende")); ([32], IPair (zs "a") (zs "1")); ([32], IPair (zs "b") (zs "2"))].
Definition C104_long : doc := [([], IFlag (zs "ende")); ([32], IPair (zs "a") (repeat 65 26))].
Example C104_case : doc_ok C104_doc /\ doc_ok C104_long /\
  values_fit marker_leaves [] [] [] C104_doc /\
  meddled marker_leaves [] [] [] C104_doc = [(zs "lok", zs "ende", []); (zs "lok", zs "a", zs "X1"); (zs "lok", zs "b", zs "2")] /\
  ~ values_fit marker_leaves [] [] [] C104_long /\ values_fit mover_leaves [] [] [] C104_long.
Proof.
  split; [repeat first [apply Forall_nil | apply Forall_cons | split]; cbn; intuition (try discriminate; try lia)|].
  split; [repeat first [apply Forall_nil | apply Forall_cons | split]; cbn; intuition (try discriminate; try lia)|].
  split; [cbn; lia|]. split; [reflexivity|]. split; [cbn; lia|cbn; lia].
Qed.
