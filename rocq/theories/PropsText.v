(* PropsText.v -- property theorems about the text parser: C34-C39.
   Vocabulary: SpecText.v (the automaton [astep]/[afeed], documents, call histories). *)
From Verif Require Import SpecText ProofsText.

(** ** C34: tokenising does not depend on the cutting *)
(** Feeding a text in pieces of at most 30 characters is the same as running the character
    automaton over the joined text; only after a parse error do further pieces add error reports. *)
Theorem C34_any_cut_is_char_by_char : forall t cut bs, used t -> tp_state t <> ERROR -> texts cut bs -> short cut ->
  exists a n, t = parser a (tp_cons t) /\ fits a /\
    trun t (map TText bs) = Ok (parser (fst (afeed a (List.concat cut))) (tp_cons t),
        told (tp_cons t) (snd (afeed a (List.concat cut)) ++ repeat error_report n)) /\
    (a_at (fst (afeed a (List.concat cut))) <> Failed -> n = 0%nat).
Proof. exact used_cut. Qed.
Print Assumptions C34_any_cut_is_char_by_char.
Theorem C34_two_cuts_agree : forall t cut1 bs1 cut2 bs2, used t -> tp_state t <> ERROR ->
  texts cut1 bs1 -> short cut1 -> texts cut2 bs2 -> short cut2 -> List.concat cut1 = List.concat cut2 ->
  exists t' e1 e2, trun t (map TText bs1) = Ok (t', e1) /\ trun t (map TText bs2) = Ok (t', e2) /\
    (tp_state t' <> ERROR -> e1 = e2) /\
    (exists e n1 n2, e1 = told (tp_cons t) (e ++ repeat error_report n1) /\ e2 = told (tp_cons t) (e ++ repeat error_report n2)).
Proof. exact used_two_cuts. Qed.
Print Assumptions C34_two_cuts_agree.
(** the states [parser a c] with [fits a] are all the states a parser ever has *)
Theorem C34_states_covered : forall l, Forall valid_call l -> exists a c evs, trun tp_new l = Ok (parser a c, evs) /\ fits a.
Proof. exact reachable. Qed.
Print Assumptions C34_states_covered.
Example C34_case :
  let b x := zb 8 x in
  texts [zs "[lok]"; zs ".n=1"; [10]] [b (zs "[lok]"); b (zs ".n=1"); b [10]] /\
  short [zs "[lok]"; zs ".n=1"; [10]] /\ fits astart /\
  trun (parser astart (Some 0%nat)) (map TText [b (zs "[lok]"); b (zs ".n=1"); b [10]]) =
    Ok (parser (mkA Between (zs "lok") [] []) (Some 0%nat), [as_buffers (zs "lok", zs "n", zs "1")]) /\
  trun (parser astart (Some 0%nat)) (map TText [b (zs "[l"); b (zs "ok].n"); b (zs "=1" ++ [10])]) =
    Ok (parser (mkA Between (zs "lok") [] []) (Some 0%nat), [as_buffers (zs "lok", zs "n", zs "1")]).
Proof.
  cbv zeta. split; [repeat constructor; discriminate|]. split; [repeat constructor; discriminate|].
  split; [exact start_fits|]. split; vm_compute; reflexivity.
Qed.

(** ** C35: parsing inverts printing *)
Theorem C35_parse_shown_document : forall t d gap sec cut bs, used t -> tp_state t = LOOKING -> holds (tp_sec t) sec ->
  doc_ok d -> free_of [SQ_OPEN; DOT] gap -> List.concat cut = show_doc d ++ gap -> short cut -> texts cut bs ->
  exists t', trun t (map TText bs) = Ok (t', told (tp_cons t) (reports sec d)) /\
    tp_state t' = LOOKING /\ tp_cons t' = tp_cons t /\ holds (tp_sec t') (last_section sec d).
Proof. exact used_doc. Qed.
Print Assumptions C35_parse_shown_document.
(** the initial state is an instance: a new parser with a consumer set *)
Example C35_start : forall c, used (tp_setConsumer tp_new c) /\ tp_state (tp_setConsumer tp_new c) = LOOKING /\ holds (tp_sec (tp_setConsumer tp_new c)) [].
Proof.
  intros c. split; [exists [TConsumer c], []; split; [repeat constructor|reflexivity]|]. split; [reflexivity|]. apply (zb_holds 11 []); cbn; lia.
Qed.
Definition C35_doc : doc :=
  [([], ISection (zs "lok")); ([10; 32], IPair (zs "name") (zs "98 1001"));
   (zs " ", IFlag (zs "ende")); ([], ISection (zs "numloks")); ([10; 32], IPair (zs "wert") (zs "1 .[]="))].
Example C35_case : doc_ok C35_doc /\
  reports [] C35_doc =
    [(zs "lok", zs "name", zs "98 1001"); (zs "lok", zs "ende", []); (zs "numloks", zs "wert", zs "1 .[]=")].
Proof.
  split; [|reflexivity].
  repeat first [apply Forall_nil | apply Forall_cons | split]; cbn; intuition (try discriminate; try lia).
Qed.

(** ** C36: exact token length limits (11, 11, 26) *)
Theorem C36_section_limit : forall t c s cut bs, used t -> tp_state t = LOOKING -> tp_cons t = Some c -> free_of [SQ_CLOSE] s ->
  texts cut bs -> short cut -> List.concat cut = [SQ_OPEN] ++ s -> limited 11 s (trun t (map TText bs)).
Proof. exact used_section. Qed.
Print Assumptions C36_section_limit.
Theorem C36_key_limit : forall t c s cut bs, used t -> tp_state t = LOOKING -> tp_cons t = Some c -> free_of [EQUALS; NEWLINE] s ->
  texts cut bs -> short cut -> List.concat cut = [DOT] ++ s -> limited 11 s (trun t (map TText bs)).
Proof. exact used_key. Qed.
Print Assumptions C36_key_limit.
(** a key one character too long, cut inside it *)
Example C36_case_key : free_of [EQUALS; NEWLINE] (zs "funktionen_x") /\ List.length (zs "funktionen_x") = 12%nat /\
  List.concat [zs ".funkti"; zs "onen_x"] = [DOT] ++ zs "funktionen_x" /\
  (exists t, trun (tp_setConsumer tp_new (Some 3%nat)) (map TText [zb 30 (zs ".funkti"); zb 30 (zs "onen_x")]) = Ok (t, [as_buffers error_report]) /\ tp_state t = ERROR) /\
  (exists t, trun (tp_setConsumer tp_new (Some 3%nat)) (map TText [zb 30 (zs ".funkti"); zb 30 (zs "onen_")]) = Ok (t, []) /\ tp_state t = PARSING_KEY).
Proof.
  split; [repeat constructor; cbn; intuition discriminate|]. split; [reflexivity|]. split; [reflexivity|].
  split; (eexists; split; [vm_compute; reflexivity|reflexivity]).
Qed.
Theorem C36_value_limit : forall t c k s cut bs, used t -> tp_state t = LOOKING -> tp_cons t = Some c ->
  free_of [EQUALS; NEWLINE] k -> (List.length k <= 11)%nat ->
  free_of [NEWLINE] s -> texts cut bs -> short cut -> List.concat cut = ([DOT] ++ k ++ [EQUALS]) ++ s -> limited 26 s (trun t (map TText bs)).
Proof. exact used_value. Qed.
Print Assumptions C36_value_limit.
(** a value one character too long *)
Example C36_case_value : free_of [EQUALS; NEWLINE] (zs "name") /\ free_of [NEWLINE] (repeat 65 27) /\
  List.concat [zs ".name=" ++ repeat 65 20; repeat 65 7] = ([DOT] ++ zs "name" ++ [EQUALS]) ++ repeat 65 27 /\
  (exists t, trun (tp_setConsumer tp_new (Some 3%nat)) (map TText [zb 30 (zs ".name=" ++ repeat 65 20); zb 30 (repeat 65 7)]) = Ok (t, [as_buffers error_report]) /\ tp_state t = ERROR) /\
  (exists t, trun (tp_setConsumer tp_new (Some 3%nat)) (map TText [zb 30 (zs ".name=" ++ repeat 65 20); zb 30 (repeat 65 6)]) = Ok (t, []) /\ tp_state t = PARSING_VALUE).
Proof.
  split; [repeat constructor; cbn; intuition discriminate|]. split; [cbn [repeat]; repeat constructor; cbn; intuition discriminate|]. split; [reflexivity|].
  split; (eexists; split; [vm_compute; reflexivity|reflexivity]).
Qed.
Example C36_case : free_of [SQ_CLOSE] (zs "lokomotive12") /\ List.length (zs "lokomotive12") = 12%nat /\
  kSectionLength + 1 = 11 /\ kKeyLength + 1 = 11 /\ kValueLength + 1 = 26.
Proof. repeat split. repeat constructor; cbn; intuition discriminate. Qed.

(** ** C37: parse errors are sticky *)
Theorem C37_errors_are_sticky : forall l t e bs cut,
  Forall valid_call l -> trun tp_new l = Ok (t, e) -> tp_state t = ERROR -> texts cut bs ->
  exists t', trun t (map TText bs) = Ok (t', told (tp_cons t) (repeat error_report (List.length bs))) /\
    tp_state t' = ERROR /\ tp_cons t' = tp_cons t.
Proof. exact sticky. Qed.
Print Assumptions C37_errors_are_sticky.
Theorem C37_reset_is_a_new_parser : forall l t e,
  Forall valid_call l -> trun tp_new l = Ok (t, e) -> tp_reset t = Ok tp_new.
Proof. exact sticky_reset. Qed.
Print Assumptions C37_reset_is_a_new_parser.
Theorem C37_too_long_text_is_an_error : forall l t e b s,
  Forall valid_call l -> trun tp_new l = Ok (t, e) -> holds b s -> zlen s > 30 ->
  exists t', tp_addText t b = Ok (t', told (tp_cons t) [error_report]) /\ tp_state t' = ERROR.
Proof. exact too_long. Qed.
Print Assumptions C37_too_long_text_is_an_error.
Example C37_case_too_long : holds (zb 31 (repeat 65 31)) (repeat 65 31) /\
  exists t', tp_addText (tp_setConsumer tp_new (Some 3%nat)) (zb 31 (repeat 65 31)) = Ok (t', [as_buffers error_report]) /\ tp_state t' = ERROR.
Proof. split; [repeat split; try reflexivity; cbn; lia|]. eexists. split; [vm_compute; reflexivity|reflexivity]. Qed.
(** a constructed parser does not depend on what its memory held: reset() of arrays with any content *)
Theorem C37_constructor : forall m1 m2 m3 m4 n1 n2 n3 n4 state consumer,
  List.length m1 = 31%nat -> List.length m2 = 11%nat -> List.length m3 = 11%nat -> List.length m4 = 26%nat ->
  tp_reset (mkTP state consumer (mkBuf m1 n1 31) (mkBuf m2 n2 11) (mkBuf m3 n3 11) (mkBuf m4 n4 26)) = Ok tp_new.
Proof. exact constructed. Qed.
Print Assumptions C37_constructor.
Example C37_case : exists t e,
  trun tp_new [TConsumer (Some 3%nat); TText (zb 30 (zs "[lokomotive12"))] = Ok (t, e) /\
  tp_state t = ERROR /\ e = [as_buffers error_report].
Proof. eexists. eexists. vm_compute. repeat split. Qed.

(** ** C38: memory safety and termination *)
Theorem C38_no_undefined_behaviour : forall l, Forall valid_call l ->
  exists t evs, trun tp_new l = Ok (t, evs) /\ blen (tp_buf t) = 0 /\
    (exists s k v, holds (tp_sec t) s /\ holds (tp_key t) k /\ holds (tp_val t) v).
Proof. exact parser_safe. Qed.
Print Assumptions C38_no_undefined_behaviour.
Example C38_case : Forall valid_call
  [TConsumer (Some 1%nat); TText (zb 200 (repeat 46 200)); TReset; TText (zb 3 [91; 0; 10])].
Proof.
  repeat first [apply Forall_nil | apply Forall_cons]; cbn [valid_call]; try exact I.
  - exists (repeat 46 200). repeat split; cbn; lia.
  - exists [91; 0; 10]. repeat split; cbn; lia.
Qed.

(** ** C39: NUL termination of reported tokens *)
Theorem C39_reported_tokens : forall l t evs,
  Forall valid_call l -> trun tp_new l = Ok (t, evs) -> forall bs bk bv, In (bs, bk, bv) evs ->
  exists s k v, holds bs s /\ holds bk k /\ holds bv v /\
    zlen (mem bs) = 11 /\ zlen (mem bk) = 11 /\ zlen (mem bv) = 26 /\
    (c_str (mem bs) = Ok s <-> nulfree s /\ (List.length s < 11)%nat) /\
    (c_str (mem bk) = Ok k <-> nulfree k /\ (List.length k < 11)%nat) /\
    (c_str (mem bv) = Ok v <-> nulfree v /\ (List.length v < 26)%nat) /\
    (c_str (mem bs) = UB OutOfBounds <-> nulfree s /\ (List.length s = 11)%nat) /\
    (c_str (mem bk) = UB OutOfBounds <-> nulfree k /\ (List.length k = 11)%nat) /\
    (c_str (mem bv) = UB OutOfBounds <-> nulfree v /\ (List.length v = 26)%nat).
Proof. exact reported. Qed.
Print Assumptions C39_reported_tokens.
(** a value of 25 characters is reported as a C string, one of 26 is not *)
Example C39_case : exists t s k v s' k' v',
  trun tp_new [TConsumer (Some 0%nat); TText (zb 30 (zs "[a].k=")); TText (zb 30 (repeat 65 25 ++ [NEWLINE])); TText (zb 30 (zs ".k=" ++ repeat 65 26)); TText (zb 1 [NEWLINE])] =
    Ok (t, [(s, k, v); (s', k', v')]) /\
  c_str (mem s) = Ok (zs "a") /\ c_str (mem v) = Ok (repeat 65 25) /\ holds v' (repeat 65 26) /\ c_str (mem v') = UB OutOfBounds.
Proof.
  do 7 eexists. split; [vm_compute; reflexivity|]. split; [reflexivity|]. split; [reflexivity|]. split; [|reflexivity].
  repeat split; try reflexivity; cbn; lia.
Qed.
(** an unterminated value really is reported *)
Theorem C39_terminated_refuted : exists b t bs bk bv, valid_call (TText b) /\
  trun tp_new [TConsumer (Some 0%nat); TText b] = Ok (t, [(bs, bk, bv)]) /\ c_str (mem bv) = UB OutOfBounds.
Proof.
  exists (zb 30 (zs ".k=" ++ repeat 65 26 ++ [10])). do 4 eexists. split.
  - exists (zs ".k=" ++ repeat 65 26 ++ [10]). apply zb_holds; cbn; lia.
  - split; vm_compute; reflexivity.
Qed.
Print Assumptions C39_terminated_refuted.
