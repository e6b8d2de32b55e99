(* PropsTouchLog.v -- property theorems about the logging builds with user code that changes the buffers
   of parsers: C133.  Vocabulary: SpecTouchLog.v; the model: LoggedTouch.v.  [texec] is the build with the
   template's setting, [wexec g] the build with setting g. *)
From Verif Require Import ZLib SpecTouchLog ProofsCrc ProofsText ProofsSafe ProofsConsumer ProofsExact ProofsLogged ProofsTalk ProofsTouchLog Demo DemoStream PropsSafe PropsReentry PropsRsafe PropsLogged PropsExact PropsFatal PropsTalk PropsMeddle PropsTouch.
From Verif Require ProofsTouch.

(** ** C133 *)
(** As C127, for user code that also changes the section, key and value buffers of parsers: the run is
    defined and leaves the objects initialised; or the stack was exhausted; or memory was read out of
    bounds, and then the last thing that happened, but for output, is that a consumer was handed a line it
    reads beyond, or began to print an engine whose protocol string is not terminated, or - only in
    builds that print the lines of config data - was handed a line of which a part fills its buffer. *)
Theorem C133_last_things : forall lw g react n w c t r s, decent w -> does_only w (legal_op w) c -> (forall h, does_only w (legal_op w) (react h)) ->
  wexec lw g react n c (mkR w t) = (r, s) ->
  (r = Ok tt /\ decent (r_w s) /\ same_objects w (r_w s)) \/ r = UB TooDeep \/
  (r = UB OutOfBounds /\ same_objects w (r_w s) /\
    (by_a_line_logged (r_w s) (r_t s) \/ by_an_engine (r_w s) (r_t s) \/ (prints_lines g /\ by_printing (r_w s) (r_t s)))).
Proof. exact touch_last_logged. Qed.
Print Assumptions C133_last_things.
Theorem C133_own_consumers : forall lw g react n w c t r s, decent w -> does_only w (legal_op w) c -> (forall h, does_only w (legal_op w) (react h)) ->
  Forall (fun x => x = UserC) (w_conss w) -> wexec lw g react n c (mkR w t) = (r, s) -> (r = Ok tt /\ decent (r_w s)) \/ r = UB TooDeep.
Proof. exact touch_own_logged. Qed.
Print Assumptions C133_own_consumers.
(** whatever is logged and whatever is called, for code that does not look at the console: a logging
    build ends as the plain one does, with the same objects - buffers included - and the trace of the
    plain one with console output inserted; or it stops with undefined behaviour, having done until
    then what the plain one does *)
Theorem C133_only_the_console_differs : forall lw g react n c w t r s r' s', deaf_user react -> deaf_tcode c ->
  texec lw react n c (mkR w t) = (r, s) -> wexec lw g react n c (mkR w t) = (r', s') ->
  (r' = r /\ r_w s' = r_w s /\ more_output (r_t s) (r_t s')) \/ ((exists u, r' = UB u) /\ as_far_as (r_t s) (r_t s')).
Proof. exact touch_console. Qed.
Print Assumptions C133_only_the_console_differs.
(** with legal calls and buffer operations the latter happens only in builds that print lines, where a
    line that fills a buffer was to be printed *)
Theorem C133_only_overfull_lines_matter : forall lw g react n w c t r s r' s', decent w -> does_only w (legal_op w) c -> (forall h, does_only w (legal_op w) (react h)) ->
  deaf_user react -> deaf_tcode c -> texec lw react n c (mkR w t) = (r, s) -> wexec lw g react n c (mkR w t) = (r', s') ->
  (r' = r /\ r_w s' = r_w s /\ more_output (r_t s) (r_t s')) \/
  (r' = UB OutOfBounds /\ prints_lines g /\ by_printing (r_w s') (r_t s') /\ as_far_as (r_t s) (r_t s')).
Proof. exact touch_overfull. Qed.
Print Assumptions C133_only_overfull_lines_matter.
(** a setting that enables no section is the template's *)
Theorem C133_silent_settings : forall lw g react n c s, silent g -> wexec lw g react n c s = texec lw react n c s.
Proof. intros lw g react n c s SG. exact (aw_exec lw g react SG n c s). Qed.
Print Assumptions C133_silent_settings.
(** code that leaves the buffers alone: the runs of C126 and C127 *)
Theorem C133_leaving_them_alone : forall lw g react n c s, wexec lw g (fun h => plain (react h)) n (plain c) s = vexec lw g react n c s.
Proof. intros. apply plain_same_logged. Qed.
Print Assumptions C133_leaving_them_alone.

(** ** Case: the user consumer of C130_case, which fills the value buffer of parser p.  The engine's
    name takes 16 characters of the 26, so the plain build is fine; a build that prints lines is not
    if p is its own parser. *)
Definition filling_calls (p : nat) (h : list event) : tcode := filling p (calls h).
Lemma filling_deaf : forall p, deaf_user (filling_calls p).
Proof.
  intros p. split; [intros t t' E; unfold filling_calls; rewrite E; reflexivity|]. intros t. unfold filling_calls, filling.
  destruct (rev (calls t)) as [|e r]; [constructor|]. destruct e; try constructor. destruct c as [|[|[|c]]]; try constructor; [reflexivity|]. intros. constructor; [reflexivity|]. constructor.
Qed.
Lemma calls_deaf : forall l, deaf_tcode (calls_of l). Proof. induction l; cbn [calls_of]; constructor; auto. Qed.
Definition name_text : list Z := zs "[lokomotive] .x" ++ nl ++ zs " .name=" ++ nl.
Lemma name_legal : does_only good_user (legal_op good_user) (calls_of (demo_ops 0 2 name_text)).
Proof.
  apply calls_do. eapply Forall_impl; [intros o V; left; exact V|]. apply demo_valid; [cbn; lia|exists (demo_parser (Some 0%nat)); reflexivity|cbn; lia|cbn; lia|vm_compute; reflexivity].
Qed.
Example C133_case : decent good_user /\ (forall p h, (p < 2)%nat -> does_only good_user (legal_op good_user) (filling_calls p h)) /\
  does_only good_user (legal_op good_user) (calls_of (demo_ops 0 2 name_text)) /\ (forall p, deaf_user (filling_calls p)) /\ deaf_tcode (calls_of (demo_ops 0 2 name_text)) /\
  (exists s s', texec 64 (filling_calls 1) 2 (calls_of (demo_ops 0 2 name_text)) (mkR good_user []) = (Ok tt, s) /\
     wexec 64 verbose (filling_calls 1) 2 (calls_of (demo_ops 0 2 name_text)) (mkR good_user []) = (Ok tt, s') /\
     (List.length (r_t s) + 5 < List.length (r_t s'))%nat /\ r_w s' = r_w s) /\
  (exists s, texec 64 (filling_calls 0) 2 (calls_of (demo_ops 0 2 name_text)) (mkR good_user []) = (Ok tt, s)) /\
  (exists s, wexec 64 verbose (filling_calls 0) 2 (calls_of (demo_ops 0 2 name_text)) (mkR good_user []) = (UB OutOfBounds, s) /\ by_printing (r_w s) (r_t s)).
Proof.
  assert (FD : forall p h, (p < 2)%nat -> does_only good_user (legal_op good_user) (filling_calls p h)) by (intros p h P; apply filling_does; exact P).
  split; [exact good_user_decent|]. split; [exact FD|]. split; [exact name_legal|]. split; [exact filling_deaf|]. split; [apply calls_deaf|].
  split. { eexists. eexists. split; [vm_compute; reflexivity|]. split; [vm_compute; reflexivity|]. split; [vm_compute; lia|vm_compute; reflexivity]. }
  assert (P1 : exists s, texec 64 (filling_calls 0) 2 (calls_of (demo_ops 0 2 name_text)) (mkR good_user []) = (Ok tt, s)) by (eexists; vm_compute; reflexivity).
  split; [exact P1|]. destruct P1 as (s1 & E1).
  destruct (wexec 64 verbose (filling_calls 0) 2 (calls_of (demo_ops 0 2 name_text)) (mkR good_user [])) as (r, s) eqn:E. exists s.
  assert (R : r = UB OutOfBounds). { change r with (fst (r, s)). rewrite <- E. vm_compute. reflexivity. }
  subst r. split; [reflexivity|].
  destruct (C133_only_overfull_lines_matter 64 verbose (filling_calls 0) 2 good_user _ [] _ s1 _ s good_user_decent name_legal (fun h => FD 0%nat h ltac:(lia)) (filling_deaf 0) (calls_deaf _) E1 E) as [(H & _)|(_ & _ & H & _)]; [discriminate|exact H].
Qed.
