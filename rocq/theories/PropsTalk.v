(* PropsTalk.v -- property theorems about the logging builds with callbacks that call back: C126,
   C127.  Vocabulary: SpecTalk.v; the model: LoggedReentry.v.  [rexec] is the build with the
   template's setting, [vexec g] the build with setting g. *)
From Verif Require Import ZLib SpecTalk ProofsCrc ProofsText ProofsSafe ProofsConsumer ProofsExact ProofsLogged ProofsTalk ProofsTalkSafe ProofsTalkExact ProofsPassiveLogged ProofsAgreeLogged Demo DemoStream PropsSafe PropsReentry PropsRsafe PropsLogged PropsExact PropsFatal.

(** ** C126 *)
(** Whatever is logged, for programs and callbacks that do not look at the console: a logging build
    ends as the plain one does, with the same objects and the trace of the plain one with console
    output inserted; or it stops with undefined behaviour, having done until then what the plain one
    does. *)
Theorem C126_only_the_console_differs : forall lw g react n c w t r s r' s', deaf react -> deaf_code c ->
  rexec lw react n c (mkR w t) = (r, s) -> vexec lw g react n c (mkR w t) = (r', s') ->
  (r' = r /\ r_w s' = r_w s /\ more_output (r_t s) (r_t s')) \/ ((exists u, r' = UB u) /\ as_far_as (r_t s) (r_t s')).
Proof. exact only_the_console. Qed.
Print Assumptions C126_only_the_console_differs.
(** any two settings: the same objects in the end and the same calls, in the same order *)
Theorem C126_same_calls : forall lw g g' react n c w t s s', deaf react -> deaf_code c ->
  vexec lw g react n c (mkR w t) = (Ok tt, s) -> vexec lw g' react n c (mkR w t) = (Ok tt, s') -> r_w s = r_w s' /\ calls (r_t s) = calls (r_t s').
Proof.
  intros lw g g' react n c w t s s' DF DC E E'. destruct (rexec lw react n c (mkR w t)) as (r0, s0) eqn:E0.
  destruct (only_the_console lw g react n c w t _ _ _ _ DF DC E0 E) as [(_ & A & B)|((u & H) & _)]; [|discriminate].
  destruct (only_the_console lw g' react n c w t _ _ _ _ DF DC E0 E') as [(_ & A' & B')|((u & H) & _)]; [|discriminate].
  split; [congruence|]. rewrite <- (mo_calls _ _ B), <- (mo_calls _ _ B'). reflexivity.
Qed.
Print Assumptions C126_same_calls.
(** a setting that enables no section is the template's, for any program and callbacks *)
Theorem C126_silent_settings : forall lw g react n c s, silent g -> vexec lw g react n c s = rexec lw react n c s.
Proof. intros lw g react n c s SG. exact (a_exec lw g react SG n c s). Qed.
Print Assumptions C126_silent_settings.
(** callbacks that do nothing: the runs of C65 and C66, output included *)
Theorem C126_passive_callbacks : forall lw g react n ops w t w' t', (forall h, react h = Ret) -> lrun lw g ops w = Ok (w', t') ->
  vexec lw g react (S n) (ops_code ops) (mkR w t) = (Ok tt, mkR w' (t ++ t')).
Proof. exact passive_logged. Qed.
Print Assumptions C126_passive_callbacks.
(** and only those: with such callbacks this model and the model of C65 and C66 allow the same
    outcomes, in both directions *)
Theorem C126_passive_exact : forall lw g react n ops w t w' t', (forall h, react h = Ret) ->
  (lrun lw g ops w = Ok (w', t') <-> vexec lw g react (S n) (ops_code ops) (mkR w t) = (Ok tt, mkR w' (t ++ t'))).
Proof. exact logged_exact. Qed.
Print Assumptions C126_passive_exact.
(** in particular the histories with undefined behaviour are the same *)
Theorem C126_passive_undefined : forall lw g react n ops w t, (forall h, react h = Ret) ->
  ((exists u, lrun lw g ops w = UB u) <-> exists u s, vexec lw g react (S n) (ops_code ops) (mkR w t) = (UB u, s)).
Proof. exact logged_undefined. Qed.
Print Assumptions C126_passive_undefined.
(** callbacks that look at the console notice: one that sends a second system command once a certain
    number of lines has been printed *)
Definition system_frame : CanFrame := mkFrame (id_value 0 0 0 false 0x0300) (mkData 5 [0; 0; 0; 0; 0; 0; 0; 0; 0]).
Definition looking (h : list event) : code := if Nat.ltb 4 (List.length h) then Ret else ops_code [OnStation 0 (HandlePacket system_frame)].
Theorem C126_looking_at_the_console_refuted : exists w s s', sound w /\
  rexec 64 looking 3 (ops_code [OnStation 0 (HandlePacket system_frame)]) (mkR w []) = (Ok tt, s) /\
  vexec 64 verbose looking 3 (ops_code [OnStation 0 (HandlePacket system_frame)]) (mkR w []) = (Ok tt, s') /\ calls (r_t s) <> calls (r_t s').
Proof. exists demo_good. eexists. eexists. split; [exact demo_sound|]. split; [vm_compute; reflexivity|]. split; [vm_compute; reflexivity|]. vm_compute. discriminate. Qed.
Print Assumptions C126_looking_at_the_console_refuted.

(** ** C127 *)
(** As C125, for every logging build: the run is defined and leaves the objects initialised; or the
    stack was exhausted; or memory was read out of bounds, and then the last thing that happened, but
    for output, is that a consumer was handed a line it reads beyond, or began to print an engine
    whose protocol string is not terminated, or - only in builds that print the lines of config data -
    was handed a line of which a part fills its buffer, and was to print it. *)
Theorem C127_last_things : forall lw g react n w c t r s, decent w -> only_calls (legal_op w) c -> (forall h, only_calls (legal_op w) (react h)) ->
  vexec lw g react n c (mkR w t) = (r, s) ->
  (r = Ok tt /\ decent (r_w s) /\ same_objects w (r_w s)) \/ r = UB TooDeep \/
  (r = UB OutOfBounds /\ same_objects w (r_w s) /\
    (by_a_line_logged (r_w s) (r_t s) \/ by_an_engine (r_w s) (r_t s) \/ (prints_lines g /\ by_printing (r_w s) (r_t s)))).
Proof. exact last_things_logged. Qed.
Print Assumptions C127_last_things.
(** no setting makes the library use a null or dangling pointer or an uninitialised variable, not
    even for the checksums it prints *)
Theorem C127_only_out_of_bounds : forall lw g react n w c t u s, decent w -> only_calls (legal_op w) c -> (forall h, only_calls (legal_op w) (react h)) ->
  vexec lw g react n c (mkR w t) = (UB u, s) -> u = OutOfBounds \/ u = TooDeep.
Proof. intros lw g react n w c t u s D OC RH E. destruct (last_things_logged lw g react n w c t _ s D OC RH E) as [(H & _)|[H|(H & _)]]; [discriminate|injection H; auto|injection H; auto]. Qed.
Print Assumptions C127_only_out_of_bounds.
Theorem C127_own_consumers : forall lw g react n w c t r s, decent w -> only_calls (legal_op w) c -> (forall h, only_calls (legal_op w) (react h)) ->
  Forall (fun x => x = UserC) (w_conss w) -> vexec lw g react n c (mkR w t) = (r, s) -> (r = Ok tt /\ decent (r_w s)) \/ r = UB TooDeep.
Proof. exact own_consumers_logged. Qed.
Print Assumptions C127_own_consumers.
(** all that a setting can change, for programs and callbacks that do not look at the console: either
    nothing but the output - the run ends as that of the plain build, be it defined or not - or lines
    are printed, and the run stops where a line that fills a buffer was to be printed *)
Theorem C127_only_overfull_lines_matter : forall lw g react n w c t r s r' s', decent w -> only_calls (legal_op w) c -> (forall h, only_calls (legal_op w) (react h)) ->
  deaf react -> deaf_code c -> rexec lw react n c (mkR w t) = (r, s) -> vexec lw g react n c (mkR w t) = (r', s') ->
  (r' = r /\ r_w s' = r_w s /\ more_output (r_t s) (r_t s')) \/
  (r' = UB OutOfBounds /\ prints_lines g /\ by_printing (r_w s') (r_t s') /\ as_far_as (r_t s) (r_t s')).
Proof. exact only_overfull. Qed.
Print Assumptions C127_only_overfull_lines_matter.
(** hence a build that does not print lines is as good as the plain one *)
Theorem C127_without_lines : forall lw g react n w c t r s, decent w -> only_calls (legal_op w) c -> (forall h, only_calls (legal_op w) (react h)) ->
  deaf react -> deaf_code c -> ~ prints_lines g -> rexec lw react n c (mkR w t) = (r, s) ->
  exists s', vexec lw g react n c (mkR w t) = (r, s') /\ r_w s' = r_w s /\ more_output (r_t s) (r_t s').
Proof.
  intros lw g react n w c t r s D OC RH DF DC NP E. destruct (vexec lw g react n c (mkR w t)) as (r', s') eqn:E'. exists s'.
  destruct (only_overfull lw g react n w c t r s r' s' D OC RH DF DC E E') as [(-> & A & B)|(_ & P & _)]; [auto|contradiction].
Qed.
Print Assumptions C127_without_lines.

(** ** Cases *)
Lemma ops_deaf : forall l, deaf_code (ops_code l).
Proof. induction l; cbn [ops_code]; constructor; auto. Qed.
(** called for the last call, whatever was printed since *)
Definition on_last_call (f : event -> list op) (h : list event) : code :=
  match rev (calls h) with [] => Ret | e :: _ => ops_code (f e) end.
Lemma on_last_call_deaf : forall f, deaf (on_last_call f).
Proof.
  intros f. split; [intros t t' E; unfold on_last_call; rewrite E; reflexivity|]. intros t. unfold on_last_call. destruct (rev (calls t)); [constructor|apply ops_deaf].
Qed.
(** a system command makes the callback feed the parser an engine description, whose end makes
    another callback ask for the list *)
Definition chatty : list event -> code :=
  on_last_call (fun e => match e with
    | EvSystem _ _ _ => demo_ops 0 0 (show_doc demo_doc)
    | EvEndComplete _ _ => [OnStation 0 (SendAccessoryPacket 5 P_MM2 1 1)]
    | _ => [] end).
Example C126_case : deaf chatty /\ deaf_code system_call /\
  exists s s', rexec 64 chatty 3 system_call (mkR demo_good []) = (Ok tt, s) /\ vexec 64 verbose chatty 3 system_call (mkR demo_good []) = (Ok tt, s') /\
    (List.length (r_t s) + 20 < List.length (r_t s'))%nat /\ notes (r_t s') = [EvStreamComplete 0; EvEndComplete 7 0].
Proof.
  split; [apply on_last_call_deaf|]. split; [apply ops_deaf|]. eexists. eexists. split; [vm_compute; reflexivity|]. split; [vm_compute; reflexivity|]. split; [vm_compute; lia|]. vm_compute. reflexivity.
Qed.
Example C126_case_passive : exists w t, lrun 64 verbose (demo_ops 0 0 (show_doc demo_doc)) demo_good = Ok (w, t) /\
  vexec 64 verbose (fun _ => Ret) 1 (ops_code (demo_ops 0 0 (show_doc demo_doc))) (mkR demo_good []) = (Ok tt, mkR w t).
Proof. eexists. eexists. split; vm_compute; reflexivity. Qed.
(** a key of 11 characters: fine in the template's build, undefined in one that prints lines *)
Definition long_key : list Z := zs "[lokomotive] .funktionenX=1" ++ nl.
Example C126_case_undefined : exists u s, lrun 64 verbose (demo_ops 0 0 long_key) demo_good = UB u /\
  vexec 64 verbose (fun _ => Ret) 1 (ops_code (demo_ops 0 0 long_key)) (mkR demo_good []) = (UB OutOfBounds, s) /\
  (exists w t, run 64 (demo_ops 0 0 long_key) demo_good = Ok (w, t)).
Proof.
  destruct (vexec 64 verbose (fun _ => Ret) 1 (ops_code (demo_ops 0 0 long_key)) (mkR demo_good [])) as (r, s) eqn:E.
  assert (R : fst (vexec 64 verbose (fun _ => Ret) 1 (ops_code (demo_ops 0 0 long_key)) (mkR demo_good [])) = UB OutOfBounds) by (vm_compute; reflexivity).
  rewrite E in R. cbn [fst] in R. subst r. do 2 eexists. split; [vm_compute; reflexivity|]. split; [reflexivity|]. do 2 eexists. vm_compute. reflexivity.
Qed.
Example C127_case : decent demo_good /\ only_calls (legal_op demo_good) system_call /\ (forall h, only_calls (legal_op demo_good) (feeds long_key h)) /\
  (exists s, rexec 64 (feeds long_key) 2 system_call (mkR demo_good []) = (Ok tt, s)) /\
  (exists s, vexec 64 verbose (feeds long_key) 2 system_call (mkR demo_good []) = (UB OutOfBounds, s) /\ by_printing (r_w s) (r_t s)).
Proof.
  split; [exact demo_decent|]. split; [exact system_legal|]. assert (FL : forall h, only_calls (legal_op demo_good) (feeds long_key h)) by (apply feeds_legal; vm_compute; reflexivity).
  split; [exact FL|]. split; [eexists; vm_compute; reflexivity|].
  destruct (vexec 64 verbose (feeds long_key) 2 system_call (mkR demo_good [])) as (r, s) eqn:E. exists s.
  assert (R : forall p, vexec 64 verbose (feeds long_key) 2 system_call (mkR demo_good []) = p -> (fst p, last (r_t (snd p)) (EvPrint []), nth_error (w_conss (r_w (snd p))) 0) =
              (UB OutOfBounds, EvConsume 0 (zb max_section (zs "lokomotive")) (zb max_key (zs "funktionenX")) (zb max_value (zs "1")), nth_error (w_conss demo_good) 0)).
  { intros p <-. vm_compute. reflexivity. }
  specialize (R _ E). cbn [fst snd] in R. injection R as -> L N. split; [reflexivity|].
  assert (NE : r_t s <> []) by (intros H; rewrite H in L; discriminate).
  exists (removelast (r_t s)), 0%nat, (zs "lokomotive"), (zs "funktionenX"), (zs "1"). eexists. split; [rewrite <- L; exact (app_removelast_last _ NE)|].
  split; [exact N|]. split; [discriminate|]. right. left. split; [reflexivity|]. vm_compute. repeat constructor; discriminate.
Qed.
(** the same description, fed by a callback that does not look at the console: undefined when lines are
    printed; a build that prints everything else does what the plain build does *)
Definition mostly : logcfg := mkLog 1 true true true.
Definition feeds_deaf (s : list Z) : list event -> code :=
  on_last_call (fun e => match e with EvSystem _ _ _ => demo_ops 0 0 s | _ => [] end).
Example C127_case_lines : deaf (feeds_deaf long_key) /\ deaf_code system_call /\ only_calls (legal_op demo_good) system_call /\
  (forall h, only_calls (legal_op demo_good) (feeds_deaf long_key h)) /\ ~ prints_lines mostly /\
  (exists s, rexec 64 (feeds_deaf long_key) 2 system_call (mkR demo_good []) = (Ok tt, s) /\
    exists s', vexec 64 mostly (feeds_deaf long_key) 2 system_call (mkR demo_good []) = (Ok tt, s') /\ (List.length (r_t s) < List.length (r_t s'))%nat) /\
  (exists s, vexec 64 verbose (feeds_deaf long_key) 2 system_call (mkR demo_good []) = (UB OutOfBounds, s)).
Proof.
  split; [apply on_last_call_deaf|]. split; [apply ops_deaf|]. split; [exact system_legal|]. split.
  { assert (SB : streamb long_key (crc_of 0xFFFF (padded long_key)) = true) by (vm_compute; reflexivity).
    intros h. unfold feeds_deaf, on_last_call. destruct (rev (calls h)) as [|e l]; [constructor|]. apply ops_only. destruct e; try exact (Forall_nil _). eapply Forall_impl; [intros q V; left; exact V|].
    apply (demo_valid demo_good 0 0 long_key); [cbn; lia|exists (demo_parser (Some 0%nat)); reflexivity|cbn; lia|cbn; lia|exact SB]. }
  split; [unfold prints_lines; cbn; lia|]. split.
  - eexists. split; [vm_compute; reflexivity|]. eexists. split; [vm_compute; reflexivity|]. vm_compute. lia.
  - eexists. vm_compute. reflexivity.
Qed.
