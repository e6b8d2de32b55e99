(* PropsRetry.v -- property theorems about copying a master's list of engines over a bus that loses
   frames: C105-C107.  Vocabulary: SpecRetry.v, SpecCatalog.v; the masks of [attempts] say which
   frames of the answer to each request get through. *)
From Verif Require Import ZLib SpecRetry ProofsRetry Demo DemoStream DemoCatalog DemoRetry PropsSafe.

(** ** C105 *)
(** Whatever is lost of the answer to a request for names, everything stays usable, and afterwards
    the list consumer says that the stream is complete exactly if nothing was lost; in that case its
    table is the page asked for and its count the number of engines modulo 256. *)
Theorem C105_page_attempt : forall lw cat answer s p c id m first w, 32 <= lw -> serves cat answer -> loss_tolerant cat answer -> config_id id -> byte first -> zlen cat < 2 ^ 31 ->
  equipped w s p -> has_list w c ->
  exists w' frames, try_page lw s p c id answer m first w = Ok (w', frames) /\ equipped w' s p /\ has_list w' c /\ w_engines w' = w_engines w /\
    q_isStreamComplete w' c = Ok (nothing_lost m frames) /\
    (nothing_lost m frames = true -> exists i, q_getEngineInfos w' c = Ok i /\ map name_of (filter (fun i => negb (si_isFree i)) i) = part first 2 (map e_name cat) /\
       q_getNumEngines w' c = Ok (zlen cat mod 256)).
Proof. exact page_attempt. Qed.
Print Assumptions C105_page_attempt.
(** The frames that get through are all of them exactly if nothing is lost. *)
Theorem C105_nothing_lost : forall m frames, nothing_lost m frames = true <-> pass m frames = frames.
Proof.
  intros m frames. split; [apply pass_all|]. intros E. destruct (nothing_lost m frames) eqn:N; [reflexivity|]. pose proof (pass_lost _ _ N) as L. rewrite E in L. lia.
Qed.
Print Assumptions C105_nothing_lost.
Example C105_case : serves small_cat (serve small_cat) /\ loss_tolerant small_cat (serve small_cat) /\ equipped demo_good 0 0 /\ has_list demo_good 1 /\
  exists w1 w2 f1 f2, try_page 64 0 0 1 demo_id (serve small_cat) [true; true; false] 2 demo_good = Ok (w1, f1) /\ q_isStreamComplete w1 1 = Ok false /\
    try_page 64 0 0 1 demo_id (serve small_cat) [] 2 w1 = Ok (w2, f2) /\ q_isStreamComplete w2 1 = Ok true.
Proof.
  split; [exact small_served|]. split; [exact small_tolerant|]. split; [exact demo_equipped|]. split; [exact demo_has_list|]. do 4 eexists.
  split; [vm_compute; reflexivity|]. split; [vm_compute; reflexivity|]. split; vm_compute; reflexivity.
Qed.

(** ** C106 *)
(** Whatever is lost of the answer to a request for an engine, afterwards the engine consumer says
    that it is valid exactly if nothing was lost; then the engine object shows the entry; otherwise
    everything is usable again once the engine object has been reset.  No other engine changes. *)
Theorem C106_engine_attempt : forall lw cat answer s p c e id m name x w, 32 <= lw -> serves cat answer -> loss_tolerant cat answer -> config_id id -> nulfree name ->
  find (fun y => same_text (e_name y) (firstn 16 name)) cat = Some x ->
  equipped w s p -> an_engine_consumer w c -> has_engine w e ->
  exists w' frames l, try_engine lw s p c e id answer m name w = Ok (w', frames) /\ get_engine e w' = Ok l /\ w_engines w' = upd e l (w_engines w) /\
    q_isValid w' c = Ok (nothing_lost m frames) /\
    (nothing_lost m frames = true -> entry_of l = mkEntry (firstn 32 name) (e_uid x) (e_addr x) (e_proto x) /\ equipped w' s p) /\
    (nothing_lost m frames = false -> exists w2, run lw [OnEngine e EReset] w' = Ok (w2, []) /\ equipped w2 s p /\ an_engine_consumer w2 c /\ w_engines w2 = upd e lo_reset (w_engines w)).
Proof. exact engine_attempt. Qed.
Print Assumptions C106_engine_attempt.
Example C106_case : nulfree (zs "ICE 3") /\ find (fun y => same_text (e_name y) (firstn 16 (zs "ICE 3"))) small_cat = Some (mkEntry (zs "ICE 3") 0xC003 3 (zs "dcc")) /\
  an_engine_consumer demo_good 0 /\ has_engine demo_good 1 /\
  exists w1 w2 f1 f2, try_engine 64 0 0 0 1 demo_id (serve small_cat) [true; true; false] (zs "ICE 3") demo_good = Ok (w1, f1) /\ q_isValid w1 0 = Ok false /\
    try_engine 64 0 0 0 1 demo_id (serve small_cat) [true; true; true] (zs "ICE 3") w1 = Ok (w2, f2) /\ q_isValid w2 0 = Ok true.
Proof.
  split; [apply Forall_forall; intros x X; cbn in X; lia|]. split; [reflexivity|]. split; [exact demo_engine_consumer|]. split; [exact demo_has_engine|]. do 4 eexists.
  split; [vm_compute; reflexivity|]. split; [vm_compute; reflexivity|]. split; vm_compute; reflexivity.
Qed.

(** ** C107 *)
(** A program that repeats every request until its answer is complete either copies the catalogue
    exactly, in order, or gives up; it never stops with a wrong or partial copy.  It gives up only if
    fewer attempts were undisturbed than there are requests. *)
Theorem C107_copied_or_given_up : forall lw cat answer s p c c' e id tries w, 32 <= lw -> serves cat answer -> loss_tolerant cat answer -> config_id id -> zlen cat <= 255 ->
  NoDup (map e_name cat) -> Forall (fun x => name_fits (e_name x)) cat ->
  equipped w s p -> has_list w c -> an_engine_consumer w c' -> has_engine w e ->
  exists r, get_catalogue lw s p c c' e id answer tries w = Ok r /\
    match r with
    | Some (copy, w', unused) => copy = cat /\ equipped w' s p /\ (undisturbed tries <= requests_needed cat + undisturbed unused)%nat /\ (forall k, k <> e -> nth_error (w_engines w') k = nth_error (w_engines w) k)
    | None => (undisturbed tries < requests_needed cat)%nat
    end.
Proof. exact catalogue_got. Qed.
Print Assumptions C107_copied_or_given_up.
(** So with enough undisturbed attempts, whatever happens in between, the catalogue is copied. *)
Theorem C107_enough_attempts : forall lw cat answer s p c c' e id tries w, 32 <= lw -> serves cat answer -> loss_tolerant cat answer -> config_id id -> zlen cat <= 255 ->
  NoDup (map e_name cat) -> Forall (fun x => name_fits (e_name x)) cat ->
  equipped w s p -> has_list w c -> an_engine_consumer w c' -> has_engine w e -> (requests_needed cat <= undisturbed tries)%nat ->
  exists w' unused, get_catalogue lw s p c c' e id answer tries w = Ok (Some (cat, w', unused)).
Proof.
  intros lw cat answer s p c c' e id tries w H1 H2 H3 H4 H5 H6 H7 H8 H9 H10 H11 N. destruct (catalogue_got lw cat answer s p c c' e id tries w H1 H2 H3 H4 H5 H6 H7 H8 H9 H10 H11) as (r & E & R).
  destruct r as [((copy & w') & unused)|]; [|lia]. destruct R as (-> & _). exists w', unused. exact E.
Qed.
Print Assumptions C107_enough_attempts.
(** If the answers do not tolerate losses, losing frames can be undefined behaviour. *)
Theorem C107_any_master_refuted : exists cat answer s p c c' e id tries w, serves cat answer /\ config_id id /\ zlen cat <= 255 /\
  NoDup (map e_name cat) /\ Forall (fun x => name_fits (e_name x)) cat /\ equipped w s p /\ has_list w c /\ an_engine_consumer w c' /\ has_engine w e /\
  get_catalogue 32 s p c c' e id answer tries w = UB OutOfBounds.
Proof. exact fatal_loss. Qed.
Print Assumptions C107_any_master_refuted.
Example C107_case : let tries := [[true; false]; []; [false]; [true; true; true; false]; []; []; [false; false; false]; [true; true; false]; []; []; [true; true]; []] in
  NoDup (map e_name small_cat) /\ Forall (fun x => name_fits (e_name x)) small_cat /\ requests_needed small_cat = 6%nat /\ undisturbed tries = 7%nat /\
  exists w', get_catalogue 64 0 0 1 0 1 demo_id (serve small_cat) tries demo_good = Ok (Some (small_cat, w', [[]])).
Proof.
  cbv zeta. split; [|split; [|split; [reflexivity|split; [reflexivity|eexists; vm_compute; reflexivity]]]].
  - repeat (constructor; [intros X; cbn in X; repeat destruct X as [X|X]; discriminate X || exact X|]). constructor.
  - repeat (constructor; [split; [apply Forall_forall; intros x X; cbn in X; lia|cbn; lia]|]). constructor.
Qed.
