(* PropsCatalog.v -- property theorems about copying a master's list of engines: C96-C98.
   Vocabulary: SpecCatalog.v; DemoCatalog.v for a master that serves a given catalogue. *)
From Verif Require Import ZLib SpecCatalog ProofsCrc ProofsText ProofsStream ProofsConsumer ProofsSafe ProofsRecover ProofsCatalog Demo DemoStream DemoCatalog PropsSafe.

(** ** C96 *)
(** Asking a master for the names two at a time until the reported number of engines is reached
    gives the first so many names of its catalogue, in order, where the number is what remains of
    the size of the catalogue modulo 256, rounded up to pages of two. *)
Theorem C96_names_fetched : forall lw cat answer s p c id w, 32 <= lw -> serves cat answer -> config_id id -> zlen cat < 2 ^ 31 -> equipped w s p -> has_list w c ->
  exists w', fetch_names lw s p c id answer 128 0 w = Ok (firstn (Z.to_nat (Z.max 2 (2 * ((zlen cat mod 256 + 1) / 2)))) (map e_name cat), w') /\
    equipped w' s p /\ has_list w' c /\ w_engines w' = w_engines w.
Proof. exact names_fetched. Qed.
Print Assumptions C96_names_fetched.
(** So exactly the catalogues of up to 255 engines are read completely. *)
Theorem C96_complete_up_to_255 : forall lw cat answer s p c id w, 32 <= lw -> serves cat answer -> config_id id -> zlen cat < 2 ^ 31 -> equipped w s p -> has_list w c ->
  ((exists w', fetch_names lw s p c id answer 128 0 w = Ok (map e_name cat, w')) <-> zlen cat <= 255).
Proof. exact names_complete. Qed.
Print Assumptions C96_complete_up_to_255.
(** Every catalogue of fewer than 1000 engines with printable entries has such a master. *)
Theorem C96_masters_exist : forall cat, Forall entry_ok cat -> zlen cat < 1000 -> serves cat (serve cat).
Proof. exact serve_serves. Qed.
Print Assumptions C96_masters_exist.
(** The natural statement without a bound is false: of 256 engines only two are found. *)
Theorem C96_all_names_refuted : exists cat answer s p c id w w', serves cat answer /\ config_id id /\ equipped w s p /\ has_list w c /\ zlen cat = 256 /\
  fetch_names 32 s p c id answer 128 0 w = Ok (map e_name (firstn 2 cat), w').
Proof. exact names_lost. Qed.
Print Assumptions C96_all_names_refuted.
Example C96_case : equipped demo_good 0 0 /\ has_list demo_good 1 /\ config_id demo_id /\ serves demo_cat (serve demo_cat) /\
  exists w', fetch_names 64 0 0 1 demo_id (serve demo_cat) 128 0 demo_good = Ok (map zs ["BR 103 113-7"; "V200"; "ICE 3"; "BR 18"; "E 94"]%string, w').
Proof.
  split; [exact demo_equipped|]. split; [exact demo_has_list|]. split; [exact demo_id_ok|]. split; [|eexists; vm_compute; reflexivity].
  exact demo_served.
Qed.

(** ** C97 *)
(** Asking a master for an engine asks for the first 16 characters of the name: if the catalogue
    has an engine of that name, its details are stored, fully known, under the first 32 characters
    of the name given, and no other engine is changed. *)
Theorem C97_engine_fetched : forall lw cat answer s p c e id name x w, 32 <= lw -> serves cat answer -> config_id id -> nulfree name ->
  find (fun y => same_text (e_name y) (firstn 16 name)) cat = Some x ->
  equipped w s p -> an_engine_consumer w c -> has_engine w e ->
  exists l w', fetch_engine lw s p c e id answer name w = Ok (l, w') /\
    entry_of l = mkEntry (firstn 32 name) (e_uid x) (e_addr x) (e_proto x) /\ si_avail (lo_info l) = FULL_DETAILS /\
    equipped w' s p /\ an_engine_consumer w' c /\ w_engines w' = upd e l (w_engines w).
Proof. exact engine_fetched. Qed.
Print Assumptions C97_engine_fetched.
(** For names of at most 16 characters that is the engine's own entry. *)
Theorem C97_own_entry : forall lw cat answer s p c e id x w, 32 <= lw -> serves cat answer -> config_id id -> In x cat -> NoDup (map e_name cat) -> name_fits (e_name x) ->
  equipped w s p -> an_engine_consumer w c -> has_engine w e ->
  exists l w', fetch_engine lw s p c e id answer (e_name x) w = Ok (l, w') /\ entry_of l = x /\ si_avail (lo_info l) = FULL_DETAILS.
Proof. exact own_entry. Qed.
Print Assumptions C97_own_entry.
(** For longer names it can be another engine's. *)
Theorem C97_any_name_refuted : exists cat answer s p c e id x y w w' l, serves cat answer /\ config_id id /\ equipped w s p /\ an_engine_consumer w c /\ has_engine w e /\
  In x cat /\ In y cat /\ NoDup (map e_name cat) /\ e_uid x <> e_uid y /\ nulfree (e_name x) /\ List.length (e_name x) = 17%nat /\
  fetch_engine 32 s p c e id answer (e_name x) w = Ok (l, w') /\ name_of (lo_info l) = e_name x /\ ld_uid (lo_data l) = e_uid y.
Proof. exact wrong_engine. Qed.
Print Assumptions C97_any_name_refuted.
Example C97_case : an_engine_consumer demo_good 0 /\ has_engine demo_good 1 /\ name_fits (zs "ICE 3") /\
  find (fun y => same_text (e_name y) (firstn 16 (zs "ICE 3"))) demo_cat = Some (mkEntry (zs "ICE 3") 0xC003 3 (zs "dcc")) /\
  exists l w', fetch_engine 64 0 0 0 1 demo_id (serve demo_cat) (zs "ICE 3") demo_good = Ok (l, w') /\ entry_of l = mkEntry (zs "ICE 3") 0xC003 3 (zs "dcc").
Proof.
  split; [exact demo_engine_consumer|]. split; [exact demo_has_engine|]. split; [split; [apply Forall_forall; intros x X; cbn in X; lia|cbn; lia]|]. split; [reflexivity|].
  eexists. eexists. split; vm_compute; reflexivity.
Qed.

(** ** C98 *)
(** With different names of at most 16 characters and up to 255 engines, fetching the names and
    then each engine gives the master's catalogue, in order. *)
Theorem C98_catalogue_copied : forall lw cat answer s p c c' e id w, 32 <= lw -> serves cat answer -> config_id id -> zlen cat <= 255 ->
  NoDup (map e_name cat) -> Forall (fun x => name_fits (e_name x)) cat ->
  equipped w s p -> has_list w c -> an_engine_consumer w c' -> has_engine w e ->
  exists w', fetch_catalogue lw s p c c' e id answer w = Ok (cat, w') /\ equipped w' s p /\ (forall k, k <> e -> nth_error (w_engines w') k = nth_error (w_engines w) k).
Proof. exact catalogue_copied. Qed.
Print Assumptions C98_catalogue_copied.
(** With two engines of one name the second is lost. *)
Theorem C98_same_names_refuted : exists cat answer s p c c' e id w w' x y, serves cat answer /\ config_id id /\ equipped w s p /\ has_list w c /\ an_engine_consumer w c' /\ has_engine w e /\
  cat = [x; y] /\ x <> y /\ Forall (fun x => name_fits (e_name x)) cat /\ fetch_catalogue 32 s p c c' e id answer w = Ok ([x; x], w').
Proof. exact twin_lost. Qed.
Print Assumptions C98_same_names_refuted.
Example C98_case : let cat := demo_cat in NoDup (map e_name cat) /\ Forall (fun x => name_fits (e_name x)) cat /\
  exists w', fetch_catalogue 64 0 0 1 0 1 demo_id (serve cat) demo_good = Ok (cat, w').
Proof.
  cbv zeta. split; [|split; [|eexists; vm_compute; reflexivity]].
  - repeat (constructor; [intros X; cbn in X; repeat destruct X as [X|X]; discriminate X || exact X|]). constructor.
  - repeat (constructor; [split; [apply Forall_forall; intros x X; cbn in X; lia|cbn; lia]|]). constructor.
Qed.
