(* SpecResume.v -- vocabulary for recovering from a history in which callbacks call back (C121). *)
From Verif Require Export SpecRsafe SpecRecover.

(** From initialised objects w0, a program made the calls [c] and its callbacks the calls [react]
    answers with; it got through, with the objects now in state w, and the library's consumers were
    handed no line they cannot take. *)
Definition came_through (lw : Z) (react : list event -> code) (n : nat) (c : code) (w0 w : world) : Prop :=
  sound w0 /\ only_calls (valid_op w0) c /\ (forall h, only_calls (valid_op w0) (react h)) /\
  exists t, rexec lw react n c (mkR w0 []) = (Ok tt, mkR w t) /\ ~ Exists (excessive_event w0) t.
(** there are the same objects: as many stations and engines, each parser the library's or the user's
    as before, each consumer of the same class with a table of the same size *)
Definition consumer_class (x : CObj) : nat * nat :=
  match x with LocoC _ _ => (0, 0) | ListC _ i _ _ _ => (1, List.length i) | UserC => (2, 0) end%nat.
Definition objects_stay (w0 w : world) : Prop :=
  List.length (w_stations w) = List.length (w_stations w0) /\ List.length (w_engines w) = List.length (w_engines w0) /\
  map (fun x => match x with LibP _ => true | _ => false end) (w_parsers w) = map (fun x => match x with LibP _ => true | _ => false end) (w_parsers w0) /\
  map consumer_class (w_conss w) = map consumer_class (w_conss w0).
