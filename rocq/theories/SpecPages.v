(* SpecPages.v -- vocabulary for a program that reads a master's list of names page by page from its end
   callback (C134). *)
From Verif Require Export SpecChain.

(** the calls that ask for the two names from number [first] on *)
Definition ask_page (s p c : nat) (first : Z) : list op :=
  make_list_ready s p c ++ [ParserSetConsumer p (Some c); OnStation s (RequestEngineList first (Some p))].
(** give these engine objects these names *)
Definition give_names (l : list (nat * list Z)) : list op := map (fun x => OnEngine (fst x) (ESetName (snd x ++ [0]))) l.
(** the k-th page is complete: give its names to the next engine objects, and ask for the next page if
    the consumer has been told of more engines *)
Definition file_page (s p c : nat) (engines : list nat) (k : nat) (w : world) : code :=
  match q_getEngineInfos w c, q_getNumEngines w c with
  | Ok infos, Ok total =>
      let names := map name_of (filter (fun i => negb (si_isFree i)) infos) in
      let first := 2 * (Z.of_nat k - 1) in
      ops_code (give_names (combine (skipn (2 * (k - 1)) engines) names) ++
                if first + 2 <? total then ask_page s p c (first + 2) else [])
  | _, _ => Ret
  end.
(** the end callback: told for the k-th time that a list is complete, it files the page, from where it
    is called.  (It first sets the parser's consumer, which is set already: in the model user code sees
    the objects after a call.) *)
Definition next_page (s p c : nat) (engines : list nat) (h : list event) : code :=
  match rev h with
  | e :: _ => if completes c e then Call (ParserSetConsumer p (Some c)) (fun w _ => file_page s p c engines (completions c h) w) else Ret
  | [] => Ret
  end.
(** ask for the first page and enter the main loop of SpecChain.v *)
Definition names_by_callback (s p c : nat) (id : Z) answer (rounds : nat) (w : world) : code :=
  then_do (ask_page s p c 0) (main_loop s id answer rounds 0) w [].
(** a list consumer with room for two names and an end callback *)
Definition lists_to_user (w : world) (c : nat) : Prop := exists co i n o cb, consumer_at w c (ListC co i n o (Def (Some cb))) /\ (2 <= List.length i)%nat.
(** the engine is known by this name and nothing else *)
Definition only_named (w : world) (e : nat) (name : list Z) : Prop :=
  exists l, engine_at w e l /\ name_of (lo_info l) = name /\ si_avail (lo_info l) = NAME_KNOWN.
