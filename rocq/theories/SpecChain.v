(* SpecChain.v -- vocabulary for a program that is driven by its end callback (C129). *)
From Verif Require Export SpecReentry SpecCatalog.

(** ** The user's program *)
(** a job: an engine object, and the name of the engine whose details it is to hold *)
Definition job : Type := (nat * list Z)%type.
(** the calls that ask for them, at station s with parser p and engine consumer c *)
Definition ask_for (s p c : nat) (j : job) : list op :=
  make_ready s p ++ [OnEngine (fst j) (ESetName (snd j ++ [0])); ParserSetConsumer p (Some c); LocoSetEngine c (Some (fst j));
                     OnStation s (RequestEngine (RefEngine (fst j)) (Some p))].
Definition completes (c : nat) (e : event) : bool := match e with EvEndComplete _ c' => Nat.eqb c' c | _ => false end.
Definition completions (c : nat) (t : list event) : nat := List.length (filter (completes c) t).
(** the end callback: told for the k-th time that a download is complete, it asks for job k, counted
    from 0, from where it is called *)
Definition next_job (s p c : nat) (jobs : list job) (h : list event) : code :=
  match rev h with
  | e :: _ => if completes c e then match nth_error jobs (completions c h) with Some j => ops_code (ask_for s p c j) | None => Ret end else Ret
  | [] => Ret
  end.
(** calls, one after the other, then the rest *)
Fixpoint then_do (ops : list op) (k : world -> list event -> code) (w : world) (t : list event) : code :=
  match ops with [] => k w t | o :: r => Call o (then_do r k) end.
(** the main loop: as long as something was sent since the last look, the frames of the master's
    answer to it arrive *)
Fixpoint main_loop (s : nat) (id : Z) (answer : list CanFrame -> Data * list Data) (rounds seen : nat) (w : world) (t : list event) : code :=
  match rounds with
  | O => Ret
  | S r => match sent (skipn seen t) with
           | [] => Ret
           | fs => then_do (arriving s id (fst (answer fs) :: snd (answer fs))) (main_loop s id answer r (List.length t)) w t
           end
  end.
(** ask for the first job and enter the main loop *)
Definition driven_by_callback (s p c : nat) (id : Z) answer (jobs : list job) (rounds : nat) (w : world) : code :=
  match jobs with j :: _ => then_do (ask_for s p c j) (main_loop s id answer rounds 0) w [] | [] => Ret end.

(** ** What is needed, and what is achieved *)
(** an engine consumer with an end callback *)
Definition reports_to_user (w : world) (c : nat) : Prop := exists e cb, consumer_at w c (LocoC e (Def (Some cb))).
(** the catalogue has entry x for the job, found under the first 16 characters of the name *)
Definition can_be_done (cat : catalogue) (w : world) (j : job) (x : entry) : Prop :=
  has_engine w (fst j) /\ nulfree (snd j) /\ find (fun y => same_text (e_name y) (firstn 16 (snd j))) cat = Some x.
Definition is_done (w : world) (j : job) (x : entry) : Prop :=
  exists l, engine_at w (fst j) l /\ entry_of l = mkEntry (firstn 32 (snd j)) (e_uid x) (e_addr x) (e_proto x) /\ si_avail (lo_info l) = FULL_DETAILS.
