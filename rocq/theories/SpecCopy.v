(* SpecCopy.v -- vocabulary for a program that copies a master's whole catalogue from its end callbacks
   (C136). *)
From Verif Require Export SpecPages.

(** the calls that ask for the details of an engine object that has its name already *)
Definition ask_details (s p ce e : nat) : list op :=
  make_ready s p ++ [ParserSetConsumer p (Some ce); LocoSetEngine ce (Some e); OnStation s (RequestEngine (RefEngine e) (Some p))].
(** the k-th page is complete: give its names to the next engine objects; then ask for the next page if
    the consumer has been told of more engines, and else for the details of the first engine object *)
Definition file_names (s p cl ce : nat) (engines : list nat) (k : nat) (w : world) : code :=
  match q_getEngineInfos w cl, q_getNumEngines w cl with
  | Ok infos, Ok total =>
      let names := map name_of (filter (fun i => negb (si_isFree i)) infos) in
      let first := 2 * (Z.of_nat k - 1) in
      ops_code (give_names (combine (skipn (2 * (k - 1)) engines) names) ++
                if first + 2 <? total then ask_page s p cl (first + 2)
                else match engines with e :: _ => ask_details s p ce e | [] => [] end)
  | _, _ => Ret
  end.
(** the two end callbacks: that of the list consumer cl files the page; that of the engine consumer ce,
    told for the k-th time, asks for the details of engine object k, counted from 0 *)
Definition copy_step (s p cl ce : nat) (engines : list nat) (h : list event) : code :=
  match rev h with
  | e :: _ => if completes cl e then Call (ParserSetConsumer p (Some cl)) (fun w _ => file_names s p cl ce engines (completions cl h) w)
              else if completes ce e then match nth_error engines (completions ce h) with Some x => ops_code (ask_details s p ce x) | None => Ret end
              else Ret
  | [] => Ret
  end.
