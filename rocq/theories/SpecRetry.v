(* SpecRetry.v -- vocabulary for copying a master's list of engines over a bus that loses frames
   (C105-C107): every request is repeated until its answer has arrived completely. *)
From Verif Require Export SpecCatalog.

(** ** Losses *)
(** the frames that get through: those whose entry in the mask is true; frames without an entry do *)
Fixpoint pass (mask : list bool) (frames : list Data) : list Data :=
  match frames, mask with
  | f :: r, b :: m => if b then f :: pass m r else pass m r
  | _, _ => frames
  end.
Fixpoint nothing_lost (mask : list bool) (frames : list Data) : bool :=
  match frames, mask with
  | _ :: r, b :: m => b && nothing_lost m r
  | _, _ => true
  end.

(** ** The master *)
(** the lines seen by a parser that gets these data frames *)
Definition lines_seen (ds : list Data) : list report := snd (aadds astart (map content ds)).
(** whatever is lost of an answer, no value of 26 characters, and in a list no section of 11
    characters, comes about by joining the rests *)
Definition loss_tolerant (cat : catalogue) (answer : list CanFrame -> Data * list Data) : Prop :=
  (forall fs first m, read_wish fs = Some (WantNames first 2) -> Forall list_line_fits (lines_seen (pass m (snd (answer fs))))) /\
  (forall fs name x m, read_wish fs = Some (WantEngine name) -> find (fun e => same_text (e_name e) name) cat = Some x ->
    Forall line_fits (lines_seen (pass m (snd (answer fs))))).

(** ** The user's program *)
(** calls of the library, then what gets through of the master's answer to what was sent; also gives
    the answer as sent *)
Definition ask_through (lw : Z) (s : nat) (id : Z) answer (mask : list bool) (ops : list op) (w : world) : res (world * list Data) :=
  '(w1, t1) <- run lw ops w ;;
  let frames := fst (answer (sent t1)) :: snd (answer (sent t1)) in
  '(w2, _) <- run lw (arriving s id (pass mask frames)) w1 ;;
  Ok (w2, frames).
Definition try_page (lw : Z) (s p c : nat) (id : Z) answer (mask : list bool) (first : Z) (w : world) : res (world * list Data) :=
  ask_through lw s id answer mask (make_list_ready s p c ++ [ParserSetConsumer p (Some c); OnStation s (RequestEngineList first (Some p))]) w.
Definition try_engine (lw : Z) (s p c e : nat) (id : Z) answer (mask : list bool) (name : list Z) (w : world) : res (world * list Data) :=
  ask_through lw s id answer mask
    (make_ready s p ++ [OnEngine e (ESetName (name ++ [0])); ParserSetConsumer p (Some c); LocoSetEngine c (Some e);
                        OnStation s (RequestEngine (RefEngine e) (Some p))]) w.

(** one attempt for each mask, until the consumer says that the stream is complete; None if all
    attempts failed; otherwise also the attempts that are left *)
Definition attempts : Type := list (list bool).
Fixpoint get_page (lw : Z) (s p c : nat) (id : Z) answer (first : Z) (tries : attempts) (w : world) : res (option (world * attempts)) :=
  match tries with
  | [] => Ok None
  | m :: more =>
      '(w1, _) <- try_page lw s p c id answer m first w ;;
      done <- q_isStreamComplete w1 c ;;
      if done : bool then Ok (Some (w1, more)) else get_page lw s p c id answer first more w1
  end.
Fixpoint get_names (lw : Z) (s p c : nat) (id : Z) answer (fuel : nat) (first : Z) (tries : attempts) (w : world) : res (option (list (list Z) * world * attempts)) :=
  match fuel with
  | O => UB OutOfFuel
  | S n =>
      page <- get_page lw s p c id answer first tries w ;;
      match page with
      | None => Ok None
      | Some (w1, more) =>
          infos <- q_getEngineInfos w1 c ;;
          total <- q_getNumEngines w1 c ;;
          let names := map name_of (filter (fun i => negb (si_isFree i)) infos) in
          if first + 2 <? total then
            rest <- get_names lw s p c id answer n (first + 2) more w1 ;;
            match rest with None => Ok None | Some (ns, w2, unused) => Ok (Some (names ++ ns, w2, unused)) end
          else Ok (Some (names, w1, more))
      end
  end.
(** after a failed attempt the engine object is reset *)
Fixpoint get_engine_entry (lw : Z) (s p c e : nat) (id : Z) answer (name : list Z) (tries : attempts) (w : world) : res (option (entry * world * attempts)) :=
  match tries with
  | [] => Ok None
  | m :: more =>
      '(w1, _) <- try_engine lw s p c e id answer m name w ;;
      done <- q_isValid w1 c ;;
      if done : bool then l <- get_engine e w1 ;; Ok (Some (entry_of l, w1, more))
      else '(w2, _) <- run lw [OnEngine e EReset] w1 ;; get_engine_entry lw s p c e id answer name more w2
  end.
Fixpoint get_entries (lw : Z) (s p c e : nat) (id : Z) answer (names : list (list Z)) (tries : attempts) (w : world) : res (option (catalogue * world * attempts)) :=
  match names with
  | [] => Ok (Some ([], w, tries))
  | x :: r =>
      one <- get_engine_entry lw s p c e id answer x tries w ;;
      match one with
      | None => Ok None
      | Some (y, w1, more) =>
          rest <- get_entries lw s p c e id answer r more w1 ;;
          match rest with None => Ok None | Some (ys, w2, unused) => Ok (Some (y :: ys, w2, unused)) end
      end
  end.
Definition get_catalogue (lw : Z) (s p c c' e : nat) (id : Z) answer (tries : attempts) (w : world) : res (option (catalogue * world * attempts)) :=
  names <- get_names lw s p c id answer 128 0 tries w ;;
  match names with
  | None => Ok None
  | Some (ns, w1, more) => get_entries lw s p c' e id answer ns more w1
  end.

(** the attempts in which nothing is lost, however long the answer *)
Definition undisturbed (tries : attempts) : nat := List.length (filter (forallb (fun b => b)) tries).
(** requests needed for a catalogue: one for every two names, at least one, and one for every engine *)
Definition requests_needed (cat : catalogue) : nat := Nat.max 1 ((List.length cat + 1) / 2) + List.length cat.
