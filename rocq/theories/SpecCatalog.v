(* SpecCatalog.v -- vocabulary for copying a master's whole list of engines (C96-C98).  The master
   and the user's program are the environment of the library, not part of it. *)
From Verif Require Export SpecRecover SpecNet Query.

(** ** The master *)
Record entry : Type := mkEntry { e_name : list Z; e_uid : Z; e_addr : Z; e_proto : list Z }.
Definition catalogue : Type := list entry.

(** How it reads a request: two frames "loknamen", "<first> <count>", or three frames "lokinfo"
    and the name. *)
Inductive wish : Type := WantNames (first count : Z) | WantEngine (name : list Z).
Definition wire_bytes (f : CanFrame) : list Z := firstn (Z.to_nat (dlc (fdata f))) (dbytes (fdata f)).
Definition is_request (f : CanFrame) : bool := (command_field (fid f) =? CMD_REQUEST_CONFIG) && negb (response_field (fid f)).
Definition same_text (a b : list Z) : bool := if list_eq_dec Z.eq_dec a b then true else false.
(** a decimal number at the beginning of a text, and what follows it *)
Fixpoint read_number (acc : Z) (t : list Z) : Z * list Z :=
  match t with
  | c :: r => if (48 <=? c) && (c <=? 57) then read_number (acc * 10 + (c - 48)) r else (acc, t)
  | [] => (acc, [])
  end.
Definition read_wish (fs : list CanFrame) : option wish :=
  if forallb is_request fs then
    match map wire_bytes fs with
    | [a; b] => if same_text (until_nul a) (zs "loknamen") then
                  let '(first, r) := read_number 0 b in
                  match r with 32 :: r' => Some (WantNames first (fst (read_number 0 r'))) | _ => None end
                else None
    | [a; b; c] => if same_text (until_nul a) (zs "lokinfo") then Some (WantEngine (until_nul (b ++ c))) else None
    | _ => None
    end
  else None.

(** What it has to answer: a proper stream with a document that gives the names asked for and the
    number of engines, or describes the engine of that name. *)
Definition lists (d : doc) (names : list (list Z)) (total : Z) : Prop :=
  doc_ok d /\ Forall list_line_fits (reports [] d) /\ names_in (reports [] d) = names /\
  exists v, counts_in (reports [] d) = [v] /\ v <> [] /\ decdigits 0 v total.
Definition part {A} (first count : Z) (l : list A) : list A := firstn (Z.to_nat count) (skipn (Z.to_nat first) l).
Definition good_answer (cat : catalogue) (x : wish) (frames : Data * list Data) : Prop :=
  match x with
  | WantNames first count => exists d, proper_stream (fst frames) (snd frames) /\ carries (snd frames) d /\
                                       lists d (part first count (map e_name cat)) (zlen cat)
  | WantEngine name =>
      match find (fun e => same_text (e_name e) name) cat with
      | Some e => exists d, proper_stream (fst frames) (snd frames) /\ carries (snd frames) d /\ describes d (e_uid e) (e_addr e) (e_proto e)
      | None => True
      end
  end.
(** a master with this catalogue answers every request it can read *)
Definition serves (cat : catalogue) (answer : list CanFrame -> Data * list Data) : Prop :=
  forall fs x, read_wish fs = Some x -> good_answer cat x (answer fs).

(** ** The user's program *)
(** calls of the library, then the frames of the master's answer to what was sent arrive *)
Definition ask_master (lw : Z) (s : nat) (id : Z) (answer : list CanFrame -> Data * list Data) (ops : list op) (w : world) : res world :=
  '(w1, t1) <- run lw ops w ;;
  '(w2, _) <- run lw (arriving s id (fst (answer (sent t1)) :: snd (answer (sent t1)))) w1 ;;
  Ok w2.
Definition name_of (i : ShortInfo) : list Z := until_nul (si_name i).
(** names from number [first] on, two at a time, until the number of engines is reached *)
Fixpoint fetch_names (lw : Z) (s p c : nat) (id : Z) answer (fuel : nat) (first : Z) (w : world) : res (list (list Z) * world) :=
  match fuel with
  | O => UB OutOfFuel
  | S n =>
      w1 <- ask_master lw s id answer (make_list_ready s p c ++ [ParserSetConsumer p (Some c); OnStation s (RequestEngineList first (Some p))]) w ;;
      infos <- q_getEngineInfos w1 c ;;
      total <- q_getNumEngines w1 c ;;
      let names := map name_of (filter (fun i => negb (si_isFree i)) infos) in
      if first + 2 <? total then
        '(more, w2) <- fetch_names lw s p c id answer n (first + 2) w1 ;; Ok (names ++ more, w2)
      else Ok (names, w1)
  end.
(** the details of the engine called [name], into engine e *)
Definition fetch_engine (lw : Z) (s p c e : nat) (id : Z) answer (name : list Z) (w : world) : res (Loco * world) :=
  w1 <- ask_master lw s id answer
          (make_ready s p ++ [OnEngine e (ESetName (name ++ [0])); ParserSetConsumer p (Some c); LocoSetEngine c (Some e);
                              OnStation s (RequestEngine (RefEngine e) (Some p))]) w ;;
  l <- get_engine e w1 ;; Ok (l, w1).
(** the entry an engine object shows *)
Definition entry_of (l : Loco) : entry := mkEntry (name_of (lo_info l)) (ld_uid (lo_data l)) (ld_addr (lo_data l)) (until_nul (lo_proto l)).
Fixpoint fetch_engines (lw : Z) (s p c e : nat) (id : Z) answer (names : list (list Z)) (w : world) : res (catalogue * world) :=
  match names with
  | [] => Ok ([], w)
  | x :: r => '(l, w1) <- fetch_engine lw s p c e id answer x w ;;
              '(m, w2) <- fetch_engines lw s p c e id answer r w1 ;; Ok (entry_of l :: m, w2)
  end.
(** first all names with list consumer c, then all engines with engine consumer c' *)
Definition fetch_catalogue (lw : Z) (s p c c' e : nat) (id : Z) answer (w : world) : res (catalogue * world) :=
  '(names, w1) <- fetch_names lw s p c id answer 128 0 w ;;
  fetch_engines lw s p c' e id answer names w1.

(** ** What is needed *)
(** objects to work with: a station, a library parser, a list consumer with room for two names, an
    engine consumer, an engine *)
Definition equipped (w : world) (s p : nat) : Prop := sound w /\ (exists st, station_at w s st) /\ a_parser w p.
Definition has_list (w : world) (c : nat) : Prop := exists co i n o cb, consumer_at w c (ListC co i n o cb) /\ (2 <= List.length i)%nat.
Definition has_engine (w : world) (e : nat) : Prop := exists l, engine_at w e l.
(** names that fit into a request *)
Definition name_fits (t : list Z) : Prop := nulfree t /\ (List.length t <= 16)%nat.
