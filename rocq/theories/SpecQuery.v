(* SpecQuery.v -- vocabulary for what the objects report after a history (C92-C94). *)
From Verif Require Export World Query SpecConsumer.

(** ** What happened *)
(** the calls made by the user, each followed by the calls the library made during it *)
Inductive deed : Type := Called (o : op) | Happened (e : event).
Fixpoint deeds (lw : Z) (ops : list op) (w : world) : list deed :=
  match ops with
  | [] => []
  | o :: r => match step lw o w with Ok (w1, t) => Called o :: map Happened t ++ deeds lw r w1 | UB _ => [] end
  end.

(** ** The database: consumers and engines *)
Definition db : Type := (list CObj * list Loco)%type.
Definition db_of (w : world) : db := (w_conss w, w_engines w).
(** the characters a buffer holds *)
Definition token (b : bufm) : list Z := firstn (Z.to_nat (blen b)) (mem b).
Definition line (s k v : bufm) : report := (token s, token k, token v).
(** an empty list *)
Definition emptied (i : list ShortInfo) (cb : mu (option nat)) : CObj := ListC (Def false) (map (fun _ => si_reset) i) (Def 0) (Def 0) cb.
(** a notification changes the consumer notified, or the engine it points to *)
Definition after_event (lw : Z) (x : db) (e : event) : db :=
  let (cs, es) := x in
  match e with
  | EvConsume c s k v =>
      match nth_error cs c with
      | Some (LocoC (Def (Some e)) _) => match nth_error es e with Some l => (cs, upd e (after_line lw l (line s k v)) es) | None => x end
      | Some (ListC co i n o cb) =>
          (upd c (match list_entry_of (line s k v) with
                  | NameEntry t => ListC co (filled i [until_nul t]) n o cb
                  | CountEntry t => ListC co i (Def (dec_value lw t mod 256)) o cb
                  | NoEntry => ListC co i n o cb
                  end) cs, es)
      | _ => x
      end
  | EvStreamComplete c =>
      match nth_error cs c with
      | Some (LocoC (Def (Some e)) _) => match nth_error es e with Some l => (cs, upd e (lo_setAvailability l FULL_DETAILS) es) | None => x end
      | Some (ListC _ i n o cb) => (upd c (ListC (Def true) i n o cb) cs, es)
      | _ => x
      end
  | EvStreamAborted c => match nth_error cs c with Some (ListC _ i _ _ cb) => (upd c (emptied i cb) cs, es) | _ => x end
  | _ => x
  end.
(** a call of one of their setters changes the object called *)
Definition after_call (x : db) (o : op) : db :=
  let (cs, es) := x in
  match o with
  | ConsumerSetEndCallback c cb =>
      match nth_error cs c with
      | Some (LocoC e _) => (upd c (LocoC e (Def cb)) cs, es)
      | Some (ListC co i n off _) => (upd c (ListC co i n off (Def cb)) cs, es)
      | _ => x
      end
  | LocoSetEngine c e => match nth_error cs c with Some (LocoC _ cb) => (upd c (LocoC (Def e) cb) cs, es) | _ => x end
  | ListSetOffset c off => match nth_error cs c with Some (ListC co i n _ cb) => (upd c (ListC co i n (Def off) cb) cs, es) | _ => x end
  | ListReset c => match nth_error cs c with Some (ListC _ i _ _ cb) => (upd c (emptied i cb) cs, es) | _ => x end
  | ListClearTable c => match nth_error cs c with Some (ListC co i n off cb) => (upd c (ListC co (map (fun _ => si_reset) i) n off cb) cs, es) | _ => x end
  | OnEngine e o => match nth_error es e with
                    | Some l => match eop_apply l o with Ok l' => (cs, upd e l' es) | UB _ => x end
                    | None => x
                    end
  | _ => x
  end.
Definition after_deed (lw : Z) (x : db) (d : deed) : db :=
  match d with Called o => after_call x o | Happened e => after_event lw x e end.

(** engines have protocol fields of eight characters *)
Definition shaped (w : world) : Prop := Forall (fun l => List.length (lo_proto l) = 8%nat) (w_engines w).

(** ** The latest news *)
(** the value given by the last deed that gives one *)
Fixpoint latest {A} (news : deed -> option A) (ds : list deed) (first : A) : A :=
  match ds with [] => first | d :: r => latest news r (match news d with Some x => x | None => first end) end.
Definition when_eq {A} (c c' : nat) (x : A) : option A := if Nat.eqb c c' then Some x else None.
(** isStreamComplete() of list consumer c: completion sets it, abortion and reset() clear it *)
Definition complete_news (c : nat) (d : deed) : option (mu bool) :=
  match d with
  | Happened (EvStreamComplete c') => when_eq c c' (Def true)
  | Happened (EvStreamAborted c') | Called (ListReset c') => when_eq c c' (Def false)
  | _ => None
  end.
(** getStreamOffset() *)
Definition offset_news (c : nat) (d : deed) : option (mu Z) :=
  match d with
  | Called (ListSetOffset c' off) => when_eq c c' (Def off)
  | Happened (EvStreamAborted c') | Called (ListReset c') => when_eq c c' (Def 0)
  | _ => None
  end.
(** getNumEnginesKnownByMaster(): the last count reported *)
Definition count_news (lw : Z) (c : nat) (d : deed) : option (mu Z) :=
  match d with
  | Happened (EvConsume c' s k v) => match list_entry_of (line s k v) with CountEntry t => when_eq c c' (Def (dec_value lw t mod 256)) | _ => None end
  | Happened (EvStreamAborted c') | Called (ListReset c') => when_eq c c' (Def 0)
  | _ => None
  end.
(** getEngine() of engine consumer c *)
Definition engine_news (c : nat) (d : deed) : option (mu (option nat)) :=
  match d with Called (LocoSetEngine c' e) => when_eq c c' (Def e) | _ => None end.
(** getEngineInfos(): names reported since the table was last emptied *)
Fixpoint names_told (c : nat) (ds : list deed) (acc : bool * list (list Z)) : bool * list (list Z) :=
  match ds with
  | [] => acc
  | d :: r =>
      names_told c r
        (match d with
         | Happened (EvConsume c' s k v) =>
             if Nat.eqb c c' then match list_entry_of (line s k v) with NameEntry t => (fst acc, snd acc ++ [until_nul t]) | _ => acc end else acc
         | Happened (EvStreamAborted c') | Called (ListReset c') | Called (ListClearTable c') => if Nat.eqb c c' then (true, []) else acc
         | _ => acc
         end)
  end.

(** ** Engines and their consumers *)
(** consumer c of w is an engine consumer told to fill engine e *)
Definition fills (w : world) (c e : nat) : Prop := exists cb, nth_error (w_conss w) c = Some (LocoC (Def (Some e)) cb).
(** engine e is marked as fully known *)
Definition full (w : world) (e : nat) : Prop := exists l, nth_error (w_engines w) e = Some l /\ si_avail (lo_info l) = FULL_DETAILS.
(** setters that do not touch the name or the mark *)
Definition data_setter (o : eop) : bool :=
  match o with ESetName _ | ESetNameConditional _ | EReset | ESetAvailability _ => false | _ => true end.
