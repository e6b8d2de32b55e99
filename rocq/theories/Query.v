(* Query.v -- the member functions that only report the state of an object.  They have no effect,
   so they are functions of the world and not operations of World.v. *)
From Verif Require Import World.

(** LocoConsumer.h:25 getEngine() *)
Definition q_getEngine (w : world) (c : nat) : res (option nat) :=
  o <- get_cons c w ;; match o with LocoC e _ => mread e | _ => UB Dangling end.
(** LocoConsumer.h:21-23 isValid() *)
Definition q_isValid (w : world) (c : nat) : res bool :=
  cur <- q_getEngine w c ;;
  match cur with
  | None => Ok false
  | Some e => l <- get_engine e w ;; Ok (lo_isFullDetailsKnown l && negb (si_isFree (lo_info l)))
  end.
(** LocoListConsumer.h:48 isStreamComplete() *)
Definition q_isStreamComplete (w : world) (c : nat) : res bool :=
  o <- get_cons c w ;; match o with ListC co _ _ _ _ => mread co | _ => UB Dangling end.
(** LocoListConsumer.h:28 getStreamOffset() *)
Definition q_getStreamOffset (w : world) (c : nat) : res Z :=
  o <- get_cons c w ;; match o with ListC _ _ _ off _ => mread off | _ => UB Dangling end.
(** LocoListConsumer.h:54 getNumEnginesKnownByMaster() *)
Definition q_getNumEngines (w : world) (c : nat) : res Z :=
  o <- get_cons c w ;; match o with ListC _ _ n _ _ => mread n | _ => UB Dangling end.
(** LocoListConsumer.h:52 getEngineInfos() *)
Definition q_getEngineInfos (w : world) (c : nat) : res (list ShortInfo) :=
  o <- get_cons c w ;; match o with ListC _ i _ _ _ => Ok i | _ => UB Dangling end.
(** callback/ConfigDataCbk.h:20 getStreamState() of a library parser *)
Definition q_getStreamState (w : world) (p : nat) : res SState :=
  o <- get_parser p w ;; match o with LibP sp => Ok (sp_state sp) | UserP beh h => Ok (beh h) end.
