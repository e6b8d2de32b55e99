(** * Specification vocabulary for C120: what the hash of an identifier can influence

    The hash is the low 16 bits of a frame's identifier.  "Alike" means: equal, except for the
    hashes.  Nothing in here mentions how the library computes or stores a hash. *)

From Coq Require Import ZArith List.
From Verif Require Import CTypes Messages World Reentry.
Import ListNotations.
Open Scope Z_scope.

(** identifiers that agree in everything above the hash: priority, command, response bit *)
Definition id_alike (i j : Z) : Prop := i / 65536 = j / 65536.
Definition frame_alike (f g : CanFrame) : Prop := id_alike (fid f) (fid g) /\ fdata f = fdata g.

(** events that differ at most in the hash of a frame handed to a transmitter *)
Inductive event_alike : event -> event -> Prop :=
| alike_tx : forall x f g, frame_alike f g -> event_alike (EvTx x f) (EvTx x g)
| alike_event : forall e, event_alike e e.

(** calls that differ at most in the UUID given to begin() and in the hashes of the frames and
    identifiers passed in *)
Inductive op_alike : op -> op -> Prop :=
| alike_begin : forall s u v c, op_alike (OnStation s (Begin u c)) (OnStation s (Begin v c))
| alike_handle : forall s f g, frame_alike f g -> op_alike (OnStation s (HandlePacket f)) (OnStation s (HandlePacket g))
| alike_system : forall s i j d, id_alike i j ->
    op_alike (OnStation s (HandleSystemCommand i d)) (OnStation s (HandleSystemCommand j d))
| alike_send : forall s f g, frame_alike f g -> op_alike (OnStation s (SendPacket f)) (OnStation s (SendPacket g))
| alike_op : forall o, op_alike o o.

(** states that differ at most in the hashes (16-bit numbers) the stations use *)
Definition station_alike (a b : Station) : Prop :=
  st_cbs a = st_cbs b /\ 0 <= st_hash a < 65536 /\ 0 <= st_hash b < 65536.
Definition world_alike (w v : world) : Prop :=
  Forall2 station_alike (w_stations w) (w_stations v) /\
  w_parsers w = w_parsers v /\ w_conss w = w_conss v /\ w_engines w = w_engines v.

(** outcomes: undefined in the same way, or both defined with alike states and alike events *)
Inductive outcome_alike : res (world * list event) -> res (world * list event) -> Prop :=
| alike_ub : forall u, outcome_alike (UB u) (UB u)
| alike_ok : forall w v t s, world_alike w v -> Forall2 event_alike t s -> outcome_alike (Ok (w, t)) (Ok (v, s)).

(** The same for user code that calls back: programs that make alike calls as long as what they have
    seen is alike, that is, programs that do not look at hashes and UUIDs. *)
Definition seen_alike (s r : rst) : Prop := world_alike (r_w s) (r_w r) /\ Forall2 event_alike (r_t s) (r_t r).
Inductive code_alike : code -> code -> Prop :=
| alike_ret : code_alike Ret Ret
| alike_call : forall o p k l, op_alike o p ->
    (forall w v t s, world_alike w v -> Forall2 event_alike t s -> code_alike (k w t) (l v s)) ->
    code_alike (Call o k) (Call p l).
Definition react_alike (f g : list event -> code) : Prop :=
  forall t s, Forall2 event_alike t s -> code_alike (f t) (g s).
(** how a run ends, and in what state *)
Definition end_alike (x y : res unit * rst) : Prop := fst x = fst y /\ seen_alike (snd x) (snd y).
