(* SpecOwn.v -- vocabulary for strings inside engines and for the caller's frames. *)
From Verif Require Export Own SpecSafe SpecStation.

(** the argument is not in engine e *)
Definition apart (e : nat) (a : strarg) : Prop :=
  match a with Elsewhere _ => True | NameAt e' _ | ProtoAt e' _ => e' <> e end.
(** the bytes from the pointer to the end of the array it points into *)
Definition memory_at (es : list Loco) (a : strarg) (m : list Z) : Prop :=
  match a with
  | Elsewhere m' => m = m'
  | NameAt e k => exists l, nth_error es e = Some l /\ (k <= List.length (si_name (lo_info l)))%nat /\ m = skipn k (si_name (lo_info l))
  | ProtoAt e k => exists l, nth_error es e = Some l /\ (k <= List.length (lo_proto l))%nat /\ m = skipn k (lo_proto l)
  end.
(** engine e becomes what the call by value makes of it; the others stay as they are *)
Definition one_changed (es : list Loco) (e : nat) (r : res Loco) : res (list Loco) :=
  match r with Ok l => Ok (upd e l es) | UB u => UB u end.
Definition undefined {A} (r : res A) : Prop := exists u, r = UB u.

(** an engine as constructed: a terminated name and eight bytes of protocol *)
Definition engine_fields (l : Loco) (t : list Z) : Prop := shows_name (si_name (lo_info l)) t /\ List.length (lo_proto l) = 8%nat.
Definition engines_ok (es : list Loco) : Prop := Forall (fun l => exists t, engine_fields l t) es.
(** an engine known by an empty name, with no other data *)
Definition nameless : Loco := mkLoco (mkSI NAME_KNOWN (repeat 0 33)) (mkLD 0 0 DIR_UNKNOWN 0 0) (repeat 0 8).
Definition with_protocol (l : Loco) (p : list Z) : Loco := mkLoco (lo_info l) (lo_data l) p.
Definition in_eight (s : list Z) : list Z := firstn 8 s ++ repeat 0 (8 - List.length s).
(** the text begins with s *)
Definition begins_with (s t : list Z) : Prop := exists r, t = s ++ r.

(** ** Frames *)
(** everything of a frame but the hash *)
Record letter : Type := mkLetter { l_top : Z; l_prio : Z; l_cmd : Z; l_resp : bool; l_data : Data }.
Definition letter_ok (x : letter) : Prop := 0 <= l_top x < 8 /\ 0 <= l_prio x < 16 /\ 0 <= l_cmd x < 256.
Definition posted (x : letter) (hash : Z) : CanFrame := mkFrame (id_value (l_top x) (l_prio x) (l_cmd x) (l_resp x) hash) (l_data x).
(** the hash and the transmit callback of a station *)
Definition sender (w : world) (s : nat) (tx : nat) (hash : Z) : Prop :=
  exists st, station_at w s st /\ cb_tx (st_cbs st) = Some tx /\ hash = st_hash st.
(** the hash that variable i has after the sends *)
Fixpoint last_hash (l : list (nat * nat)) (hash_of : nat -> Z) (i : nat) (h : Z) : Z :=
  match l with
  | [] => h
  | (s, j) :: l => last_hash l hash_of i (if Nat.eqb i j then hash_of s else h)
  end.
