(* SpecRecover.v -- vocabulary for recovering from any history (C91). *)
From Verif Require Export SpecSafe.

(** the two calls after which station s and parser p can be used for a new request *)
Definition make_ready (s p : nat) : list op := [OnStation s FinishCurrentConfigRequest; ParserReset p].
(** the same for a list consumer c, whose table is emptied as well *)
Definition make_list_ready (s p c : nat) : list op := make_ready s p ++ [ListReset c].

(** a complete engine description in section 'lokomotive': uid, address and protocol once each *)
Definition describes (d : doc) (u a : Z) (tp : list Z) : Prop :=
  doc_ok d /\ Forall line_fits (reports [] d) /\
  (exists tu, values_of Uid (reports [] d) = [tu] /\ numeral tu u) /\ u < 2 ^ 32 /\
  (exists ta, values_of Address (reports [] d) = [ta] /\ numeral ta a) /\ a < 2 ^ 32 /\
  values_of Protocol (reports [] d) = [tp] /\ nulfree tp /\ (List.length tp <= 7)%nat.
(** engine l after it has been described *)
Definition described (l : Loco) (u a : Z) (tp : list Z) : Loco :=
  mkLoco (mkSI FULL_DETAILS (si_name (lo_info l)))
         (mkLD u (ld_vel (lo_data l)) (ld_dir (lo_data l)) a (ld_fbits (lo_data l)))
         (tp ++ repeat 0 (8 - List.length tp)).
