(* SpecFatal.v -- vocabulary for C125: the last thing that happens before undefined behaviour. *)
From Verif Require Export SpecRsafe SpecExact.

(** The last event hands a consumer a line that makes it read out of bounds (C113). *)
Definition by_a_line (w : world) (t : list event) : Prop :=
  exists before c s k v x, t = before ++ [EvConsume c (zb max_section s) (zb max_key k) (zb max_value v)] /\ consumer_at w c x /\ fatal x (s, k, v).
(** The last events tell a consumer that its stream is complete and announce its engine on the
    console, and the engine's protocol string is not terminated. *)
Definition by_an_engine (w : world) (t : list event) : Prop :=
  exists before c e cb l, t = before ++ [EvStreamComplete c; EvPrint (zs "Downloaded Engine: ")] /\
    consumer_at w c (LocoC (Def (Some e)) cb) /\ engine_at w e l /\ nulfree (lo_proto l).
