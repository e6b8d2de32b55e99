(* SpecRsafe.v -- vocabulary for the absence of undefined behaviour when callbacks call back (C64). *)
From Verif Require Export SpecReentry.

(** the event hands one of the consumers of w a line it cannot take *)
Definition excessive_event (w : world) (e : event) : Prop :=
  exists c s k v x, e = EvConsume c (zb max_section s) (zb max_key k) (zb max_value v) /\ consumer_at w c x /\ excessive x (s, k, v).
