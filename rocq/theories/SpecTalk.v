(* SpecTalk.v -- vocabulary for the logging builds with callbacks that call back (C126, C127). *)
From Verif Require Export SpecFatal SpecLogged LoggedReentry.

(** User code that does not look at the console: it does the same after traces that differ only in
    console output. *)
Inductive deaf_code : code -> Prop :=
| deaf_ret : deaf_code Ret
| deaf_call : forall o k, (forall w t t', calls t = calls t' -> k w t = k w t') -> (forall w t, deaf_code (k w t)) -> deaf_code (Call o k).
Definition deaf (react : list event -> code) : Prop :=
  (forall t t', calls t = calls t' -> react t = react t') /\ (forall t, deaf_code (react t)).

(** the trace t' is that of a run that got as far as t, with console output inserted *)
Definition as_far_as (t t' : list event) : Prop := exists t1 t2, t = t1 ++ t2 /\ more_output t1 t'.

(** ** The last thing before undefined behaviour in a logging build *)
(** no part longer than its buffer *)
Definition within (r : report) : Prop :=
  let '(s, k, v) := r in (List.length s <= max_section)%nat /\ (List.length k <= max_key)%nat /\ (List.length v <= max_value)%nat.
(** as [by_a_line] of C125, with the output of the logging build behind it *)
Definition by_a_line_logged (w : world) (t : list event) : Prop :=
  exists before c s k v x out, t = before ++ EvConsume c (zb max_section s) (zb max_key k) (zb max_value v) :: out /\
    Forall (fun e => is_print e = true) out /\ consumer_at w c x /\ fatal x (s, k, v) /\ within (s, k, v).
(** a library consumer was handed a line with a section, key or value that fills its buffer, and was
    to print it *)
Definition by_printing (w : world) (t : list event) : Prop :=
  exists before c s k v x, t = before ++ [EvConsume c (zb max_section s) (zb max_key k) (zb max_value v)] /\
    consumer_at w c x /\ x <> UserC /\ overfull (s, k, v).
