(* SpecLogged.v -- vocabulary for the logging builds (C65, C66). *)
From Verif Require Export SpecSafe Logged.

(** t' is t with console output inserted *)
Inductive more_output : list event -> list event -> Prop :=
| mo_nil : more_output [] []
| mo_same : forall e t t', more_output t t' -> more_output (e :: t) (e :: t')
| mo_print : forall b t t', more_output t t' -> more_output t (EvPrint b :: t').

(** the template's setting and every other one that enables no #if section *)
Definition silent (g : logcfg) : Prop :=
  lg_level g < 2 /\ lg_dump g = false /\ lg_out g = false /\ lg_raw g = false.
(** the setting prints every line handed to a library consumer *)
Definition prints_lines (g : logcfg) : Prop := 2 <= lg_level g.

(** a text that fills its buffer to the last character and leaves no room for a NUL *)
Definition full (cap : nat) (t : list Z) : Prop := List.length t = cap /\ nulfree t.
(** a line with a section or key of 11 characters or a value of 26 *)
Definition overfull (r : report) : Prop :=
  let '(s, k, v) := r in full 11 s \/ full 11 k \/ full 26 v.
(** operation o makes a parser report such a line to a LocoConsumer or LocoListConsumer *)
Definition overfull_line (w : world) (o : op) : Prop :=
  exists p d sp a c x, hands_over w o p d /\ lib_at w p sp /\ sp_state sp = SS_DATA /\ dlc d = 8 /\
    sp_text sp = parser a (sp_cons sp) /\ sp_cons sp = Some c /\ consumer_at w c x /\ x <> UserC /\
    Exists overfull (snd (aadd a (content d))).
