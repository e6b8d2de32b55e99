(* SpecTouchLog.v -- vocabulary for the logging builds with user code that changes the parsers' buffers (C133). *)
From Verif Require Export LoggedTouch SpecTouch SpecTalk.

(** User code that does not look at the console: it does the same after traces that differ only in
    console output. *)
Inductive deaf_tcode : tcode -> Prop :=
| deaf_tret : deaf_tcode TRet
| deaf_tcall : forall o k, (forall w t t', calls t = calls t' -> k w t = k w t') -> (forall w t, deaf_tcode (k w t)) -> deaf_tcode (TCall o k)
| deaf_touch : forall p v k, (forall w t t', calls t = calls t' -> k w t = k w t') -> (forall w t, deaf_tcode (k w t)) -> deaf_tcode (TTouch p v k).
Definition deaf_user (react : list event -> tcode) : Prop :=
  (forall t t', calls t = calls t' -> react t = react t') /\ (forall t, deaf_tcode (react t)).
