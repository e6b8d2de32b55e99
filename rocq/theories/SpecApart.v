(* SpecApart.v -- vocabulary for C123: user code, including callbacks, that has nothing to do with
   certain objects. *)
From Verif Require Export SpecLife Reentry.

(** Two pieces of user code make the same calls, none of which names an object of X, as long as
    what they have seen is the same outside X. *)
Inductive blind (X : thing -> Prop) : code -> code -> Prop :=
| blind_ret : blind X Ret Ret
| blind_call : forall o k l, (forall x, names o x -> ~ X x) ->
    (forall w v t, same_outside X w v -> blind X (k w t) (l v t)) -> blind X (Call o k) (Call o l).
(** user code that neither names the objects of X nor looks at them *)
Definition unaware (X : thing -> Prop) (c : code) : Prop := blind X c c.
