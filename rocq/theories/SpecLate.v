(* SpecLate.v -- vocabulary for callbacks that are called last (C128). *)
From Verif Require Export SpecReentry.

(** ** Calls of user objects with which the library's work is done: those that report a received
    system or engine command, and those that report a complete download *)
Definition comes_last (e : event) : bool :=
  match e with
  | EvSystem _ _ _ | EvVelocity _ _ _ | EvVelocityAll _ _ | EvFunction _ _ _ _ | EvDirection _ _ _ | EvChangeDirection _ _
  | EvStreamComplete _ | EvEndComplete _ _ => true
  | _ => false
  end.
(** user objects that call the library only when told one of these *)
Definition late (react : list event -> code) : Prop := forall h e, comes_last e = false -> react (h ++ [e]) = Ret.
(** user objects that never call the library *)
Definition passive (h : list event) : code := Ret.

(** ** The same user code, run after the call of the library has returned *)
(** the event is a call of a user object; the library's own consumers note the end of a stream too *)
Definition told_user (w : world) (e : event) : bool :=
  comes_last e && match e with EvStreamComplete c => match nth_error (w_conss w) c with Some UserC => true | _ => false end | _ => true end.
(** what is to be done about the last of the events [new], which a call of the library added to those
    before *)
Definition to_do (react : list event -> code) (w : world) (before new : list event) : code :=
  match rev new with e :: _ => if told_user w e then react (before ++ new) else Ret | [] => Ret end.
Definition added (before t : list event) : list event := skipn (List.length before) t.
(** run user code with user objects that do nothing when called; after each call, do what [react]
    would have done from inside it.  What is done then can again lead to calls of user objects, at
    most n deep. *)
Fixpoint afterwards (lw : Z) (react : list event -> code) (n : nat) : code -> ract unit :=
  match n with
  | O => fun c => match c with Ret => rret tt | Call _ _ => rval (UB TooDeep) end
  | S n' =>
      fix go (c : code) : ract unit :=
        match c with
        | Ret => rret tt
        | Call o k => fun s =>
            (rexec lw passive 1 (Call o done) ~;;
             (fun s1 => afterwards lw react n' (to_do react (r_w s1) (r_t s) (added (r_t s) (r_t s1))) s1) ~;;
             (fun s2 => go (k (r_w s2) (r_t s2)) s2)) s
        end
  end.
