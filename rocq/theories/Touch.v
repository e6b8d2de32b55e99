(* Touch.v -- Reentry.v once more, for user code that, besides calling the library, changes the section,
   key and value buffers of a parser: TextParser.h:26 passes them to
   consumeConfigData as BufferManager&, references to members of the parser, which user code can use as
   long as the parser exists.  The functions of the library are those of Reentry.v, which read the
   buffers where the C++ does; only the user code is another.  Not modelled: writing through data() and move assignment of one
   manager to another (BufferManager.h:31), after which two managers share memory. *)
From Verif Require Export Reentry SpecMeddle.

(** ** User code *)
(** return, call an operation, or use the buffers of parser p; in the latter case the code looks at
    their content, brings buffers of its own and performs operations of class BufferManager
    (SpecMeddle.v), and then continues.  Any user code may do so at any time: the model does not ask
    whether it has been handed the references before. *)
Inductive tcode : Type :=
| TRet
| TCall (o : op) (k : world -> list event -> tcode)
| TTouch (p : nat) (v : triple -> visit) (k : world -> list event -> tcode).
(** what a piece of code of Reentry.v is here *)
Fixpoint plain (c : code) : tcode :=
  match c with Ret => TRet | Call o k => TCall o (fun w t => plain (k w t)) end.

(** the buffer operations, performed by the code of BufferManager.h on the members of the parser
    (TextParser.h:109-116) *)
Definition touch (p : nat) (v : triple -> visit) : ract unit :=
  sp <~ rask (get_lib p) ~;
  let t := sp_text sp in
  r <~ rval (code_of (fun _ => v) [] (tp_sec t, tp_key t, tp_val t)) ~;
  let '(s, k, x) := r in
  rlift (put_lib p (mkSP (sp_state sp) (sp_remaining sp) (set_val (set_key (set_sec t s) k) x) (sp_crc sp) (sp_cons sp))).

(** no user code in the sense of Reentry.v *)
Definition no_code (h : list event) : code := Ret.
(** ** Running user code with at most n nested levels of calls into the library: as rexec, with the
    behaviour of the user objects given by [react] *)
Fixpoint texec (lw : Z) (react : list event -> tcode) (n : nat) : tcode -> ract unit :=
  fix go (c : tcode) : ract unit :=
    match c with
    | TRet => rret tt
    | TCall o k =>
        match n with
        | O => rval (UB TooDeep)
        | S n' => rstep lw no_code (fun _ s => texec lw react n' (react (r_t s)) s) o
        end ~;; (fun s => go (k (r_w s) (r_t s)) s)
    | TTouch p v k => touch p v ~;; (fun s => go (k (r_w s) (r_t s)) s)
    end.
