(* LoggedTouch.v -- the logging builds (LoggedReentry.v) with user code that, besides calling the library,
   changes the section, key and value buffers of parsers (Touch.v).  The functions of the library are
   those of LoggedReentry.v; the user code and its buffer operations are those of Touch.v. *)
From Verif Require Export LoggedReentry Touch.

(** Running user code with at most n nested levels of calls into the library: texec of Touch.v with the
    log sections of the setting g *)
Fixpoint wexec (lw : Z) (g : logcfg) (react : list event -> tcode) (n : nat) : tcode -> ract unit :=
  fix go (c : tcode) : ract unit :=
    match c with
    | TRet => rret tt
    | TCall o k =>
        match n with
        | O => rval (UB TooDeep)
        | S n' => vstep lw g no_code (fun _ s => wexec lw g react n' (react (r_t s)) s) o
        end ~;; (fun s => go (k (r_w s) (r_t s)) s)
    | TTouch p v k => touch p v ~;; (fun s => go (k (r_w s) (r_t s)) s)
    end.
