(* SpecText.v -- specification vocabulary for the text parser: a character automaton
   over unbounded lists, documents, and call histories. *)
From Verif Require Export SpecBuffer TextParser.

(** a zero-padded buffer of capacity [cap] showing [l] *)
Definition zb (cap : nat) (l : list Z) : bufm := mkBuf (l ++ repeat 0 (cap - List.length l)) (zlen l) (Z.of_nat cap).

(** ** The automaton: what the parser does with one character *)
Definition SQ_OPEN := 91.  (* [ *)
Definition SQ_CLOSE := 93. (* ] *)
Definition DOT := 46.
Definition EQUALS := 61.
Definition NEWLINE := 10.

(** longest accepted section, key and value *)
Definition max_section : nat := 11.
Definition max_key : nat := 11.
Definition max_value : nat := 26.
(** longest accepted input text *)
Definition max_text : Z := 30.

Inductive where_ : Set := Between | InSection | InKey | InValue | Failed.
Record auto : Type := mkA { a_at : where_; a_sec : list Z; a_key : list Z; a_val : list Z }.
(** a report: section, key, value *)
Definition report : Type := list Z * list Z * list Z.
Definition err : list Z := zs "ERROR".
Definition failed : auto := mkA Failed err err err.
Definition error_report : report := (err, err, err).

Definition astep (a : auto) (c : Z) : auto * list report :=
  match a_at a with
  | Between =>
      if c =? SQ_OPEN then (mkA InSection [] (a_key a) (a_val a), [])
      else if c =? DOT then (mkA InKey (a_sec a) (a_key a) (a_val a), [])
      else (a, [])
  | InSection =>
      if c =? SQ_CLOSE then (mkA Between (a_sec a) (a_key a) (a_val a), [])
      else if (List.length (a_sec a) <? max_section)%nat then (mkA InSection (a_sec a ++ [c]) (a_key a) (a_val a), [])
      else (failed, [error_report])
  | InKey =>
      if c =? EQUALS then (mkA InValue (a_sec a) (a_key a) (a_val a), [])
      else if c =? NEWLINE then (mkA Between (a_sec a) [] [], [(a_sec a, a_key a, [])])
      else if (List.length (a_key a) <? max_key)%nat then (mkA InKey (a_sec a) (a_key a ++ [c]) (a_val a), [])
      else (failed, [error_report])
  | InValue =>
      if c =? NEWLINE then (mkA Between (a_sec a) [] [], [(a_sec a, a_key a, a_val a)])
      else if (List.length (a_val a) <? max_value)%nat then (mkA InValue (a_sec a) (a_key a) (a_val a ++ [c]), [])
      else (failed, [error_report])
  | Failed => (a, [])
  end.

(** a whole string, character by character *)
Fixpoint afeed (a : auto) (s : list Z) : auto * list report :=
  match s with
  | [] => (a, [])
  | c :: r => let '(a1, e1) := astep a c in let '(a2, e2) := afeed a1 r in (a2, e1 ++ e2)
  end.

Definition afailed (a : auto) : bool := match a_at a with Failed => true | _ => false end.
(** one addText call: too long a text, or any text after a failure, is an error report *)
Definition aadd (a : auto) (s : list Z) : auto * list report :=
  if (zlen s >? max_text) || afailed a then (failed, [error_report]) else afeed a s.
(** a sequence of addText calls *)
Fixpoint aadds (a : auto) (l : list (list Z)) : auto * list report :=
  match l with
  | [] => (a, [])
  | s :: r => let '(a1, e1) := aadd a s in let '(a2, e2) := aadds a1 r in (a2, e1 ++ e2)
  end.

Definition astart : auto := mkA Between [] [] [].
Definition fits (a : auto) : Prop :=
  (List.length (a_sec a) <= max_section)%nat /\ (List.length (a_key a) <= max_key)%nat /\ (List.length (a_val a) <= max_value)%nat.

(** ** The parser object in a given automaton state, with consumer c *)
Definition pstate (w : where_) : PState :=
  match w with Between => LOOKING | InSection => PARSING_SECTION | InKey => PARSING_KEY | InValue => PARSING_VALUE | Failed => ERROR end.
Definition parser (a : auto) (c : option nat) : TP :=
  mkTP (pstate (a_at a)) c (zb 31 []) (zb max_section (a_sec a)) (zb max_key (a_key a)) (zb max_value (a_val a)).

(** the arguments of the consumer callback for a report *)
Definition as_buffers (r : report) : triple :=
  let '(s, k, v) := r in (zb max_section s, zb max_key k, zb max_value v).
(** without a consumer nothing is called *)
Definition told (c : option nat) (l : list report) : list triple :=
  match c with Some _ => map as_buffers l | None => [] end.

(** ** Call histories *)
Inductive tcall : Type :=
| TText (b : bufm)           (* addText(b) *)
| TReset                     (* reset() *)
| TConsumer (c : option nat). (* setConsumer(c) *)
Definition tstep (t : TP) (k : tcall) : res (TP * list triple) :=
  match k with
  | TText b => tp_addText t b
  | TReset => t' <- tp_reset t ;; Ok (t', [])
  | TConsumer c => Ok (tp_setConsumer t c, [])
  end.
Fixpoint trun (t : TP) (l : list tcall) : res (TP * list triple) :=
  match l with
  | [] => Ok (t, [])
  | k :: r => '(t1, e1) <- tstep t k ;; '(t2, e2) <- trun t1 r ;; Ok (t2, e1 ++ e2)
  end.
(** texts are valid buffers *)
Definition valid_call (k : tcall) : Prop := match k with TText b => exists s, holds b s | _ => True end.
(** a parser as it is after any valid calls since its construction *)
Definition used (t : TP) : Prop := exists l e, Forall valid_call l /\ trun tp_new l = Ok (t, e).
(** the list of calls addText(b) for each buffer, with contents [cut] *)
Definition texts (cut : list (list Z)) (bs : list bufm) : Prop := Forall2 (fun b s => holds b s) bs cut.
Definition short (cut : list (list Z)) : Prop := Forall (fun s => zlen s <= max_text) cut.
(** token s is accepted silently if it has at most n characters; if it is longer there are only
    error reports, at least one, and the parser is in the error state *)
Definition limited (n : nat) (s : list Z) (r : res (TP * list triple)) : Prop :=
  exists t evs, r = Ok (t, evs) /\ ((List.length s <= n)%nat <-> evs = []) /\ ((List.length s <= n)%nat <-> tp_state t <> ERROR) /\
    ((n < List.length s)%nat -> exists m, evs = map as_buffers (repeat error_report (S m))).

(** ** Documents *)
Inductive item : Type :=
| ISection (s : list Z)
| IFlag (k : list Z)            (* a key line without '=' *)
| IPair (k v : list Z).
(** the text of an item *)
Definition show (i : item) : list Z :=
  match i with
  | ISection s => [SQ_OPEN] ++ s ++ [SQ_CLOSE]
  | IFlag k => [DOT] ++ k ++ [NEWLINE]
  | IPair k v => [DOT] ++ k ++ [EQUALS] ++ v ++ [NEWLINE]
  end.
Definition free_of (ds : list Z) (s : list Z) : Prop := Forall (fun c => ~ In c ds) s.
Definition item_ok (i : item) : Prop :=
  match i with
  | ISection s => free_of [SQ_CLOSE] s /\ (List.length s <= 11)%nat
  | IFlag k => free_of [EQUALS; NEWLINE] k /\ (List.length k <= 11)%nat
  | IPair k v => free_of [EQUALS; NEWLINE] k /\ (List.length k <= 11)%nat /\
                 free_of [NEWLINE] v /\ (List.length v <= 26)%nat
  end.
(** items separated by arbitrary text without '[' and '.' (newlines, indentation, ...) *)
Definition doc : Type := list (list Z * item).
Definition doc_ok (d : doc) : Prop := Forall (fun gi => free_of [SQ_OPEN; DOT] (fst gi) /\ item_ok (snd gi)) d.
Definition show_doc (d : doc) : list Z := flat_map (fun gi => fst gi ++ show (snd gi)) d.
(** the reports a reader of the document expects, given the current section *)
Fixpoint reports (sec : list Z) (d : doc) : list report :=
  match d with
  | [] => []
  | (_, ISection s) :: r => reports s r
  | (_, IFlag k) :: r => (sec, k, []) :: reports sec r
  | (_, IPair k v) :: r => (sec, k, v) :: reports sec r
  end.
Fixpoint last_section (sec : list Z) (d : doc) : list Z :=
  match d with
  | [] => sec
  | (_, ISection s) :: r => last_section s r
  | _ :: r => last_section sec r
  end.
