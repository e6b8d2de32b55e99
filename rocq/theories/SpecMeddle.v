(* SpecMeddle.v -- vocabulary for C102-C104: consumers that change the buffers they are handed. *)
From Verif Require Export Meddle SpecText.

(** ** The consumer *)
(** In each call the consumer, knowing this and all earlier calls, brings buffers of its own and
    performs operations of class BufferManager (SpecBuffer.v).  Buffers 0, 1 and 2 are the section,
    the key and the value, the consumer's own buffers follow. *)
Record visit : Type := mkVisit { own : list bufm; does : list bop }.
Definition consumer : Type := list triple -> triple -> visit.
Definition code_of (q : consumer) : handler := fun log call =>
  let '(s, k, v) := call in
  '(bs, _) <- code_run (does (q log call)) (s :: k :: v :: own (q log call)) ;;
  match bs with s' :: k' :: v' :: _ => Ok (s', k', v') | _ => UB Dangling end.

(** what it leaves in them, as text, by the ideal queues of SpecBuffer.v *)
Definition conduct : Type := list report -> report -> report.
Definition in_limits (r : report) : Prop :=
  let '(s, k, v) := r in (List.length s <= 11)%nat /\ (List.length k <= 11)%nat /\ (List.length v <= 26)%nat.
Definition queues (r : report) : list queue := let '(s, k, v) := r in [mkQ 11 s; mkQ 11 k; mkQ 26 v].
Definition leaves (q : consumer) (f : conduct) : Prop := forall log r, in_limits r ->
  exists mine mine' ns, Forall2 represents (own (q (map as_buffers log) (as_buffers r))) mine /\
    ideal_run (does (q (map as_buffers log) (as_buffers r))) (queues r ++ mine) = Some (queues (f log r) ++ mine', ns).

(** ** The automaton of SpecText.v with such a consumer *)
(** what the buffers show after a report, and all reports so far *)
Definition handed (f : conduct) (c : option nat) (log : list report) (r : report) : report * list report :=
  match c with Some _ => (f log r, log ++ [r]) | None => (r, log) end.
Definition mfail (f : conduct) (c : option nat) (log : list report) : auto * list report :=
  let '(s, k, v, log) := handed f c log error_report in (mkA Failed s k v, log).
Definition mstep (f : conduct) (c : option nat) (x : auto * list report) (z : Z) : auto * list report :=
  let (a, log) := x in
  match a_at a with
  | Between | Failed => (fst (astep a z), log)
  | InSection => if (z =? SQ_CLOSE) || (List.length (a_sec a) <? max_section)%nat then (fst (astep a z), log) else mfail f c log
  | InKey =>
      if z =? NEWLINE then
        (* the key is erased, what the consumer left in the value is not *)
        let '(s, _, v, log) := handed f c log (a_sec a, a_key a, []) in (mkA Between s [] v, log)
      else if (z =? EQUALS) || (List.length (a_key a) <? max_key)%nat then (fst (astep a z), log) else mfail f c log
  | InValue =>
      if z =? NEWLINE then
        let '(s, _, _, log) := handed f c log (a_sec a, a_key a, a_val a) in (mkA Between s [] [], log)
      else if (List.length (a_val a) <? max_value)%nat then (fst (astep a z), log) else mfail f c log
  end.
(** one addText call, and several *)
Definition madd (f : conduct) (c : option nat) (x : auto * list report) (s : list Z) : auto * list report :=
  if (zlen s >? max_text) || afailed (fst x) then mfail f c (snd x) else fold_left (mstep f c) s x.

(** calls of the parser's member functions *)
Definition mstep_call (h : handler) (x : mtp) (k : tcall) : res mtp :=
  match k with
  | TText b => m_addText h x b
  | TReset => t <- tp_reset (fst x) ;; Ok (t, snd x)
  | TConsumer c => Ok (tp_setConsumer (fst x) c, snd x)
  end.
Fixpoint mrun (h : handler) (x : mtp) (l : list tcall) : res mtp :=
  match l with [] => Ok x | k :: r => x <- mstep_call h x k ;; mrun h x r end.

(** ** What is expected of any history of calls *)
Definition text_of (b : bufm) : list Z := firstn (Z.to_nat (blen b)) (mem b).
Record picture : Type := mkPicture { shows : auto; tells : option nat; calls_made : list report }.
Definition expect (f : conduct) (x : picture) (k : tcall) : picture :=
  match k with
  | TText b => let (a, log) := madd f (tells x) (shows x, calls_made x) (text_of b) in mkPicture a (tells x) log
  | TReset => mkPicture astart None (calls_made x)
  | TConsumer c => mkPicture (shows x) c (calls_made x)
  end.
Definition expected (f : conduct) (l : list tcall) : picture := fold_left (expect f) l (mkPicture astart None []).
(** the object and the calls of a picture *)
Definition as_code (x : picture) : mtp := (parser (shows x) (tells x), map as_buffers (calls_made x)).

(** a consumer that leaves the section as it is, and an empty value empty *)
Definition harmless (f : conduct) : Prop := forall log s k v, fst (fst (f log (s, k, v))) = s /\ (v = [] -> snd (f log (s, k, v)) = []).

(** ** Documents read by such a consumer *)
(** the calls, given the text of the section and of the value before *)
Fixpoint meddled (f : conduct) (log : list report) (sec left : list Z) (d : doc) : list report :=
  match d with
  | [] => log
  | (_, ISection s) :: r => meddled f log s left r
  | (_, IFlag k) :: r => let '(s, _, v) := f log (sec, k, []) in meddled f (log ++ [(sec, k, [])]) s v r
  | (_, IPair k v) :: r => let '(s, _, _) := f log (sec, k, left ++ v) in meddled f (log ++ [(sec, k, left ++ v)]) s [] r
  end.
(** no value becomes too long *)
Fixpoint values_fit (f : conduct) (log : list report) (sec left : list Z) (d : doc) : Prop :=
  match d with
  | [] => True
  | (_, ISection s) :: r => values_fit f log s left r
  | (_, IFlag k) :: r => let '(s, _, v) := f log (sec, k, []) in values_fit f (log ++ [(sec, k, [])]) s v r
  | (_, IPair k v) :: r => (List.length (left ++ v) <= 26)%nat /\
      let '(s, _, _) := f log (sec, k, left ++ v) in values_fit f (log ++ [(sec, k, left ++ v)]) s [] r
  end.
