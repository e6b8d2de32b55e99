(* PropsMovedParser.v -- property theorems C137: text parsers that are moved.  Vocabulary:
   SpecMovedParser.v, SpecText.v; the model: MovedParser.v. *)
From Verif Require Import ZLib SpecMovedParser ProofsMovedParser.

(** ** C137 *)
(** Any program that constructs, feeds, resets, moves and ends text parsers, if it does not use an object
    it moved from and neither ends nor overwrites an object in which a parser was constructed that
    another object stands for: it is defined, reports exactly what the parsers would report if they had
    never been moved, and every object continues where the one moved into it was. *)
Theorem C137_moved_parsers_continue : forall l cs es, ideal_prun l [] = Some (cs, es) ->
  exists h os, p_run l ([], []) = Ok (h, os, es) /\
    forall i x a c, the_parser cs i = Some (x, (a, c)) -> exists p, nth_error os i = Some p /\ parser_at h (po_tp p) = parser a c.
Proof. exact moved_parsers. Qed.
Print Assumptions C137_moved_parsers_continue.
(** The object moved from must stay: if it ends, every use of the other object is undefined, be it any
    text of at least one character or reset(). *)
Theorem C137_use_after_end : forall l cs es h os i x a c, ideal_prun l [] = Some (cs, es) -> p_run l ([], []) = Ok (h, os, es) ->
  the_parser cs i = Some (x, (a, c)) -> x <> i -> alive cs x = true ->
  (forall bs, bs <> [] -> zlen bs <= 255 -> exists u, p_run [PEnd x; PText i bs] (h, os) = UB u) /\ exists u, p_run [PEnd x; PReset i] (h, os) = UB u.
Proof. exact use_after_end. Qed.
Print Assumptions C137_use_after_end.

(** two parsers in the middle of a value *)
Definition two_parsers : list mpop :=
  [PNew; PNew; PConsumer 0 (Some 0%nat); PConsumer 1 (Some 1%nat); PText 0 (zs "[lok] .uid=12"); PText 1 (zs "[sta] .adr=789")].
(** std::swap does not exchange two text parsers: afterwards each has the position of the one and the
    text of the other.  The line that object 0 was reading, and that object 1 should now complete, was
    uid=12 in section lok. *)
Theorem C137_swap_refuted : exists h os es h' os' es' x x',
  p_run (two_parsers ++ [PText 0 [10]]) ([], []) = Ok (h, os, es) /\ last es [] = [x] /\ report_of x = (zs "lok", zs "uid", zs "12") /\
  p_run (two_parsers ++ swap_parsers 2 0 1 ++ [PText 1 [10]]) ([], []) = Ok (h', os', es') /\ last es' [] = [x'] /\ report_of x' = (zs "sta", zs "adr", zs "78") /\
  ideal_prun (two_parsers ++ swap_parsers 2 0 1) [] = None.
Proof. do 8 eexists. split; [vm_compute; reflexivity|]. split; [reflexivity|]. split; [reflexivity|]. split; [vm_compute; reflexivity|]. split; [reflexivity|]. split; vm_compute; reflexivity. Qed.
Print Assumptions C137_swap_refuted.
(** Moving a parser away and back loses the text received in between. *)
Theorem C137_move_back_refuted : exists h os es x,
  p_run [PNew; PConsumer 0 (Some 0%nat); PText 0 (zs "[lok] .uid=12"); PMoveNew 0; PText 1 (zs "345"); PMoveInto 0 1; PText 0 [10]] ([], []) = Ok (h, os, es) /\
  last es [] = [x] /\ report_of x = (zs "lok", zs "uid", zs "12" ++ [0; 0; 0]) /\
  ideal_prun [PNew; PConsumer 0 (Some 0%nat); PText 0 (zs "[lok] .uid=12"); PMoveNew 0; PText 1 (zs "345"); PMoveInto 0 1] [] = None.
Proof. do 4 eexists. split; [vm_compute; reflexivity|]. split; [reflexivity|]. split; [reflexivity|vm_compute; reflexivity]. Qed.
Print Assumptions C137_move_back_refuted.

(** a parser handed through three objects, the second of which ends, while another one is at work *)
Definition handed_on : list mpop :=
  two_parsers ++ [PMoveNew 0; PText 2 (zs "34"); PMoveInto 1 2; PEnd 2; PText 1 (zs "5" ++ [10] ++ zs " .x")].
Example C137_case : exists cs es x, ideal_prun handed_on [] = Some (cs, es) /\ last es [] = [x] /\ report_of x = (zs "lok", zs "uid", zs "12345") /\
  the_parser cs 1 = Some (0%nat, (mkA InKey (zs "lok") (zs "x") [], Some 0%nat)) /\ alive cs 0 = true /\ the_parser cs 0 = None /\ alive cs 2 = false.
Proof. do 3 eexists. split; [vm_compute; reflexivity|]. split; [reflexivity|]. split; [reflexivity|]. split; [vm_compute; reflexivity|]. repeat split. Qed.
Example C137_case_end : exists h os es, p_run handed_on ([], []) = Ok (h, os, es) /\ p_run [PEnd 0; PText 1 [61]] (h, os) = UB OutOfBounds.
Proof. do 3 eexists. split; [vm_compute; reflexivity|]. vm_compute. reflexivity. Qed.
