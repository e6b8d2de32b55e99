(* SpecLoco.v -- specification vocabulary for locomotives. *)
From Verif Require Export Loco SpecBuffer.

(** a name field of 33 bytes showing the string t (at most 32 characters), NUL filled *)
Definition shows_name (field t : list Z) : Prop :=
  nulfree t /\ (List.length t <= 32)%nat /\ field = t ++ repeat 0 (33 - List.length t).

(** the 32-bit function word *)
Definition function_word (d : LocoData) : Prop := 0 <= ld_fbits d < 2 ^ 32.

(** everything but the function word *)
Definition same_but_functions (d d' : LocoData) : Prop :=
  ld_uid d' = ld_uid d /\ ld_vel d' = ld_vel d /\ ld_dir d' = ld_dir d /\ ld_addr d' = ld_addr d.
