(* Own.v -- the string arguments of RR32Can/Locomotive.h and the frame argument of Station::SendPacket
   as references.  Loco.v and World.v take them by value; here a string may be in the engine that is
   changed or in another one, and the frame is the caller's variable. *)
From Verif Require Export Shared World.

(* ------------------------------------------------------------------ *)
(** * Strings in engines *)

(** what a [const char*] points to: memory outside the engines, or the array name_
    (Locomotive.h:65) or protocol_ (Locomotive.h:177) of an engine, from an index on *)
Inductive strarg : Type := Elsewhere (m : list Z) | NameAt (e k : nat) | ProtoAt (e k : nat).

(** from an index of an array to its end *)
Definition from_index (m : list Z) (k : nat) : res (list Z) := if (k <=? List.length m)%nat then Ok (skipn k m) else UB OutOfBounds.
(** the memory that can be read through the pointer at this moment *)
Definition arg_memory (es : list Loco) (a : strarg) : res (list Z) :=
  match a with
  | Elsewhere m => Ok m
  | NameAt e k => l <- at_ es e ;; from_index (si_name (lo_info l)) k
  | ProtoAt e k => l <- at_ es e ;; from_index (lo_proto l) k
  end.
(** the first [n] bytes of the name (of the protocol) of engine e and [n'] bytes from the pointer on
    have a byte in common; the two arrays of an engine are apart *)
Definition in_name (e : nat) (n : Z) (a : strarg) (n' : Z) : bool :=
  match a with NameAt e' k => overlap (e, 0) n (e', Z.of_nat k) n' | _ => false end.
Definition in_proto (e : nat) (n : Z) (a : strarg) (n' : Z) : bool :=
  match a with ProtoAt e' k => overlap (e, 0) n (e', Z.of_nat k) n' | _ => false end.

(** Locomotive.h:31-35 on a Locomotive: reset (162-167) erases name_ and protocol_ before the string is
    read; strncpy requires that source and destination do not overlap *)
Definition o_setName (es : list Loco) (e : nat) (a : strarg) : res (list Loco) :=
  l <- at_ es e ;;
  let es := upd e lo_reset es in
  str <- arg_memory es a ;;
  if in_name e kEngineNameLength a (str_read str (Z.to_nat kEngineNameLength)) then UB Overlap
  else n <- c_strncpy erased_name str kEngineNameLength ;;
       Ok (upd e (mkLoco (mkSI NAME_KNOWN n) (lo_data lo_reset) (lo_proto lo_reset)) es).
(** Locomotive.h:42-49; strncmp may compare memory with itself *)
Definition o_setNameConditional (es : list Loco) (e : nat) (a : strarg) : res (list Loco * bool) :=
  l <- at_ es e ;;
  same <- (if avail_eqb (si_avail (lo_info l)) EMPTY then Ok false
           else str <- arg_memory es a ;; strncmp_eq str (si_name (lo_info l)) (Z.to_nat kEngineNameLength)) ;;
  if same : bool then Ok (es, false) else es' <- o_setName es e a ;; Ok (es', true).
(** Locomotive.h:173 *)
Definition o_setProtocolString (es : list Loco) (e : nat) (a : strarg) : res (list Loco) :=
  l <- at_ es e ;;
  str <- arg_memory es a ;;
  if in_proto e kProtocolNameMaxLength a (str_read str (Z.to_nat kProtocolNameMaxLength)) then UB Overlap
  else p <- c_strncpy (lo_proto l) str kProtocolNameMaxLength ;; Ok (upd e (mkLoco (lo_info l) (lo_data l) p) es).

(* ------------------------------------------------------------------ *)
(** * Frames of the caller *)

(** Station.cpp:281-284: the hash is written to the caller's frame, which is then transmitted *)
Definition o_sendPacket (s : nat) (f : CanFrame) (w : world) : res (world * list event * CanFrame) :=
  st <- get_station s w ;;
  let f := mkFrame (id_setHash (fid f) (st_hash st)) (fdata f) in
  '(w, t) <- tx_send (st_cbs st) f w ;;
  Ok (w, t, f).
(** a program that sends variables of type CanFrame: each element is a station and a variable *)
Fixpoint o_sends (l : list (nat * nat)) (vars : list CanFrame) (w : world) : res (world * list event * list CanFrame) :=
  match l with
  | [] => Ok (w, [], vars)
  | (s, i) :: l =>
      f <- at_ vars i ;;
      '(w, t, f) <- o_sendPacket s f w ;;
      '(w, t', vars) <- o_sends l (upd i f vars) w ;;
      Ok (w, t ++ t', vars)
  end.
