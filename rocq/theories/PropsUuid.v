(* PropsUuid.v -- C120: hashes and UUIDs influence nothing but the hashes of transmitted frames. *)
From Verif Require Import ZLib World Reentry SpecCodec SpecStation SpecUuid ProofsUuid Demo.

(** ** C120 *)
(** Histories that differ at most in the UUIDs given to begin() and in the hashes of the frames and
    identifiers passed in, from states that differ at most in the hashes in use, are undefined in the
    same way, or end in states and made calls that again differ at most in hashes. *)
Theorem C120_histories : forall lw ops ops' w w',
  Forall2 op_alike ops ops' -> world_alike w w' -> outcome_alike (run lw ops w) (run lw ops' w').
Proof. intros lw ops ops' w w' O W. exact (rel_run lw ops ops' O w w' W). Qed.
Print Assumptions C120_histories.
(** The same for user code that calls back from inside the library's calls, however deeply, as long
    as it does not itself act on hashes. *)
Theorem C120_callbacks : forall lw react react' n c d s r,
  react_alike react react' -> code_alike c d -> seen_alike s r ->
  end_alike (rexec lw react n c s) (rexec lw react' n d r).
Proof. exact exec_alike. Qed.
Print Assumptions C120_callbacks.
(** Two UUIDs given to a station that can transmit lead to the same behaviour for ever exactly if
    they agree in bits 0 to 6 and in bits 11 to 15. *)
Theorem C120_told_apart : forall lw w s u v c x w1 t1,
  is_u16 u -> is_u16 v -> cb_tx c = Some x -> run lw [OnStation s (Begin u c)] w = Ok (w1, t1) ->
  ((forall ops, run lw (OnStation s (Begin u c) :: ops) w = run lw (OnStation s (Begin v c) :: ops) w) <->
   u mod 128 = v mod 128 /\ u / 2048 = v / 2048).
Proof. exact told_apart. Qed.
Print Assumptions C120_told_apart.

(** two stations with different UUIDs make the same request, and receive frames of different senders *)
Definition c120_ops (u h : Z) : list op :=
  [ OnStation 1 (Begin u (st_cbs demo_st0)); OnStation 1 (RequestEngineList 0 (Some 1%nat));
    OnStation 1 (HandlePacket (mkFrame (0x00420000 + h) (mkData 6 [0; 0; 0; 8; 0; 0; 0; 0; 0])));
    OnStation 1 (SendPacket (mkFrame (0x00160000 + h) data0)) ].
Example C120_case_histories :
  Forall2 op_alike (c120_ops 1 0x0300) (c120_ops 0x1805 0xFFFF) /\ world_alike demo demo /\
  (exists w t w' t', run 64 (c120_ops 1 0x0300) demo = Ok (w, t) /\ run 64 (c120_ops 0x1805 0xFFFF) demo = Ok (w', t') /\
     map fid (sent t) = [0x00400001; 0x00400001; 0x00160001] /\ map fid (sent t') = [0x00400305; 0x00400305; 0x00160305]).
Proof.
  split; [|split].
  - unfold c120_ops. repeat constructor.
  - split; [|split; [|split]; reflexivity]. repeat constructor; cbn; lia.
  - do 4 eexists. split; [vm_compute; reflexivity|]. split; [vm_compute; reflexivity|]. split; reflexivity.
Qed.
(** a transmitter that hands every frame back to a second station *)
Definition c120_react (t : list event) : code :=
  match rev t with EvTx _ f :: _ => ops_code [OnStation 0 (HandlePacket f)] | _ => Ret end.
Example C120_case_callbacks :
  react_alike c120_react c120_react /\
  code_alike (ops_code (c120_ops 1 0x0300)) (ops_code (c120_ops 0x1805 0xFFFF)) /\ seen_alike (mkR demo []) (mkR demo []) /\
  fst (rexec 64 c120_react 2 (ops_code (c120_ops 1 0x0300)) (mkR demo [])) = Ok tt.
Proof.
  split; [|split; [|split]].
  - intros t s H. unfold c120_react. assert (R : Forall2 event_alike (rev t) (rev s)).
    { clear - H. induction H as [|a b l m AB H IH]; cbn [rev]; [constructor|]. apply Forall2_app; [exact IH|now repeat constructor]. }
    destruct R as [|a b l m AB R]; [constructor|]. destruct AB as [x f g F|e].
    + cbn [ops_code]. constructor; [now constructor|]. intros. constructor.
    + destruct e; try apply alike_ret. apply alike_call; [apply alike_op|]. intros. apply alike_ret.
  - unfold c120_ops. cbn [ops_code]. repeat (constructor; [now repeat constructor|intros]). constructor.
  - split; [|constructor]. split; [|split; [|split]; reflexivity]. repeat constructor; cbn; lia.
  - vm_compute. reflexivity.
Qed.
Example C120_case_told_apart :
  is_u16 1 /\ is_u16 129 /\ (exists w t, run 64 [OnStation 0 (Begin 1 (st_cbs demo_st0))] demo = Ok (w, t)) /\
  1 mod 128 = 129 mod 128 /\ 1 / 2048 = 129 / 2048.
Proof.
  split; [unfold is_u16; lia|]. split; [unfold is_u16; lia|]. split; [do 2 eexists; vm_compute; reflexivity|]. split; reflexivity.
Qed.
