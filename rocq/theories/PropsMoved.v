(* PropsMoved.v -- property theorems about moving buffer managers: C135.  Vocabulary: SpecMoved.v,
   SpecShared.v, SpecBuffer.v *)
From Verif Require Import SpecMoved ProofsMoved PropsShared.

(** ** C135 *)
(** Histories of buffer operations in which managers are also moved, by assignment or construction: as
    long as no manager is used after it was moved from and before it is assigned to again, each holds
    exactly what the queue it took over holds, the results are the same, and nothing is lost: the memory
    of a manager that was assigned to still shows its queue to a manager that had stayed there (gs), and
    no byte outside the buffers changes. *)
Theorem C135_moves_hand_over : forall l h ss qs ow qs' ns, arranged h ss -> Forall2 (cleanly h) ss qs -> ideal_mvs l (own_queues (List.length ss), qs) = Some (ow, qs', ns) ->
  exists h' ss' gs, mv_run l (h, ss) = Ok (h', ss', ns) /\ (forall i x, holds ow i = Some x -> exists s, nth_error ss' i = Some s /\ nth_error gs x = Some s) /\
    Forall2 (cleanly h') gs qs' /\ map sb_ptr gs = map sb_ptr ss /\ map sb_cap gs = map sb_cap ss /\ arranged h' gs /\
    forall p, Forall (fun s => ~ covers s p) ss -> byte_at h' p = byte_at h p.
Proof. exact moving. Qed.
Print Assumptions C135_moves_hand_over.
(** A move copies nothing but pointer, length and capacity: no memory changes, and right afterwards
    both managers show the same buffer. *)
Theorem C135_move_copies : forall h ss i j s t, nth_error ss i = Some s -> nth_error ss j = Some t ->
  exists ss', mv_run [MoveInto i j] (h, ss) = Ok (h, ss', [0]) /\ nth_error ss' i = Some t /\ nth_error ss' j = Some t /\ forall k, k <> i -> nth_error ss' k = nth_error ss k.
Proof. exact move_copies. Qed.
Print Assumptions C135_move_copies.
(** std::swap exchanges two managers, whatever they show, and changes no memory. *)
Theorem C135_swap : forall h ss i j s t, nth_error ss i = Some s -> nth_error ss j = Some t ->
  exists ss', mv_run (swap_ops (List.length ss) i j) (h, ss) = Ok (h, ss', [0; 0; 0]) /\ nth_error ss' i = Some t /\ nth_error ss' j = Some s /\
    forall k, k <> i -> k <> j -> (k < List.length ss)%nat -> nth_error ss' k = nth_error ss k.
Proof. exact swapped. Qed.
Print Assumptions C135_swap.
(** The manager moved from must not be used: it still refers to the memory.  Taking a character from
    it changes what the other manager shows, although both were separate before. *)
Theorem C135_use_after_move_refuted : exists h ss qs h' ss' s, arranged h ss /\ Forall2 (cleanly h) ss qs /\
  mv_run [MoveInto 1 0; Use (Plain (BPop 0 1))] (h, ss) = Ok (h', ss', [0; 0]) /\ nth_error ss' 1 = Some s /\
  Some (content_of h' s) <> option_map q_items (nth_error qs 0) /\ ideal_mvs [MoveInto 1 0; Use (Plain (BPop 0 1))] (own_queues (List.length ss), qs) = None.
Proof.
  exists demo_heap, [demo_a; demo_b], demo_queues. do 3 eexists. split; [exact demo_arranged|]. split; [exact demo_clean|]. split; [vm_compute; reflexivity|]. split; [reflexivity|]. split; [vm_compute; discriminate|reflexivity].
Qed.
Print Assumptions C135_use_after_move_refuted.
Example C135_case : arranged demo_heap [demo_a; demo_b] /\ Forall2 (cleanly demo_heap) [demo_a; demo_b] demo_queues /\
  ideal_mvs [MoveNew 1; MoveInto 1 0; Use (Plain (BPop 1 1)); MoveInto 0 2; Use (Plain (BPush 0 1)); MoveInto 1 1] (own_queues 2, demo_queues)
    = Some ([Some 1; Some 0; None]%nat, [mkQ 8 (zs "ello"); mkQ 5 (zs "xyell")], [0; 0; 0; 0; 3; 0]) /\
  exists h' a b c, mv_run [MoveNew 1; MoveInto 1 0; Use (Plain (BPop 1 1)); MoveInto 0 2; Use (Plain (BPush 0 1)); MoveInto 1 1] (demo_heap, [demo_a; demo_b]) = Ok (h', [a; b; c], [0; 0; 0; 0; 3; 0]) /\
    content_of h' a = zs "xyell" /\ content_of h' b = zs "ello".
Proof. split; [exact demo_arranged|]. split; [exact demo_clean|]. split; [vm_compute; reflexivity|]. do 4 eexists. split; [vm_compute; reflexivity|]. split; vm_compute; reflexivity. Qed.
