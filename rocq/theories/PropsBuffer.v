(* PropsBuffer.v -- property theorems about BufferManager: C40-C44.  Vocabulary: SpecBuffer.v. *)
From Verif Require Import SpecBuffer ProofsBuffer.

(** ** C40: the buffer manager behaves like a bounded byte queue, for any collection of buffers
    and any sequence of operations the ideal queues allow; bytes behind a buffer's capacity keep
    their values. *)
Theorem C40_bounded_queue : forall l bs qs qs' returned,
  Forall2 represents bs qs -> ideal_run l qs = Some (qs', returned) ->
  exists bs', code_run l bs = Ok (bs', returned) /\ Forall2 represents bs' qs' /\ map beyond bs' = map beyond bs.
Proof. exact code_run_sim. Qed.
Print Assumptions C40_bounded_queue.
(** moving conserves the bytes *)
Theorem C40_move_conserves : forall b o c d, holds b c -> holds o d ->
  exists b' o' n, bmove b o = Ok (b', o', n) /\ n = Z.min (bcap b - zlen c) (zlen d) /\
    holds b' (c ++ firstn (Z.to_nat n) d) /\ holds o' (skipn (Z.to_nat n) d) /\
    bcap b' = bcap b /\ bcap o' = bcap o /\ beyond b' = beyond b /\ beyond o' = beyond o.
Proof. exact bmove_conserves. Qed.
Print Assumptions C40_move_conserves.
(** the queries about the amount of content *)
Theorem C40_queries : forall b c, holds b c ->
  bcap_rem b = bcap b - zlen c /\ (bfull b = true <-> zlen c = bcap b) /\ (bempty b = true <-> c = []).
Proof. exact queries. Qed.
Print Assumptions C40_queries.
Example C40_case :
  let bs := [mkBuf [1;2;3;99;99;77] 3 5; mkBuf [10;11;12;13] 4 4] in
  let qs := [mkQ 5 [1;2;3]; mkQ 4 [10;11;12;13]] in
  Forall2 represents bs qs /\
  ideal_run [BMove 0 1; BPop 0 1; BPush 0 1; BPut 0 200 55; BPushChar 1 7; BSet 1 [8;9;8;9;8]; BMove 1 1] qs
    = Some ([mkQ 5 [2;3;10;11;55]; mkQ 4 [9;8;8]], [2;0;1;0;1;0;1]) /\
  code_run [BMove 0 1; BPop 0 1; BPush 0 1; BPut 0 200 55; BPushChar 1 7; BSet 1 [8;9;8;9;8]; BMove 1 1] bs
    = Ok ([mkBuf [2;3;10;11;55;77] 5 5; mkBuf [9;8;8;0] 3 4], [2;0;1;0;1;0;1]).
Proof. repeat split; repeat constructor; discriminate. Qed.

(** ** C41: findFirstOf *)
Theorem C41_find_char : forall b c x off, holds b c -> 0 <= off ->
  exists k, bfind_char b x off = Ok k /\
    (k = 255 <-> none_from (fun y => y = x) c off) /\ (k <> 255 <-> first_from (fun y => y = x) c off k).
Proof. exact find_char_iff. Qed.
Print Assumptions C41_find_char.
Theorem C41_find_any_of : forall b c s r off, holds b c -> nulfree s -> zlen s <= 255 -> 0 <= off ->
  exists k, bfind_chars b (s ++ 0 :: r) off = Ok k /\
    (k = 255 <-> none_from (fun y => In y s) c off) /\ (k <> 255 <-> first_from (fun y => In y s) c off k).
Proof. exact find_chars_iff. Qed.
Print Assumptions C41_find_any_of.
(** the limit of 255 characters is sharp: the length is kept in a uint8_t *)
Theorem C41_find_any_of_256_finds_nothing : forall b c s r off, holds b c -> nulfree s -> zlen s = 256 -> 0 <= off ->
  bfind_chars b (s ++ 0 :: r) off = Ok 255.
Proof. exact find_chars_256. Qed.
Print Assumptions C41_find_any_of_256_finds_nothing.
Example C41_case_256 : holds (mkBuf [5; 6] 2 2) [5; 6] /\ nulfree (repeat 5 256) /\ zlen (repeat 5 256) = 256 /\
  bfind_chars (mkBuf [5; 6] 2 2) (repeat 5 256 ++ [0]) 0 = Ok 255 /\ bfind_chars (mkBuf [5; 6] 2 2) (repeat 5 255 ++ [0]) 0 = Ok 0.
Proof.
  split; [repeat split; try reflexivity; cbn; lia|]. split; [apply Forall_forall; intros x H; apply repeat_spec in H; lia|].
  split; [reflexivity|]. split; vm_compute; reflexivity.
Qed.
Example C41_case :
  let b := mkBuf [5;6;7;6;9;9] 4 6 in
  holds b [5;6;7;6] /\ nulfree [9;7;6] /\ bfind_char b 6 2 = Ok 3 /\ bfind_char b 9 0 = Ok 255 /\
  bfind_chars b [9;7;6;0] 0 = Ok 1 /\ bfind_chars b [9;5;0] 1 = Ok 255.
Proof. repeat split; try discriminate; repeat constructor; discriminate. Qed.

(** ** C42: sub-buffers are in-range windows *)
Theorem C42_sub_buffer : forall b c s e, holds b c -> 0 <= s -> 0 <= e ->
  let s' := Z.min s (bcap b) in
  bsub b s e = Ok (mkBuf (skipn (Z.to_nat s') (mem b)) (Z.max 0 (Z.min e (bcap b) - s')) (bcap b - s')).
Proof. exact bsub_spec. Qed.
Print Assumptions C42_sub_buffer.
Theorem C42_sub_buffer_content : forall b c s e, holds b c -> 0 <= s <= e -> e <= blen b ->
  exists v, bsub b s e = Ok v /\ holds v (firstn (Z.to_nat (e - s)) (skipn (Z.to_nat s) c)) /\ bcap v = bcap b - s.
Proof. exact bsub_window. Qed.
Print Assumptions C42_sub_buffer_content.
Example C42_case : holds (mkBuf [1;2;3;4;9;9] 4 5) [1;2;3;4] /\
  bsub (mkBuf [1;2;3;4;9;9] 4 5) 1 3 = Ok (mkBuf [2;3;4;9;9] 2 4) /\
  bsub (mkBuf [1;2;3;4;9;9] 4 5) 7 200 = Ok (mkBuf [9] 0 0) /\
  (* the end is clamped to the capacity, not to the length: this view shows a byte that is not content *)
  bsub (mkBuf [1;2;3;4;9;9] 4 5) 3 200 = Ok (mkBuf [4;9;9] 2 2).
Proof. repeat split; discriminate. Qed.

(** ** C43: set() *)
Theorem C43_set : forall b c s r, holds b c -> nulfree s -> 1 <= bcap b ->
  exists b', bset b (s ++ 0 :: r) = Ok b' /\ bcap b' = bcap b /\ beyond b' = beyond b /\
    holds b' (firstn (Z.to_nat (bcap b - 1)) s) /\
    c_str (mem b') = Ok (firstn (Z.to_nat (bcap b - 1)) s).
Proof. exact bset_spec. Qed.
Print Assumptions C43_set.
Theorem C43_set_capacity_zero : forall b s, bcap b = 0 -> zlen (mem b) < 2 ^ 32 - 1 -> bset b s = UB OutOfBounds.
Proof. exact bset_zero. Qed.
Print Assumptions C43_set_capacity_zero.
Example C43_case : holds (mkBuf [1;2;3;4;9;9] 4 5) [1;2;3;4] /\ nulfree [65;66;67;68;69;70] /\
  bset (mkBuf [1;2;3;4;9;9] 4 5) [65;66;67;68;69;70;0] = Ok (mkBuf [65;66;67;68;0;9] 4 5) /\
  bset (mkBuf [1;2;3;4;9;9] 4 5) [65;0] = Ok (mkBuf [65;0;0;0;0;9] 1 5).
Proof. repeat split; try discriminate; repeat constructor; discriminate. Qed.

(** ** C44: clamped indexing *)
Theorem C44_index_read : forall b c i, holds b c -> c <> [] -> 0 <= i ->
  bget b i = Ok (nth (Z.to_nat (Z.min i (zlen c - 1))) c 0).
Proof. exact bget_spec. Qed.
Print Assumptions C44_index_read.
Theorem C44_index_write : forall b c i x, holds b c -> c <> [] -> 0 <= i ->
  exists b', bput b i x = Ok b' /\ holds b' (upd (Z.to_nat (Z.min i (zlen c - 1))) x c) /\
    bcap b' = bcap b /\ beyond b' = beyond b.
Proof. exact bput_spec. Qed.
Print Assumptions C44_index_write.
Theorem C44_empty_is_out_of_bounds : forall b i x, blen b = 0 -> 0 <= i -> zlen (mem b) <= 255 ->
  bget b i = UB OutOfBounds /\ bput b i x = UB OutOfBounds.
Proof. exact empty_access. Qed.
Print Assumptions C44_empty_is_out_of_bounds.
Example C44_case : holds (mkBuf [1;2;3;4;9;9] 4 5) [1;2;3;4] /\ bget (mkBuf [1;2;3;4;9;9] 4 5) 2 = Ok 3 /\
  bget (mkBuf [1;2;3;4;9;9] 4 5) 4 = Ok 4 /\ bget (mkBuf [1;2;3;4;9;9] 0 5) 0 = UB OutOfBounds.
Proof. repeat split; discriminate. Qed.
