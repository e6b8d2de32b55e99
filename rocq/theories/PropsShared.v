(* PropsShared.v -- property theorems C108-C112: buffers and the text parser with real pointers.
   Vocabulary: SpecShared.v, SpecBuffer.v *)
From Verif Require Import SpecShared ProofsShared ProofsSharedText.

(** example memory: two buffers next to each other in one array, and a string in another *)
Definition demo_heap : heap := [zs "hello" ++ repeat 0 3 ++ zs "xy" ++ repeat 0 4; zs "engine" ++ [0; 7]].
Definition demo_a : sbuf := mkS (O, 0) 5 8.
Definition demo_b : sbuf := mkS (O, 8) 2 5.
Lemma demo_arranged : arranged demo_heap [demo_a; demo_b].
Proof.
  split.
  - repeat constructor; cbn; try lia; (eexists; split; [reflexivity|cbn; lia]).
  - intros [|[|i]] [|[|j]] s t D Es Et; cbn in Es, Et; try (destruct i; discriminate); try (destruct j; discriminate); try (exfalso; apply D; reflexivity);
    injection Es as <-; injection Et as <-; intros p (_ & C1) (_ & C2); cbn in C1, C2; lia.
Qed.
Definition demo_queues : list queue := [mkQ 8 (zs "hello"); mkQ 5 (zs "xy")].
Lemma demo_clean : Forall2 (cleanly demo_heap) [demo_a; demo_b] demo_queues.
Proof. repeat constructor. Qed.

(** ** C108 *)
(** Buffers whose memory has no byte in common, in whatever arrays, behave like the queues of C40:
    no undefined behaviour, the same contents and results, and no byte outside the buffers changes. *)
Theorem C108_separate_buffers : forall l h ss qs qs' ns, arranged h ss -> Forall2 (stands_for h) ss qs -> ideal_run l qs = Some (qs', ns) ->
  exists h' ss', shared_run (map Plain l) (h, ss) = Ok (h', ss', ns) /\ Forall2 (stands_for h') ss' qs' /\ arranged h' ss' /\ map sb_ptr ss' = map sb_ptr ss /\
    forall p, Forall (fun s => ~ covers s p) ss -> byte_at h' p = byte_at h p.
Proof. exact plain_run. Qed.
Print Assumptions C108_separate_buffers.
(** The memory must be separate: with a common byte, filling one buffer changes the other. *)
Theorem C108_overlapping_refuted : exists l h ss qs qs' ns h' ss', Forall (within h) ss /\ Forall2 (stands_for h) ss qs /\ ideal_run l qs = Some (qs', ns) /\
  shared_run (map Plain l) (h, ss) = Ok (h', ss', ns) /\ ~ Forall2 (stands_for h') ss' qs'.
Proof.
  exists [BPushChar 0 33; BPushChar 0 33], [zs "abcxyz"], [mkS (O, 0) 2 4; mkS (O, 3) 3 3], [mkQ 4 (zs "ab"); mkQ 3 (zs "xyz")]. do 4 eexists.
  split; [repeat constructor; cbn; try lia; (eexists; split; [reflexivity|cbn; lia])|]. split; [repeat constructor|]. split; [reflexivity|]. split; [vm_compute; reflexivity|].
  intros H. inversion H as [|? ? ? ? _ H1]; subst. inversion H1 as [|? ? ? ? (_ & H2) _]; subst. vm_compute in H2. discriminate.
Qed.
Print Assumptions C108_overlapping_refuted.
Example C108_case : arranged demo_heap [demo_a; demo_b] /\ Forall2 (stands_for demo_heap) [demo_a; demo_b] demo_queues /\
  ideal_run [BMove 0 1; BPushChar 1 33; BPush 1 0] demo_queues = Some ([mkQ 8 (zs "helloxy"); mkQ 5 (zs "!hell")], [2; 1; 4]).
Proof. split; [exact demo_arranged|]. split; [repeat constructor|vm_compute; reflexivity]. Qed.

(** ** C109 *)
(** Histories in which buffers also receive parts of each other or of themselves, taken with
    subBufferManager: as for queues, unless the part and the place where it goes have a byte in
    common. *)
Theorem C109_parts : forall l h ss qs qs' ns, arranged h ss -> Forall2 (cleanly h) ss qs -> ideal_shops l qs = Some (qs', ns) ->
  exists h' ss', shared_run l (h, ss) = Ok (h', ss', ns) /\ Forall2 (cleanly h') ss' qs' /\ map sb_ptr ss' = map sb_ptr ss /\
    forall p, Forall (fun s => ~ covers s p) ss -> byte_at h' p = byte_at h p.
Proof. intros l h ss qs qs' ns A H E. destruct (shop_run l h ss qs qs' ns A H E) as (h' & ss' & R & C & _ & (P & _) & (F & _)). exists h', ss'. exact (conj R (conj C (conj P F))). Qed.
Print Assumptions C109_parts.
(** A buffer pushing a part of itself: undefined behaviour exactly if part and place overlap ... *)
Theorem C109_own_part : forall h s q a e v, within h s -> cleanly h s q -> 0 <= a -> 0 <= e -> s_sub h s a e = Ok v ->
  let x := fit q (part_of q a e) in
  (collides q (Z.min a (q_cap q)) x = true -> s_push h s v = UB Overlap) /\
  (collides q (Z.min a (q_cap q)) x = false -> exists h' s', s_push h s v = Ok (h', s', zlen x) /\ cleanly h' s' (with_items q (q_items q ++ x))).
Proof. exact own_part. Qed.
Print Assumptions C109_own_part.
(** ... which never happens for a part of the content. *)
Theorem C109_content_part : forall q a e, 0 <= a -> e <= zlen (q_items q) -> zlen (q_items q) <= q_cap q -> collides q (Z.min a (q_cap q)) (fit q (part_of q a e)) = false.
Proof. exact content_part. Qed.
Print Assumptions C109_content_part.
(** A sub-buffer taken at some time shows, at every later time, the bytes its owner has there then. *)
Theorem C109_views_follow : forall l h ss qs qs' ns i s a e v, arranged h ss -> Forall2 (cleanly h) ss qs -> ideal_shops l qs = Some (qs', ns) ->
  nth_error ss i = Some s -> 0 <= a -> 0 <= e -> s_sub h s a e = Ok v ->
  exists h' ss' q', shared_run l (h, ss) = Ok (h', ss', ns) /\ nth_error qs' i = Some q' /\ content_of h' v = part_of q' a e.
Proof. exact views_follow. Qed.
Print Assumptions C109_views_follow.
Example C109_case : let l := [PushPart 0 0 1 3; Plain (BPop 0 2); PushPart 1 0 0 4] in
  ideal_shops l demo_queues = Some ([mkQ 8 (zs "lloel"); mkQ 5 (zs "xyllo")], [2; 0; 3]) /\
  s_sub demo_heap demo_a 1 4 = Ok (mkS (O, 1) 3 7) /\ part_of (mkQ 8 (zs "hello")) 1 4 = zs "ell" /\ part_of (mkQ 8 (zs "lloel")) 1 4 = zs "loe" /\
  collides (mkQ 8 (zs "hello")) 4 (fit (mkQ 8 (zs "hello")) (part_of (mkQ 8 (zs "hello")) 4 7)) = true.
Proof. vm_compute. repeat split. Qed.

(** ** C110 *)
(** Changing a buffer through a sub-buffer [a, e) of it.  erase() and pop_front() clear everything
    from the sub-buffer's end to the end of the owner, at() is a plain assignment, push_back
    overwrites what the owner has from position e on.  The owner's length() stays as it is. *)
Theorem C110_erase : forall h s a e v, within h s -> 0 <= a -> 0 <= e -> s_sub h s a e = Ok v ->
  exists h' v', s_erase h v = Ok (h', v') /\ window h' s = firstn (Z.to_nat (Z.min a (sb_cap s))) (window h s) ++ repeat 0 (Z.to_nat (sb_cap s - Z.min a (sb_cap s))).
Proof. exact view_erase. Qed.
Print Assumptions C110_erase.
Theorem C110_at : forall h s a e v k x, within h s -> 0 <= a -> 0 <= e -> s_sub h s a e = Ok v -> 0 <= k -> Z.min a (sb_cap s) < Z.min e (sb_cap s) ->
  exists h' v', s_put k x h v = Ok (h', v') /\ window h' s = upd (Z.to_nat (Z.min (Z.min a (sb_cap s) + k) (Z.min e (sb_cap s) - 1))) x (window h s).
Proof. exact view_put. Qed.
Print Assumptions C110_at.
Theorem C110_pop : forall h s a e v n, within h s -> 0 <= a -> 0 <= e -> s_sub h s a e = Ok v -> 0 <= n ->
  let a' := Z.min a (sb_cap s) in let x := skipn (Z.to_nat n) (between a' (Z.min e (sb_cap s)) (window h s)) in
  exists h' v', s_pop n h v = Ok (h', v') /\ window h' s = firstn (Z.to_nat a') (window h s) ++ x ++ repeat 0 (Z.to_nat (sb_cap s - a') - List.length x).
Proof. exact view_pop. Qed.
Print Assumptions C110_pop.
Theorem C110_push : forall h s a e v o, within h s -> 0 <= a -> 0 <= e -> s_sub h s a e = Ok v -> within h o -> apart s o ->
  let a' := Z.min a (sb_cap s) in let e' := Z.max a' (Z.min e (sb_cap s)) in let x := firstn (Z.to_nat (sb_cap s - e')) (content_of h o) in
  exists h' v', s_push h v o = Ok (h', v', zlen x) /\ window h' s = firstn (Z.to_nat e') (window h s) ++ x ++ skipn (Z.to_nat (e' + zlen x)) (window h s).
Proof. exact view_push. Qed.
Print Assumptions C110_push.
(** hence afterwards a buffer can hold NULs within its content, and bytes other than NUL behind it *)
Theorem C110_clean_refuted : exists h s q a e v h' v' o, cleanly h s q /\ within h s /\ within h o /\ apart s o /\ s_sub h s a e = Ok v /\ s_push h v o = Ok (h', v', 2) /\ ~ cleanly h' s q /\ content_of h' s = q_items q /\
  exists h2 v2, s_erase h v = Ok (h2, v2) /\ content_of h2 s = zs "he" ++ [0; 0; 0].
Proof.
  exists demo_heap, demo_a, (mkQ 8 (zs "hello")), 2, 6, (mkS (O, 2) 4 6). do 2 eexists. exists demo_b. destruct demo_arranged as (W & A). inversion W as [|? ? W1 W2]; subst. inversion W2 as [|? ? W3 _]; subst.
  split; [repeat constructor|]. split; [exact W1|]. split; [exact W3|]. split; [exact (A O 1%nat _ _ ltac:(discriminate) eq_refl eq_refl)|]. split; [vm_compute; reflexivity|]. split; [vm_compute; reflexivity|].
  split; [intros (_ & X); vm_compute in X; discriminate|]. split; [vm_compute; reflexivity|]. do 2 eexists. split; vm_compute; reflexivity.
Qed.
Print Assumptions C110_clean_refuted.
Example C110_case : within demo_heap demo_a /\ s_sub demo_heap demo_a 1 3 = Ok (mkS (O, 1) 2 7) /\
  (exists h' v', s_pop 1 demo_heap (mkS (O, 1) 2 7) = Ok (h', v') /\ window h' demo_a = zs "hl" ++ repeat 0 6) /\
  (exists h' v', s_push demo_heap (mkS (O, 1) 2 7) demo_b = Ok (h', v', 2) /\ window h' demo_a = zs "helxy" ++ repeat 0 3).
Proof.
  destruct demo_arranged as (W & _). inversion W as [|? ? W1 _]; subst. split; [exact W1|]. split; [vm_compute; reflexivity|].
  split; do 2 eexists; (split; [vm_compute; reflexivity|vm_compute; reflexivity]).
Qed.

(** ** C111 *)
(** set(p) with a string that has no byte in common with the buffer copies it, cut to the capacity
    less one, and changes nothing else. *)
Theorem C111_elsewhere : forall h s p str, within h s -> 1 <= sb_cap s -> string_at h p str -> (forall i, 0 <= i <= zlen str -> ~ covers s (fst p, snd p + i)) ->
  exists h' s', s_set h s p = Ok (h', s') /\ cleanly h' s' (mkQ (sb_cap s) (firstn (Z.to_nat (sb_cap s - 1)) str)) /\ (forall x, ~ covers s x -> byte_at h' x = byte_at h x).
Proof. exact set_elsewhere. Qed.
Print Assumptions C111_elsewhere.
(** With a pointer into the buffer itself it never copies the string: undefined behaviour, except
    for a pointer to the last byte, where the result is the empty string. *)
Theorem C111_inside : forall h s p, within h s -> covers s p ->
  (snd p < snd (sb_ptr s) + sb_cap s - 1 -> s_set h s p = UB Overlap) /\
  (snd p = snd (sb_ptr s) + sb_cap s - 1 -> exists h' s', s_set h s p = Ok (h', s') /\ cleanly h' s' (mkQ (sb_cap s) [])).
Proof. exact set_inside. Qed.
Print Assumptions C111_inside.
(** A string that starts before the buffer and runs into it: undefined behaviour exactly if the
    distance is less than the capacity less one. *)
Theorem C111_into : forall h s p str, within h s -> 1 <= sb_cap s -> nulfree str -> str <> [] -> spelled h p str -> fst p = fst (sb_ptr s) -> snd p + zlen str = snd (sb_ptr s) ->
  (zlen str < sb_cap s - 1 -> s_set h s p = UB Overlap) /\
  (sb_cap s - 1 <= zlen str -> exists h' s', s_set h s p = Ok (h', s') /\ cleanly h' s' (mkQ (sb_cap s) (firstn (Z.to_nat (sb_cap s - 1)) str))).
Proof. exact set_into. Qed.
Print Assumptions C111_into.
Example C111_case : string_at demo_heap (1%nat, 2) (zs "gine") /\ (forall i, ~ covers demo_b (1%nat, 2 + i)) /\
  (exists h' s', s_set demo_heap demo_b (1%nat, 2) = Ok (h', s') /\ content_of h' s' = zs "gine") /\
  covers demo_a (O, 0) /\ s_set demo_heap demo_a (O, 0) = UB Overlap /\
  spelled [zs "abcdef"] (O, 0) (zs "abc") /\ (exists h' s', s_set [zs "abcdef"] (mkS (O, 3) 3 3) (O, 0) = Ok (h', s') /\ content_of h' s' = zs "ab").
Proof.
  split; [split; [repeat constructor; discriminate|intros [|[|[|[|[|i]]]]] x E; vm_compute in E |- *; try congruence; destruct i; discriminate]|].
  split; [intros i (E & _); discriminate|]. split; [do 2 eexists; split; vm_compute; reflexivity|]. split; [unfold covers; cbn; split; [reflexivity|lia]|]. split; [vm_compute; reflexivity|].
  split; [intros [|[|[|i]]] x E; vm_compute in E |- *; try congruence; destruct i; discriminate|]. do 2 eexists. split; vm_compute; reflexivity.
Qed.

(** ** C112 *)
(** addText() on a parser whose four buffers are in arrays of their own, with text in a further
    array: the parser, and what its consumer is called with, are those of the model that gives
    every buffer and every sub-buffer a copy of its own; no other array changes. *)
Theorem C112_same_as_copies : forall h t s tp' e, well_placed h t -> placed h s -> ~ In (array_of s) (arrays t) -> tp_addText (parser_at h t) (shown h s) = Ok (tp', e) ->
  exists h' t', h_addText h t (Theirs s) = Ok (h', t', e) /\ parser_at h' t' = tp' /\ well_placed h' t' /\ arrays t' = arrays t /\ (forall j, ~ In j (arrays t) -> nth_error h' j = nth_error h j).
Proof. exact addText_shared. Qed.
Print Assumptions C112_same_as_copies.
Theorem C112_reset_same : forall h t tp', well_placed h t -> tp_reset (parser_at h t) = Ok tp' ->
  exists h' t', h_reset h t = Ok (h', t') /\ parser_at h' t' = tp' /\ well_placed h' t' /\ arrays t' = arrays t /\ (forall j, ~ In j (arrays t) -> nth_error h' j = nth_error h j).
Proof. exact reset_shared. Qed.
Print Assumptions C112_reset_same.
(** example: a parser in the middle of the value "12" *)
Definition demo_parser : HP := mkHP PARSING_VALUE (Some O) (mkS (O, 0) 0 31) (mkS (1%nat, 0) 3 11) (mkS (2%nat, 0) 3 11) (mkS (3%nat, 0) 2 26).
Definition demo_arrays (text : list Z) : heap := [repeat 0 31; zs "lok" ++ repeat 0 8; zs "uid" ++ repeat 0 8; zs "12" ++ repeat 0 24; text].
(** The text must not be one of the parser's own buffers (which consumers receive by reference):
    with the value buffer as text the parser feeds itself until it reports an error, where a copy
    of that text is simply appended to the value. *)
Theorem C112_own_buffer_refuted : exists h t d tp' h' t' e', well_placed h t /\
  tp_addText (parser_at h t) (shown h (hdest_get t d)) = Ok (tp', []) /\ tp_state tp' = PARSING_VALUE /\
  h_addText h t (Ours d) = Ok (h', t', e') /\ hp_state t' = ERROR /\ List.length e' = 1%nat.
Proof.
  exists (demo_arrays []), demo_parser, DVal. do 4 eexists.
  split; [split; [repeat constructor; cbn; intuition discriminate|repeat constructor; cbn; try lia; (eexists; split; [reflexivity|cbn; lia])]|].
  split; [vm_compute; reflexivity|]. split; [reflexivity|]. split; [vm_compute; reflexivity|]. split; reflexivity.
Qed.
Print Assumptions C112_own_buffer_refuted.
Example C112_case : let h := demo_arrays (zs "34" ++ [10] ++ zs " .x") in let s := mkS (4%nat, 0) 6 6 in
  well_placed h demo_parser /\ placed h s /\ ~ In (array_of s) (arrays demo_parser) /\
  (exists tp' x, tp_addText (parser_at h demo_parser) (shown h s) = Ok (tp', [x]) /\ firstn 5 (mem (snd x)) = zs "1234" ++ [0]).
Proof.
  split; [split; [repeat constructor; cbn; intuition discriminate|repeat constructor; cbn; try lia; (eexists; split; [reflexivity|cbn; lia])]|].
  split; [repeat split; cbn; try lia; eexists; split; [reflexivity|cbn; lia]|]. split; [cbn; intuition discriminate|]. do 2 eexists. split; vm_compute; reflexivity.
Qed.
