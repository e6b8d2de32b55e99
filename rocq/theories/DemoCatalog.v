(* DemoCatalog.v -- a master that serves a given catalogue, for the examples of C96-C98. *)
From Verif Require Import ZLib SpecCatalog ProofsCrc ProofsText ProofsStream ProofsConsumer ProofsSafe ProofsCatalog Demo DemoStream PropsSafe.

(** ** Any text as a stream *)
Lemma frames_received : forall n bs, List.length bs = (8 * n)%nat -> received (frames_of n bs) = bs.
Proof.
  induction n as [|n IH]; intros bs L; [destruct bs; [reflexivity|discriminate]|]. cbn [frames_of]. unfold received. cbn [flat_map]. fold (received (frames_of n (skipn 8 bs))).
  rewrite IH by (rewrite skipn_length; lia). unfold content. cbn [dbytes]. rewrite firstn_app, firstn_length, firstn_firstn. replace (8 - Nat.min 8 (List.length bs))%nat with 0%nat by lia. cbn [firstn].
  rewrite app_nil_r. change (Nat.min 8 8) with 8%nat. apply firstn_skipn.
Qed.
Lemma Forall_skipn : forall A (P : A -> Prop) n l, Forall P l -> Forall P (skipn n l).
Proof. induction n; intros [|x l] F; cbn; auto. inversion F; auto. Qed.
Lemma frames_fine : forall n bs, List.length bs = (8 * n)%nat -> Forall byte bs -> Forall data_frame (frames_of n bs).
Proof.
  induction n as [|n IH]; intros bs L B; [constructor|]. cbn [frames_of]. constructor.
  - assert (L8 : List.length (firstn 8 bs) = 8%nat) by (rewrite firstn_length; lia). split; [|reflexivity].
    assert (FB : Forall byte (firstn 8 bs ++ [0])) by (apply Forall_app; split; [apply Forall_firstn; exact B|constructor; [unfold byte; lia|constructor]]).
    unfold payload_ok. cbn [dlc dbytes]. repeat split; try exact FB; try lia. rewrite app_length, L8. reflexivity.
  - apply IH; [rewrite skipn_length; lia|apply Forall_skipn; exact B].
Qed.
Lemma frames_count : forall n bs, List.length (frames_of n bs) = n. Proof. induction n; intros; cbn; auto. Qed.
Lemma padded_len : forall bs, List.length (padded bs) = (8 * (List.length (padded bs) / 8))%nat.
Proof.
  intros bs. apply Nat.div_exact; [lia|]. unfold padded. rewrite app_length, repeat_length. set (n := List.length bs).
  pose proof (Nat.div_mod n 8 ltac:(lia)) as D. pose proof (Nat.mod_upper_bound n 8 ltac:(lia)) as M. destruct (Nat.eq_dec (n mod 8) 0) as [Q|Q].
  - rewrite Q. change ((8 - 0) mod 8)%nat with 0%nat. rewrite Nat.add_0_r. exact Q.
  - rewrite (Nat.mod_small (8 - n mod 8)) by lia. replace (n + (8 - n mod 8))%nat with ((n / 8 + 1) * 8)%nat by lia. apply Nat.mod_mul. lia.
Qed.
Lemma padded_more : forall bs, (List.length bs <= List.length (padded bs) <= List.length bs + 8)%nat.
Proof. intros bs. unfold padded. rewrite app_length, repeat_length. pose proof (Nat.mod_upper_bound (8 - List.length bs mod 8) 8 ltac:(lia)). lia. Qed.
Lemma text_stream : forall d, doc_ok d -> Forall byte (show_doc d) -> show_doc d <> [] -> zlen (show_doc d) < 2 ^ 31 ->
  proper_stream (head (show_doc d)) (body (show_doc d)) /\ carries (body (show_doc d)) d.
Proof.
  intros d DO B NE LE. set (bs := show_doc d) in *. pose proof (padded_len bs) as PL. pose proof (padded_more bs) as PM.
  assert (PB : Forall byte (padded bs)). { unfold padded. apply Forall_app. split; [exact B|]. apply Forall_forall. intros x X. apply repeat_spec in X. subst x. unfold byte. lia. }
  assert (R : received (body bs) = padded bs) by (apply frames_received; exact PL).
  assert (F : Forall data_frame (body bs)) by (apply frames_fine; assumption).
  assert (N : List.length (body bs) = (List.length (padded bs) / 8)%nat) by apply frames_count.
  assert (Z8 : 8 * zlen (body bs) < 2 ^ 32) by (unfold zlen in *; lia).
  split.
  - exists (crc_of 0xFFFF (padded bs)). split; [|split; [|split; [|split; [exact Z8|exact F]]]].
    + apply header_built; [unfold is_u32; unfold zlen in *; lia|]. destruct (checksum_total _ PB) as (r & R1 & R2). apply checksum_fun in R1. rewrite <- R1. exact R2.
    + apply checksum_fun. rewrite R. reflexivity.
    + intros E. assert (X : (List.length (padded bs) / 8)%nat = 0%nat) by (rewrite <- N, E; reflexivity). rewrite X in PL. assert (List.length bs <> 0%nat) by (destruct bs; [congruence|discriminate]). lia.
  - split; [exact F|]. exists (repeat 0 ((8 - List.length bs mod 8) mod 8)). split; [|rewrite R; reflexivity].
    apply Forall_forall. intros x X. apply repeat_spec in X. subst x. intros [H|[H|[]]]; discriminate.
Qed.

(** ** Numbers as text *)
Definition hexchar (d : Z) : Z := if d <? 10 then 48 + d else 87 + d.
Fixpoint hex_text (n : nat) (x : Z) : list Z := match n with O => [] | S n' => hexchar (x / 16 ^ Z.of_nat n' mod 16) :: hex_text n' x end.
Lemma hexchar_ok : forall d, 0 <= d < 16 -> hexdigit (hexchar d) d.
Proof. intros d D. unfold hexchar. destruct (Z.ltb_spec d 10); [left|right; left]; lia. Qed.
Lemma hex_text_ok : forall n x, 0 <= x -> hexdigits (x / 16 ^ Z.of_nat n) (hex_text n x) x.
Proof.
  induction n as [|n IH]; intros x X; [cbn; rewrite Z.div_1_r; constructor|]. cbn [hex_text]. apply HexDigit with (d := x / 16 ^ Z.of_nat n mod 16).
  - apply hexchar_ok. apply Z.mod_pos_bound. lia.
  - rewrite Nat2Z.inj_succ, Z.pow_succ_r by lia. rewrite (Z.mul_comm 16), <- Z.div_div by lia. 
    replace (x / 16 ^ Z.of_nat n / 16 * 16 + x / 16 ^ Z.of_nat n mod 16) with (x / 16 ^ Z.of_nat n); [apply IH; exact X|]. 
    pose proof (Z.div_mod (x / 16 ^ Z.of_nat n) 16 ltac:(lia)). lia.
Qed.
Definition number_text (x : Z) : list Z := zs "0x" ++ hex_text 8 x.
Lemma number_text_ok : forall x, is_u32 x -> numeral (number_text x) x.
Proof.
  intros x X. exists (hex_text 8 x). split; [discriminate|]. split; [right; reflexivity|]. pose proof (hex_text_ok 8 x ltac:(unfold is_u32 in X; lia)) as H.
  change (16 ^ Z.of_nat 8) with (2 ^ 32) in H. rewrite Z.div_small in H by exact X. exact H.
Qed.
Lemma hex_text_plain : forall n x, Forall (fun c => 48 <= c < 128) (hex_text n x).
Proof. induction n as [|n IH]; intros x; [constructor|]. cbn [hex_text]. constructor; [|apply IH]. pose proof (Z.mod_pos_bound (x / 16 ^ Z.of_nat n) 16 ltac:(lia)). unfold hexchar. destruct (Z.ltb_spec (x / 16 ^ Z.of_nat n mod 16) 10); lia. Qed.
Lemma hex_text_len : forall n x, List.length (hex_text n x) = n. Proof. induction n; intros; cbn; auto. Qed.
Lemma dec_end : forall acc x, acc = x -> decdigits acc [] x. Proof. intros acc x ->. constructor. Qed.
Lemma decimal_ok : forall x, 0 <= x < 1000 -> decdigits 0 (decimal x) x /\ decimal x <> [] /\ (List.length (decimal x) <= 3)%nat /\ Forall (fun c => 48 <= c < 128) (decimal x).
Proof.
  intros x X. unfold decimal. pose proof (Z.div_mod x 10 ltac:(lia)). pose proof (Z.mod_pos_bound x 10 ltac:(lia)). pose proof (Z.div_mod (x / 10) 10 ltac:(lia)). pose proof (Z.mod_pos_bound (x / 10) 10 ltac:(lia)).
  assert (H3 : x / 100 = x / 10 / 10) by (rewrite Z.div_div by lia; reflexivity). rewrite H3.
  destruct (Z.ltb_spec x 10); [|destruct (Z.ltb_spec x 100)]; (split; [|split; [discriminate|split; [cbn; lia|repeat constructor; lia]]]).
  - apply DecDigit with (d := x); [split; lia|]. apply dec_end. lia.
  - apply DecDigit with (d := x / 10); [split; lia|]. apply DecDigit with (d := x mod 10); [split; lia|]. apply dec_end. lia.
  - apply DecDigit with (d := x / 10 / 10); [split; lia|]. apply DecDigit with (d := (x / 10) mod 10); [split; lia|]. apply DecDigit with (d := x mod 10); [split; lia|].
    apply dec_end. lia.
Qed.

(** ** The master's documents *)
Definition list_doc (names : list (list Z)) (total : Z) : doc :=
  ([], ISection (zs "loknamen")) :: map (fun n => (nl ++ zs " ", IPair (zs "wert") n)) names ++
  [([], ISection (zs "numloks")); (nl ++ zs " ", IPair (zs "wert") (decimal total))].
Definition engine_doc (x : entry) : doc :=
  [([], ISection (zs "lokomotive")); (nl ++ zs " ", IPair (zs "uid") (number_text (e_uid x))); (zs " ", IPair (zs "name") (e_name x));
   (zs " ", IPair (zs "adresse") (number_text (e_addr x))); (zs " ", IPair (zs "typ") (e_proto x))].
Definition serve (cat : catalogue) (fs : list CanFrame) : Data * list Data :=
  let text := match read_wish fs with
              | Some (WantNames first count) => show_doc (list_doc (part first count (map e_name cat)) (zlen cat))
              | Some (WantEngine name) => match find (fun e => same_text (e_name e) name) cat with Some e => show_doc (engine_doc e) | None => [] end
              | None => []
              end in
  (head text, body text).
(** an entry that fits into such documents *)
Definition plain_text (n : nat) (t : list Z) : Prop := Forall (fun c => byte c /\ c <> 0 /\ c <> NEWLINE) t /\ (List.length t <= n)%nat.
Definition entry_ok (x : entry) : Prop := plain_text 25 (e_name x) /\ is_u32 (e_uid x) /\ is_u32 (e_addr x) /\ plain_text 7 (e_proto x).

Lemma plain_free : forall n t, plain_text n t -> free_of [NEWLINE] t.
Proof. intros n t (F & _). eapply Forall_impl; [|exact F]. intros c (_ & _ & C) [H|[]]. congruence. Qed.
Lemma plain_nulfree : forall n t, plain_text n t -> nulfree t.
Proof. intros n t (F & _). eapply Forall_impl; [|exact F]. intros c (_ & C & _). exact C. Qed.
Lemma until_same : forall t, nulfree t -> until_nul t = t.
Proof. intros t N. rewrite <- (app_nil_r t) at 1. rewrite until_app by exact N. cbn. apply app_nil_r. Qed.
Lemma digits_plain : forall n t, Forall (fun c => 48 <= c < 128) t -> (List.length t <= n)%nat -> plain_text n t.
Proof. intros n t F L. split; [|exact L]. eapply Forall_impl; [|exact F]. intros c C. unfold byte, NEWLINE. cbn beta in C. lia. Qed.
Lemma number_plain : forall x, plain_text 10 (number_text x).
Proof. intros x. unfold number_text. change (zs "0x") with [48; 120]. apply digits_plain; [constructor; [lia|]; constructor; [lia|]; apply hex_text_plain|]. rewrite app_length, hex_text_len. reflexivity. Qed.
Lemma plain_bytes : forall n t, plain_text n t -> Forall byte t.
Proof. intros n t (F & _). eapply Forall_impl; [|exact F]. intros c (C & _). exact C. Qed.
Lemma pair_line : forall g k v, free_ofb [SQ_OPEN; DOT] g = true -> free_ofb [EQUALS; NEWLINE] k = true -> Nat.leb (List.length k) 11 = true -> plain_text 25 v ->
  free_of [SQ_OPEN; DOT] g /\ item_ok (IPair k v).
Proof.
  intros g k v G K KL V. split; [apply free_of_b; exact G|]. cbn [item_ok]. apply Nat.leb_le in KL. split; [apply free_of_b; exact K|]. split; [exact KL|]. split; [eapply plain_free; exact V|]. destruct V. lia.
Qed.

(** ** What they say *)
Definition report_of (sec : list Z) (n : list Z) : report := (sec, zs "wert", n).
Lemma names_reports : forall names sec r, reports sec (map (fun n => (nl ++ zs " ", IPair (zs "wert") n)) names ++ r) = map (report_of sec) names ++ reports sec r.
Proof. induction names as [|n names IH]; intros sec r; [reflexivity|]. cbn [map app reports]. rewrite IH. reflexivity. Qed.
Lemma list_reports : forall names total, reports [] (list_doc names total) = map (report_of (zs "loknamen")) names ++ [(zs "numloks", zs "wert", decimal total)].
Proof. intros. unfold list_doc. cbn [reports]. rewrite names_reports. reflexivity. Qed.
Lemma names_said : forall names, Forall (plain_text 25) names -> names_in (map (report_of (zs "loknamen")) names) = names.
Proof.
  induction names as [|n names IH]; intros F; [reflexivity|]. inversion F as [|? ? F1 F2]; subst. unfold names_in in *. cbn [map flat_map]. rewrite (IH F2).
  change (list_entry_of (report_of (zs "loknamen") n)) with (NameEntry n). cbn [app]. rewrite until_same by (eapply plain_nulfree; exact F1). reflexivity.
Qed.
Lemma names_count : forall names, counts_in (map (report_of (zs "loknamen")) names) = [].
Proof. induction names as [|n names IH]; [reflexivity|]. unfold counts_in in *. cbn [map flat_map]. rewrite IH. reflexivity. Qed.
Lemma show_bytes : forall d, Forall (fun gi => Forall byte (fst gi) /\ Forall byte (show (snd gi))) d -> Forall byte (show_doc d).
Proof. induction d as [|(g & i) d IH]; intros F; [constructor|]. inversion F as [|? ? (A & B) F2]; subst. unfold show_doc in *. cbn [flat_map]. apply Forall_app. split; [apply Forall_app; split; assumption|apply IH; exact F2]. Qed.
Lemma bytes_b : forall t, forallb (fun c => (0 <=? c) && (c <? 256)) t = true -> Forall byte t.
Proof. intros t H. rewrite forallb_forall in H. apply Forall_forall. intros x X. specialize (H x X). unfold byte. lia. Qed.
Lemma pair_bytes : forall k v n, forallb (fun c => (0 <=? c) && (c <? 256)) k = true -> plain_text n v -> Forall byte (show (IPair k v)).
Proof.
  intros k v n K V. cbn [show]. apply Forall_app. split; [apply bytes_b; reflexivity|]. apply Forall_app. split; [apply bytes_b; exact K|]. apply Forall_app. split; [apply bytes_b; reflexivity|].
  apply Forall_app. split; [eapply plain_bytes; exact V|apply bytes_b; reflexivity].
Qed.
Lemma list_doc_size : forall names total, Forall (plain_text 25) names -> 0 <= total < 1000 -> zlen (show_doc (list_doc names total)) <= 40 * zlen names + 60.
Proof.
  intros names total F T. destruct (decimal_ok total T) as (_ & _ & L & _).
  assert (X : forall r, zlen (show_doc (map (fun n => (nl ++ zs " ", IPair (zs "wert") n)) names ++ r)) <= 40 * zlen names + zlen (show_doc r)).
  { intros r. induction names as [|n names IH]; [cbn [map app]; unfold zlen at 2; cbn [List.length]; lia|]. inversion F as [|? ? (_ & F1) F2]; subst. specialize (IH F2). cbn [map app]. unfold show_doc in *. cbn [flat_map].
    unfold zlen in *. rewrite app_length. cbn [fst snd show List.length]. rewrite !app_length. change (List.length (zs "wert")) with 4%nat. change (List.length (zs " ")) with 1%nat. change (List.length nl) with 1%nat. cbn [List.length]. lia. }
  unfold list_doc. unfold show_doc at 1. cbn [flat_map]. fold (show_doc (map (fun n => (nl ++ zs " ", IPair (zs "wert") n)) names ++ [([], ISection (zs "numloks")); (nl ++ zs " ", IPair (zs "wert") (decimal total))])).
  specialize (X [([], ISection (zs "numloks")); (nl ++ zs " ", IPair (zs "wert") (decimal total))]). 
  assert (Y : zlen (show_doc [([], ISection (zs "numloks")); (nl ++ zs " ", IPair (zs "wert") (decimal total))]) <= 25).
  { unfold show_doc. cbn [flat_map fst snd show]. unfold zlen. rewrite !app_length. change (List.length (zs "wert")) with 4%nat. change (List.length (zs " ")) with 1%nat. change (List.length nl) with 1%nat. change (List.length (zs "numloks")) with 7%nat. cbn [List.length]. lia. }
  unfold zlen in *. rewrite app_length. change (List.length (fst ([], ISection (zs "loknamen")) ++ show (snd (@nil Z, ISection (zs "loknamen"))))) with 10%nat. lia.
Qed.
Lemma list_doc_ok : forall names total, Forall (plain_text 25) names -> 0 <= total < 1000 -> doc_ok (list_doc names total) /\ Forall byte (show_doc (list_doc names total)) /\ lists (list_doc names total) names total.
Proof.
  intros names total F T. destruct (decimal_ok total T) as (D1 & D2 & D3 & D4). assert (DP : plain_text 25 (decimal total)) by (apply digits_plain; [exact D4|lia]).
  assert (DO : doc_ok (list_doc names total)).
  { unfold list_doc, doc_ok. constructor; [split; [constructor|split; [apply free_of_b; reflexivity|cbn; lia]]|]. apply Forall_app. split.
    - apply Forall_map. eapply Forall_impl; [|exact F]. intros n N. cbn [fst snd]. apply pair_line; try reflexivity. exact N.
    - constructor; [split; [constructor|split; [apply free_of_b; reflexivity|cbn; lia]]|]. constructor; [|constructor]. cbn [fst snd]. apply pair_line; try reflexivity. exact DP. }
  split; [exact DO|]. split.
  - apply show_bytes. unfold list_doc. constructor; [split; [constructor|apply bytes_b; reflexivity]|]. apply Forall_app. split.
    + apply Forall_map. eapply Forall_impl; [|exact F]. intros n N. cbn [fst snd]. split; [apply bytes_b; reflexivity|]. eapply pair_bytes; [reflexivity|exact N].
    + constructor; [split; [constructor|apply bytes_b; reflexivity]|]. constructor; [|constructor]. cbn [fst snd]. split; [apply bytes_b; reflexivity|]. eapply pair_bytes; [reflexivity|exact DP].
  - split; [exact DO|]. rewrite list_reports. split; [|split].
    + apply Forall_app. split.
      * apply Forall_map. eapply Forall_impl; [|exact F]. intros n (_ & N). split; [split; [cbn; lia|split; [cbn; lia|lia]]|cbn; lia].
      * constructor; [|constructor]. split; [split; [cbn; lia|split; [cbn; lia|lia]]|cbn; lia].
    + unfold names_in. rewrite flat_map_app. fold (names_in (map (report_of (zs "loknamen")) names)). rewrite names_said by exact F. apply app_nil_r.
    + exists (decimal total). split; [|split; [exact D2|exact D1]]. unfold counts_in. rewrite flat_map_app. fold (counts_in (map (report_of (zs "loknamen")) names)). rewrite names_count. reflexivity.
Qed.
Lemma engine_doc_ok : forall x, entry_ok x -> doc_ok (engine_doc x) /\ Forall byte (show_doc (engine_doc x)) /\ describes (engine_doc x) (e_uid x) (e_addr x) (e_proto x).
Proof.
  intros x (N & U & A & P). pose proof (number_plain (e_uid x)) as NU. pose proof (number_plain (e_addr x)) as NA.
  assert (UP : forall n t, (n <= 25)%nat -> plain_text n t -> plain_text 25 t) by (intros n t L (B1 & B2); split; [exact B1|lia]).
  assert (DO : doc_ok (engine_doc x)).
  { unfold engine_doc, doc_ok. constructor; [split; [constructor|split; [apply free_of_b; reflexivity|cbn; lia]]|].
    repeat (constructor; [cbn [fst snd]; apply pair_line; try reflexivity; first [exact N|eapply UP; [|eassumption]; lia]|]). constructor. }
  split; [exact DO|]. split.
  - apply show_bytes. unfold engine_doc. constructor; [split; [constructor|apply bytes_b; reflexivity]|].
    repeat (constructor; [cbn [fst snd]; split; [apply bytes_b; reflexivity|eapply pair_bytes; [reflexivity|eassumption]]|]). constructor.
  - split; [exact DO|]. split; [|split; [|split; [unfold is_u32 in U; lia|split; [|split; [unfold is_u32 in A; lia|split; [reflexivity|split; [eapply plain_nulfree; exact P|apply P]]]]]]].
    + destruct N as (_ & N), P as (_ & P), NU as (_ & NU), NA as (_ & NA). change (reports [] (engine_doc x)) with [(zs "lokomotive", zs "uid", number_text (e_uid x)); (zs "lokomotive", zs "name", e_name x); (zs "lokomotive", zs "adresse", number_text (e_addr x)); (zs "lokomotive", zs "typ", e_proto x)].
      repeat (constructor; [split; [cbn; lia|split; [cbn; lia|lia]]|]). constructor.
    + exists (number_text (e_uid x)). split; [reflexivity|apply number_text_ok; exact U].
    + exists (number_text (e_addr x)). split; [reflexivity|apply number_text_ok; exact A].
Qed.
Lemma part_Forall : forall A (P : A -> Prop) f c l, Forall P l -> Forall P (part f c l).
Proof. intros. unfold part. apply Forall_firstn, Forall_skipn. assumption. Qed.
Lemma serve_serves : forall cat, Forall entry_ok cat -> zlen cat < 1000 -> serves cat (serve cat).
Proof.
  intros cat F L fs [first count|name] R; cbn [good_answer]; unfold serve; rewrite R; cbn [fst snd].
  - assert (N : Forall (plain_text 25) (part first count (map e_name cat))) by (apply part_Forall, Forall_map; eapply Forall_impl; [|exact F]; intros x X; apply X).
    assert (T : 0 <= zlen cat < 1000) by (unfold zlen in *; lia). destruct (list_doc_ok _ _ N T) as (DO & B & LI).
    exists (list_doc (part first count (map e_name cat)) (zlen cat)). 
    assert (PL : zlen (part first count (map e_name cat)) < 1000) by (unfold part, zlen in *; rewrite firstn_length, skipn_length, map_length; lia).
    destruct (text_stream _ DO B) as (X1 & X2); [discriminate|pose proof (list_doc_size _ _ N T); lia|]. auto.
  - destruct (find (fun e => same_text (e_name e) name) cat) as [x|] eqn:FD; [|exact Logic.I]. apply find_some in FD. destruct FD as (IX & _). rewrite Forall_forall in F. pose proof (F _ IX) as OK.
    destruct (engine_doc_ok x OK) as (DO & B & DE). exists (engine_doc x). destruct (text_stream _ DO B) as (X1 & X2); [discriminate| |auto].
    unfold engine_doc, show_doc. cbn [flat_map fst snd show]. unfold zlen. rewrite !app_length. destruct OK as ((_ & O1) & _ & _ & (_ & O2)). pose proof (number_plain (e_uid x)) as (_ & O3). pose proof (number_plain (e_addr x)) as (_ & O4).
    change (List.length (zs "lokomotive")) with 10%nat. change (List.length (zs "uid")) with 3%nat. change (List.length (zs "name")) with 4%nat. change (List.length (zs "adresse")) with 7%nat. change (List.length (zs "typ")) with 3%nat. change (List.length (zs " ")) with 1%nat. change (List.length nl) with 1%nat. cbn [List.length]. lia.
Qed.

(** ** Where it goes wrong *)
Definition textb (n : nat) (t : list Z) : bool := forallb (fun c => (0 <? c) && (c <? 256) && negb (c =? NEWLINE)) t && Nat.leb (List.length t) n.
Lemma text_b : forall n t, textb n t = true -> plain_text n t.
Proof.
  intros n t H. unfold textb in H. apply andb_true_iff in H. destruct H as (H1 & H2). apply Nat.leb_le in H2. split; [|exact H2]. rewrite forallb_forall in H1. apply Forall_forall. intros x X. specialize (H1 x X).
  repeat rewrite andb_true_iff in H1. destruct H1 as ((A & B) & C). apply negb_true_iff in C. unfold byte. lia.
Qed.
Definition entryb (x : entry) : bool := textb 25 (e_name x) && textb 7 (e_proto x) && (0 <=? e_uid x) && (e_uid x <? 2 ^ 32) && (0 <=? e_addr x) && (e_addr x <? 2 ^ 32).
Lemma entry_b : forall cat, forallb entryb cat = true -> Forall entry_ok cat.
Proof.
  intros cat H. rewrite forallb_forall in H. apply Forall_forall. intros x X. specialize (H x X). unfold entryb in H. repeat rewrite andb_true_iff in H. destruct H as (((((H1 & H2) & H3) & H4) & H5) & H6).
  split; [apply text_b; exact H1|]. split; [unfold is_u32; lia|]. split; [unfold is_u32; lia|apply text_b; exact H2].
Qed.
Lemma demo_equipped : equipped demo_good 0 0.
Proof. split; [exact demo_sound|]. split; [exists demo_st0; split; [reflexivity|unfold is_u16; cbn; lia]|eexists; reflexivity]. Qed.
Lemma demo_has_list : has_list demo_good 1. Proof. do 5 eexists. split; [reflexivity|cbn; lia]. Qed.
Definition demo_cat : catalogue :=
  [mkEntry (zs "BR 103 113-7") 0x4007 7 (zs "mfx"); mkEntry (zs "V200") 72 72 (zs "mm2_prg"); mkEntry (zs "ICE 3") 0xC003 3 (zs "dcc"); mkEntry (zs "BR 18") 0x4012 18 (zs "mfx"); mkEntry (zs "E 94") 10 10 (zs "mm_prg")].
Lemma demo_has_engine : has_engine demo_good 1. Proof. eexists. reflexivity. Qed.
Lemma demo_engine_consumer : an_engine_consumer demo_good 0. Proof. do 2 eexists. reflexivity. Qed.
Lemma demo_served : serves demo_cat (serve demo_cat).
Proof. apply serve_serves; [apply entry_b; vm_compute; reflexivity|reflexivity]. Qed.
Definition long_cat : catalogue := map (fun n => mkEntry (zs "Lok " ++ decimal n) n n (zs "mfx")) (map Z.of_nat (seq 0 256)).
Lemma names_lost : exists cat answer s p c id w w', serves cat answer /\ config_id id /\ equipped w s p /\ has_list w c /\ zlen cat = 256 /\
  fetch_names 32 s p c id answer 128 0 w = Ok (map e_name (firstn 2 cat), w').
Proof.
  assert (SV : serves long_cat (serve long_cat)) by (apply serve_serves; [apply entry_b; vm_compute; reflexivity|reflexivity]).
  destruct (whole_list 32 long_cat (serve long_cat) 0 0 1 demo_id demo_good ltac:(lia) SV demo_id_ok ltac:(reflexivity) demo_equipped demo_has_list) as (w' & E & _).
  exists long_cat, (serve long_cat), 0%nat, 0%nat, 1%nat, demo_id, demo_good, w'. split; [exact SV|]. split; [exact demo_id_ok|]. split; [exact demo_equipped|]. split; [exact demo_has_list|]. split; [reflexivity|].
  rewrite E. rewrite firstn_map. reflexivity.
Qed.
Definition twins : catalogue := [mkEntry (zs "ICE 3 Velaro 407") 0x4001 1 (zs "mfx"); mkEntry (zs "ICE 3 Velaro 407b") 0x4002 2 (zs "mfx")].
Lemma wrong_engine : exists cat answer s p c e id x y w w' l, serves cat answer /\ config_id id /\ equipped w s p /\ an_engine_consumer w c /\ has_engine w e /\
  In x cat /\ In y cat /\ NoDup (map e_name cat) /\ e_uid x <> e_uid y /\ nulfree (e_name x) /\ List.length (e_name x) = 17%nat /\
  fetch_engine 32 s p c e id answer (e_name x) w = Ok (l, w') /\ name_of (lo_info l) = e_name x /\ ld_uid (lo_data l) = e_uid y.
Proof.
  exists twins, (serve twins), 0%nat, 0%nat, 0%nat, 1%nat, demo_id, (mkEntry (zs "ICE 3 Velaro 407b") 0x4002 2 (zs "mfx")), (mkEntry (zs "ICE 3 Velaro 407") 0x4001 1 (zs "mfx")), demo_good.
  eexists. eexists. split; [apply serve_serves; [apply entry_b; vm_compute; reflexivity|reflexivity]|]. split; [exact demo_id_ok|]. split; [exact demo_equipped|]. split; [exact demo_engine_consumer|]. split; [exact demo_has_engine|].
  split; [right; left; reflexivity|]. split; [left; reflexivity|]. split; [|split; [discriminate|split; [|split; [reflexivity|split; [vm_compute; reflexivity|split; reflexivity]]]]].
  - repeat (constructor; [intros X; cbn in X; repeat destruct X as [X|X]; discriminate X || exact X|]). constructor.
  - apply Forall_forall. intros x X. cbn in X. lia.
Qed.
Lemma twin_lost : exists cat answer s p c c' e id w w' x y, serves cat answer /\ config_id id /\ equipped w s p /\ has_list w c /\ an_engine_consumer w c' /\ has_engine w e /\
  cat = [x; y] /\ x <> y /\ Forall (fun x => name_fits (e_name x)) cat /\ fetch_catalogue 32 s p c c' e id answer w = Ok ([x; x], w').
Proof.
  set (x := mkEntry (zs "V60") 0x4001 1 (zs "mfx")). set (y := mkEntry (zs "V60") 60 60 (zs "mm2")). 
  exists [x; y], (serve [x; y]), 0%nat, 0%nat, 1%nat, 0%nat, 1%nat, demo_id, demo_good. eexists. exists x, y.
  split; [apply serve_serves; [apply entry_b; vm_compute; reflexivity|reflexivity]|]. split; [exact demo_id_ok|]. split; [exact demo_equipped|]. split; [exact demo_has_list|]. split; [exact demo_engine_consumer|]. split; [exact demo_has_engine|].
  split; [reflexivity|]. split; [discriminate|]. split; [|vm_compute; reflexivity].
  repeat (constructor; [split; [apply Forall_forall; intros z X; cbn in X; lia|cbn; lia]|]). constructor.
Qed.
