(* DemoStream.v -- building concrete streams for the examples: a document is cut into frames of
   8 bytes, and decidable checks show that it is a proper stream. *)
From Verif Require Import ZLib SpecConsumer ProofsCrc ProofsText ProofsStream ProofsConsumer Demo.

Fixpoint frames_of (n : nat) (bs : list Z) : list Data :=
  match n with O => [] | S n' => mkData 8 (firstn 8 bs ++ [0]) :: frames_of n' (skipn 8 bs) end.
Definition padded (bs : list Z) : list Z := bs ++ repeat 0 ((8 - List.length bs mod 8) mod 8).
Definition body (bs : list Z) : list Data := frames_of (List.length (padded bs) / 8) (padded bs).
Definition head_of (bs : list Z) (crc : Z) : Data := fdata (fr_Config_Data_Header (8 * zlen (body bs)) crc).
Definition head (bs : list Z) : Data := head_of bs (crc_of 0xFFFF (padded bs)).

Definition free_ofb (ds s : list Z) : bool := forallb (fun c => negb (existsb (Z.eqb c) ds)) s.
Lemma free_of_b : forall ds s, free_ofb ds s = true -> free_of ds s.
Proof.
  intros ds s H. unfold free_ofb in H. rewrite forallb_forall in H. apply Forall_forall. intros c C I. specialize (H c C).
  apply negb_true_iff in H. rewrite <- not_true_iff_false in H. apply H. apply existsb_exists. exists c. split; [exact I|apply Z.eqb_refl].
Qed.
Definition itemb (i : item) : bool :=
  match i with
  | ISection s => free_ofb [SQ_CLOSE] s && Nat.leb (List.length s) 11
  | IFlag k => free_ofb [EQUALS; NEWLINE] k && Nat.leb (List.length k) 11
  | IPair k v => free_ofb [EQUALS; NEWLINE] k && Nat.leb (List.length k) 11 && free_ofb [NEWLINE] v && Nat.leb (List.length v) 26
  end.
Definition docb (d : doc) : bool := forallb (fun gi => free_ofb [SQ_OPEN; DOT] (fst gi) && itemb (snd gi)) d.
Lemma doc_b : forall d, docb d = true -> doc_ok d.
Proof.
  intros d H. unfold docb in H. rewrite forallb_forall in H. apply Forall_forall. intros (g & i) I. specialize (H _ I). cbn [fst snd] in *.
  apply andb_true_iff in H. destruct H as (H1 & H2). split; [apply free_of_b; exact H1|].
  destruct i; cbn [itemb] in H2; repeat rewrite andb_true_iff in H2; cbn [item_ok]; rewrite ?Nat.leb_le in H2; intuition (apply free_of_b; assumption).
Qed.
Definition frameb (d : Data) : bool := (dlc d =? 8) && Nat.eqb (List.length (dbytes d)) 9 && forallb (fun x => (0 <=? x) && (x <? 256)) (dbytes d).
Lemma frame_b : forall ds, forallb frameb ds = true -> Forall data_frame ds.
Proof.
  intros ds H. rewrite forallb_forall in H. apply Forall_forall. intros d D. specialize (H d D). unfold frameb in H. repeat rewrite andb_true_iff in H.
  destruct H as ((H1 & H2) & H3). apply Z.eqb_eq in H1. apply Nat.eqb_eq in H2. rewrite forallb_forall in H3.
  assert (F : Forall byte (dbytes d)).
  { apply Forall_forall. intros x X. specialize (H3 x X). apply andb_true_iff in H3. unfold byte. lia. }
  split; [|exact H1]. unfold payload_ok. rewrite H1. repeat split; try exact F; try exact H2; lia.
Qed.
Definition fitsb (r : report) : bool :=
  let '(s, k, v) := r in Nat.leb (List.length s) 11 && Nat.leb (List.length k) 11 && Nat.ltb (List.length v) 26.
Lemma fits_b : forall rs, forallb fitsb rs = true -> Forall line_fits rs.
Proof.
  intros rs H. rewrite forallb_forall in H. apply Forall_forall. intros ((s & k) & v) R. specialize (H _ R). unfold fitsb in H. repeat rewrite andb_true_iff in H.
  rewrite !Nat.leb_le, Nat.ltb_lt in H. unfold line_fits. intuition.
Qed.
Definition streamb (bs : list Z) (crc : Z) : bool :=
  forallb frameb (body bs) && negb (Nat.eqb (List.length (body bs)) 0) && (8 * zlen (body bs) <? 2 ^ 32) && (0 <=? crc) && (crc <? 65536).
Lemma stream_b : forall bs crc, streamb bs crc = true ->
  header_for (head_of bs crc) (8 * zlen (body bs)) crc /\ Forall data_frame (body bs) /\ body bs <> [] /\ 8 * zlen (body bs) < 2 ^ 32.
Proof.
  intros bs crc H. unfold streamb in H. repeat rewrite andb_true_iff in H. destruct H as ((((H1 & H2) & H3) & H4) & H5). split; [|split; [|split]].
  - apply header_built; [unfold is_u32; unfold zlen in *; lia|unfold is_u16; lia].
  - apply frame_b. exact H1.
  - intros E. rewrite E in H2. discriminate.
  - lia.
Qed.
Lemma proper_b : forall bs, streamb bs (crc_of 0xFFFF (padded bs)) = true -> received (body bs) = padded bs -> proper_stream (head bs) (body bs).
Proof.
  intros bs H R. destruct (stream_b _ _ H) as (H1 & H2 & H3 & H4). eexists. split; [exact H1|]. split; [|auto]. apply checksum_fun. rewrite R. reflexivity.
Qed.

(** engine descriptions and the like, as a document from the section "" *)
Definition demo_id : Z := id_value 0 0 CMD_CONFIG_DATA true 0x0300.
Lemma demo_id_ok : config_id demo_id.
Proof. exists 0, 0, true, 0x0300. split; [|reflexivity]. unfold id_fields_ok, CMD_CONFIG_DATA. lia. Qed.
Definition nl : list Z := [NEWLINE].
Fixpoint forallb2_eq (a b : list Z) : bool :=
  match a, b with [], [] => true | x :: a', y :: b' => (x =? y) && forallb2_eq a' b' | _, _ => false end.
Lemma same_b : forall a b, forallb2_eq a b = true -> a = b.
Proof.
  induction a as [|x a IH]; intros [|y b] H; try discriminate; [reflexivity|]. cbn in H. apply andb_true_iff in H. destruct H as (H1 & H2).
  f_equal; [lia|apply IH; exact H2].
Qed.
Definition carriesb (d : doc) : bool :=
  docb d && streamb (show_doc d) (crc_of 0xFFFF (padded (show_doc d))) && free_ofb [SQ_OPEN; DOT] (skipn (List.length (show_doc d)) (padded (show_doc d))) &&
  forallb2_eq (received (body (show_doc d))) (padded (show_doc d)) && forallb fitsb (reports [] d).
Lemma carries_b : forall d, carriesb d = true ->
  doc_ok d /\ carries (body (show_doc d)) d /\ proper_stream (head (show_doc d)) (body (show_doc d)) /\ Forall line_fits (reports [] d).
Proof.
  intros d H. unfold carriesb in H. repeat rewrite andb_true_iff in H. destruct H as ((((H1 & H2) & H3) & H4) & H5). apply same_b in H4.
  destruct (stream_b _ _ H2) as (_ & F & _ & _). split; [apply doc_b; exact H1|]. split; [|split; [apply proper_b; assumption|apply fits_b; exact H5]].
  split; [exact F|]. eexists. split; [apply free_of_b; exact H3|]. rewrite H4. unfold padded. rewrite skipn_app, skipn_all, Nat.sub_diag. reflexivity.
Qed.

Definition demo_doc : doc :=
  [([], ISection (zs "lokomotive")); (nl ++ zs " ", IPair (zs "uid") (zs "0x4007")); (zs " ", IPair (zs "name") (zs "BR 103 113-7"));
   (zs " ", IPair (zs "adresse") (zs "0x7")); (zs " ", IPair (zs "typ") (zs "mfx")); (zs " ", IPair (zs "mfxuid") (zs "0x70ff5bd1"))].
Definition demo_long : doc := [([], ISection (zs "lokomotive")); (nl ++ zs " ", IPair (zs "typ") (zs "12345678"))].
Definition demo_list : doc :=
  [([], ISection (zs "loknamen")); (nl ++ zs " ", IPair (zs "nr") (zs "0")); (zs " ", IPair (zs "wert") (zs "V200"));
   (zs " ", IPair (zs "wert") (zs "BR 18")); ([], ISection (zs "numloks")); (nl ++ zs " ", IPair (zs "wert") (zs "259"))].
Lemma demo_doc_ok : carriesb demo_doc = true. Proof. vm_compute. reflexivity. Qed.
Lemma demo_long_ok : carriesb demo_long = true. Proof. vm_compute. reflexivity. Qed.
Lemma demo_list_ok : carriesb demo_list = true. Proof. vm_compute. reflexivity. Qed.

Lemma long_protocol : exists w s p c e id hd ds d,
  doc_ok d /\ carries ds d /\ proper_stream hd ds /\ Forall line_fits (reports [] d) /\
  run 64 (engine_download s p c e id (hd :: ds)) w = UB OutOfBounds.
Proof.
  exists demo, 0%nat, 0%nat, 0%nat, 0%nat, demo_id, (head (show_doc demo_long)), (body (show_doc demo_long)), demo_long.
  destruct (carries_b _ demo_long_ok) as (A & B & C & D). repeat (split; [assumption|]). vm_compute. reflexivity.
Qed.
