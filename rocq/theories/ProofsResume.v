(* ProofsResume.v -- proofs for SpecResume.v: the invariant of ProofsRsafe.v gives a sound world with the
   same objects, from which ProofsRecover.v continues. *)
From Verif Require Import ZLib SpecResume ProofsSafe ProofsRsafe ProofsRecover.

Lemma through : forall lw react n c w0 w, came_through lw react n c w0 w -> sound w /\ same_objects w0 w.
Proof.
  intros lw react n c w0 w (S & OC & RH & t & E & NE).
  destruct (h_exec lw react w0 S RH n _ _ c OC (mkR w0 []) (start_inv w0 S)) as [(u & EU & EX)|H].
  - rewrite E in EU. cbn [snd r_t app] in EU. subst u. destruct (NE EX).
  - rewrite E in H. cbn [fst snd r_w] in H. split; [eapply end_inv; exact H|apply H].
Qed.
Lemma map_of : forall A B C (f : A -> B) (g : B -> C) (h : A -> C) l l', (forall x, h x = g (f x)) -> map f l = map f l' -> map h l = map h l'.
Proof. intros A B C f g h l l' E M. transitivity (map g (map f l)); [rewrite map_map; apply map_ext; exact E|]. rewrite M, map_map. symmetry. apply map_ext. exact E. Qed.
Lemma objects : forall lw react n c w0 w, came_through lw react n c w0 w -> sound w /\ objects_stay w0 w.
Proof.
  intros lw react n c w0 w T. destruct (through _ _ _ _ _ _ T) as (S & L1 & L2 & L3 & L4). split; [exact S|]. split; [exact L1|]. split; [exact L4|].
  split; [exact L2|].
  apply map_of with (f := kind) (g := fun k => match k with KLoco => (0, 0) | KList m => (1, m) | KUser => (2, 0) end%nat); [intros [? ?|? ? ? ? ?|]; reflexivity|exact L3].
Qed.
Lemma none_excessive : forall lw (w : world) pre o post w1 t1, @nil op = pre ++ o :: post -> run lw pre w = Ok (w1, t1) -> ~ excessive_line w1 o.
Proof. intros lw w pre o post w1 t1 E. destruct (app_cons_not_nil _ _ _ E). Qed.

Lemma engine_resumed : forall lw react n c0 w0 w s st p c e l hd ds d id u a tp, 32 <= lw ->
  came_through lw react n c0 w0 w -> a_parser w0 p -> an_engine_consumer w0 c -> config_id id -> carries ds d -> proper_stream hd ds -> describes d u a tp ->
  station_at w s st -> engine_at w e l -> si_avail (lo_info l) <> EMPTY ->
  exists w1 t1 w2 t2 e0 x, run lw (make_ready s p) w = Ok (w1, t1) /\ w_engines w1 = w_engines w /\ (forall c', ~ In (EvStreamComplete c') t1) /\
    run lw (engine_download s p c e id (hd :: ds)) w1 = Ok (w2, t2) /\ w_engines w2 = upd e (described l u a tp) (w_engines w) /\
    consumer_at w c (LocoC e0 (Def x)) /\ notes t2 = EvStreamComplete c :: callback_note x (fun cb => EvEndComplete cb c).
Proof.
  intros lw react n c0 w0 w s st p c e l hd ds d id u a tp LW T P C ID CA PS DE Q EE AV. destruct (through _ _ _ _ _ _ T) as (S & SO).
  destruct C as (e0 & cb0 & C). destruct (same_kind _ _ _ _ SO C) as ([e1 cb1|? ? ? ? ?|] & C1 & K); try discriminate.
  destruct (engine_after_history lw w [] s p c e hd ds d id u a tp LW S (Forall_nil _) (none_excessive lw w) (same_parser _ _ _ SO P) (ex_intro _ e1 (ex_intro _ cb1 C1)) ID CA PS DE) as (w' & t' & E & H).
  injection E as <- <-. exact (H st l Q EE AV).
Qed.
Lemma list_resumed : forall lw react n c0 w0 w s st p c m off hd ds d id,
  came_through lw react n c0 w0 w -> a_parser w0 p -> (exists co i k o cb, consumer_at w0 c (ListC co i k o cb) /\ List.length i = m) -> byte off -> config_id id ->
  carries ds d -> proper_stream hd ds -> doc_ok d -> Forall list_line_fits (reports [] d) -> station_at w s st ->
  exists w1 t1 w2 t2 co i k o x, run lw (make_ready s p) w = Ok (w1, t1) /\ (forall c', ~ In (EvStreamComplete c') t1) /\
    run lw (ListReset c :: list_download s p c off id (hd :: ds)) w1 = Ok (w2, t2) /\ w_engines w2 = w_engines w /\
    consumer_at w c (ListC co i k o (Def x)) /\
    consumer_at w2 c (ListC (Def true) (map named (firstn m (names_in (reports [] d))) ++ repeat si_reset (m - List.length (names_in (reports [] d))))
                           (last (map (fun v => Def (dec_value lw v mod 256)) (counts_in (reports [] d))) (Def 0)) (Def 0) (Def x)) /\
    notes t2 = EvStreamComplete c :: callback_note x (fun cb => EvEndComplete cb c).
Proof.
  intros lw react n c0 w0 w s st p c m off hd ds d id T P C OB ID CA PS DO LF Q. destruct (through _ _ _ _ _ _ T) as (S & SO).
  destruct C as (co & i & k & o & cb0 & C & <-). destruct (same_kind _ _ _ _ SO C) as ([? ?|co1 i1 k1 o1 cb1|] & C1 & K); try discriminate. injection K as K.
  destruct (list_after_history lw w [] s p c (List.length i) off hd ds d id S (Forall_nil _) (none_excessive lw w) (same_parser _ _ _ SO P)
    (ex_intro _ co1 (ex_intro _ i1 (ex_intro _ k1 (ex_intro _ o1 (ex_intro _ cb1 (conj C1 K)))))) OB ID CA PS DO LF) as (w' & t' & E & H).
  injection E as <- <-. exact (H st Q).
Qed.
