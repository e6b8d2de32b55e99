(* ProofsRequest.v -- proofs about config requests, begin() and the forwarding of config data. *)
From Verif Require Import ZLib SpecStation ProofsCodec ProofsBuffer ProofsLoco ProofsWorld ProofsStation.

Lemma using_eq : forall st q, set_cfg st q = now_using st q. Proof. reflexivity. Qed.
Lemma using_twice : forall st q q', now_using (now_using st q) q' = now_using st q'. Proof. reflexivity. Qed.
Lemma using_none : forall st, cb_cfg (st_cbs st) = None -> now_using st None = st.
Proof. intros [h [a b0 c d e]] H. cbn in H. subst. reflexivity. Qed.
Lemma with_same : forall w s st, station_at w s st -> with_station w s st = w.
Proof. intros [a b0 c d] s st [H _]. unfold with_station. cbn in *. rewrite upd_same_id by assumption. reflexivity. Qed.
Lemma with_twice : forall w s a c, with_station (with_station w s a) s c = with_station w s c.
Proof. intros. unfold with_station. cbn. rewrite upd_upd. reflexivity. Qed.
Lemma station_with : forall w s st st', station_at w s st -> is_u16 (st_hash st') -> station_at (with_station w s st') s st'.
Proof. intros w s st st' [H _] U. split; [|exact U]. cbn. eapply nth_error_upd_same. eassumption. Qed.
Lemma station_same : forall w w' s st, w_stations w' = w_stations w -> station_at w s st -> station_at w' s st.
Proof. intros w w' s st E [H U]. split; [rewrite E|]; assumption. Qed.

Lemma cfg_reset_iff : forall lw w p w' t, cfg_call lw p CReset w = Ok (w', t) <-> reset_effect lw w (Some p) w' t.
Proof.
  intros lw w p w' t. unfold cfg_call, World.seq, emit, reset_effect, ask, get_parser, at_. cbn [bind].
  destruct (nth_error (w_parsers w) p) as [[sp|beh h]|]; cbn [bind].
  - cbn [step]. split.
    + destruct (lib_reset p w) as [[w2 t2]|]; cbn; [|discriminate]. intros H. inversion H; subst. eauto.
    + intros (t' & -> & ->). reflexivity.
  - split; [intros H; inversion H; subst; split; reflexivity|intros [-> ->]; reflexivity].
  - split; [discriminate|contradiction].
Qed.
Lemma reset_keeps : forall lw w q w1 t, reset_effect lw w q w1 t ->
  w_stations w1 = w_stations w /\ List.length (w_parsers w1) = List.length (w_parsers w) /\ Forall not_tx t.
Proof.
  intros lw w [p|] w1 t H.
  - apply cfg_reset_iff in H. eapply cfg_call_keeps. eassumption.
  - destruct H as [-> ->]. repeat split. constructor.
Qed.

(** ** finish / abort *)
Lemma finish_iff : forall lw w s st w2 t, station_at w s st ->
  (st_finish lw s w = Ok (w2, t) <-> exists w1, reset_effect lw w (cb_cfg (st_cbs st)) w1 t /\ w2 = with_station w1 s (now_using st None)).
Proof.
  intros lw w s st w2 t S0. unfold st_finish. rewrite (ask_ok _ _ _ _ _ (get_st _ _ _ S0)).
  destruct (cb_cfg (st_cbs st)) as [p|] eqn:C; cbn [when_some].
  - split.
    + intros H. apply seq_inv in H. destruct H as (w1 & t1 & t2 & H1 & H2 & ->). apply cfg_reset_iff in H1.
      destruct (reset_keeps _ _ _ _ _ H1) as (K & _). rewrite (ask_ok _ _ _ _ _ (get_st _ _ _ (station_same _ _ _ _ K S0))) in H2.
      inversion H2; subst. exists w1. rewrite app_nil_r. split; [exact H1|reflexivity].
    + intros (w1 & H1 & ->). pose proof H1 as H0. apply cfg_reset_iff in H1. rewrite (seq_ok _ _ _ _ _ H1).
      destruct (reset_keeps _ _ _ _ _ H0) as (K & _). rewrite (ask_ok _ _ _ _ _ (get_st _ _ _ (station_same _ _ _ _ K S0))).
      cbn. rewrite app_nil_r. reflexivity.
  - unfold skip. split.
    + intros H. inversion H; subst. exists w2. split; [split; reflexivity|]. rewrite using_none, with_same by assumption. reflexivity.
    + intros (w1 & [-> ->] & ->). rewrite using_none, with_same by assumption. reflexivity.
Qed.
Lemma finish_ops : forall lw s o, In o [FinishCurrentConfigRequest; AbortCurrentConfigRequest; NotifyConfigStreamReceived] -> step lw (OnStation s o) = st_finish lw s.
Proof. intros lw s o [<-|[<-|[<-|[]]]]; reflexivity. Qed.

(** ** begin *)
Lemma begin_iff : forall lw w s st u c w2 t, station_at w s st -> is_u16 u ->
  (step lw (OnStation s (Begin u c)) w = Ok (w2, t) <->
   exists w1, reset_effect lw w (cb_cfg (st_cbs st)) w1 t /\ w2 = with_station w1 s (mkStation (u / 2048 * 256 + u mod 128) c)).
Proof.
  intros lw w s st u c w2 t S0 U. cbn [step st_step]. unfold st_begin, st_abort.
  assert (K : forall w1 t1, reset_effect lw w (cb_cfg (st_cbs st)) w1 t1 ->
    ask (get_station s) (fun st => put_station s (mkStation (st_hash st) c);;; put_station s (mkStation (computeSenderHash u) c))
      (with_station w1 s (now_using st None)) = Ok (with_station w1 s (mkStation (u / 2048 * 256 + u mod 128) c), [])).
  { intros w1 t1 R. destruct (reset_keeps _ _ _ _ _ R) as (K & _).
    rewrite (ask_ok _ _ _ _ _ (get_st _ _ _ (station_with _ _ _ (now_using st None) (station_same _ _ _ _ K S0) (proj2 S0)))).
    unfold World.seq, put_station, with_station. cbn. rewrite !upd_upd, hash16 by assumption. reflexivity. }
  split.
  - intros H. apply seq_inv in H. destruct H as (w1 & t1 & t2 & H1 & H2 & ->). apply (finish_iff _ _ _ st) in H1; [|assumption].
    destruct H1 as (w1' & R & ->). rewrite (K _ _ R) in H2. inversion H2; subst. rewrite app_nil_r. eauto.
  - intros (w1 & R & ->). assert (F : st_finish lw s w = Ok (with_station w1 s (now_using st None), t)) by (apply (finish_iff _ _ _ st); eauto).
    rewrite (seq_ok _ _ _ _ _ F), (K _ _ R). cbn. rewrite app_nil_r. reflexivity.
Qed.

(** ** Starting a stream *)
Lemma start_ok : forall lw w q, valid_ptr w q -> when_some q (fun p => cfg_call lw p CStart) w = Ok (started w q, start_call q).
Proof.
  intros lw w [p|] V; [|reflexivity]. unfold valid_ptr in V. cbn [when_some started start_call].
  unfold cfg_call, World.seq, emit, ask, get_parser, at_. cbn [bind]. destruct (nth_error (w_parsers w) p) as [[sp|beh h]|]; [reflexivity|reflexivity|contradiction].
Qed.
Lemma start_bad : forall lw w q, ~ valid_ptr w q -> exists u, when_some q (fun p => cfg_call lw p CStart) w = UB u.
Proof.
  intros lw w [p|] V; [|exfalso; apply V; exact I]. unfold valid_ptr in V. cbn [when_some].
  unfold cfg_call, World.seq, emit, ask, get_parser, at_. cbn [bind]. destruct (nth_error (w_parsers w) p); [exfalso; apply V; discriminate|exists Dangling; reflexivity].
Qed.
Lemma valid_dec : forall w q, valid_ptr w q \/ ~ valid_ptr w q.
Proof. intros w [p|]; [|left; exact I]. cbn. destruct (nth_error (w_parsers w) p); [left; discriminate|right; intros H; apply H; reflexivity]. Qed.
Lemma valid_keep : forall w w' q, List.length (w_parsers w') = List.length (w_parsers w) -> valid_ptr w' q <-> valid_ptr w q.
Proof. intros w w' [p|] E; [|reflexivity]. cbn. rewrite !nth_error_Some. rewrite E. reflexivity. Qed.
Lemma started_same : forall w q, w_stations (started w q) = w_stations w /\ w_engines (started w q) = w_engines w /\ w_conss (started w q) = w_conss w.
Proof. intros w [p|]; cbn; [|auto]. destruct (nth_error (w_parsers w) p); auto. Qed.

(** ** The engine list request *)
Lemma fmt_byte : forall x, byte x -> fmt_d x = decimal x.
Proof.
  intros x B. assert (H : forallb (fun n => if list_eq_dec Z.eq_dec (fmt_d (Z.of_nat n)) (decimal (Z.of_nat n)) then true else false) (List.seq 0 256) = true) by (vm_compute; reflexivity).
  rewrite forallb_forall in H. specialize (H (Z.to_nat x)). rewrite Z2Nat.id in H by (unfold byte in B; lia).
  destruct (list_eq_dec Z.eq_dec (fmt_d x) (decimal x)); [assumption|]. discriminate H. apply in_seq. unfold byte in B. lia.
Qed.
Lemma decimal_len : forall x, byte x -> 1 <= zlen (decimal x) <= 3.
Proof. intros x _. unfold decimal, zlen. destruct (x <? 10), (x <? 100); cbn; lia. Qed.
Lemma list_frame2 : forall (h off : Z), byte off ->
  mkData (u8 (snd (snprintf9 (list_request_text off)))) (fst (snprintf9 (list_request_text off))) = padded (decimal off ++ zs " 2") /\
  u8 (snd (snprintf9 (list_request_text off))) <=? CanDataMaxLength = true.
Proof.
  intros h off B. unfold list_request_text. rewrite fmt_byte by assumption. change (fmt_d kNumEngineNamesDownload) with [50].
  pose proof (decimal_len off B) as L. unfold snprintf9. cbn [fst snd].
  change (zs " 2") with ([32] ++ [50]). unfold zlen in *.
  rewrite firstn_all2 by (rewrite !app_length; cbn; lia).
  assert (Q : u8 (Z.of_nat (List.length (decimal off ++ [32] ++ [50]))) = Z.of_nat (List.length (decimal off ++ [32] ++ [50])))
    by (unfold u8; apply Z.mod_small; rewrite !app_length; cbn; lia).
  rewrite Q. split; [reflexivity|]. unfold CanDataMaxLength. apply Z.leb_le. rewrite !app_length. cbn [List.length]. lia.
Qed.
Lemma list_frame1 : c_strncpy (dbytes data0) kEngineNames kDataBufferLength = Ok (zs "loknamen" ++ [0]). Proof. reflexivity. Qed.

Definition list_rest (lw : Z) (s : nat) (offset : Z) (q : option nat) : act :=
  ask (get_station s) (fun st =>
  put_station s (set_cfg st q) ;;;
  ask (fun _ => c_strncpy (dbytes data0) kEngineNames kDataBufferLength) (fun b1 =>
  let frame1 := st_frame st kRequestConfigData (mkData 8 b1) in
  let '(b2, n) := snprintf9 (list_request_text offset) in
  let frame2 := st_frame st kRequestConfigData (mkData (u8 n) b2) in
  if u8 n <=? CanDataMaxLength then
    when_some q (fun p => cfg_call lw p CStart) ;;;
    tx_send (st_cbs st) frame1 ;;;
    tx_send (st_cbs st) frame2
  else skip)).
Lemma list_unfold : forall lw s off q, step lw (OnStation s (RequestEngineList off q)) = (st_abort lw s ;;; list_rest lw s off q).
Proof. reflexivity. Qed.
Definition list_frames (h off : Z) : list CanFrame := [outgoing h CMD_REQUEST_CONFIG (zs "loknamen"); outgoing h CMD_REQUEST_CONFIG (decimal off ++ zs " 2")].
Lemma put_seq : forall s x a w, (put_station s x ;;; a) w = a (with_station w s x).
Proof. intros. unfold World.seq, put_station, with_station. cbn [bind]. destruct (a _) as [[w2 t2]|]; reflexivity. Qed.
Lemma list_rest_eq : forall lw w s st off q, station_at w s st -> byte off ->
  list_rest lw s off q w = (when_some q (fun p => cfg_call lw p CStart) ;;;
     tx_send (st_cbs st) (outgoing (st_hash st) CMD_REQUEST_CONFIG (zs "loknamen")) ;;;
     tx_send (st_cbs st) (outgoing (st_hash st) CMD_REQUEST_CONFIG (decimal off ++ zs " 2"))) (with_station w s (now_using st q)).
Proof.
  intros lw w s st off q S0 B. unfold list_rest. rewrite (ask_ok _ _ _ _ _ (get_st _ _ _ S0)), put_seq, using_eq.
  rewrite (ask_ok _ _ _ _ _ list_frame1). destruct (list_frame2 (st_hash st) off B) as [F2 G2].
  destruct (snprintf9 (list_request_text off)) as [b2 n]. cbn [fst snd] in F2, G2. cbv zeta. rewrite G2, F2.
  unfold st_frame, outgoing. rewrite mkId_value by (unfold byte, kRequestConfigData; first [apply (proj2 S0)|lia]). reflexivity.
Qed.
Lemma list_rest_ok : forall lw w s st tx off q, station_at w s st -> cb_tx (st_cbs st) = Some tx -> byte off -> valid_ptr w q ->
  list_rest lw s off q w = Ok (started (with_station w s (now_using st q)) q, start_call q ++ map (EvTx tx) (list_frames (st_hash st) off)).
Proof.
  intros lw w s st tx off q S0 T B V. rewrite (list_rest_eq _ _ _ _ _ _ S0 B).
  rewrite (seq_ok _ _ _ _ _ (start_ok lw (with_station w s (now_using st q)) q V)).
  rewrite (seq_ok _ _ _ _ _ (tx_some _ _ _ _ T)), (tx_some _ _ _ _ T). reflexivity.
Qed.
Lemma list_rest_inv : forall lw w s st off q w2 t, station_at w s st -> byte off -> list_rest lw s off q w = Ok (w2, t) ->
  exists tx, cb_tx (st_cbs st) = Some tx /\ t = start_call q ++ map (EvTx tx) (list_frames (st_hash st) off).
Proof.
  intros lw w s st off q w2 t S0 B H. rewrite (list_rest_eq _ _ _ _ _ _ S0 B) in H.
  apply seq_inv in H. destruct H as (w1 & t1 & t2 & H1 & H2 & ->).
  destruct (valid_dec (with_station w s (now_using st q)) q) as [V|V].
  - rewrite (start_ok _ _ _ V) in H1. inversion H1; subst. apply seq_inv in H2. destruct H2 as (w3 & t3 & t4 & H2 & H3 & ->).
    destruct (cb_tx (st_cbs st)) as [tx|] eqn:T; [|rewrite tx_none in H2 by assumption; discriminate].
    rewrite (tx_some _ _ _ _ T) in H2. rewrite (tx_some _ _ _ _ T) in H3. inversion H2; inversion H3; subst. exists tx. split; reflexivity.
  - destruct (start_bad lw _ _ V) as (u & E). congruence.
Qed.
Lemma list_request : forall lw w s st tx off q w1 t1, station_at w s st -> cb_tx (st_cbs st) = Some tx -> byte off -> valid_ptr w q ->
  reset_effect lw w (cb_cfg (st_cbs st)) w1 t1 ->
  step lw (OnStation s (RequestEngineList off q)) w =
  Ok (started (with_station w1 s (now_using st q)) q, t1 ++ start_call q ++ map (EvTx tx) (list_frames (st_hash st) off)).
Proof.
  intros lw w s st tx off q w1 t1 S0 T B V R. rewrite list_unfold.
  assert (F : st_abort lw s w = Ok (with_station w1 s (now_using st None), t1)) by (apply (finish_iff _ _ _ st); eauto).
  rewrite (seq_ok _ _ _ _ _ F). destruct (reset_keeps _ _ _ _ _ R) as (K & L & _).
  rewrite (list_rest_ok lw _ s (now_using st None) tx off q); [|eapply station_with; [eapply station_same; eassumption|apply (proj2 S0)]|assumption|assumption|].
  - cbn [bind]. rewrite with_twice, using_twice. reflexivity.
  - cbn. apply (valid_keep _ _ q L). assumption.
Qed.
Lemma list_request_inv : forall lw w s st off q w2 t, station_at w s st -> byte off ->
  step lw (OnStation s (RequestEngineList off q)) w = Ok (w2, t) ->
  exists tx t1, cb_tx (st_cbs st) = Some tx /\ Forall not_tx t1 /\ t = t1 ++ start_call q ++ map (EvTx tx) (list_frames (st_hash st) off).
Proof.
  intros lw w s st off q w2 t S0 B H. rewrite list_unfold in H. apply seq_inv in H. destruct H as (w1 & t1 & t2 & H1 & H2 & ->).
  apply (finish_iff _ _ _ st) in H1; [|assumption]. destruct H1 as (w1' & R & ->). destruct (reset_keeps _ _ _ _ _ R) as (K & L & N).
  apply (list_rest_inv _ _ _ (now_using st None)) in H2; [|eapply station_with; [eapply station_same; eassumption|apply (proj2 S0)]|assumption].
  destruct H2 as (tx & T & ->). exists tx, t1. split; [exact T|]. split; [exact N|reflexivity].
Qed.

(** ** The engine request *)
Lemma get_short_ok : forall w r av name, refers_to w r av name ->
  exists si, get_short r w = Ok si /\ si_avail si = av /\ shows_name (si_name si) name.
Proof.
  intros w r av name (si & A & N & R). exists si. split; [|auto]. destruct r as [e|c k|v]; cbn.
  - destruct R as (l & E & <-). unfold get_engine, at_. rewrite E. reflexivity.
  - destruct R as (co & infos & n & off & cb & E & F). unfold get_cons, at_. rewrite E. cbn. rewrite F. reflexivity.
  - subst. reflexivity.
Qed.
Lemma field_nul : forall f t, shows_name f t -> nulfree t /\ f = t ++ 0 :: repeat 0 (32 - List.length t).
Proof.
  intros f t (N & L & ->). split; [exact N|]. f_equal. replace (33 - List.length t)%nat with (S (32 - List.length t)) by lia. reflexivity.
Qed.
Lemma strlen_eq : forall t r, nulfree t -> c_strlen (t ++ 0 :: r) = Ok (zlen t).
Proof.
  induction t as [|x t IH]; intros r N; [reflexivity|]. inversion N; subst. cbn [app c_strlen].
  destruct (Z.eqb_spec x 0); [contradiction|]. rewrite IH by assumption. unfold bind, zlen. cbn [List.length]. rewrite Nat2Z.inj_succ. f_equal. lia.
Qed.
Lemma copy8 : forall t r, nulfree t -> c_strncpy (dbytes data0) (t ++ 0 :: r) CanDataMaxLength = Ok (pad8 (firstn 8 t) ++ [0]).
Proof.
  intros t r N. rewrite c_strncpy_eq by (try assumption; change (0 <= 8 <= 9); lia). unfold CanDataMaxLength, pad8. change (Z.to_nat 8) with 8%nat.
  f_equal. rewrite <- !app_assoc. f_equal.
  assert (E : (8 - List.length t = 8 - List.length (firstn 8 t))%nat) by (rewrite firstn_length; lia). rewrite ?E. f_equal.
Qed.
Lemma pad8_frame : forall st l, is_u16 (st_hash st) -> (List.length l <= 8)%nat ->
  st_frame st kRequestConfigData (mkData 8 (pad8 l ++ [0])) = outgoing (st_hash st) CMD_REQUEST_CONFIG (pad8 l).
Proof.
  intros st l H L. unfold st_frame, outgoing. rewrite mkId_value by (unfold byte, kRequestConfigData; first [assumption|lia]).
  f_equal. unfold padded, zlen. assert (P : List.length (pad8 l) = 8%nat) by (unfold pad8; rewrite app_length, repeat_length; lia). rewrite P. reflexivity.
Qed.
Lemma engine_request_dropped : forall lw w s st r q av name, station_at w s st -> refers_to w r av name ->
  av = EMPTY \/ processing w (cb_cfg (st_cbs st)) -> step lw (OnStation s (RequestEngine r q)) w = Ok (w, []).
Proof.
  intros lw w s st r q av name S0 R H. destruct (get_short_ok _ _ _ _ R) as (si & G & A & N). cbn [step st_step]. unfold st_requestEngine.
  rewrite (ask_ok _ _ _ _ _ G). unfold si_isNameKnown. rewrite A, negb_involutive.
  destruct H as [->|(p & x & C & E & P)]; [reflexivity|]. destruct (avail_eqb av EMPTY); [reflexivity|].
  rewrite (ask_ok _ _ _ _ _ (get_st _ _ _ S0)), C. unfold ask, cfg_isProcessing, get_parser, at_. rewrite E. cbn [bind].
  destruct P as [-> | ->]; reflexivity.
Qed.
(** resetting an idle object only touches that object *)
Lemma idle_reset : forall lw w q w1 t, reset_effect lw w q w1 t -> ~ processing w q ->
  w_engines w1 = w_engines w /\ w_conss w1 = w_conss w /\ t = match q with Some p => [EvCfg p CReset] | None => [] end.
Proof.
  intros lw w [p|] w1 t R P; [|destruct R as [-> ->]; auto]. cbn [reset_effect] in R.
  destruct (nth_error (w_parsers w) p) as [[sp|beh h]|] eqn:E; [| |contradiction].
  - destruct R as (t' & R & ->). cbn [step] in R. unfold lib_reset in R.
    assert (G : get_lib p w = Ok sp) by (unfold get_lib, get_parser, at_; rewrite E; reflexivity).
    rewrite (ask_ok _ _ _ _ _ G) in R.
    assert (Q : ss_processing (sp_state sp) = false).
    { destruct (sp_state sp) eqn:X; try reflexivity; exfalso; apply P; exists p, (LibP sp); cbn; rewrite X; auto. }
    rewrite Q in R. change ((skip;;; ask (get_lib p) (fun sp0 => ask (fun _ => tp_reset (sp_text sp0)) (fun t => put_lib p (mkSP SS_IDLE 0 t crc_reset None)))) w = Ok (w1, t')) in R.
    rewrite (seq_ok _ _ w w [] eq_refl), (ask_ok _ _ _ _ _ G) in R. unfold ask in R. destruct (tp_reset (sp_text sp)); cbn in R; [|discriminate].
    inversion R; subst. auto.
  - destruct R as [-> ->]. auto.
Qed.
Definition engine_rest (lw : Z) (s : nat) (engine : sref) (q : option nat) : act :=
    ask (get_station s) (fun st =>
    put_station s (set_cfg st q) ;;;
    when_some q (fun p => cfg_call lw p CStart) ;;;
    ask (fun _ => c_strncpy (dbytes data0) kEngine kDataBufferLength) (fun b1 =>
    tx_send (st_cbs st) (st_frame st kRequestConfigData (mkData 8 b1)) ;;;
    ask (get_short engine) (fun si =>
    ask (fun _ => c_strlen (si_name si)) (fun engineNameLength =>
    ask (fun _ => c_strncpy (dbytes data0) (si_name si) CanDataMaxLength) (fun b2 =>
    tx_send (st_cbs st) (st_frame st kRequestConfigData (mkData 8 b2)) ;;;
    ask (fun _ => if engineNameLength >? CanDataMaxLength
                  then c_strncpy (dbytes data0) (skipn (Z.to_nat CanDataMaxLength) (si_name si)) CanDataMaxLength
                  else Ok (dbytes data0)) (fun b3 =>
    tx_send (st_cbs st) (st_frame st kRequestConfigData (mkData 8 b3)))))))).
Lemma third_copy : forall f t, shows_name f t ->
  (if zlen t >? CanDataMaxLength then c_strncpy (dbytes data0) (skipn (Z.to_nat CanDataMaxLength) f) CanDataMaxLength else Ok (dbytes data0)) =
  Ok (pad8 (firstn 8 (skipn 8 t)) ++ [0]).
Proof.
  intros f t S. destruct (field_nul _ _ S) as [N ->]. unfold CanDataMaxLength, zlen. change (Z.to_nat 8) with 8%nat.
  destruct (Z.of_nat (List.length t) >? 8) eqn:E.
  - rewrite skipn_app. assert (L : (8 < List.length t)%nat) by lia. replace (8 - List.length t)%nat with 0%nat by lia.
    change (skipn 0 (0 :: repeat 0 (32 - List.length t))) with (0 :: repeat 0 (32 - List.length t)).
    apply copy8. unfold nulfree in N. rewrite <- (firstn_skipn 8 t) in N. apply Forall_app in N. apply N.
  - rewrite skipn_all2 by lia. reflexivity.
Qed.
Lemma engine_rest_ok : forall lw w s st tx r q si name, station_at w s st -> cb_tx (st_cbs st) = Some tx -> valid_ptr w q ->
  (forall w', w_engines w' = w_engines w -> w_conss w' = w_conss w -> get_short r w' = Ok si) -> shows_name (si_name si) name ->
  engine_rest lw s r q w = Ok (started (with_station w s (now_using st q)) q, start_call q ++ map (EvTx tx) (engine_request (st_hash st) name)).
Proof.
  intros lw w s st tx r q si name S0 T V G N. destruct (field_nul _ _ N) as [NF FE]. unfold engine_rest.
  rewrite (ask_ok _ _ _ _ _ (get_st _ _ _ S0)), put_seq, using_eq.
  rewrite (seq_ok _ _ _ _ _ (start_ok lw (with_station w s (now_using st q)) q V)).
  set (w1 := started (with_station w s (now_using st q)) q).
  destruct (started_same (with_station w s (now_using st q)) q) as (_ & E2 & E3). fold w1 in E2, E3. cbn in E2, E3.
  assert (C1 : c_strncpy (dbytes data0) kEngine kDataBufferLength = Ok (pad8 (zs "lokinfo") ++ [0])) by reflexivity.
  rewrite (ask_ok _ _ _ _ _ C1), (seq_ok _ _ _ _ _ (tx_some _ _ _ _ T)), (ask_ok _ _ _ _ _ (G w1 E2 E3)).
  rewrite (ask_ok _ (fun _ : world => c_strlen (si_name si)) _ _ (zlen name)) by (rewrite FE; apply strlen_eq; assumption).
  rewrite (ask_ok _ (fun _ : world => c_strncpy (dbytes data0) (si_name si) CanDataMaxLength) _ _ (pad8 (firstn 8 name) ++ [0])) by (rewrite FE; apply copy8; assumption).
  rewrite (seq_ok _ _ _ _ _ (tx_some _ _ _ _ T)).
  erewrite ask_ok by (apply third_copy; exact N). rewrite (tx_some _ _ _ _ T). cbn [bind app map engine_request].
  rewrite !pad8_frame; try apply (proj2 S0); try (rewrite firstn_length; lia); [reflexivity|cbn; lia].
Qed.
Lemma engine_rest_inv : forall lw w s st r q w2 t, station_at w s st -> engine_rest lw s r q w = Ok (w2, t) -> exists tx, cb_tx (st_cbs st) = Some tx.
Proof.
  intros lw w s st r q w2 t S0 H. unfold engine_rest in H. rewrite (ask_ok _ _ _ _ _ (get_st _ _ _ S0)), put_seq in H.
  apply seq_inv in H. destruct H as (w1 & t1 & t2 & _ & H & _). apply ask_inv in H. destruct H as (b1 & _ & H). apply seq_inv in H.
  destruct H as (w3 & t3 & t4 & H & _). destruct (cb_tx (st_cbs st)) as [tx|] eqn:T; [eauto|]. rewrite tx_none in H by assumption. discriminate.
Qed.
Lemma short_keep : forall w r av name, refers_to w r av name ->
  exists si, (forall w', w_engines w' = w_engines w -> w_conss w' = w_conss w -> get_short r w' = Ok si) /\ si_avail si = av /\ shows_name (si_name si) name.
Proof.
  intros w r av name R. destruct (get_short_ok _ _ _ _ R) as (si & G & A & N). exists si. split; [|auto]. intros w' E1 E2. rewrite <- G.
  unfold get_short, get_engine, get_cons. rewrite E1, E2. reflexivity.
Qed.
Lemma engine_unfold : forall lw w s st r q av name, station_at w s st -> refers_to w r av name -> av <> EMPTY ->
  valid_ptr w (cb_cfg (st_cbs st)) -> ~ processing w (cb_cfg (st_cbs st)) ->
  step lw (OnStation s (RequestEngine r q)) w = (st_abort lw s ;;; engine_rest lw s r q) w.
Proof.
  intros lw w s st r q av name S0 R A V P. destruct (get_short_ok _ _ _ _ R) as (si & G & Av & N). cbn [step st_step]. unfold st_requestEngine.
  rewrite (ask_ok _ _ _ _ _ G). unfold si_isNameKnown. rewrite Av, negb_involutive.
  assert (AE : avail_eqb av EMPTY = false) by (destruct av; [contradiction|reflexivity|reflexivity]). rewrite AE.
  rewrite (ask_ok _ _ _ _ _ (get_st _ _ _ S0)).
  assert (B : match cb_cfg (st_cbs st) with None => Ok false | Some p => cfg_isProcessing p w end = Ok false).
  { destruct (cb_cfg (st_cbs st)) as [p|] eqn:C; [|reflexivity]. unfold cfg_isProcessing, get_parser, at_. cbn in V.
    destruct (nth_error (w_parsers w) p) as [x|] eqn:E; [|contradiction]. cbn [bind]. f_equal.
    destruct (pobj_state x) eqn:X; try reflexivity; exfalso; apply P; exists p, x; auto. }
  rewrite (ask_ok _ _ _ _ _ B). reflexivity.
Qed.
Lemma reset_valid : forall lw w q w1 t, reset_effect lw w q w1 t -> valid_ptr w q.
Proof. intros lw w [p|] w1 t H; [|exact I]. cbn in *. destruct (nth_error (w_parsers w) p); [discriminate|contradiction]. Qed.
Lemma engine_request_accepted : forall lw w s st tx r q av name w1 t1, station_at w s st -> cb_tx (st_cbs st) = Some tx ->
  refers_to w r av name -> av <> EMPTY -> ~ processing w (cb_cfg (st_cbs st)) -> valid_ptr w q ->
  reset_effect lw w (cb_cfg (st_cbs st)) w1 t1 ->
  step lw (OnStation s (RequestEngine r q)) w =
  Ok (started (with_station w1 s (now_using st q)) q, t1 ++ start_call q ++ map (EvTx tx) (engine_request (st_hash st) name)) /\
  t1 = match cb_cfg (st_cbs st) with Some p => [EvCfg p CReset] | None => [] end.
Proof.
  intros lw w s st tx r q av name w1 t1 S0 T R A P V E. rewrite (engine_unfold _ _ _ st _ _ av name) by (try assumption; eapply reset_valid; eassumption).
  destruct (idle_reset _ _ _ _ _ E P) as (K1 & K2 & K3). split; [|exact K3].
  assert (F : st_abort lw s w = Ok (with_station w1 s (now_using st None), t1)) by (apply (finish_iff _ _ _ st); eauto).
  rewrite (seq_ok _ _ _ _ _ F). destruct (reset_keeps _ _ _ _ _ E) as (K & L & _).
  destruct (short_keep _ _ _ _ R) as (si & G & _ & N).
  rewrite (engine_rest_ok lw _ s (now_using st None) tx r q si name).
  - cbn [bind]. rewrite with_twice, using_twice. reflexivity.
  - eapply station_with; [eapply station_same; eassumption|apply (proj2 S0)].
  - assumption.
  - cbn. apply (valid_keep _ _ q L). assumption.
  - cbn. intros w' E1 E2. apply G; congruence.
  - assumption.
Qed.

Lemma processing_dec : forall w q, processing w q \/ ~ processing w q.
Proof.
  intros w [p|]; [|right; intros (p & x & H & _); discriminate].
  destruct (nth_error (w_parsers w) p) as [x|] eqn:E; [|right; intros (p' & x & H & H' & _); congruence].
  destruct (pobj_state x) eqn:X; [right|left; exists p, x; auto|left; exists p, x; auto|right];
    intros (p' & x' & H & H' & Q); injection H as <-; rewrite E in H'; injection H' as <-; rewrite X in Q; destruct Q; discriminate.
Qed.
Lemma engine_request_inv : forall lw w s st r q av name w2 t, station_at w s st -> refers_to w r av name ->
  step lw (OnStation s (RequestEngine r q)) w = Ok (w2, t) ->
  t = [] \/ exists tx t1, cb_tx (st_cbs st) = Some tx /\ Forall not_tx t1 /\ t = t1 ++ start_call q ++ map (EvTx tx) (engine_request (st_hash st) name).
Proof.
  intros lw w s st r q av name w2 t S0 R H.
  destruct (processing_dec w (cb_cfg (st_cbs st))) as [P|P].
  { left. rewrite (engine_request_dropped _ _ _ st _ _ av name) in H by auto. congruence. }
  assert (AD : av = EMPTY \/ av <> EMPTY) by (destruct av; [left; reflexivity|right; discriminate|right; discriminate]).
  destruct AD as [A|A]. { left. rewrite (engine_request_dropped _ _ _ st _ _ av name) in H by auto. congruence. }
  right. destruct (valid_dec w (cb_cfg (st_cbs st))) as [V|V].
  2:{ exfalso. destruct (get_short_ok _ _ _ _ R) as (si & G & Av & N). cbn [step st_step] in H. unfold st_requestEngine in H.
      rewrite (ask_ok _ _ _ _ _ G) in H. unfold si_isNameKnown in H. rewrite Av, negb_involutive in H.
      assert (AE : avail_eqb av EMPTY = false) by (destruct av; [contradiction|reflexivity|reflexivity]). rewrite AE in H.
      rewrite (ask_ok _ _ _ _ _ (get_st _ _ _ S0)) in H. unfold ask in H. unfold valid_ptr in V.
      destruct (cb_cfg (st_cbs st)) as [p|]; [|apply V; exact I]. unfold cfg_isProcessing, get_parser, at_ in H.
      destruct (nth_error (w_parsers w) p); [apply V; discriminate|discriminate]. }
  rewrite (engine_unfold _ _ _ st _ _ av name) in H by assumption.
  apply seq_inv in H. destruct H as (w1 & t1 & t2 & H1 & H2 & ->).
  apply (finish_iff _ _ _ st) in H1; [|assumption]. destruct H1 as (w1' & E & ->). destruct (reset_keeps _ _ _ _ _ E) as (K & L & N).
  destruct (idle_reset _ _ _ _ _ E P) as (K1 & K2 & _).
  assert (S1 : station_at (with_station w1' s (now_using st None)) s (now_using st None)) by (eapply station_with; [eapply station_same; eassumption|apply (proj2 S0)]).
  destruct (engine_rest_inv _ _ _ _ _ _ _ _ S1 H2) as (tx & T). destruct (short_keep _ _ _ _ R) as (si & G & _ & SN).
  destruct (valid_dec w q) as [Vq|Vq].
  - rewrite (engine_rest_ok lw _ s (now_using st None) tx r q si name) in H2; try assumption.
    + inversion H2; subst. exists tx, t1. split; [exact T|]. split; [exact N|reflexivity].
    + cbn. apply (valid_keep _ _ q L). assumption.
    + cbn. intros w' E1 E2. apply G; congruence.
  - exfalso. unfold engine_rest in H2. rewrite (ask_ok _ _ _ _ _ (get_st _ _ _ S1)), put_seq in H2. apply seq_inv in H2.
    destruct H2 as (w3 & t3 & t4 & H3 & _). destruct (start_bad lw (with_station (with_station w1' s (now_using st None)) s (set_cfg (now_using st None) q)) q) as (u & X).
    + intros X. apply Vq. cbn in X. apply (valid_keep _ _ q L). exact X.
    + congruence.
Qed.

(** ** All transmitted frames *)
Definition proper (st : Station) (o : sop) (e : event) : Prop :=
  match e with
  | EvTx x f => cb_tx (st_cbs st) = Some x /\ exists l, Forall byte l /\ zlen l <= 8 /\ f = outgoing (st_hash st) (command_of o) l
  | _ => True
  end.
Lemma not_tx_proper : forall st o t, Forall not_tx t -> Forall (proper st o) t.
Proof. intros st o t H. eapply Forall_impl; [|exact H]. intros [ ] E; cbn in *; auto. contradiction. Qed.
Lemma pad8_bytes : forall l, Forall byte l -> Forall byte (pad8 (firstn 8 l)) /\ zlen (pad8 (firstn 8 l)) <= 8.
Proof.
  intros l H. unfold pad8. split.
  - apply Forall_app. split; [rewrite <- (firstn_skipn 8 l) in H; apply Forall_app in H; apply H|]. apply Forall_forall. intros x Hx. apply repeat_spec in Hx. subst. unfold byte. lia.
  - unfold zlen. rewrite app_length, repeat_length, firstn_length. lia.
Qed.
Lemma zs_bytes : forall x, Forall byte (zs x).
Proof.
  induction x as [|c x IH]; [constructor|]. constructor; [|exact IH]. unfold byte. pose proof (Ascii.N_ascii_bounded c). lia.
Qed.
Lemma decimal_bytes : forall x, byte x -> Forall byte (decimal x).
Proof. intros x B. unfold decimal, byte in *. destruct (Z.ltb_spec x 10); [|destruct (Z.ltb_spec x 100)]; repeat constructor; lia. Qed.
Lemma start_not_tx : forall q, Forall not_tx (start_call q).
Proof. intros [p|]; repeat constructor. Qed.
Lemma output_proper : forall h o fs, is_u16 h -> args_ok o -> output h o = Some fs ->
  Forall (fun f => exists l, Forall byte l /\ zlen l <= 8 /\ f = outgoing h (command_of o) l) fs.
Proof.
  assert (K : forall h c l, Forall byte l -> zlen l <= 8 -> exists l', Forall byte l' /\ zlen l' <= 8 /\ outgoing h c l = outgoing h c l') by (intros; exists l; auto).
  assert (B : forall u l, is_u32 u -> Forall byte l -> Forall byte (be_bytes u ++ l)) by (intros; apply Forall_app; split; [apply be_bytes_ok|]; assumption).
  intros h o fs H A O. destruct o; cbn [output] in O; try discriminate; injection O as <-; cbn [args_ok command_of] in *.
  all: try (apply Forall_cons; [|apply Forall_nil]; apply K; [|unfold zlen; cbn; lia]).
  - destruct A as (A & D & P). apply B; [apply lor_u32; [assumption|apply base_u32]|]. destruct (power =? 0); repeat constructor; unfold byte in *; lia.
  - apply be_bytes_ok. assumption.
  - destruct A as (A & D). destruct ((1 <=? direction) && (direction <=? 3)); [|constructor].
    apply Forall_cons; [|apply Forall_nil]; apply K; [|unfold zlen; cbn; lia]. apply B; [assumption|repeat constructor; unfold byte in *; lia].
  - apply be_bytes_ok. assumption.
  - destruct A as (A & D). apply B; [assumption|]. unfold is_u16 in *. repeat constructor; unfold byte; lia.
  - destruct A as (A & D). apply B; [assumption|repeat constructor; unfold byte in *; lia].
  - apply Forall_map. repeat (apply Forall_cons; [apply K; [apply B; [assumption|repeat constructor; unfold byte; lia]|unfold zlen; cbn; lia]|]). apply Forall_nil.
  - destruct A as (A & D). apply B; [assumption|]. destruct value; repeat constructor; unfold byte in *; lia.
  - apply B; [assumption|repeat constructor; unfold byte; lia].
  - repeat constructor; unfold byte; lia.
  - repeat constructor; unfold byte; lia.
Qed.
Lemma map_tx_proper : forall st o tx fs, cb_tx (st_cbs st) = Some tx ->
  Forall (fun f => exists l, Forall byte l /\ zlen l <= 8 /\ f = outgoing (st_hash st) (command_of o) l) fs -> Forall (proper st o) (map (EvTx tx) fs).
Proof. intros st o tx fs T H. apply Forall_map. eapply Forall_impl; [|exact H]. intros f E. split; assumption. Qed.
Lemma engine_frames_proper : forall h name, Forall byte name ->
  Forall (fun f => exists l, Forall byte l /\ zlen l <= 8 /\ f = outgoing h CMD_REQUEST_CONFIG l) (engine_request h name).
Proof.
  intros h name N. unfold engine_request.
  apply Forall_cons; [exists (pad8 (zs "lokinfo")); destruct (pad8_bytes (zs "lokinfo") (zs_bytes _)); auto|].
  apply Forall_cons; [exists (pad8 (firstn 8 name)); destruct (pad8_bytes name N); auto|].
  apply Forall_cons; [exists (pad8 (firstn 8 (skipn 8 name))); destruct (pad8_bytes (skipn 8 name)); auto|apply Forall_nil].
  rewrite <- (firstn_skipn 8 name) in N. apply Forall_app in N. apply N.
Qed.
Lemma list_frames_proper : forall h off, byte off ->
  Forall (fun f => exists l, Forall byte l /\ zlen l <= 8 /\ f = outgoing h CMD_REQUEST_CONFIG l) (list_frames h off).
Proof.
  intros h off N. unfold list_frames.
  apply Forall_cons; [exists (zs "loknamen"); split; [apply zs_bytes|split; [unfold zlen; cbn; lia|reflexivity]]|].
  apply Forall_cons; [exists (decimal off ++ zs " 2")|apply Forall_nil].
  split; [apply Forall_app; split; [apply decimal_bytes; assumption|apply zs_bytes]|]. split; [|reflexivity].
  pose proof (decimal_len off N). unfold zlen in *. rewrite app_length. cbn [List.length zs]. change (List.length (zs " 2")) with 2%nat. lia.
Qed.
Lemma all_proper : forall lw w s st o w' t, station_at w s st -> args_ok o -> is_sendpacket o = false -> names_ok w o ->
  step lw (OnStation s o) w = Ok (w', t) -> Forall (proper st o) t.
Proof.
  intros lw w s st o w' t S0 A SP N H. destruct (output (st_hash st) o) as [fs|] eqn:O.
  - destruct (cb_tx (st_cbs st)) as [tx|] eqn:T.
    + rewrite (sends _ _ _ _ _ _ _ S0 T A O) in H. inversion H; subst. apply map_tx_proper; [assumption|]. apply output_proper; [apply (proj2 S0)|assumption|assumption].
    + rewrite (sends_null _ _ _ _ _ _ S0 T O) in H. destruct fs; inversion H; subst. constructor.
  - destruct (is_receive o) eqn:IR; [apply not_tx_proper; eapply receive_keeps; eassumption|].
    destruct o; try discriminate.
    + apply (begin_iff _ _ _ st) in H; [|assumption|exact A]. destruct H as (w1 & R & _). apply not_tx_proper. eapply reset_keeps. eassumption.
    + inversion H; subst. constructor.
    + apply (finish_iff _ _ _ st) in H; [|assumption]. destruct H as (w1 & R & _). apply not_tx_proper. eapply reset_keeps. eassumption.
    + apply (finish_iff _ _ _ st) in H; [|assumption]. destruct H as (w1 & R & _). apply not_tx_proper. eapply reset_keeps. eassumption.
    + apply (finish_iff _ _ _ st) in H; [|assumption]. destruct H as (w1 & R & _). apply not_tx_proper. eapply reset_keeps. eassumption.
    + destruct N as (av & name & R & NB). destruct (engine_request_inv _ _ _ st _ _ _ _ _ _ S0 R H) as [-> |(tx & t1 & T & N1 & ->)]; [constructor|].
      apply Forall_app. split; [apply not_tx_proper; assumption|]. apply Forall_app. split; [apply not_tx_proper, start_not_tx|].
      apply map_tx_proper; [assumption|apply engine_frames_proper; assumption].
    + destruct (list_request_inv _ _ _ st _ _ _ _ S0 A H) as (tx & t1 & T & N1 & ->).
      apply Forall_app. split; [apply not_tx_proper; assumption|]. apply Forall_app. split; [apply not_tx_proper, start_not_tx|].
      apply map_tx_proper; [assumption|apply list_frames_proper; assumption].
Qed.
Lemma all_proper_in : forall lw w s st o w' t x f, station_at w s st -> args_ok o -> is_sendpacket o = false -> names_ok w o ->
  step lw (OnStation s o) w = Ok (w', t) -> In (EvTx x f) t ->
  cb_tx (st_cbs st) = Some x /\ exists l, Forall byte l /\ zlen l <= 8 /\ f = outgoing (st_hash st) (command_of o) l.
Proof. intros lw w s st o w' t x f S0 A SP N H I. pose proof (all_proper _ _ _ _ _ _ _ S0 A SP N H) as F. rewrite Forall_forall in F. exact (F _ I). Qed.

(** ** Equal requests *)
Lemma pad8_inj : forall a c, nulfree a -> nulfree c -> (List.length a <= 8)%nat -> (List.length c <= 8)%nat -> pad8 a = pad8 c -> a = c.
Proof.
  intros a c NA NC LA LC H.
  assert (K : forall l, nulfree l -> (List.length l <= 8)%nat -> c_str (pad8 l ++ [0]) = Ok l).
  { intros l N L. unfold pad8. rewrite <- app_assoc. change [0] with (repeat 0 1). rewrite repeat_0_app.
    replace (8 - List.length l + 1)%nat with (S (8 - List.length l)) by lia. cbn [repeat]. apply c_str_eq. assumption. }
  pose proof (K a NA LA) as KA. pose proof (K c NC LC) as KC. rewrite H in KA. congruence.
Qed.
Lemma outgoing_inj : forall h c l l', outgoing h c l = outgoing h c l' -> zlen l <= 8 -> zlen l' <= 8 -> l = l'.
Proof.
  intros h c l l' H L L'. injection H as E1 E2. unfold zlen in *. assert (N : List.length l = List.length l') by lia.
  rewrite N in E2. apply app_inv_tail in E2. exact E2.
Qed.
Lemma same_request : forall h n1 n2, nulfree n1 -> nulfree n2 -> (engine_request h n1 = engine_request h n2 <-> firstn 16 n1 = firstn 16 n2).
Proof.
  intros h n1 n2 N1 N2.
  assert (SPL : forall l : list Z, firstn 16 l = firstn 8 l ++ firstn 8 (skipn 8 l)).
  { intros l. do 8 (destruct l as [|? l]; [reflexivity|]). reflexivity. }
  assert (P8 : forall l : list Z, zlen (pad8 (firstn 8 l)) <= 8) by (intros l; unfold zlen, pad8; rewrite app_length, repeat_length, firstn_length; lia).
  split.
  - intros H. injection H as H2 H3. fold (padded (pad8 (firstn 8 n1))) in *.
    assert (E1 : firstn 8 n1 = firstn 8 n2).
    { apply pad8_inj; try (apply nulfree_firstn; assumption); try (rewrite firstn_length; lia).
      apply (outgoing_inj 0 0); [|apply P8|apply P8]. unfold outgoing, padded. f_equal. f_equal; assumption. }
    assert (E2 : firstn 8 (skipn 8 n1) = firstn 8 (skipn 8 n2)).
    { apply pad8_inj; try (apply nulfree_firstn, nulfree_skipn; assumption); try (rewrite firstn_length; lia).
      apply (outgoing_inj 0 0); [|apply P8|apply P8]. unfold outgoing, padded. f_equal. f_equal; assumption. }
    rewrite (SPL n1), (SPL n2), E1, E2. reflexivity.
  - intros H. assert (E1 : firstn 8 n1 = firstn 8 n2).
    { pose proof (f_equal (firstn 8) H) as E. rewrite !firstn_firstn in E. exact E. }
    assert (E2 : firstn 8 (skipn 8 n1) = firstn 8 (skipn 8 n2)).
    { rewrite (SPL n1), (SPL n2), E1 in H. apply app_inv_head in H. exact H. }
    unfold engine_request. rewrite E1, E2. reflexivity.
Qed.

(** ** Dispatch *)
Lemma dispatch : forall lw s t p c r h t' p' r' h' d, id_fields_ok t p c h -> id_fields_ok t' p' c h' ->
  r = r' \/ (c <> CMD_SYSTEM /\ c <> CMD_ACCESSORY) ->
  forall w, step lw (OnStation s (HandlePacket (mkFrame (id_value t p c r h) d))) w = step lw (OnStation s (HandlePacket (mkFrame (id_value t' p' c r' h') d))) w.
Proof.
  intros lw s t p c r h t' p' r' h' d F F' R w. cbn [step st_step]. unfold st_handlePacket. cbn [fid fdata].
  rewrite !id_getCommand_value by assumption. unfold st_handleSystemCommand. rewrite !id_isResponse_value by assumption.
  destruct R as [->|[N1 N2]]; [reflexivity|]. unfold CMD_SYSTEM, CMD_ACCESSORY in *. unfold kSystemCommand, kAccessorySwitch.
  replace (c =? 0) with false by lia. replace (c =? 11) with false by lia. reflexivity.
Qed.
Lemma config_cmd : forall lw s t p r h d w, id_fields_ok t p CMD_CONFIG_DATA h ->
  step lw (OnStation s (HandlePacket (mkFrame (id_value t p CMD_CONFIG_DATA r h) d))) w = st_handleConfigDataStream lw s d w.
Proof. intros. cbn [step st_step]. unfold st_handlePacket. cbn [fid fdata]. rewrite id_getCommand_value by assumption. reflexivity. Qed.
Lemma config_forward : forall lw w s st q x t p r h d, station_at w s st -> id_fields_ok t p CMD_CONFIG_DATA h ->
  cb_cfg (st_cbs st) = Some q -> nth_error (w_parsers w) q = Some x -> processing w (Some q) ->
  step lw (OnStation s (HandlePacket (mkFrame (id_value t p CMD_CONFIG_DATA r h) d))) w =
  match x with
  | UserP beh hist => Ok (with_parser w q (UserP beh (hist ++ [CAdd d])), [EvCfg q (CAdd d)])
  | LibP _ => '(w', t') <- step lw (ParserAddMessage q d) w ;; Ok (w', EvCfg q (CAdd d) :: t')
  end.
Proof.
  intros lw w s st q x t p r h d S0 F C E (q' & x' & Q & E' & P). injection Q as <-. rewrite E in E'. injection E' as <-.
  rewrite config_cmd by assumption. unfold st_handleConfigDataStream. rewrite (ask_ok _ _ _ _ _ (get_st _ _ _ S0)), C. unfold ask.
  unfold cfg_isProcessing, get_parser, at_. rewrite E. cbn [bind].
  assert (PP : ss_processing (pobj_state x) = true) by (destruct P as [-> | ->]; reflexivity). rewrite PP.
  unfold cfg_call, World.seq, emit, ask, get_parser, at_. cbn [bind]. rewrite E. cbn [bind]. destruct x; [|reflexivity].
  cbn [step]. destruct (lib_addMessage lw q d w) as [[w2 t2]|]; reflexivity.
Qed.
Lemma config_ignored : forall lw w s st t p r h d, station_at w s st -> id_fields_ok t p CMD_CONFIG_DATA h -> payload_ok d -> dlc d <= 9 ->
  valid_ptr w (cb_cfg (st_cbs st)) -> ~ processing w (cb_cfg (st_cbs st)) ->
  exists tr, step lw (OnStation s (HandlePacket (mkFrame (id_value t p CMD_CONFIG_DATA r h) d))) w = Ok (w, tr) /\ calls tr = [] /\
    console tr = zs "Ignoring ConfigData Stream: " ++ firstn (Z.to_nat (dlc d)) (dbytes d).
Proof.
  intros lw w s st t p r h d S0 F P D V NP. rewrite config_cmd by assumption. unfold st_handleConfigDataStream.
  rewrite (ask_ok _ _ _ _ _ (get_st _ _ _ S0)).
  assert (T : match cb_cfg (st_cbs st) with None => Ok None | Some p => b <- cfg_isProcessing p w ;; Ok (if b : bool then Some p else None) end = Ok (@None nat)).
  { destruct (cb_cfg (st_cbs st)) as [q|]; [|reflexivity]. cbn in V. unfold cfg_isProcessing, get_parser, at_.
    destruct (nth_error (w_parsers w) q) as [x|] eqn:E; [|contradiction]. cbn [bind].
    assert (PP : ss_processing (pobj_state x) = false) by (destruct (pobj_state x) eqn:X; try reflexivity; exfalso; apply NP; exists q, x; auto).
    rewrite PP. reflexivity. }
  rewrite (ask_ok _ _ _ _ _ T). unfold printAsText. rewrite visited_ok by assumption.
  eexists. split; [reflexivity|]. split; [reflexivity|]. cbn -[zs]. rewrite app_nil_r. reflexivity.
Qed.
Lemma quiet : forall lw w s st t p c r h d, station_at w s st -> id_fields_ok t p c h -> payload_ok d -> dlc d <= 9 ->
  ~ In c [CMD_SYSTEM; CMD_SPEED; CMD_DIRECTION; CMD_FUNCTION; CMD_ACCESSORY; CMD_CONFIG_DATA] ->
  exists tr, step lw (OnStation s (HandlePacket (mkFrame (id_value t p c r h) d))) w = Ok (w, tr) /\ calls tr = [] /\
    (c = CMD_DEBUG_TEXT -> console tr = zs "Debug Text: '" ++ firstn (Z.to_nat (dlc d)) (dbytes d) ++ zs "'" ++ [10]) /\
    (c = CMD_PING \/ c = CMD_REQUEST_CONFIG -> tr = []).
Proof.
  intros lw w s st t p c r h d S0 F P D N. cbn [In] in N.
  assert (HE : heard (st_cbs st) c r d = []).
  { unfold heard. repeat match goal with |- context [c =? ?k] => replace (c =? k) with false by (unfold CMD_SYSTEM, CMD_SPEED, CMD_DIRECTION, CMD_FUNCTION, CMD_ACCESSORY, CMD_CONFIG_DATA in *; lia) end. reflexivity. }
  destruct (handle_spec lw w s st t p c r h d S0 F P D) as (tr & T & C).
  - intros ->. apply N. tauto.
  - unfold unguarded. intros [_ [[-> _]|[-> _]]]; tauto.
  - exists tr. split; [exact T|]. split; [congruence|]. revert T. cbn [step st_step]. unfold st_handlePacket. cbn [fid fdata]. rewrite id_getCommand_value by assumption. intros T. split.
    + intros ->. revert T. cbn -[zs World.seq]. unfold printAsText. rewrite visited_ok by assumption. intros T. injection T as <-. cbn -[zs]. reflexivity.
    + intros [-> | ->]; revert T; cbn; intros T; injection T as <-; reflexivity.
Qed.
Lemma too_long : forall lw w s st t p c r h d, station_at w s st -> id_fields_ok t p c h -> payload_ok d -> 9 < dlc d ->
  dumped c -> c <> CMD_CONFIG_DATA -> step lw (OnStation s (HandlePacket (mkFrame (id_value t p c r h) d))) w = UB OutOfBounds.
Proof.
  intros lw w s st t p c r h d S0 F P D N NC. unfold dumped in N. cbn [In] in N. cbn [step st_step]. unfold st_handlePacket. cbn [fid fdata].
  rewrite id_getCommand_value by assumption.
  unfold CMD_SYSTEM, CMD_SPEED, CMD_DIRECTION, CMD_FUNCTION, CMD_ACCESSORY, CMD_PING, CMD_REQUEST_CONFIG, CMD_CONFIG_DATA in *.
  unfold kSystemCommand, kPing, kAccessorySwitch, kLocoDirection, kLocoSpeed, kLocoFunction, kRequestConfigData, kConfigDataStream, kDebugText.
  replace (c =? 0) with false by lia. replace (c =? 24) with false by lia. replace (c =? 11) with false by lia. replace (c =? 5) with false by lia.
  replace (c =? 4) with false by lia. replace (c =? 6) with false by lia. replace (c =? 32) with false by lia. replace (c =? 33) with false by lia.
  unfold printAsText, printAsHex. rewrite visited_ub by assumption. destruct (c =? 66); reflexivity.
Qed.

(** ** Sending and receiving *)
Lemma uid_padded : forall u l, is_u32 u -> uid_of (padded (be_bytes u ++ l)) = u.
Proof. intros u l U. unfold uid_of, b, padded. cbn [dbytes be_bytes app nth]. apply be_of_bytes. assumption. Qed.
Lemma padded_ok : forall l, Forall byte l -> zlen l <= 8 -> payload_ok (padded l).
Proof.
  intros l F L. unfold zlen in L. unfold payload_ok, padded. cbn [dlc dbytes]. split; [unfold byte, zlen; lia|]. split.
  - rewrite app_length, repeat_length. lia.
  - apply Forall_app. split; [exact F|]. apply Forall_forall. intros x Hx. apply repeat_spec in Hx. subst. unfold byte. lia.
Qed.
Lemma command_byte : forall o, byte (command_of o). Proof. intros []; unfold byte, command_of, CMD_SYSTEM, CMD_SPEED, CMD_DIRECTION, CMD_FUNCTION, CMD_ACCESSORY, CMD_REQUEST_CONFIG; lia. Qed.
Lemma heard_reception : forall c o h f, args_ok o -> is_command o -> output h o = Some [f] -> exists l,
  f = outgoing h (command_of o) l /\ heard c (command_of o) false (padded l) = reception c o /\
  (unguarded (command_of o) (padded l) -> needs_engine o) /\ command_of o <> CMD_CONFIG_DATA /\ dlc (padded l) <= 9.
Proof.
  intros c o h f A IC O.
  destruct o; cbn [output] in O; try discriminate; cbn [is_command] in IC; try contradiction; cbn [args_ok command_of reception needs_engine] in *.
  - injection O as <-. exists (be_bytes (Z.lor address (turnout_base protocol)) ++ [direction; if power =? 0 then 0 else 1]). split; [reflexivity|]. split; [reflexivity|]. split; [intros [[X _]|[X _]]; discriminate|]. split; [discriminate|cbn; lia].
  - destruct A as [U D]. replace ((1 <=? direction) && (direction <=? 3)) with true in O by (symmetry; apply andb_true_intro; split; lia).
    injection O as <-. exists (be_bytes uid ++ [direction]). split; [reflexivity|]. split; [|split; [auto|split; [discriminate|cbn; lia]]].
    unfold heard. cbn [Z.eqb CMD_DIRECTION CMD_SYSTEM CMD_SPEED Pos.eqb].
 rewrite uid_padded by assumption.
    change (dlc (padded (be_bytes uid ++ [direction]))) with 5. change (b (padded (be_bytes uid ++ [direction])) 4) with direction.
    assert (K : direction = 1 \/ direction = 2 \/ direction = 3) by lia. destruct K as [->|[->| ->]]; reflexivity.
  - destruct A as [U V]. injection O as <-. exists (be_bytes uid ++ [Z.min velocity 1000 / 256; Z.min velocity 1000 mod 256]). split; [reflexivity|]. split; [|split; [intros [[X _]|[X _]]; discriminate|split; [discriminate|cbn; lia]]].
    unfold heard. cbn [Z.eqb CMD_DIRECTION CMD_SYSTEM CMD_SPEED Pos.eqb]. rewrite uid_padded by assumption.
    match goal with |- context [dlc (padded ?l)] => change (dlc (padded l)) with 6; change (b (padded l) 4) with (Z.min velocity 1000 / 256); change (b (padded l) 5) with (Z.min velocity 1000 mod 256) end.
    replace (Z.min velocity 1000 / 256 * 256 + Z.min velocity 1000 mod 256) with (Z.min velocity 1000) by lia. reflexivity.
  - destruct A as [U V]. injection O as <-. exists (be_bytes uid ++ [function; if value then 1 else 0]). split; [reflexivity|]. split; [|split; [auto|split; [discriminate|cbn; lia]]].
    unfold heard. cbn [Z.eqb CMD_DIRECTION CMD_SYSTEM CMD_SPEED CMD_FUNCTION Pos.eqb]. rewrite uid_padded by assumption. destruct value; reflexivity.
  - injection O as <-. exists (be_bytes uid ++ [3]). split; [reflexivity|]. split; [|split; [intros [[X _]|[X _]]; discriminate|split; [discriminate|cbn; lia]]].
    unfold heard. cbn [Z.eqb CMD_DIRECTION CMD_SYSTEM CMD_SPEED CMD_FUNCTION Pos.eqb]. rewrite uid_padded by assumption. reflexivity.
  - injection O as <-. eexists. split; [reflexivity|]. split; [reflexivity|split; [intros [[X _]|[X _]]; discriminate|split; [discriminate|cbn; lia]]].
  - injection O as <-. eexists. split; [reflexivity|]. split; [reflexivity|split; [intros [[X _]|[X _]]; discriminate|split; [discriminate|cbn; lia]]].
Qed.
Lemma send_receive : forall lw w s st tx lw' w' s' st' o, station_at w s st -> cb_tx (st_cbs st) = Some tx -> args_ok o -> is_command o ->
  station_at w' s' st' -> (needs_engine o -> cb_eng (st_cbs st') <> None) ->
  exists f tr, step lw (OnStation s o) w = Ok (w, [EvTx tx f]) /\
    step lw' (OnStation s' (HandlePacket f)) w' = Ok (w', tr) /\ calls tr = reception (st_cbs st') o.
Proof.
  intros lw w s st tx lw' w' s' st' o S0 T A IC S1 NE.
  assert (O : exists f, output (st_hash st) o = Some [f]).
  { destruct o; cbn [is_command] in IC; try contradiction; cbn [output]; try (eexists; reflexivity).
    replace ((1 <=? direction) && (direction <=? 3)) with true by (symmetry; apply andb_true_intro; split; lia). eexists; reflexivity. }
  destruct O as (f & O). destruct (heard_reception (st_cbs st') o _ f A IC O) as (l & -> & R & G & NC & D).
  pose proof (output_proper _ _ _ (proj2 S0) A O) as PR. inversion PR as [|? ? (l' & LB & LL & LE) _]; subst.
  assert (PO : payload_ok (padded l)).
  { assert (E : padded l = padded l') by exact (f_equal fdata LE). rewrite E. apply padded_ok; assumption. }
  destruct (handle_spec lw' w' s' st' 0 0 (command_of o) false (st_hash st) (padded l) S1) as (tr & H1 & H2); try assumption.
  - apply hash_fields; [apply command_byte|apply (proj2 S0)].
  - intros [N U]. exact (NE (G U) N).
  - exists (outgoing (st_hash st) (command_of o) l), tr. split; [|split; [exact H1|congruence]].
    rewrite (sends _ _ _ _ _ _ _ S0 T A O). reflexivity.
Qed.
