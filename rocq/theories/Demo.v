(* Demo.v -- a concrete world used to show that the theorems' hypotheses can be met: two stations,
   two library parsers and one user object, an engine consumer, a list consumer, two engines. *)
From Verif Require Import World SpecStation.

Definition demo_engine : Loco :=
  mkLoco (mkSI NAME_KNOWN (zs "BR 103 113-7" ++ repeat 0 21)) (mkLD 0 0 0 0 0) (repeat 0 8).
Definition demo_engine2 : Loco :=
  mkLoco (mkSI FULL_DETAILS (zs "V200" ++ repeat 0 29)) (mkLD 0x4005 0 1 5 0) (zs "mfx" ++ repeat 0 5).
Definition demo_parser (c : option nat) : SP := sp_setConsumer sp_new c.
(** a user object that processes from startStream() to reset() *)
Definition demo_beh (h : list cfgcall) : SState :=
  match rev h with [] | CReset :: _ => SS_IDLE | CStart :: _ => SS_FIRST | CAdd _ :: _ => SS_DATA end.
Definition demo_st0 : Station := mkStation 0x0318 (mkCbs (Some 0%nat) (Some 1%nat) (Some 2%nat) (Some 3%nat) None).
Definition demo_st1 : Station := mkStation 0x0A42 (mkCbs (Some 10%nat) (Some 11%nat) (Some 12%nat) (Some 13%nat) (Some 2%nat)).
Definition demo_bare : Station := mkStation 0x0001 (mkCbs None None None None None).
Definition demo : world :=
  mkW [demo_st0; demo_st1; demo_bare]
      [LibP (demo_parser (Some 0%nat)); LibP (demo_parser (Some 1%nat)); UserP demo_beh [CStart]]
      [LocoC (Def (Some 0%nat)) (Def (Some 7%nat)); ListC (Def false) [si_reset; si_reset] (Def 0) (Def 0) (Def (Some 8%nat))]
      [demo_engine; demo_engine2].

Lemma demo_at0 : station_at demo 0 demo_st0. Proof. split; [reflexivity|unfold is_u16; cbn; lia]. Qed.
Lemma demo_at1 : station_at demo 1 demo_st1. Proof. split; [reflexivity|unfold is_u16; cbn; lia]. Qed.
Lemma demo_at2 : station_at demo 2 demo_bare. Proof. split; [reflexivity|unfold is_u16; cbn; lia]. Qed.
