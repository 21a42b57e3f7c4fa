(** Two buses, one line, the slack generator and one other device: used by counterexamples. *)
From Coq Require Import Reals Lra.
From Verif Require Import Base Num NumXR Devices BusBranch CheckNetwork LoadFlow Simulator LibBase LibNum LibXR LibEval ExNet.
Local Open Scope list_scope.
Local Open Scope R_scope.

Definition sm_nw (r : dev_row XR) : network XR := mkNet (Fin 10) [ex_bus1; ex_bus0 1] [ex_slack; r] [ex_line].
(** a generator without PMAX and P+, a storage unit of efficiency 0 *)
Definition sm_gen : dev_row XR := mkDevRow (Some 1%Z) (Some 1%Z) (Some 2%Z) None
  None (cell 0) (cell 20) (cell (-30)) None None (cell 15) (cell (-15)) None None None.
Definition sm_stor : dev_row XR := mkDevRow (Some 1%Z) (Some 1%Z) (Some 3%Z) None
  (cell 50) (cell (-50)) (cell 50) (cell (-50)) (cell 30) (cell (-30)) (cell 25) (cell (-25)) (cell 100) (cell 0) (cell 0).

Lemma sm_accept (r : dev_row XR) (c : dclass) (dv : device XR) : check_network_specs (sm_nw r) = Ok tt -> dev_class r = Ok c ->
  dev_init c r [0; 1]%Z (Fin 10) = Ok dv -> d_id dv = 1%Z -> exists s0, sim_init (sm_nw r) (Fin (1/4)) (Fin 100) = Ok s0.
Proof.
  intros C E1 E2 E3. eexists. unfold sim_init. rewrite C. cbn [bind]. cbn [sm_nw nw_bus nw_br nw_dev nw_base].
  pose proof (ex_load_buses (2/10) 1 ltac:(lra)) as L. cbn [ex_nwk nw_bus] in L. rewrite L. cbn [bind].
  change (map b_id _) with [0; 1]%Z. pose proof (ex_load_brs (2/10) 1) as L2. cbn [ex_nwk nw_br] in L2. rewrite L2. cbn [bind].
  unfold load_devices. cbn [foldM]. rewrite E1. change (dev_class ex_slack) with (Ok CGen). cbn [bind]. rewrite ex_slack_ok. cbn [bind dset]. rewrite E2. cbn [bind].
  rewrite E3. cbn [dset]. rewrite ex_build_Y by reflexivity. cbn [bind]. reflexivity.
Qed.
Lemma sm_gen_accept : exists s0, sim_init (sm_nw sm_gen) (Fin (1/4)) (Fin 100) = Ok s0.
Proof.
  assert (exists dv, dev_init CGen sm_gen [0; 1]%Z (Fin 10) = Ok dv /\ d_id dv = 1%Z) as (dv & A & B).
  { eexists. split; [unfold sm_gen; unfold cell; xeval; reflexivity|reflexivity]. }
  eapply sm_accept; [|reflexivity|exact A|exact B]. unfold check_network_specs, sm_nw. xeval. reflexivity.
Qed.
Lemma sm_stor_accept : exists s0, sim_init (sm_nw sm_stor) (Fin (1/4)) (Fin 100) = Ok s0.
Proof.
  assert (exists dv, dev_init CStor sm_stor [0; 1]%Z (Fin 10) = Ok dv /\ d_id dv = 1%Z) as (dv & A & B).
  { eexists. split; [unfold sm_stor; unfold cell; xeval; reflexivity|reflexivity]. }
  eapply sm_accept; [|reflexivity|exact A|exact B]. unfold check_network_specs, sm_nw. xeval. reflexivity.
Qed.
