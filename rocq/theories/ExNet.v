(** A concrete network: a slack bus and a PQ bus with a load, a renewable generator and a
    storage unit, linked by one line (r = 1 p.u., no reactance), baseMVA = 10.  The file rows are
    deliberately not in the order of the IDs. *)
From Coq Require Import Reals Lra.
From Verif Require Import Base Num NumXR Devices BusBranch CheckNetwork LoadFlow Simulator LibBase LibNum LibXR LibEval.
Local Open Scope R_scope.

Definition cell (x : R) : option XR := Some (Fin x).
(** Parameters: [k], the Q/P ratio of the load; [w], the VMAX = VMIN of the slack bus. *)
Definition ex_bus0 (w : R) : bus_row XR := mkBusRow (Some 0%Z) (Some 0%Z) (cell 132) (cell w) (cell w).
Definition ex_bus1 : bus_row XR := mkBusRow (Some 1%Z) (Some 1%Z) (cell 33) (cell (11/10)) (cell (4/10)).
Definition ex_line : branch_row XR :=
  mkBranchRow (Some 0%Z) (Some 1%Z) (cell 1) (cell 0) (cell 0) (cell 20) (cell 1) (cell 0).
Definition ex_slack : dev_row XR := mkDevRow (Some 0%Z) (Some 0%Z) (Some 0%Z) None
  (cell 200) (cell (-200)) (cell 200) (cell (-200)) None None None None None None None.
Definition ex_load (k : R) : dev_row XR := mkDevRow (Some 1%Z) (Some 1%Z) (Some (-1)%Z) (cell k)
  (cell (-1/2)) (cell (-10)) None None None None None None None None None.
Definition ex_rer : dev_row XR := mkDevRow (Some 2%Z) (Some 1%Z) (Some 2%Z) None
  (cell 30) (cell 0) (cell 20) (cell (-30)) (cell 20) None (cell 15) (cell (-15)) None None None.
Definition ex_stor : dev_row XR := mkDevRow (Some 3%Z) (Some 1%Z) (Some 3%Z) None
  (cell 50) (cell (-50)) (cell 50) (cell (-50)) (cell 30) (cell (-30)) (cell 25) (cell (-25)) (cell 100) (cell 0) (cell (9/10)).
Definition ex_nwk (k w : R) : network XR := mkNet (Fin 10) [ex_bus1; ex_bus0 w] [ex_stor; ex_slack; ex_load k; ex_rer] [ex_line].
Notation ex_nw := (ex_nwk (2/10) 1).

(** ---- the objects built from the rows ---- *)
Definition xc (a b : R) : cplx XR := mkC (Fin a) (Fin b).
Definition exo_bus (id ty : Z) (kv vmax vmin : R) (p q : R) (v i : cplx XR) (pmin pmax qmin qmax : R) : bus XR :=
  mkBus id ty (Fin kv) (Fin vmax) (cell vmin) (Fin p) (Fin q) v i (Fin pmin) (Fin pmax) (Fin qmin) (Fin qmax).
Definition exo_bus0 (w : R) := exo_bus 0 0 132 w w.
Definition exo_bus1 := exo_bus 1 1 33 (11/10) (4/10).
Definition exo_slack (p q : R) : device XR := mkDev 0 0 0
  (SGen (mkGen (Fin (-20)) (Fin 20) (Fin (-20)) (Fin 20) (Fin 20) (Fin 20) (Fin (-20)) (Fin 0) (Fin 0) (Fin 20) (Fin (-20))))
  (Fin p) (Fin q) (Fin 20) None.
Definition exo_load (k p q : R) : device XR := mkDev 1 1 (-1)
  (SLoad (mkLoad (Fin k) (Fin (-1)) (Fin (-1/2)) (Fin (- k)) (Fin (- k/2)))) (Fin p) (Fin q) (Fin 0) None.
Definition exo_rer (p q pot : R) : device XR := mkDev 2 1 2
  (SGen (mkGen (Fin 0) (Fin 3) (Fin (-3)) (Fin 2) (Fin 2) (Fin (15/10)) (Fin (-15/10))
               (Fin (-5/10)) (Fin (15/10)) (Fin 3) (Fin (-6)))) (Fin p) (Fin q) (Fin pot) None.
Definition exo_stor (p q : R) (soc : option XR) : device XR := mkDev 3 1 3
  (SStor (mkStor (Fin (-5)) (Fin 5) (Fin (-5)) (Fin 5) (Fin 3) (Fin (-3)) (Fin (25/10)) (Fin (-25/10))
     (Fin (-25/20)) (Fin (25/20)) (Fin (35/4)) (Fin (-35/4)) (Fin (-25/20)) (Fin (25/20)) (Fin (-35/4)) (Fin (35/4))
     (Fin 0) (Fin 10) (Fin (9/10)))) (Fin p) (Fin q) (Fin 0) soc.
Definition exo_line (ifr ito : cplx XR) (pf qf pt qt : R) (sm : XR) : branch XR :=
  mkBranch 0 1 (Fin 1) (Fin 0) (Fin 0) (Fin 2) (Fin 1) (Fin 0) (xc 1 0) (xc 0 0) (xc 1 0)
    ifr ito (Fin pf) (Fin qf) (Fin pt) (Fin qt) sm.

Ltac xunfo := unfold exo_bus0, exo_bus1, exo_bus, exo_slack, exo_load, exo_rer, exo_stor, exo_line, xc, cell, c0, c1; cbn [n0 n1 XRnum].
Ltac xrow := unfold cell; xeval; xunfo; xsame.

Lemma ex_bus0_ok w : 0 <= w -> bus_init (ex_bus0 w) = Ok (exo_bus0 w 0 0 (xc 0 0) (xc 0 0) 0 0 0 0).
Proof. intros Hw. unfold bus_init, ex_bus0. xrow. Qed.
Lemma ex_bus1_ok : bus_init ex_bus1 = Ok (exo_bus1 0 0 (xc 0 0) (xc 0 0) 0 0 0 0).
Proof. unfold bus_init, ex_bus1. xrow. Qed.
Lemma ex_slack_ok : dev_init CGen ex_slack [0; 1]%Z (Fin 10) = Ok (exo_slack 0 0).
Proof. unfold ex_slack. xrow. Qed.
Lemma ex_load_ok k : dev_init CLoad (ex_load k) [0; 1]%Z (Fin 10) = Ok (exo_load k 0 0).
Proof. unfold ex_load. xrow. Qed.
Lemma ex_rer_ok : dev_init CGen ex_rer [0; 1]%Z (Fin 10) = Ok (exo_rer 0 0 3).
Proof. unfold ex_rer. xrow. Qed.
Lemma ex_stor_ok : dev_init CStor ex_stor [0; 1]%Z (Fin 10) = Ok (exo_stor 0 0 None).
Proof. unfold ex_stor. xrow. Qed.
Lemma ex_line_ok : branch_init ex_line (Fin 10) [0; 1]%Z = Ok (exo_line (xc 0 0) (xc 0 0) 0 0 0 0 (Fin 0)).
Proof.
  unfold ex_line, branch_init, series_of, shunt_of, tap_of, cell. xeval. unfold exo_line, cexpi, cscale. cbn [ncos nsin XRnum xfun re im].
  replace (0 * PI / 180) with 0 by lra. rewrite cos_0, sin_0. xeval. xunfo. xsame.
Qed.

Definition ex_Y : list (list (cplx XR)) := [[xc 1 0; xc (-1) 0]; [xc (-1) 0; xc 1 0]].
Definition ex_simk (k w : R) : sim XR := mkSim (Fin (1/4)) (Fin 100) (Fin 10)
  [exo_bus0 w 0 0 (xc 0 0) (xc 0 0) (-20) 20 (-20) 20; exo_bus1 0 0 (xc 0 0) (xc 0 0) (-6) (75/10) (-8 - k) (7 - k/2)]
  [exo_line (xc 0 0) (xc 0 0) 0 0 0 0 (Fin 0)]
  [exo_slack 0 0; exo_load k 0 0; exo_rer 0 0 3; exo_stor 0 0 None] ex_Y None None.
Notation ex_sim0 := (ex_simk (2/10) 1).
Lemma ex_check {k w} : check_network_specs (ex_nwk k w) = Ok tt.
Proof. unfold check_network_specs, ex_nwk. xeval. reflexivity. Qed.
Lemma ex_load_buses k w : 0 <= w -> load_buses (nw_bus (ex_nwk k w)) = Ok [exo_bus0 w 0 0 (xc 0 0) (xc 0 0) 0 0 0 0; exo_bus1 0 0 (xc 0 0) (xc 0 0) 0 0 0 0].
Proof. intros Hw. unfold load_buses. cbn [ex_nwk nw_bus foldM]. rewrite (ex_bus0_ok w Hw), ex_bus1_ok. reflexivity. Qed.
Lemma ex_load_devs k w : load_devices (nw_dev (ex_nwk k w)) (Fin 10) [0; 1]%Z =
  Ok [exo_slack 0 0; exo_load k 0 0; exo_rer 0 0 3; exo_stor 0 0 None].
Proof.
  unfold load_devices. cbn [ex_nwk nw_dev foldM].
  change (dev_class ex_stor) with (Ok CStor). change (dev_class ex_slack) with (Ok CGen).
  change (dev_class (ex_load k)) with (Ok CLoad). change (dev_class ex_rer) with (Ok CGen). cbn [bind].
  rewrite ex_stor_ok, ex_slack_ok, ex_load_ok, ex_rer_ok. reflexivity.
Qed.
Lemma ex_load_brs k w : load_branches (nw_br (ex_nwk k w)) (Fin 10) [0; 1]%Z = Ok [exo_line (xc 0 0) (xc 0 0) 0 0 0 0 (Fin 0)].
Proof. unfold load_branches. cbn [ex_nwk nw_br foldM]. rewrite ex_line_ok. reflexivity. Qed.
Lemma ex_build_Y (b0 b1 : bus XR) : b_id b0 = 0%Z -> b_id b1 = 1%Z ->
  build_Y [b0; b1] [exo_line (xc 0 0) (xc 0 0) 0 0 0 0 (Fin 0)] = Ok ex_Y.
Proof.
  intros E0 E1. unfold build_Y. cbn [map]. rewrite E0, E1. unfold y_add_branch, mset, exo_line, xc. xeval. unfold ex_Y. xunfo.
  unfold tap2, cabs, cnorm2. xeval. rewrite (sqrt_val _ 1) by lra. xeval. xsame.
Qed.
Lemma ex_initk {k w} : 0 <= w -> sim_init (ex_nwk k w) (Fin (1/4)) (Fin 100) = Ok (ex_simk k w).
Proof.
  intros Hw.
  unfold sim_init. rewrite ex_check. cbn [bind]. rewrite (ex_load_buses k w Hw). cbn [bind].
  change (map b_id _) with [0; 1]%Z. change (nw_base (ex_nwk k w)) with (Fin 10). rewrite ex_load_brs, ex_load_devs. cbn [bind].
  rewrite ex_build_Y by reflexivity. cbn [bind]. unfold ex_simk. unfold bus_with_bounds, devs_at, d_pmin, d_pmax, d_qmin, d_qmax. xeval. unfold nsum. xeval. xunfo. xsame.
Qed.
Lemma ex_init : sim_init ex_nw (Fin (1/4)) (Fin 100) = Ok ex_sim0.
Proof. apply ex_initk. lra. Qed.
