(** Two buses, one line, the slack generator and one load or generator, with parametric bus IDs:
    used by the counterexamples of the power-flow properties. *)
From Coq Require Import Reals Lra.
From Verif Require Import Base Num NumXR Devices BusBranch CheckNetwork LoadFlow Simulator LibBase LibNum LibXR LibEval ExNet ExRun.
Local Open Scope list_scope.
Local Open Scope R_scope.

Definition tb_busS (i : Z) : bus_row XR := mkBusRow (Some i) (Some 0%Z) (cell 132) (cell 1) (cell 1).
Definition tb_busO (i : Z) : bus_row XR := mkBusRow (Some i) (Some 1%Z) (cell 33) (cell (11/10)) (cell (4/10)).
Definition tb_line (f t : Z) (r x rate : R) : branch_row XR :=
  mkBranchRow (Some f) (Some t) (cell r) (cell x) (cell 0) (cell rate) (cell 1) (cell 0).
Definition tb_slack (i : Z) : dev_row XR := mkDevRow (Some 0%Z) (Some i) (Some 0%Z) None
  (cell 200) (cell (-200)) (cell 200) (cell (-200)) None None None None None None None.
Definition tb_load (i : Z) : dev_row XR := mkDevRow (Some 1%Z) (Some i) (Some (-1)%Z) (cell 0)
  (cell 0) (cell (-10)) None None None None None None None None None.
Definition tb_gen (i : Z) : dev_row XR := mkDevRow (Some 1%Z) (Some i) (Some 1%Z) None
  (cell 30) (cell 0) (cell 20) (cell (-30)) (cell 20) None (cell 15) (cell (-15)) None None None.
(** slack bus [sl], other bus [ot], load at bus [lb] *)
Definition tb_nw (sl ot lb : Z) : network XR := mkNet (Fin 10) [tb_busS sl; tb_busO ot] [tb_slack sl; tb_load lb] [tb_line sl ot 1 0 20].
(** a purely reactive line of rating 1 MVA, a generator at bus 1 *)
Definition tg_nw : network XR := mkNet (Fin 10) [tb_busS 0; tb_busO 1] [tb_slack 0; tb_gen 1] [tb_line 0 1 0 1 1].

Definition to_busS (i : Z) := exo_bus i 0 132 1 1.
Definition to_busO (i : Z) := exo_bus i 1 33 (11/10) (4/10).
Definition to_slack (i : Z) (p q : R) : device XR := mkDev 0 i 0
  (SGen (mkGen (Fin (-20)) (Fin 20) (Fin (-20)) (Fin 20) (Fin 20) (Fin 20) (Fin (-20)) (Fin 0) (Fin 0) (Fin 20) (Fin (-20))))
  (Fin p) (Fin q) (Fin 20) None.
Definition to_load (i : Z) (p q : R) : device XR := mkDev 1 i (-1)
  (SLoad (mkLoad (Fin 0) (Fin (-1)) (Fin 0) (Fin 0) (Fin 0))) (Fin p) (Fin q) (Fin 0) None.
Definition to_gen (i : Z) (p q pot : R) : device XR := mkDev 1 i 1
  (SGen (mkGen (Fin 0) (Fin 3) (Fin (-3)) (Fin 2) (Fin 2) (Fin (15/10)) (Fin (-15/10))
               (Fin (-5/10)) (Fin (15/10)) (Fin 3) (Fin (-6)))) (Fin p) (Fin q) (Fin pot) None.
Definition to_line (f t : Z) (r x rate : R) (se ifr ito : cplx XR) (pf qf pt qt sm : R) : branch XR :=
  mkBranch f t (Fin r) (Fin x) (Fin 0) (Fin rate) (Fin 1) (Fin 0) se (xc 0 0) (xc 1 0)
    ifr ito (Fin pf) (Fin qf) (Fin pt) (Fin qt) (Fin sm).
Ltac tunfo := unfold to_busS, to_busO, to_slack, to_load, to_gen, to_line, tb_busS, tb_busO, tb_line, tb_slack, tb_load, tb_gen; xunfo.
Ltac trow := tunfo; xeval; tunfo; xsame.

Lemma tb_busS_ok i : bus_init (tb_busS i) = Ok (to_busS i 0 0 (xc 0 0) (xc 0 0) 0 0 0 0).
Proof. unfold bus_init. trow. Qed.
Lemma tb_busO_ok i : bus_init (tb_busO i) = Ok (to_busO i 0 0 (xc 0 0) (xc 0 0) 0 0 0 0).
Proof. unfold bus_init. trow. Qed.
Lemma zmem_in i ids : In i ids -> zmem i ids = true.
Proof. apply zmem_spec. Qed.
Lemma tb_slack_ok i ids : zmem i ids = true -> dev_init CGen (tb_slack i) ids (Fin 10) = Ok (to_slack i 0 0).
Proof. intros E. unfold dev_init. cbn [tb_slack dr_bus]. rewrite E. trow. Qed.
Lemma tb_load_ok i ids : zmem i ids = true -> dev_init CLoad (tb_load i) ids (Fin 10) = Ok (to_load i 0 0).
Proof. intros E. unfold dev_init. cbn [tb_load dr_bus]. rewrite E. trow. Qed.
Lemma tb_gen_ok i ids : zmem i ids = true -> dev_init CGen (tb_gen i) ids (Fin 10) = Ok (to_gen i 0 0 3).
Proof. intros E. unfold dev_init. cbn [tb_gen dr_bus]. rewrite E. trow. Qed.

(** ** The resistive line with a load, both numberings *)
Definition to_lineR (f t : Z) := to_line f t 1 0 2 (xc 1 0).
Definition to_lineX := to_line 0 1 0 1 (1/10) (xc 0 (-1)).
Lemma tb_lineR_ok f t ids : zmem f ids = true -> zmem t ids = true ->
  branch_init (tb_line f t 1 0 20) (Fin 10) ids = Ok (to_lineR f t (xc 0 0) (xc 0 0) 0 0 0 0 0).
Proof.
  intros E1 E2. unfold tb_line, branch_init, series_of, shunt_of, tap_of, cell. cbn [lr_f lr_t]. rewrite E1, E2. xeval.
  unfold to_lineR, to_line, cexpi, cscale. cbn [ncos nsin XRnum xfun re im].
  replace (0 * PI / 180) with 0 by lra. rewrite cos_0, sin_0. xeval. xunfo. xsame.
Qed.
Lemma tb_lineX_ok : branch_init (tb_line 0 1 0 1 1) (Fin 10) [0; 1]%Z = Ok (to_lineX (xc 0 0) (xc 0 0) 0 0 0 0 0).
Proof.
  unfold tb_line, branch_init, series_of, shunt_of, tap_of, cell. xeval.
  unfold to_lineX, to_line, cexpi, cscale. cbn [ncos nsin XRnum xfun re im].
  replace (0 * PI / 180) with 0 by lra. rewrite cos_0, sin_0. xeval. xunfo. xsame.
Qed.
Lemma tb_Y01 (b0 b1 : bus XR) : b_id b0 = 0%Z -> b_id b1 = 1%Z ->
  build_Y [b0; b1] [to_lineR 0 1 (xc 0 0) (xc 0 0) 0 0 0 0 0] = Ok ex_Y.
Proof.
  intros E0 E1. unfold build_Y. cbn [map]. rewrite E0, E1. unfold y_add_branch, mset, to_lineR, to_line, xc. xeval. unfold ex_Y. xunfo.
  unfold tap2, cabs, cnorm2. xeval. rewrite (sqrt_val _ 1) by lra. xeval. xsame.
Qed.
Lemma tb_Y10 (b0 b1 : bus XR) : b_id b0 = 0%Z -> b_id b1 = 1%Z ->
  build_Y [b0; b1] [to_lineR 1 0 (xc 0 0) (xc 0 0) 0 0 0 0 0] = Ok ex_Y.
Proof.
  intros E0 E1. unfold build_Y. cbn [map]. rewrite E0, E1. unfold y_add_branch, mset, to_lineR, to_line, xc. xeval. unfold ex_Y. xunfo.
  unfold tap2, cabs, cnorm2. xeval. rewrite (sqrt_val _ 1) by lra. xeval. xsame.
Qed.
Definition tg_Y : list (list (cplx XR)) := [[xc 0 (-1); xc 0 1]; [xc 0 1; xc 0 (-1)]].
Lemma tg_Yok (b0 b1 : bus XR) : b_id b0 = 0%Z -> b_id b1 = 1%Z ->
  build_Y [b0; b1] [to_lineX (xc 0 0) (xc 0 0) 0 0 0 0 0] = Ok tg_Y.
Proof.
  intros E0 E1. unfold build_Y. cbn [map]. rewrite E0, E1. unfold y_add_branch, mset, to_lineX, to_line, xc. xeval. unfold tg_Y. xunfo.
  unfold tap2, cabs, cnorm2. xeval. rewrite (sqrt_val _ 1) by lra. xeval. xsame.
Qed.
Definition y02 : list (list (cplx XR)) := [[xc 1 0; xc 0 0; xc (-1) 0]; [xc 0 0; xc 0 0; xc 0 0]; [xc (-1) 0; xc 0 0; xc 1 0]].
Lemma tb_Y02 (b0 b1 : bus XR) : b_id b0 = 0%Z -> b_id b1 = 2%Z ->
  build_Y [b0; b1] [to_lineR 0 2 (xc 0 0) (xc 0 0) 0 0 0 0 0] = Ok y02.
Proof.
  intros E0 E1. unfold build_Y. cbn [map]. rewrite E0, E1. unfold y_add_branch, mset, to_lineR, to_line, xc. xeval. unfold y02. xunfo.
  unfold tap2, cabs, cnorm2. xeval. rewrite (sqrt_val _ 1) by lra. xeval. xsame.
Qed.
Ltac tbcheck := unfold check_network_specs, tb_nw, tg_nw; xeval; reflexivity.
Lemma tb_check01 : check_network_specs (tb_nw 0 1 1) = Ok tt. Proof. tbcheck. Qed.
Lemma tb_check00 : check_network_specs (tb_nw 0 1 0) = Ok tt. Proof. tbcheck. Qed.
Lemma tb_check10 : check_network_specs (tb_nw 1 0 0) = Ok tt. Proof. tbcheck. Qed.
Lemma tb_check02 : check_network_specs (tb_nw 0 2 2) = Ok tt. Proof. tbcheck. Qed.
Lemma tg_check : check_network_specs tg_nw = Ok tt. Proof. tbcheck. Qed.
Lemma tb_load_devs sl lb ids : zmem sl ids = true -> zmem lb ids = true ->
  load_devices [tb_slack sl; tb_load lb] (Fin 10) ids = Ok [to_slack sl 0 0; to_load lb 0 0].
Proof.
  intros E1 E2. unfold load_devices. cbn [foldM]. change (dev_class (tb_slack sl)) with (Ok CGen).
  change (dev_class (tb_load lb)) with (Ok CLoad). cbn [bind]. rewrite tb_slack_ok, tb_load_ok by auto. reflexivity.
Qed.
Lemma tg_load_devs sl lb ids : zmem sl ids = true -> zmem lb ids = true ->
  load_devices [tb_slack sl; tb_gen lb] (Fin 10) ids = Ok [to_slack sl 0 0; to_gen lb 0 0 3].
Proof.
  intros E1 E2. unfold load_devices. cbn [foldM]. change (dev_class (tb_slack sl)) with (Ok CGen).
  change (dev_class (tb_gen lb)) with (Ok CGen). cbn [bind]. rewrite tb_slack_ok, tb_gen_ok by auto. reflexivity.
Qed.

(** simulators right after construction *)
Definition zz : cplx XR := xc 0 0.
Definition tb_sim01 := mkSim (Fin (1/4)) (Fin 100) (Fin 10)
  [to_busS 0 0 0 zz zz (-20) 20 (-20) 20; to_busO 1 0 0 zz zz (-1) 0 0 0]
  [to_lineR 0 1 zz zz 0 0 0 0 0] [to_slack 0 0 0; to_load 1 0 0] ex_Y None None.
Definition tb_sim00 := mkSim (Fin (1/4)) (Fin 100) (Fin 10)
  [to_busS 0 0 0 zz zz (-21) 20 (-20) 20; to_busO 1 0 0 zz zz 0 0 0 0]
  [to_lineR 0 1 zz zz 0 0 0 0 0] [to_slack 0 0 0; to_load 0 0 0] ex_Y None None.
Definition tb_sim10 := mkSim (Fin (1/4)) (Fin 100) (Fin 10)
  [to_busO 0 0 0 zz zz (-1) 0 0 0; to_busS 1 0 0 zz zz (-20) 20 (-20) 20]
  [to_lineR 1 0 zz zz 0 0 0 0 0] [to_slack 1 0 0; to_load 0 0 0] ex_Y None None.
Definition tb_sim02 := mkSim (Fin (1/4)) (Fin 100) (Fin 10)
  [to_busS 0 0 0 zz zz (-20) 20 (-20) 20; to_busO 2 0 0 zz zz (-1) 0 0 0]
  [to_lineR 0 2 zz zz 0 0 0 0 0] [to_slack 0 0 0; to_load 2 0 0] y02 None None.
Definition tg_sim := mkSim (Fin (1/4)) (Fin 100) (Fin 10)
  [to_busS 0 0 0 zz zz (-20) 20 (-20) 20; to_busO 1 0 0 zz zz 0 3 (-3) 2]
  [to_lineX zz zz 0 0 0 0 0] [to_slack 0 0 0; to_gen 1 0 0 3] tg_Y None None.
Ltac tb_init chk bs brs Yl :=
  unfold sim_init; rewrite chk; cbn [bind]; unfold load_buses, load_branches, tb_nw, tg_nw; cbn [nw_bus nw_dev nw_br nw_base foldM];
  rewrite ?tb_busS_ok, ?tb_busO_ok; cbn [bind];
  (match goal with |- context [map snd (sort_by ?k ?l)] => change (map snd (sort_by k l)) with bs end);
  (match goal with |- context [map b_id ?l] => let v := eval cbv in (map b_id l) in change (map b_id l) with v end);
  (first [rewrite tb_lineR_ok by reflexivity | rewrite tb_lineX_ok]); cbn [bind];
  (first [rewrite tb_load_devs by reflexivity | rewrite tg_load_devs by reflexivity]); cbn [bind];
  (match goal with |- context [map snd (dset zz_eqb ?l ?x ?y)] => change (map snd (dset zz_eqb l x y)) with brs end);
  rewrite Yl by reflexivity; cbn [bind]; unfold bus_with_bounds, devs_at, d_pmin, d_pmax, d_qmin, d_qmax; tunfo; xeval; unfold nsum; xeval; tunfo; unfold tb_sim01, tb_sim00, tb_sim10, tb_sim02, tg_sim, to_lineR, to_lineX, zz; tunfo; xsame.
Lemma tb_init01 : sim_init (tb_nw 0 1 1) (Fin (1/4)) (Fin 100) = Ok tb_sim01.
Proof. tb_init tb_check01 [to_busS 0 0 0 zz zz 0 0 0 0; to_busO 1 0 0 zz zz 0 0 0 0] [to_lineR 0 1 zz zz 0 0 0 0 0] tb_Y01. Qed.
Lemma tb_init00 : sim_init (tb_nw 0 1 0) (Fin (1/4)) (Fin 100) = Ok tb_sim00.
Proof. tb_init tb_check00 [to_busS 0 0 0 zz zz 0 0 0 0; to_busO 1 0 0 zz zz 0 0 0 0] [to_lineR 0 1 zz zz 0 0 0 0 0] tb_Y01. Qed.
Lemma tb_init10 : sim_init (tb_nw 1 0 0) (Fin (1/4)) (Fin 100) = Ok tb_sim10.
Proof. tb_init tb_check10 [to_busO 0 0 0 zz zz 0 0 0 0; to_busS 1 0 0 zz zz 0 0 0 0] [to_lineR 1 0 zz zz 0 0 0 0 0] tb_Y10. Qed.
Lemma tb_init02 : sim_init (tb_nw 0 2 2) (Fin (1/4)) (Fin 100) = Ok tb_sim02.
Proof. tb_init tb_check02 [to_busS 0 0 0 zz zz 0 0 0 0; to_busO 2 0 0 zz zz 0 0 0 0] [to_lineR 0 2 zz zz 0 0 0 0 0] tb_Y02. Qed.
Lemma tg_init : sim_init tg_nw (Fin (1/4)) (Fin 100) = Ok tg_sim.
Proof. tb_init tg_check [to_busS 0 0 0 zz zz 0 0 0 0; to_busO 1 0 0 zz zz 0 0 0 0] [to_lineX zz zz 0 0 0 0 0] tg_Yok. Qed.

(** ** Transitions *)
(** requests: the load draws [m] MW *)
Definition tb_in (m : R) : tr_in XR := mkIn [(1%Z, Fin (- m))] [] [] [].
Definition tb_or : oracles XR := mkOr ex_qp ex_lin.
Lemma tb_devs_trans sl lb p0 q0 p1 q1 m : 0 <= m <= 10 ->
  devs_transition ex_qp (Fin 10) (Fin (1/4)) (tb_in m) [to_slack sl p0 q0; to_load lb p1 q1] =
  ([to_slack sl 0 0; to_load lb (- m / 10) 0], Ok tt).
Proof.
  intros H. unfold tb_in, to_slack, to_load.
  cbn [devs_transition dev_transition d_spec d_slack d_type Z.eqb ti_load ti_pot ti_p ti_q dgetE dget d_id Z.eqb Pos.eqb fst snd d_soc bind].
  unfold load_map_pq, pydiv. cbn [l_pmin l_pmax l_qp d_set_pq ndiv nsub nopp nmul XRnum fst snd].
  destruct (Req_dec m 10) as [->|Hm]; [|destruct (Req_dec m 0) as [->|]];
    xeval; unfold d_set_pq; xunfo; cbn [d_id d_bus d_type d_spec d_p d_q d_ppot d_soc]; xsame.
Qed.
Definition tg_in : tr_in XR := mkIn [] [(1%Z, Fin 30)] [(1%Z, Fin 0)] [(1%Z, Fin (-5/2))].
Lemma tg_devs_trans p0 q0 p1 q1 pot :
  devs_transition ex_qp (Fin 10) (Fin (1/4)) tg_in [to_slack 0 p0 q0; to_gen 1 p1 q1 pot] =
  ([to_slack 0 0 0; to_gen 1 0 (-1/4) 3], Ok tt).
Proof.
  unfold tg_in, to_slack, to_gen.
  cbn [devs_transition dev_transition d_spec d_slack d_type Z.eqb ti_load ti_pot ti_p ti_q dgetE dget d_id Z.eqb Pos.eqb fst snd d_soc bind].
  unfold gen_clip_ppot, gen_map_pq, pydiv, ex_qp. cbn [g_pmin g_pmax d_ppot d_set_ppot d_set_pq ndiv nsub nopp nmul XRnum fst snd].
  xeval. unfold d_set_pq, d_set_ppot. xunfo. cbn [d_id d_bus d_type d_spec d_p d_q d_ppot d_soc]. xsame.
Qed.
Lemma tb_flow_half f t i j pf qf pt qt sm : branch_update (to_lineR f t i j pf qf pt qt sm) (xc 1 0) (xc (1/2) 0) =
  to_lineR f t (xc (1/2) 0) (xc (-1/2) 0) (1/2) 0 (-1/4) 0 (1/2).
Proof.
  set (l := to_lineR f t i j pf qf pt qt sm).
  assert (T : tap2 l = Fin 1).
  { unfold tap2, l, to_lineR, to_line. cbn [ln_tap]. rewrite cabs_real by lra. xeval. xsame. }
  assert (I1 : branch_ifrom l (xc 1 0) (xc (1/2) 0) = xc (1/2) 0).
  { unfold branch_ifrom. rewrite T. unfold l, to_lineR. tunfo. cbn [ln_series ln_shunt ln_tap]. xeval. xsame. }
  assert (I2 : branch_ito l (xc 1 0) (xc (1/2) 0) = xc (-1/2) 0).
  { unfold branch_ito, l, to_lineR. tunfo. cbn [ln_series ln_shunt ln_tap]. xeval. xsame. }
  unfold branch_update. rewrite I1, I2.
  assert (S1 : cmul (xc 1 0) (cconj (xc (1/2) 0)) = xc (1/2) 0) by (xunfo; xeval; xsame).
  assert (S2 : cmul (xc (1/2) 0) (cconj (xc (-1/2) 0)) = xc (-1/4) 0) by (xunfo; xeval; xsame).
  rewrite S1, S2, cabs_real, cabs_real_neg by lra. unfold np_sign, l, to_lineR. tunfo. xeval. xsame.
Qed.
Lemma tb_flow_back f t i j pf qf pt qt sm : branch_update (to_lineR f t i j pf qf pt qt sm) (xc (1/2) 0) (xc 1 0) =
  to_lineR f t (xc (-1/2) 0) (xc (1/2) 0) (-1/4) 0 (1/2) 0 (-1/2).
Proof.
  set (l := to_lineR f t i j pf qf pt qt sm).
  assert (T : tap2 l = Fin 1).
  { unfold tap2, l, to_lineR, to_line. cbn [ln_tap]. rewrite cabs_real by lra. xeval. xsame. }
  assert (I1 : branch_ifrom l (xc (1/2) 0) (xc 1 0) = xc (-1/2) 0).
  { unfold branch_ifrom. rewrite T. unfold l, to_lineR. tunfo. cbn [ln_series ln_shunt ln_tap]. xeval. xsame. }
  assert (I2 : branch_ito l (xc (1/2) 0) (xc 1 0) = xc (1/2) 0).
  { unfold branch_ito, l, to_lineR. tunfo. cbn [ln_series ln_shunt ln_tap]. xeval. xsame. }
  unfold branch_update. rewrite I1, I2.
  assert (S1 : cmul (xc (1/2) 0) (cconj (xc (-1/2) 0)) = xc (-1/4) 0) by (xunfo; xeval; xsame).
  assert (S2 : cmul (xc 1 0) (cconj (xc (1/2) 0)) = xc (1/2) 0) by (xunfo; xeval; xsame).
  rewrite S1, S2, (cabs_real (1/2)), (cabs_real_neg (-1/4)) by lra. unfold np_sign, l, to_lineR. tunfo. xeval. xsame.
Qed.
Lemma tb_flow_flat f t i j pf qf pt qt sm : branch_update (to_lineR f t i j pf qf pt qt sm) (xc 1 0) (xc 1 0) =
  to_lineR f t (xc 0 0) (xc 0 0) 0 0 0 0 0.
Proof.
  set (l := to_lineR f t i j pf qf pt qt sm).
  assert (T : tap2 l = Fin 1).
  { unfold tap2, l, to_lineR, to_line. cbn [ln_tap]. rewrite cabs_real by lra. xeval. xsame. }
  assert (I1 : branch_ifrom l (xc 1 0) (xc 1 0) = xc 0 0).
  { unfold branch_ifrom. rewrite T. unfold l, to_lineR. tunfo. cbn [ln_series ln_shunt ln_tap]. xeval. xsame. }
  assert (I2 : branch_ito l (xc 1 0) (xc 1 0) = xc 0 0).
  { unfold branch_ito, l, to_lineR. tunfo. cbn [ln_series ln_shunt ln_tap]. xeval. xsame. }
  unfold branch_update. rewrite I1, I2.
  assert (S1 : cmul (xc 1 0) (cconj (xc 0 0)) = xc 0 0) by (xunfo; xeval; xsame).
  rewrite S1, cabs_real by lra. unfold np_sign, l, to_lineR. tunfo. xeval. xsame.
Qed.
Lemma cabs_imag a : 0 <= a -> cabs (xc 0 a) = Fin a.
Proof.
  intros H. unfold cabs, cnorm2, xc. cbn [re im nmul nadd nsqrt XRnum xmul xadd]. rewrite xsqrt_Fin by nra.
  rewrite (sqrt_val _ a) by nra. auto.
Qed.
Lemma cabs_imag_neg a : a <= 0 -> cabs (xc 0 a) = Fin (- a).
Proof.
  intros H. unfold cabs, cnorm2, xc. cbn [re im nmul nadd nsqrt XRnum xmul xadd]. rewrite xsqrt_Fin by nra.
  rewrite (sqrt_val _ (- a)) by nra. auto.
Qed.
Lemma tg_flow i j pf qf pt qt sm : branch_update (to_lineX i j pf qf pt qt sm) (xc 1 0) (xc (1/2) 0) =
  to_lineX (xc 0 (-1/2)) (xc 0 (1/2)) 0 (1/2) 0 (-1/4) 0.
Proof.
  set (l := to_lineX i j pf qf pt qt sm).
  assert (T : tap2 l = Fin 1).
  { unfold tap2, l, to_lineX, to_line. cbn [ln_tap]. rewrite cabs_real by lra. xeval. xsame. }
  assert (I1 : branch_ifrom l (xc 1 0) (xc (1/2) 0) = xc 0 (-1/2)).
  { unfold branch_ifrom. rewrite T. unfold l, to_lineX. tunfo. cbn [ln_series ln_shunt ln_tap]. xeval. xsame. }
  assert (I2 : branch_ito l (xc 1 0) (xc (1/2) 0) = xc 0 (1/2)).
  { unfold branch_ito, l, to_lineX. tunfo. cbn [ln_series ln_shunt ln_tap]. xeval. xsame. }
  unfold branch_update. rewrite I1, I2.
  assert (S1 : cmul (xc 1 0) (cconj (xc 0 (-1/2))) = xc 0 (1/2)) by (xunfo; xeval; xsame).
  assert (S2 : cmul (xc (1/2) 0) (cconj (xc 0 (1/2))) = xc 0 (-1/4)) by (xunfo; xeval; xsame).
  rewrite S1, S2, cabs_imag, cabs_imag_neg by lra. unfold np_sign, l, to_lineX. tunfo. xeval. xsame.
Qed.

(** solver runs *)
Lemma tb_xtol : xtol_pfe = Fin (1/100000).
Proof. unfold xtol_pfe, nrat. xeval. reflexivity. Qed.
Lemma tb_norm a b : 0 <= a -> 0 <= b -> norm_inf [Fin a; Fin b] = Ok (np_max (Fin a) (Fin b)).
Proof. intros Ha Hb. unfold norm_inf. cbn [map fold_left nabs XRnum xabs]. rewrite !Rabs_pos_eq by auto. reflexivity. Qed.
Lemma tb_solve_flat : solve_pfe ex_lin 2 [Fin 0] [Fin 0] ex_Y xtol_pfe =
  Ok ([xc 1 0; xc 1 0], [xc 0 0; xc 0 0], true).
Proof.
  unfold solve_pfe, newton_raphson. cbn [repeat Nat.sub app n0 n1 XRnum].
  assert (E1 : f_pfe [Fin 0; Fin 1] [Fin 0] [Fin 0] ex_Y = Ok [Fin 0; Fin 0]).
  { unfold f_pfe, construct_vE, mat_vecE, ex_Y, xc. xeval. unfold mat_vec, dotc, csum, mismatch, re_im, construct_v. xeval.
    rewrite cos_0, sin_0. xsame. }
  rewrite tb_xtol, E1. cbn [bind]. rewrite tb_norm by lra. cbn [bind].
  replace (np_max (Fin 0) (Fin 0)) with (Fin 0) by (xeval; reflexivity).
  rewrite nr_stop by (apply xltb_f; lra). cbn [bind].
  unfold construct_vE, mat_vecE, construct_v, mat_vec, dotc, csum, ex_Y, xc. xeval. rewrite cos_0, sin_0. xunfo. xsame.
Qed.
Lemma tg_solve : solve_pfe ex_lin 2 [Fin 0] [Fin (-1/4)] tg_Y xtol_pfe =
  Ok ([xc 1 0; xc (1/2) 0], [xc 0 (-1/2); xc 0 (1/2)], true).
Proof.
  unfold solve_pfe, newton_raphson. cbn [repeat Nat.sub app n0 n1 XRnum].
  assert (E1 : f_pfe [Fin 0; Fin 1] [Fin 0] [Fin (-1/4)] tg_Y = Ok [Fin 0; Fin (1/4)]).
  { unfold f_pfe, construct_vE, mat_vecE, tg_Y, xc. xeval. unfold mat_vec, dotc, csum, mismatch, re_im, construct_v. xeval.
    rewrite cos_0, sin_0. xsame. }
  assert (E2 : f_pfe [Fin 0; Fin (1/2)] [Fin 0] [Fin (-1/4)] tg_Y = Ok [Fin 0; Fin 0]).
  { unfold f_pfe, construct_vE, mat_vecE, tg_Y, xc. xeval. unfold mat_vec, dotc, csum, mismatch, re_im, construct_v. xeval.
    rewrite cos_0, sin_0. xsame. }
  assert (G : vec_sub [Fin 0; Fin 1] [Fin 0; Fin (1/2)] = Ok [Fin 0; Fin (1/2)]).
  { unfold vec_sub. xeval. xsame. }
  rewrite tb_xtol, E1. cbn [bind]. rewrite tb_norm by lra. cbn [bind].
  replace (np_max (Fin 0) (Fin (1/4))) with (Fin (1/4)) by (xeval; reflexivity).
  rewrite nr_step by (apply xltb_t; lra). unfold ex_lin at 1. cbn [bind]. rewrite G. cbn [bind]. rewrite E2. cbn [bind].
  rewrite tb_norm by lra. cbn [bind].
  replace (np_max (Fin 0) (Fin 0)) with (Fin 0) by (xeval; reflexivity).
  rewrite nr_stop by (apply xltb_f; lra). cbn [bind].
  unfold construct_vE, mat_vecE, construct_v, mat_vec, dotc, csum, tg_Y, xc. xeval. rewrite cos_0, sin_0. xunfo. xsame.
Qed.

(** simulators after a step (before the state dictionary is stored) *)
Definition tb_pf01 st := mkSim (Fin (1/4)) (Fin 100) (Fin 10)
  [to_busS 0 (1/2) 0 (xc 1 0) (xc (1/2) 0) (-20) 20 (-20) 20; to_busO 1 (-1/4) 0 (xc (1/2) 0) (xc (-1/2) 0) (-1) 0 0 0]
  [to_lineR 0 1 (xc (1/2) 0) (xc (-1/2) 0) (1/2) 0 (-1/4) 0 (1/2)] [to_slack 0 (1/2) 0; to_load 1 (-1/4) 0] ex_Y st (Some true).
Definition tb_pf00 st := mkSim (Fin (1/4)) (Fin 100) (Fin 10)
  [to_busS 0 0 0 (xc 1 0) (xc 0 0) (-21) 20 (-20) 20; to_busO 1 0 0 (xc 1 0) (xc 0 0) 0 0 0 0]
  [to_lineR 0 1 (xc 0 0) (xc 0 0) 0 0 0 0 0] [to_slack 0 0 0; to_load 0 (-1/2) 0] ex_Y st (Some true).
Definition tb_pf10 st := mkSim (Fin (1/4)) (Fin 100) (Fin 10)
  [to_busO 0 (-1/4) 0 (xc 1 0) (xc (1/2) 0) (-1) 0 0 0; to_busS 1 (1/2) 0 (xc (1/2) 0) (xc (-1/2) 0) (-20) 20 (-20) 20]
  [to_lineR 1 0 (xc (-1/2) 0) (xc (1/2) 0) (-1/4) 0 (1/2) 0 (-1/2)] [to_slack 1 (1/2) 0; to_load 0 (-1/4) 0] ex_Y st (Some true).
Definition tg_pf st := mkSim (Fin (1/4)) (Fin 100) (Fin 10)
  [to_busS 0 0 (1/2) (xc 1 0) (xc 0 (-1/2)) (-20) 20 (-20) 20; to_busO 1 0 (-1/4) (xc (1/2) 0) (xc 0 (1/2)) 0 3 (-3) 2]
  [to_lineX (xc 0 (-1/2)) (xc 0 (1/2)) 0 (1/2) 0 (-1/4) 0] [to_slack 0 0 (1/2); to_gen 1 0 (-1/4) 3] tg_Y st (Some true).
Definition done (f : option (fstate XR) -> sim XR) : sim XR := f (Some (gather_state (f None))).

Lemma tb_trans01 b0p b0q b0v b0i b1p b1q b1v b1i i j pf qf pt qt sm p0 q0 p1 q1 st cv :
  transition tb_or (tb_in (5/2)) (mkSim (Fin (1/4)) (Fin 100) (Fin 10)
    [to_busS 0 b0p b0q b0v b0i (-20) 20 (-20) 20; to_busO 1 b1p b1q b1v b1i (-1) 0 0 0]
    [to_lineR 0 1 i j pf qf pt qt sm] [to_slack 0 p0 q0; to_load 1 p1 q1] ex_Y st cv) =
  (done tb_pf01, match compute_reward (done tb_pf01) with Ok (r, e, pen) => Ok (gather_state (done tb_pf01), r, e, pen, true) | Err x => Err x end).
Proof.
  unfold transition. cbn [sm_base sm_dt sm_devs o_qp tb_or]. rewrite tb_devs_trans by lra.
  replace (- (5/2) / 10) with (-1/4) by lra.
  unfold solve_load_flow. cbn [sm_buses sim_set_buses sim_set_devs map o_lin tb_or].
  match goal with |- context [pq_vectors ?l] => assert (E1 : pq_vectors l = [(Fin (-1/4), Fin 0)]) end.
  { unfold pq_vectors, bus_injection, devs_at, find_bus, nsum, bus_set_pq. tunfo. xeval. xsame. }
  rewrite E1. cbn [map fst snd]. unfold n_bus. cbn [sm_buses sim_set_buses sim_set_devs map List.length sm_Y].
  rewrite ex_solve. cbn [bind].
  match goal with |- context [mapM (bus_update ?v ?i) ?l] => assert (E2 : mapM (bus_update v i) l = Ok (sm_buses (tb_pf01 None))) end.
  { unfold bus_update, bus_injection, devs_at, nsum, bus_set_pq, bus_set_vi, inf_if_nan, tb_pf01. tunfo. xeval. tunfo. xsame. }
  rewrite E2. cbn [bind].
  match goal with |- context [mapM (dev_slack_update ?b) ?l] => assert (E3 : mapM (dev_slack_update b) l = Ok (sm_devs (tb_pf01 None))) end.
  { unfold dev_slack_update, find_bus, tb_pf01. tunfo. xeval. unfold d_set_pq. xeval. xsame. }
  rewrite E3. cbn [bind].
  match goal with |- context [mapM (branch_flow ?b) ?l] => assert (E4 : mapM (branch_flow b) l = Ok (sm_branches (tb_pf01 None))) end.
  { unfold tb_pf01. cbn [mapM sm_branches sm_buses sim_set_buses sim_set_devs]. unfold branch_flow, find_bus.
    cbn [find to_lineR to_line ln_f ln_t to_busS to_busO exo_bus b_id Z.eqb Pos.eqb b_v].
    match goal with |- context [branch_update ?x ?y ?z] => change (branch_update x y z) with
      (branch_update (to_lineR 0 1 i j pf qf pt qt sm) (xc 1 0) (xc (1/2) 0)) end. rewrite tb_flow_half. reflexivity. }
  rewrite E4. cbn [bind]. reflexivity.
Qed.
Lemma tb_trans00 b0p b0q b0v b0i b1p b1q b1v b1i i j pf qf pt qt sm p0 q0 p1 q1 st cv :
  transition tb_or (tb_in 5) (mkSim (Fin (1/4)) (Fin 100) (Fin 10)
    [to_busS 0 b0p b0q b0v b0i (-21) 20 (-20) 20; to_busO 1 b1p b1q b1v b1i 0 0 0 0]
    [to_lineR 0 1 i j pf qf pt qt sm] [to_slack 0 p0 q0; to_load 0 p1 q1] ex_Y st cv) =
  (done tb_pf00, match compute_reward (done tb_pf00) with Ok (r, e, pen) => Ok (gather_state (done tb_pf00), r, e, pen, true) | Err x => Err x end).
Proof.
  unfold transition. cbn [sm_base sm_dt sm_devs o_qp tb_or]. rewrite tb_devs_trans by lra.
  replace (- 5 / 10) with (-1/2) by lra.
  unfold solve_load_flow. cbn [sm_buses sim_set_buses sim_set_devs map o_lin tb_or].
  match goal with |- context [pq_vectors ?l] => assert (E1 : pq_vectors l = [(Fin 0, Fin 0)]) end.
  { unfold pq_vectors, bus_injection, devs_at, find_bus, nsum, bus_set_pq. tunfo. xeval. xsame. }
  rewrite E1. cbn [map fst snd]. unfold n_bus. cbn [sm_buses sim_set_buses sim_set_devs map List.length sm_Y].
  rewrite tb_solve_flat. cbn [bind].
  match goal with |- context [mapM (bus_update ?v ?i) ?l] => assert (E2 : mapM (bus_update v i) l = Ok (sm_buses (tb_pf00 None))) end.
  { unfold bus_update, bus_injection, devs_at, nsum, bus_set_pq, bus_set_vi, inf_if_nan, tb_pf00. tunfo. xeval. tunfo. xsame. }
  rewrite E2. cbn [bind].
  match goal with |- context [mapM (dev_slack_update ?b) ?l] => assert (E3 : mapM (dev_slack_update b) l = Ok (sm_devs (tb_pf00 None))) end.
  { unfold dev_slack_update, find_bus, tb_pf00. tunfo. xeval. unfold d_set_pq. xeval. xsame. }
  rewrite E3. cbn [bind].
  match goal with |- context [mapM (branch_flow ?b) ?l] => assert (E4 : mapM (branch_flow b) l = Ok (sm_branches (tb_pf00 None))) end.
  { unfold tb_pf00. cbn [mapM sm_branches sm_buses sim_set_buses sim_set_devs]. unfold branch_flow, find_bus.
    cbn [find to_lineR to_line ln_f ln_t to_busS to_busO exo_bus b_id Z.eqb Pos.eqb b_v].
    match goal with |- context [branch_update ?x ?y ?z] => change (branch_update x y z) with
      (branch_update (to_lineR 0 1 i j pf qf pt qt sm) (xc 1 0) (xc 1 0)) end. rewrite tb_flow_flat. reflexivity. }
  rewrite E4. cbn [bind]. reflexivity.
Qed.
Lemma tb_trans10 b0p b0q b0v b0i b1p b1q b1v b1i i j pf qf pt qt sm p0 q0 p1 q1 st cv :
  transition tb_or (tb_in (5/2)) (mkSim (Fin (1/4)) (Fin 100) (Fin 10)
    [to_busO 0 b1p b1q b1v b1i (-1) 0 0 0; to_busS 1 b0p b0q b0v b0i (-20) 20 (-20) 20]
    [to_lineR 1 0 i j pf qf pt qt sm] [to_slack 1 p0 q0; to_load 0 p1 q1] ex_Y st cv) =
  (done tb_pf10, match compute_reward (done tb_pf10) with Ok (r, e, pen) => Ok (gather_state (done tb_pf10), r, e, pen, true) | Err x => Err x end).
Proof.
  unfold transition. cbn [sm_base sm_dt sm_devs o_qp tb_or]. rewrite tb_devs_trans by lra.
  replace (- (5/2) / 10) with (-1/4) by lra.
  unfold solve_load_flow. cbn [sm_buses sim_set_buses sim_set_devs map o_lin tb_or].
  match goal with |- context [pq_vectors ?l] => assert (E1 : pq_vectors l = [(Fin (-1/4), Fin 0)]) end.
  { unfold pq_vectors, bus_injection, devs_at, find_bus, nsum, bus_set_pq. tunfo. xeval. xsame. }
  rewrite E1. cbn [map fst snd]. unfold n_bus. cbn [sm_buses sim_set_buses sim_set_devs map List.length sm_Y].
  rewrite ex_solve. cbn [bind].
  match goal with |- context [mapM (bus_update ?v ?i) ?l] => assert (E2 : mapM (bus_update v i) l = Ok (sm_buses (tb_pf10 None))) end.
  { unfold bus_update, bus_injection, devs_at, nsum, bus_set_pq, bus_set_vi, inf_if_nan, tb_pf10. tunfo. xeval. tunfo. xsame. }
  rewrite E2. cbn [bind].
  match goal with |- context [mapM (dev_slack_update ?b) ?l] => assert (E3 : mapM (dev_slack_update b) l = Ok (sm_devs (tb_pf10 None))) end.
  { unfold dev_slack_update, find_bus, tb_pf10. tunfo. xeval. unfold d_set_pq. xeval. xsame. }
  rewrite E3. cbn [bind].
  match goal with |- context [mapM (branch_flow ?b) ?l] => assert (E4 : mapM (branch_flow b) l = Ok (sm_branches (tb_pf10 None))) end.
  { unfold tb_pf10. cbn [mapM sm_branches sm_buses sim_set_buses sim_set_devs]. unfold branch_flow, find_bus.
    cbn [find to_lineR to_line ln_f ln_t to_busS to_busO exo_bus b_id Z.eqb Pos.eqb b_v].
    match goal with |- context [branch_update ?x ?y ?z] => change (branch_update x y z) with
      (branch_update (to_lineR 1 0 i j pf qf pt qt sm) (xc (1/2) 0) (xc 1 0)) end. rewrite tb_flow_back. reflexivity. }
  rewrite E4. cbn [bind]. reflexivity.
Qed.
Lemma tg_trans b0p b0q b0v b0i b1p b1q b1v b1i i j pf qf pt qt sm p0 q0 p1 q1 pot st cv :
  transition tb_or tg_in (mkSim (Fin (1/4)) (Fin 100) (Fin 10)
    [to_busS 0 b0p b0q b0v b0i (-20) 20 (-20) 20; to_busO 1 b1p b1q b1v b1i 0 3 (-3) 2]
    [to_lineX i j pf qf pt qt sm] [to_slack 0 p0 q0; to_gen 1 p1 q1 pot] tg_Y st cv) =
  (done tg_pf, match compute_reward (done tg_pf) with Ok (r, e, pen) => Ok (gather_state (done tg_pf), r, e, pen, true) | Err x => Err x end).
Proof.
  unfold transition. cbn [sm_base sm_dt sm_devs o_qp tb_or]. rewrite tg_devs_trans by lra.
  unfold solve_load_flow. cbn [sm_buses sim_set_buses sim_set_devs map o_lin tb_or].
  match goal with |- context [pq_vectors ?l] => assert (E1 : pq_vectors l = [(Fin 0, Fin (-1/4))]) end.
  { unfold pq_vectors, bus_injection, devs_at, find_bus, nsum, bus_set_pq. tunfo. xeval. xsame. }
  rewrite E1. cbn [map fst snd]. unfold n_bus. cbn [sm_buses sim_set_buses sim_set_devs map List.length sm_Y].
  rewrite tg_solve. cbn [bind].
  match goal with |- context [mapM (bus_update ?v ?i) ?l] => assert (E2 : mapM (bus_update v i) l = Ok (sm_buses (tg_pf None))) end.
  { unfold bus_update, bus_injection, devs_at, nsum, bus_set_pq, bus_set_vi, inf_if_nan, tg_pf. tunfo. xeval. tunfo. xsame. }
  rewrite E2. cbn [bind].
  match goal with |- context [mapM (dev_slack_update ?b) ?l] => assert (E3 : mapM (dev_slack_update b) l = Ok (sm_devs (tg_pf None))) end.
  { unfold dev_slack_update, find_bus, tg_pf. tunfo. xeval. unfold d_set_pq. xeval. xsame. }
  rewrite E3. cbn [bind].
  match goal with |- context [mapM (branch_flow ?b) ?l] => assert (E4 : mapM (branch_flow b) l = Ok (sm_branches (tg_pf None))) end.
  { unfold tg_pf. cbn [mapM sm_branches sm_buses sim_set_buses sim_set_devs]. unfold branch_flow, find_bus.
    cbn [find to_lineX to_line ln_f ln_t to_busS to_busO exo_bus b_id Z.eqb Pos.eqb b_v].
    match goal with |- context [branch_update ?x ?y ?z] => change (branch_update x y z) with
      (branch_update (to_lineX i j pf qf pt qt sm) (xc 1 0) (xc (1/2) 0)) end. rewrite tg_flow. reflexivity. }
  rewrite E4. cbn [bind]. reflexivity.
Qed.

(** rewards *)
Lemma tl_slack a i p q : dev_loss a (to_slack i p q) = nadd a (Fin p). Proof. reflexivity. Qed.
Lemma tl_load a i p q : dev_loss a (to_load i p q) = nadd a (Fin p). Proof. reflexivity. Qed.
Lemma tl_gen a i p q pot : dev_loss a (to_gen i p q pot) = nadd a (Fin p). Proof. reflexivity. Qed.
Ltac tb_reward := unfold compute_reward, energy_loss, penalty_of, done; cbn [tb_pf01 tb_pf00 tb_pf10 tg_pf sm_dt sm_lamb sm_base sm_buses sm_branches sm_devs];
  cbn [fold_left]; rewrite ?tl_slack, ?tl_load, ?tl_gen; unfold bus_penalty, branch_penalty, to_busS, to_busO, to_lineR, to_lineX, to_line, exo_bus;
  cbn [foldM b_vmin b_v b_vmax cell bind fold_left ln_smax ln_rate nabs XRnum xabs];
  rewrite ?(cabs_real 1), ?(cabs_real (1/2)) by lra; rewrite ?Rabs_R0, ?(Rabs_pos_eq (1/2)), ?(Rabs_left (-1/2)) by lra; xeval; xsame.
Lemma tb_rew01 : compute_reward (done tb_pf01) = Ok (Fin (-1/16), Fin (1/16), Fin 0).
Proof. tb_reward. Qed.
Lemma tb_rew00 : compute_reward (done tb_pf00) = Ok (Fin (1/8), Fin (-1/8), Fin 0).
Proof. tb_reward. Qed.
Lemma tb_rew10 : compute_reward (done tb_pf10) = Ok (Fin (-1/16 - 25/2), Fin (1/16), Fin (25/2)).
Proof. tb_reward. Qed.
Lemma tg_rew : compute_reward (done tg_pf) = Ok (Fin 0, Fin 0, Fin 0).
Proof. tb_reward. Qed.

(** resets *)
Definition tb_vec (m : R) : list XR := [Fin 0; Fin (- m); Fin 0; Fin 0].
Definition tg_vec : list XR := [Fin 0; Fin 0; Fin 0; Fin (-5/2); Fin 30].
Lemma tb_reset01 : sim_reset tb_or (tb_vec (5/2)) tb_sim01 = (done tb_pf01, Ok true).
Proof.
  unfold sim_reset.
  match goal with |- context [reset_inputs ?a ?b ?c ?d ?e ?f ?g] => change (reset_inputs a b c d e f g) with (Ok (tb_in (5/2))) end.
  cbv iota beta zeta. match goal with |- context [mapM ?a ?b] => change (mapM a b) with (Ok (sm_devs tb_sim01)) end.
  unfold sim_set_devs, sim_set_state. cbn [tb_sim01 sm_dt sm_lamb sm_base sm_buses sm_branches sm_devs sm_Y sm_state sm_conv].
  rewrite tb_trans01, tb_rew01. reflexivity.
Qed.
Lemma tb_reset00 : sim_reset tb_or (tb_vec 5) tb_sim00 = (done tb_pf00, Ok true).
Proof.
  unfold sim_reset.
  match goal with |- context [reset_inputs ?a ?b ?c ?d ?e ?f ?g] => change (reset_inputs a b c d e f g) with (Ok (tb_in 5)) end.
  cbv iota beta zeta. match goal with |- context [mapM ?a ?b] => change (mapM a b) with (Ok (sm_devs tb_sim00)) end.
  unfold sim_set_devs, sim_set_state. cbn [tb_sim00 sm_dt sm_lamb sm_base sm_buses sm_branches sm_devs sm_Y sm_state sm_conv].
  rewrite tb_trans00, tb_rew00. reflexivity.
Qed.
Lemma tb_reset10 : sim_reset tb_or (tb_vec (5/2)) tb_sim10 = (done tb_pf10, Ok true).
Proof.
  unfold sim_reset.
  match goal with |- context [reset_inputs ?a ?b ?c ?d ?e ?f ?g] => change (reset_inputs a b c d e f g) with (Ok (tb_in (5/2))) end.
  cbv iota beta zeta. match goal with |- context [mapM ?a ?b] => change (mapM a b) with (Ok (sm_devs tb_sim10)) end.
  unfold sim_set_devs, sim_set_state. cbn [tb_sim10 sm_dt sm_lamb sm_base sm_buses sm_branches sm_devs sm_Y sm_state sm_conv].
  rewrite tb_trans10, tb_rew10. reflexivity.
Qed.
Lemma tg_reset : sim_reset tb_or tg_vec tg_sim = (done tg_pf, Ok true).
Proof.
  unfold sim_reset.
  match goal with |- context [reset_inputs ?a ?b ?c ?d ?e ?f ?g] => change (reset_inputs a b c d e f g) with (Ok tg_in) end.
  cbv iota beta zeta. match goal with |- context [mapM ?a ?b] => change (mapM a b) with (Ok (sm_devs tg_sim)) end.
  unfold sim_set_devs, sim_set_state. cbn [tg_sim sm_dt sm_lamb sm_base sm_buses sm_branches sm_devs sm_Y sm_state sm_conv].
  rewrite tg_trans, tg_rew. reflexivity.
Qed.
(** one more step *)
Lemma tb_step00 : transition tb_or (tb_in 5) (done tb_pf00) = (done tb_pf00, Ok (gather_state (done tb_pf00), Fin (1/8), Fin (-1/8), Fin 0, true)).
Proof. unfold done at 1. unfold tb_pf00 at 1. rewrite tb_trans00, tb_rew00. reflexivity. Qed.
Lemma tb_step01 : transition tb_or (tb_in (5/2)) (done tb_pf01) = (done tb_pf01, Ok (gather_state (done tb_pf01), Fin (-1/16), Fin (1/16), Fin 0, true)).
Proof. unfold done at 1. unfold tb_pf01 at 1. rewrite tb_trans01, tb_rew01. reflexivity. Qed.
Lemma tb_step10 : transition tb_or (tb_in (5/2)) (done tb_pf10) = (done tb_pf10, Ok (gather_state (done tb_pf10), Fin (-1/16 - 25/2), Fin (1/16), Fin (25/2), true)).
Proof. unfold done at 1. unfold tb_pf10 at 1. rewrite tb_trans10, tb_rew10. reflexivity. Qed.
Lemma tg_step : transition tb_or tg_in (done tg_pf) = (done tg_pf, Ok (gather_state (done tg_pf), Fin 0, Fin 0, Fin 0, true)).
Proof. unfold done at 1. unfold tg_pf at 1. rewrite tg_trans, tg_rew. reflexivity. Qed.
