(** A reset and a transition of the concrete network of ExNet.v, with a non-trivial power flow
    (one Newton iteration, voltage 0.5 p.u. at bus 1). *)
From Coq Require Import Reals Lra.
From Verif Require Import Base Num NumXR Devices BusBranch CheckNetwork LoadFlow Simulator LibBase LibNum LibXR LibEval ExNet.
Local Open Scope R_scope.

(** Solvers: the QP solver returns a feasible request and raises otherwise; the linear solver
    returns the exact Newton step. *)
Definition ex_qp : qp_solver XR := fun rows pt => match pt with
  | (Fin p, Fin q) => if forallb (fun r => xleb (xadd (xmul (qa r) (Fin p)) (xmul (qb r) (Fin q))) (qh r)) rows
                      then Ok pt else Err TypeErr
  | _ => Err TypeErr
  end.
Definition ex_lin : lin_solver XR := fun _ _ => Ok [Fin 0; Fin (1/2)].
Definition ex_or : oracles XR := mkOr ex_qp ex_lin.
(** The reactive power of the generator compensates that of the load. *)
Definition ex_ink (k : R) : tr_in XR := mkIn [(1%Z, Fin (-5))] [(2%Z, Fin (5/2))]
  [(2%Z, Fin 2); (3%Z, Fin (1/2))] [(2%Z, Fin (5 * k)); (3%Z, Fin 0)].
Notation ex_in := (ex_ink (2/10)).

Definition ex_devs (k p0 : R) (soc : XR) : list (device XR) :=
  [exo_slack p0 0; exo_load k (-5/10) (- k/2); exo_rer (2/10) (k/2) (1/4); exo_stor (1/20) 0 (Some soc)].
Lemma ex_devs_trans k p0 q0 p1 q1 p2 q2 p3 q3 pot soc : -1 <= k <= 1 -> 1 <= soc <= 10 ->
  devs_transition ex_qp (Fin 10) (Fin (1/4)) (ex_ink k) [exo_slack p0 q0; exo_load k p1 q1; exo_rer p2 q2 pot; exo_stor p3 q3 (Some (Fin soc))] =
  (ex_devs k 0 (Fin (soc - 1/72)), Ok tt).
Proof.
  intros Hk H. unfold ex_devs, ex_ink, exo_slack, exo_load, exo_rer, exo_stor.
  cbn [devs_transition dev_transition d_spec d_slack d_type Z.eqb ti_load ti_pot ti_p ti_q dgetE dget d_id Z.eqb Pos.eqb fst snd d_soc bind].
  unfold load_map_pq, gen_clip_ppot, gen_map_pq, stor_map_pq, stor_rows, pydiv, ex_qp, stor_update_soc.
  cbn [l_pmin l_pmax l_qp g_pmin g_pmax s_eff s_socmin s_socmax d_ppot d_set_ppot d_set_pq d_set_soc ndiv nsub nopp nmul XRnum fst snd].
  xeval. unfold d_set_soc, d_set_pq, d_set_ppot. xunfo. cbn [d_id d_bus d_type d_spec d_p d_q d_ppot d_soc]. xsame.
Qed.

(** One Newton iteration from the flat start. *)
Lemma ex_solve : solve_pfe ex_lin 2 [Fin (-1/4)] [Fin 0] ex_Y xtol_pfe =
  Ok ([xc 1 0; xc (1/2) 0], [xc (1/2) 0; xc (-1/2) 0], true).
Proof.
  unfold solve_pfe, newton_raphson. cbn [repeat Nat.sub app n0 n1 XRnum].
  assert (E1 : f_pfe [Fin 0; Fin 1] [Fin (-1/4)] [Fin 0] ex_Y = Ok [Fin (1/4); Fin 0]).
  { unfold f_pfe, construct_vE, mat_vecE, ex_Y, xc. xeval. unfold mat_vec, dotc, csum, mismatch, re_im, construct_v. xeval.
    rewrite cos_0, sin_0. xsame. }
  assert (E2 : f_pfe [Fin 0; Fin (1/2)] [Fin (-1/4)] [Fin 0] ex_Y = Ok [Fin 0; Fin 0]).
  { unfold f_pfe, construct_vE, mat_vecE, ex_Y, xc. xeval. unfold mat_vec, dotc, csum, mismatch, re_im, construct_v. xeval.
    rewrite cos_0, sin_0. xsame. }
  assert (A0 : Rabs 0 = 0) by apply Rabs_R0. assert (A1 : Rabs (1/4) = 1/4) by (apply Rabs_pos_eq; lra).
  assert (N1 : norm_inf [Fin (1/4); Fin 0] = Ok (Fin (1/4))).
  { unfold norm_inf. cbn [map fold_left nabs XRnum xabs]. rewrite A0, A1. xeval. reflexivity. }
  assert (N2 : norm_inf [Fin 0; Fin 0] = Ok (Fin 0)).
  { unfold norm_inf. cbn [map fold_left nabs XRnum xabs]. rewrite A0. xeval. reflexivity. }
  assert (X : xtol_pfe = Fin (1/100000)) by (unfold xtol_pfe, nrat; xeval; reflexivity).
  assert (G : vec_sub [Fin 0; Fin 1] [Fin 0; Fin (1/2)] = Ok [Fin 0; Fin (1/2)]).
  { unfold vec_sub. xeval. xsame. }
  rewrite X, E1. cbn [bind]. rewrite N1. cbn [bind].
  rewrite nr_step by (apply xltb_t; lra). unfold ex_lin at 1. cbn [bind]. rewrite G. cbn [bind]. rewrite E2. cbn [bind].
  rewrite N2. cbn [bind]. rewrite nr_stop by (apply xltb_f; lra). cbn [bind].
  unfold construct_vE, mat_vecE, construct_v, mat_vec, dotc, csum, ex_Y, xc. xeval. rewrite cos_0, sin_0. xunfo. xsame.
Qed.

Definition ex_simpf (k w : R) (soc : XR) st : sim XR := mkSim (Fin (1/4)) (Fin 100) (Fin 10)
    [exo_bus0 w (1/2) 0 (xc 1 0) (xc (1/2) 0) (-20) 20 (-20) 20; exo_bus1 (-1/4) 0 (xc (1/2) 0) (xc (-1/2) 0) (-6) (75/10) (-8 - k) (7 - k/2)]
    [exo_line (xc (1/2) 0) (xc (-1/2) 0) (1/2) 0 (-1/4) 0 (Fin (1/2))]
    (ex_devs k (1/2) soc) ex_Y st (Some true).
Definition ex_sim1k (k w : R) (soc : XR) : sim XR := ex_simpf k w soc (Some (gather_state (ex_simpf k w soc None))).
Notation ex_sim1 := (ex_sim1k (2/10) 1).

Lemma cabs_real a : 0 <= a -> cabs (xc a 0) = Fin a.
Proof.
  intros H. unfold cabs, cnorm2, xc. cbn [re im nmul nadd nsqrt XRnum xmul xadd]. rewrite xsqrt_Fin by nra.
  rewrite (sqrt_val _ a) by nra. auto.
Qed.
Lemma cabs_real_neg a : a <= 0 -> cabs (xc a 0) = Fin (- a).
Proof.
  intros H. unfold cabs, cnorm2, xc. cbn [re im nmul nadd nsqrt XRnum xmul xadd]. rewrite xsqrt_Fin by nra.
  rewrite (sqrt_val _ (- a)) by nra. auto.
Qed.
Lemma exo_flow ifr ito pf qf pt qt sm : branch_update (exo_line ifr ito pf qf pt qt sm) (xc 1 0) (xc (1/2) 0) =
  exo_line (xc (1/2) 0) (xc (-1/2) 0) (1/2) 0 (-1/4) 0 (Fin (1/2)).
Proof.
  set (l := exo_line ifr ito pf qf pt qt sm).
  assert (T : tap2 l = Fin 1).
  { unfold tap2, l, exo_line. cbn [ln_tap]. rewrite cabs_real by lra. xeval. xsame. }
  assert (I1 : branch_ifrom l (xc 1 0) (xc (1/2) 0) = xc (1/2) 0).
  { unfold branch_ifrom. rewrite T. unfold l. xunfo. cbn [ln_series ln_shunt ln_tap]. xeval. xsame. }
  assert (I2 : branch_ito l (xc 1 0) (xc (1/2) 0) = xc (-1/2) 0).
  { unfold branch_ito, l. xunfo. cbn [ln_series ln_shunt ln_tap]. xeval. xsame. }
  unfold branch_update. rewrite I1, I2.
  assert (S1 : cmul (xc 1 0) (cconj (xc (1/2) 0)) = xc (1/2) 0) by (xunfo; xeval; xsame).
  assert (S2 : cmul (xc (1/2) 0) (cconj (xc (-1/2) 0)) = xc (-1/4) 0) by (xunfo; xeval; xsame).
  rewrite S1, S2, cabs_real, cabs_real_neg by lra. unfold np_sign, l. xunfo. xeval. xsame.
Qed.

Lemma exl_slack a p q : dev_loss a (exo_slack p q) = nadd a (Fin p). Proof. reflexivity. Qed.
Lemma exl_load k a p q : dev_loss a (exo_load k p q) = nadd a (Fin p). Proof. reflexivity. Qed.
Lemma exl_rer a p q pot : p <= pot -> dev_loss a (exo_rer p q pot) = nadd (nadd a (Fin p)) (Fin (pot - p)).
Proof. intros H. unfold dev_loss. change (is_gen _ || is_load _)%bool with true. change (is_rer _) with true. cbv zeta iota.
  cbn [exo_rer d_ppot d_p nsub XRnum xsub]. unfold np_max. xcbn. rewrite (proj2 (xisnan_false (Fin 0))) by discriminate.
  destruct (Req_dec (pot - p) 0) as [E|E]; [rewrite E; rewrite xleb_t by lra; auto|rewrite xleb_f by lra; auto]. Qed.
Lemma exl_stor a p q soc : dev_loss a (exo_stor p q soc) = a. Proof. reflexivity. Qed.
Lemma exp_bus0 w a p q i pl pu ql qu : bus_penalty a (exo_bus0 w p q (xc 1 0) i pl pu ql qu) = Ok (nadd a (Fin (Rabs (1 - w)))).
Proof. unfold bus_penalty. cbn [exo_bus0 exo_bus b_vmin b_v b_vmax cell]. rewrite cabs_real by lra.
  destruct (Rle_dec w 1); [rewrite Rabs_pos_eq by lra|rewrite Rabs_left by lra]; (destruct (Req_dec w 1); [subst w|]); xeval; xsame. Qed.
Lemma exp_bus1 a p q i pl pu ql qu : bus_penalty a (exo_bus1 p q (xc (1/2) 0) i pl pu ql qu) = Ok (nadd a (Fin 0)).
Proof. unfold bus_penalty. cbn [exo_bus1 exo_bus b_vmin b_v b_vmax cell]. rewrite cabs_real by lra. xeval. xsame. Qed.
Lemma exp_line a i j pf qf pt qt : branch_penalty a (exo_line i j pf qf pt qt (Fin (1/2))) = nadd a (Fin 0).
Proof. unfold branch_penalty. cbn [exo_line ln_smax ln_rate nabs XRnum xabs]. rewrite Rabs_pos_eq by lra. xeval. xsame. Qed.

Lemma ex_trans_gen k w b0p b0q b0v b0i b1p b1q b1v b1i ifr ito pf qf pt qt sm p0 q0 p1 q1 p2 q2 p3 q3 pot soc st cv : -1 <= k <= 1 -> 1 <= soc <= 10 ->
  transition ex_or (ex_ink k) (mkSim (Fin (1/4)) (Fin 100) (Fin 10)
    [exo_bus0 w b0p b0q b0v b0i (-20) 20 (-20) 20; exo_bus1 b1p b1q b1v b1i (-6) (75/10) (-8 - k) (7 - k/2)]
    [exo_line ifr ito pf qf pt qt sm]
    [exo_slack p0 q0; exo_load k p1 q1; exo_rer p2 q2 pot; exo_stor p3 q3 (Some (Fin soc))] ex_Y st cv) =
  (ex_sim1k k w (Fin (soc - 1/72)), Ok (gather_state (ex_sim1k k w (Fin (soc - 1/72))), Fin (-1/16 - 25 * Rabs (1 - w)), Fin (1/16), Fin (25 * Rabs (1 - w)), true)).
Proof.
  intros Hk Hs. unfold transition. cbn [sm_base sm_dt sm_devs o_qp ex_or]. rewrite ex_devs_trans by auto.
  unfold solve_load_flow. cbn [sm_buses sim_set_buses sim_set_devs map o_lin ex_or].
  match goal with |- context [pq_vectors ?l] => assert (E1 : pq_vectors l = [(Fin (-1/4), Fin 0)]) end.
  { unfold pq_vectors, bus_injection, devs_at, ex_devs, find_bus, nsum, bus_set_pq. xunfo. xeval. xsame. }
  rewrite E1. cbn [map fst snd]. unfold n_bus. cbn [sm_buses sim_set_buses sim_set_devs map List.length sm_Y].
  rewrite ex_solve. cbn [bind].
  match goal with |- context [mapM (bus_update ?v ?i) ?l] => assert (E2 : mapM (bus_update v i) l =
    Ok [exo_bus0 w (1/2) 0 (xc 1 0) (xc (1/2) 0) (-20) 20 (-20) 20; exo_bus1 (-1/4) 0 (xc (1/2) 0) (xc (-1/2) 0) (-6) (75/10) (-8 - k) (7 - k/2)]) end.
  { unfold bus_update, bus_injection, devs_at, ex_devs, nsum, bus_set_pq, bus_set_vi, inf_if_nan. xunfo. xeval. xunfo. xsame. }
  rewrite E2. cbn [bind].
  match goal with |- context [mapM (dev_slack_update ?b) ?l] => assert (E3 : mapM (dev_slack_update b) l = Ok (ex_devs k (1/2) (Fin (soc - 1/72)))) end.
  { unfold dev_slack_update, ex_devs, find_bus. xunfo. xeval. unfold d_set_pq. xeval. xsame. }
  rewrite E3. cbn [bind].
  match goal with |- context [mapM (branch_flow ?b) ?l] => assert (E4 : mapM (branch_flow b) l = 
    Ok [exo_line (xc (1/2) 0) (xc (-1/2) 0) (1/2) 0 (-1/4) 0 (Fin (1/2))]) end.
  { cbn [mapM sm_branches sim_set_buses sim_set_devs]. unfold branch_flow, find_bus. cbn [find exo_line ln_f ln_t exo_bus0 exo_bus1 exo_bus b_id Z.eqb Pos.eqb b_v].
    match goal with |- context [branch_update ?x ?y ?z] => change (branch_update x y z) with
      (branch_update (exo_line ifr ito pf qf pt qt sm) (xc 1 0) (xc (1/2) 0)) end. rewrite exo_flow. reflexivity. }
  rewrite E4. cbn [bind].
  match goal with |- context [sim_set_conv ?x ?c] => change (sim_set_conv x c) with (ex_simpf k w (Fin (soc - 1/72)) st) end.
  match goal with |- context [compute_reward ?s] => set (s5 := s) end.
  assert (E5 : compute_reward s5 = Ok (Fin (-1/16 - 25 * Rabs (1 - w)), Fin (1/16), Fin (25 * Rabs (1 - w)))).
  { unfold compute_reward, energy_loss, penalty_of, s5. cbn [ex_simpf sim_set_state sm_dt sm_lamb sm_base sm_buses sm_branches sm_devs].
    unfold ex_devs. cbn [fold_left]. rewrite exl_stor, exl_rer, exl_load, exl_slack by lra. cbn [foldM].
    rewrite exp_bus0. cbn [bind foldM]. rewrite exp_bus1. cbn [bind foldM fold_left]. rewrite exp_line.
    xeval. xsame. }
  rewrite E5. reflexivity.
Qed.

(** reset: P, Q of the devices, SoC, potential (MW, MVAr, MWh) *)
Definition ex_veck (k soc : R) : list XR :=
  [Fin 0; Fin (-5); Fin 2; Fin (1/2)] ++ [Fin 0; Fin (-1); Fin (5 * k); Fin 0] ++ [Fin soc] ++ [Fin (5/2)].
Notation ex_vec := (ex_veck (2/10)).
Lemma ex_resetk k w soc : -1 <= k <= 1 -> sim_reset ex_or (ex_veck k soc) (ex_simk k w) = (ex_sim1k k w (Fin (soc / 10)), Ok true).
Proof.
  intros Hk. unfold sim_reset, n_device, n_des, n_nsgen, ex_veck. cbn [ex_simk sm_devs List.length filter is_stor is_nsgen is_gen exo_slack exo_load exo_rer exo_stor d_spec d_slack d_type andb negb Z.eqb
    firstn skipn slice Nat.mul Nat.add app].
  unfold slice. cbn [firstn skipn Nat.add Nat.mul].
  match goal with |- context [reset_inputs ?a ?b ?c ?d ?e ?f ?g] => assert (E1 : reset_inputs a b c d e f g = Ok (ex_ink k)) end.
  { reflexivity. }
  rewrite E1.
  match goal with |- context [mapM ?a ?b] => assert (E2 : mapM a b = Ok [exo_slack 0 0; exo_load k 0 0; exo_rer 0 0 3; exo_stor 0 0 (Some (Fin 10))]) end.
  { unfold dev_pre_soc, dgetE. cbn [ex_ink ti_p]. xeval. reflexivity. }
  rewrite E2. unfold sim_set_devs, sim_set_state. cbn [ex_simk sm_dt sm_lamb sm_base sm_buses sm_branches sm_devs sm_Y sm_state sm_conv].
  rewrite ex_trans_gen by lra. cbn [ex_sim1k ex_simpf sm_devs ex_devs set_socs is_stor exo_slack exo_load exo_rer exo_stor d_spec fst snd].
  unfold ex_sim1k, ex_simpf, d_set_soc. cbn [ndiv XRnum sm_dt sm_lamb sm_base sm_buses sm_branches sm_devs sm_Y sm_state sm_conv d_id d_bus d_type d_spec d_p d_q d_ppot]. rewrite xdiv_Fin by lra. reflexivity.
Qed.
Lemma ex_reset soc : sim_reset ex_or (ex_vec soc) ex_sim0 = (ex_sim1 (Fin (soc / 10)), Ok true).
Proof. apply ex_resetk; lra. Qed.
Lemma ex_transk k w soc : -1 <= k <= 1 -> 1 <= soc <= 10 -> transition ex_or (ex_ink k) (ex_sim1k k w (Fin soc)) =
  (ex_sim1k k w (Fin (soc - 1/72)), Ok (gather_state (ex_sim1k k w (Fin (soc - 1/72))), Fin (-1/16 - 25 * Rabs (1 - w)), Fin (1/16), Fin (25 * Rabs (1 - w)), true)).
Proof. intros H H'. apply ex_trans_gen; auto. Qed.
Lemma ex_trans soc : 1 <= soc <= 10 -> transition ex_or ex_in (ex_sim1 (Fin soc)) =
  (ex_sim1 (Fin (soc - 1/72)), Ok (gather_state (ex_sim1 (Fin (soc - 1/72))), Fin (-1/16), Fin (1/16), Fin 0, true)).
Proof.
  intros H. rewrite ex_transk by (auto; lra). replace (1 - 1) with 0 by lra. rewrite Rabs_R0.
  replace (-1/16 - 25 * 0) with (-1/16) by lra. replace (25 * 0) with 0 by lra. reflexivity.
Qed.
