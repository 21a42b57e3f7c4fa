(** A concrete environment on the network of ExNet.v, with one auxiliary variable that counts the random
    draws; power flows that converge and power flows that do not. *)
From Coq Require Import Reals Lra Sorted.
From Verif Require Import Base Num NumXR Devices BusBranch CheckNetwork LoadFlow Simulator EnvArgs Env LibBase LibNum LibSim LibXR LibEval
  SpecNet SpecSim ProofSim SpecEnv ProofStep ProofState ProofDraw ProofEnvOk SpecObs ProofArgs ProofObs ProofLive ProofReset PropReward ExNet ExRun.
Local Open Scope string_scope.
Local Open Scope list_scope.
Local Open Scope R_scope.
Set Bullet Behavior "Strict Subproofs".

(** ---- simulator level ---- *)

(** The storage unit idle, the generator not curtailed. *)
Definition ex_ind : tr_in XR := mkIn [(1%Z, Fin (-5))] [(2%Z, Fin (5/2))]
  [(2%Z, Fin (5/2)); (3%Z, Fin 0)] [(2%Z, Fin 1); (3%Z, Fin 0)].
Definition ex_devs2 (p0 : R) (soc : XR) : list (device XR) :=
  [exo_slack p0 0; exo_load (2/10) (-5/10) (-1/10); exo_rer (1/4) (1/10) (1/4); exo_stor 0 0 (Some soc)].
Lemma ex_devs_idle p0 q0 p1 q1 p2 q2 p3 q3 pot soc : 1 <= soc <= 10 ->
  devs_transition ex_qp (Fin 10) (Fin (1/4)) ex_ind [exo_slack p0 q0; exo_load (2/10) p1 q1; exo_rer p2 q2 pot; exo_stor p3 q3 (Some (Fin soc))] =
  (ex_devs2 0 (Fin soc), Ok tt).
Proof.
  intros H. unfold ex_devs2, ex_ind, exo_slack, exo_load, exo_rer, exo_stor.
  cbn [devs_transition dev_transition d_spec d_slack d_type Z.eqb ti_load ti_pot ti_p ti_q dgetE dget d_id Z.eqb Pos.eqb fst snd d_soc bind].
  unfold load_map_pq, gen_clip_ppot, gen_map_pq, stor_map_pq, stor_rows, pydiv, ex_qp, stor_update_soc.
  cbn [l_pmin l_pmax l_qp g_pmin g_pmax s_eff s_socmin s_socmax d_ppot d_set_ppot d_set_pq d_set_soc ndiv nsub nopp nmul XRnum fst snd].
  xeval. unfold d_set_soc, d_set_pq, d_set_ppot. xunfo. cbn [d_id d_bus d_type d_spec d_p d_q d_ppot d_soc].
  destruct (Req_dec soc 10) as [->|]; xeval; xsame.
Qed.

(** A simulator of this network with any results in it. *)
Definition ex_any (w : R) b0p b0q b0v b0i b1p b1q b1v b1i ifr ito pf qf pt qt sm p0 q0 p1 q1 p2 q2 p3 q3 pot soc st cv : sim XR :=
  mkSim (Fin (1/4)) (Fin 100) (Fin 10)
    [exo_bus0 w b0p b0q b0v b0i (-20) 20 (-20) 20; exo_bus1 b1p b1q b1v b1i (-6) (75/10) (-8 - 2/10) (7 - 2/10/2)]
    [exo_line ifr ito pf qf pt qt sm]
    [exo_slack p0 q0; exo_load (2/10) p1 q1; exo_rer p2 q2 pot; exo_stor p3 q3 (Some (Fin soc))] ex_Y st cv.
Definition ex_form (w soc : R) (s : sim XR) : Prop :=
  exists b0p b0q b0v b0i b1p b1q b1v b1i ifr ito pf qf pt qt sm p0 q0 p1 q1 p2 q2 p3 q3 pot st cv,
    s = ex_any w b0p b0q b0v b0i b1p b1q b1v b1i ifr ito pf qf pt qt sm p0 q0 p1 q1 p2 q2 p3 q3 pot soc st cv.
Lemma ex_form1 w soc : ex_form w soc (ex_sim1k (2/10) w (Fin soc)).
Proof. unfold ex_sim1k, ex_simpf, ex_devs, ex_form, ex_any. repeat eexists. Qed.

(** The converged simulator, storage idle. *)
Definition ex_pf2 (w soc : R) st : sim XR :=
  ex_any w (1/2) 0 (xc 1 0) (xc (1/2) 0) (-1/4) 0 (xc (1/2) 0) (xc (-1/2) 0) (xc (1/2) 0) (xc (-1/2) 0) (1/2) 0 (-1/4) 0 (Fin (1/2))
    (1/2) 0 (-5/10) (-1/10) (1/4) (1/10) 0 0 (1/4) soc st (Some true).
Definition ex_sim2 (w soc : R) : sim XR := ex_pf2 w soc (Some (gather_state (ex_pf2 w soc None))).
Lemma ex_form2 w soc : ex_form w soc (ex_sim2 w soc).
Proof. unfold ex_sim2, ex_pf2, ex_form. repeat eexists. Qed.

Lemma ex_idle w soc s : ex_form w soc s -> 1 <= soc <= 10 ->
  transition ex_or ex_ind s =
  (ex_sim2 w soc, Ok (gather_state (ex_sim2 w soc), Fin (-1/16 - 25 * Rabs (1 - w)), Fin (1/16), Fin (25 * Rabs (1 - w)), true)).
Proof.
  intros (b0p & b0q & b0v & b0i & b1p & b1q & b1v & b1i & ifr & ito & pf & qf & pt & qt & sm & p0 & q0 & p1 & q1 & p2 & q2 & p3 & q3 & pot & st & cv & ->) Hs.
  unfold transition, ex_any. cbn [sm_base sm_dt sm_devs o_qp ex_or]. rewrite ex_devs_idle by auto.
  unfold solve_load_flow. cbn [sm_buses sim_set_buses sim_set_devs map o_lin ex_or].
  match goal with |- context [pq_vectors ?l] => assert (E1 : pq_vectors l = [(Fin (-1/4), Fin 0)]) end.
  { unfold pq_vectors, bus_injection, devs_at, ex_devs2, find_bus, nsum, bus_set_pq. xunfo. xeval. xsame. }
  rewrite E1. cbn [map fst snd]. unfold n_bus. cbn [sm_buses sim_set_buses sim_set_devs map List.length sm_Y].
  rewrite ex_solve. cbn [bind].
  match goal with |- context [mapM (bus_update ?v ?i) ?l] => assert (E2 : mapM (bus_update v i) l =
    Ok [exo_bus0 w (1/2) 0 (xc 1 0) (xc (1/2) 0) (-20) 20 (-20) 20; exo_bus1 (-1/4) 0 (xc (1/2) 0) (xc (-1/2) 0) (-6) (75/10) (-8 - 2/10) (7 - 2/10/2)]) end.
  { unfold bus_update, bus_injection, devs_at, ex_devs2, nsum, bus_set_pq, bus_set_vi, inf_if_nan. xunfo. xeval. xunfo. xsame. }
  rewrite E2. cbn [bind].
  match goal with |- context [mapM (dev_slack_update ?b) ?l] => assert (E3 : mapM (dev_slack_update b) l = Ok (ex_devs2 (1/2) (Fin soc))) end.
  { unfold dev_slack_update, ex_devs2, find_bus. xunfo. xeval. unfold d_set_pq. xeval. xsame. }
  rewrite E3. cbn [bind].
  match goal with |- context [mapM (branch_flow ?b) ?l] => assert (E4 : mapM (branch_flow b) l = 
    Ok [exo_line (xc (1/2) 0) (xc (-1/2) 0) (1/2) 0 (-1/4) 0 (Fin (1/2))]) end.
  { cbn [mapM sm_branches sim_set_buses sim_set_devs]. unfold branch_flow, find_bus. cbn [find exo_line ln_f ln_t exo_bus0 exo_bus1 exo_bus b_id Z.eqb Pos.eqb b_v].
    match goal with |- context [branch_update ?x ?y ?z] => change (branch_update x y z) with
      (branch_update (exo_line ifr ito pf qf pt qt sm) (xc 1 0) (xc (1/2) 0)) end. rewrite exo_flow. reflexivity. }
  rewrite E4. cbn [bind].
  match goal with |- context [sim_set_conv ?x ?c] => change (sim_set_conv x c) with (ex_pf2 w soc st) end.
  match goal with |- context [compute_reward ?s] => set (s5 := s) end.
  assert (E5 : compute_reward s5 = Ok (Fin (-1/16 - 25 * Rabs (1 - w)), Fin (1/16), Fin (25 * Rabs (1 - w)))).
  { unfold compute_reward, energy_loss, penalty_of, s5. cbn [ex_pf2 ex_any sim_set_state sm_dt sm_lamb sm_base sm_buses sm_branches sm_devs].
    cbn [fold_left]. rewrite exl_stor, exl_rer, exl_load, exl_slack by lra. cbn [foldM].
    rewrite exp_bus0. cbn [bind foldM]. rewrite exp_bus1. cbn [bind foldM fold_left]. rewrite exp_line.
    xeval. xsame. }
  rewrite E5. reflexivity.
Qed.

(** A linear solver that returns a useless step: the iteration never leaves the flat start. *)
Definition ex_stuck : lin_solver XR := fun _ _ => Ok [Fin 0; Fin 0].
Definition ex_or2 : oracles XR := mkOr ex_qp ex_stuck.
Lemma stuck_loop Y p q xtol g Fv d : vec_sub g [Fin 0; Fin 0] = Ok g -> f_pfe g p q Y = Ok Fv -> norm_inf Fv = Ok d -> nltb xtol d = true ->
  forall fuel k, exists k', nr_loop ex_stuck Y p q xtol fuel k g Fv d = Ok (g, k', d).
Proof.
  intros A B C D. induction fuel as [|fuel IH]; intros k; [exists k; reflexivity|].
  rewrite nr_step by auto. unfold ex_stuck at 1. cbn [bind]. rewrite A. cbn [bind]. rewrite B. cbn [bind]. rewrite C. cbn [bind]. apply IH.
Qed.
Lemma ex_solve2 : solve_pfe ex_stuck 2 [Fin (-1/4)] [Fin 0] ex_Y xtol_pfe = Ok ([xc 1 0; xc 1 0], [xc 0 0; xc 0 0], false).
Proof.
  unfold solve_pfe, newton_raphson. cbn [repeat Nat.sub app n0 n1 XRnum].
  assert (E1 : f_pfe [Fin 0; Fin 1] [Fin (-1/4)] [Fin 0] ex_Y = Ok [Fin (1/4); Fin 0]).
  { unfold f_pfe, construct_vE, mat_vecE, ex_Y, xc. xeval. unfold mat_vec, dotc, csum, mismatch, re_im, construct_v. xeval.
    rewrite cos_0, sin_0. xsame. }
  assert (A0 : Rabs 0 = 0) by apply Rabs_R0. assert (A1 : Rabs (1/4) = 1/4) by (apply Rabs_pos_eq; lra).
  assert (N1 : norm_inf [Fin (1/4); Fin 0] = Ok (Fin (1/4))).
  { unfold norm_inf. cbn [map fold_left nabs XRnum xabs]. rewrite A0, A1. xeval. reflexivity. }
  assert (X : xtol_pfe = Fin (1/100000)) by (unfold xtol_pfe, nrat; xeval; reflexivity).
  assert (G : vec_sub [Fin 0; Fin 1] [Fin 0; Fin 0] = Ok [Fin 0; Fin 1]).
  { unfold vec_sub. xeval. xsame. }
  rewrite X, E1. cbn [bind]. rewrite N1. cbn [bind].
  destruct (stuck_loop ex_Y [Fin (-1/4)] [Fin 0] (Fin (1/100000)) [Fin 0; Fin 1] [Fin (1/4); Fin 0] (Fin (1/4))) with (fuel := 100%nat) (k := 0%nat) as (k' & ->); auto.
  { apply xltb_t; lra. }
  cbn [bind]. cbn [nleb XRnum]. rewrite xleb_f by lra. rewrite Bool.andb_false_r.
  unfold construct_vE, mat_vecE, construct_v, mat_vec, dotc, csum, ex_Y, xc. xeval. rewrite cos_0, sin_0. xunfo. xsame.
Qed.

Lemma exo_flow2 ifr ito pf qf pt qt sm : branch_update (exo_line ifr ito pf qf pt qt sm) (xc 1 0) (xc 1 0) =
  exo_line (xc 0 0) (xc 0 0) 0 0 0 0 (Fin 0).
Proof.
  set (l := exo_line ifr ito pf qf pt qt sm).
  assert (T : tap2 l = Fin 1).
  { unfold tap2, l, exo_line. cbn [ln_tap]. rewrite cabs_real by lra. xeval. xsame. }
  assert (I1 : branch_ifrom l (xc 1 0) (xc 1 0) = xc 0 0).
  { unfold branch_ifrom. rewrite T. unfold l. xunfo. cbn [ln_series ln_shunt ln_tap]. xeval. xsame. }
  assert (I2 : branch_ito l (xc 1 0) (xc 1 0) = xc 0 0).
  { unfold branch_ito, l. xunfo. cbn [ln_series ln_shunt ln_tap]. xeval. xsame. }
  unfold branch_update. rewrite I1, I2.
  assert (S1 : cmul (xc 1 0) (cconj (xc 0 0)) = xc 0 0) by (xunfo; xeval; xsame).
  rewrite S1, cabs_real by lra. unfold np_sign, l. xunfo. xeval. xsame.
Qed.
Lemma exp_bus1' a p q i pl pu ql qu : bus_penalty a (exo_bus1 p q (xc 1 0) i pl pu ql qu) = Ok (nadd a (Fin 0)).
Proof. unfold bus_penalty. cbn [exo_bus1 exo_bus b_vmin b_v b_vmax cell]. rewrite cabs_real by lra. xeval. xsame. Qed.
Lemma exp_line' a i j pf qf pt qt : branch_penalty a (exo_line i j pf qf pt qt (Fin 0)) = nadd a (Fin 0).
Proof. unfold branch_penalty. cbn [exo_line ln_smax ln_rate nabs XRnum xabs]. rewrite Rabs_R0. xeval. xsame. Qed.

Lemma ex_fail_any w inp b0p b0q b0v b0i b1p b1q b1v b1i ifr ito pf qf pt qt sm p0 q0 p1 q1 p2 q2 p3 q3 pot soc st cv a b ql qr soc' :
  devs_transition ex_qp (Fin 10) (Fin (1/4)) inp [exo_slack p0 q0; exo_load (2/10) p1 q1; exo_rer p2 q2 pot; exo_stor p3 q3 (Some (Fin soc))] =
    ([exo_slack 0 0; exo_load (2/10) (-5/10) ql; exo_rer a qr (1/4); exo_stor b 0 (Some (Fin soc'))], Ok tt) ->
  a + b = 1/4 -> a <= 1/4 -> ql + qr = 0 ->
  let s := ex_any w b0p b0q b0v b0i b1p b1q b1v b1i ifr ito pf qf pt qt sm p0 q0 p1 q1 p2 q2 p3 q3 pot soc st cv in
  exists r e pen, transition ex_or2 inp s =
    (fst (transition ex_or2 inp s), Ok (gather_state (fst (transition ex_or2 inp s)), r, e, pen, false)) /\ ex_form w soc' (fst (transition ex_or2 inp s)).
Proof.
  intros Hd Ha La Hq s.
  assert (E : exists r e pen s', transition ex_or2 inp s = (s', Ok (gather_state s', r, e, pen, false)) /\ ex_form w soc' s').
  2:{ destruct E as (r & e & pen & s' & E & Fm). rewrite E. cbn [fst]. eauto. }
  subst s. unfold transition, ex_any. cbn [sm_base sm_dt sm_devs o_qp ex_or2]. rewrite Hd.
  unfold solve_load_flow. cbn [sm_buses sim_set_buses sim_set_devs map o_lin ex_or2].
  match goal with |- context [pq_vectors ?l] => assert (E1 : pq_vectors l = [(Fin (-1/4), Fin 0)]) end.
  { unfold pq_vectors, bus_injection, devs_at, find_bus, nsum, bus_set_pq. xunfo. xeval. xsame. }
  rewrite E1. cbn [map fst snd]. unfold n_bus. cbn [sm_buses sim_set_buses sim_set_devs map List.length sm_Y].
  rewrite ex_solve2. cbn [bind].
  match goal with |- context [mapM (bus_update ?v ?i) ?l] => assert (E2 : mapM (bus_update v i) l =
    Ok [exo_bus0 w 0 0 (xc 1 0) (xc 0 0) (-20) 20 (-20) 20; exo_bus1 (-1/4) 0 (xc 1 0) (xc 0 0) (-6) (75/10) (-8 - 2/10) (7 - 2/10/2)]) end.
  { unfold bus_update, bus_injection, devs_at, nsum, bus_set_pq, bus_set_vi, inf_if_nan. xunfo. xeval. xunfo. xsame. }
  rewrite E2. cbn [bind].
  match goal with |- context [mapM (dev_slack_update ?bb) ?l] => assert (E3 : mapM (dev_slack_update bb) l = 
    Ok [exo_slack 0 0; exo_load (2/10) (-5/10) ql; exo_rer a qr (1/4); exo_stor b 0 (Some (Fin soc'))]) end.
  { unfold dev_slack_update, find_bus. xunfo. xeval. unfold d_set_pq. xeval. xsame. }
  rewrite E3. cbn [bind].
  match goal with |- context [mapM (branch_flow ?b) ?l] => assert (E4 : mapM (branch_flow b) l = 
    Ok [exo_line (xc 0 0) (xc 0 0) 0 0 0 0 (Fin 0)]) end.
  { cbn [mapM sm_branches sim_set_buses sim_set_devs]. unfold branch_flow, find_bus. cbn [find exo_line ln_f ln_t exo_bus0 exo_bus1 exo_bus b_id Z.eqb Pos.eqb b_v].
    match goal with |- context [branch_update ?x ?y ?z] => change (branch_update x y z) with
      (branch_update (exo_line ifr ito pf qf pt qt sm) (xc 1 0) (xc 1 0)) end. rewrite exo_flow2. reflexivity. }
  rewrite E4. cbn [bind].
  match goal with |- context [sim_set_conv ?x ?c] => change (sim_set_conv x c) with 
    (ex_any w 0 0 (xc 1 0) (xc 0 0) (-1/4) 0 (xc 1 0) (xc 0 0) (xc 0 0) (xc 0 0) 0 0 0 0 (Fin 0) 0 0 (-5/10) ql a qr b 0 (1/4) soc' st (Some false)) end.
  match goal with |- context [compute_reward ?s] => set (s5 := s) end.
  assert (E5 : exists r e p, compute_reward s5 = Ok (r, e, p)).
  { unfold compute_reward, energy_loss, penalty_of, s5. cbn [ex_any sim_set_state sm_dt sm_lamb sm_base sm_buses sm_branches sm_devs].
    cbn [fold_left foldM]. 
    rewrite exp_bus0. cbn [bind foldM]. rewrite exp_bus1'. cbn [bind foldM fold_left]. rewrite exp_line'. cbn [bind]. eexists _, _, _. reflexivity. }
  destruct E5 as (r & e & p & ->). exists r, e, p, s5. split; [reflexivity|]. unfold s5, ex_form. repeat eexists.
Qed.

Lemma ex_fail w soc s : ex_form w soc s -> 1 <= soc <= 10 ->
  exists s' st r e pen, transition ex_or2 ex_ind s = (s', Ok (st, r, e, pen, false)) /\ ex_form w soc s'.
Proof.
  intros (b0p & b0q & b0v & b0i & b1p & b1q & b1v & b1i & ifr & ito & pf & qf & pt & qt & sm & p0 & q0 & p1 & q1 & p2 & q2 & p3 & q3 & pot & st & cv & ->) Hs.
  edestruct (ex_fail_any w ex_ind) with (soc := soc) (soc' := soc) (a := 1/4) (b := 0) (ql := -1/10) (qr := 1/10) as (r & e & pen & E & Fm);
    [apply (ex_devs_idle p0 q0 p1 q1 p2 q2 p3 q3 pot soc Hs)|lra|lra|lra|]. do 5 eexists. split; [exact E|exact Fm].
Qed.

Ltac ex_reset_start :=
  unfold sim_reset, n_device, n_des, n_nsgen, ex_veck; cbn [ex_simk sm_devs List.length filter is_stor is_nsgen is_gen exo_slack exo_load exo_rer exo_stor d_spec d_slack d_type andb negb Z.eqb
    firstn skipn slice Nat.mul Nat.add app];
  unfold slice; cbn [firstn skipn Nat.add Nat.mul];
  match goal with |- context [reset_inputs ?a ?b ?c ?d ?e ?f ?g] => 
    let E1 := fresh in assert (E1 : reset_inputs a b c d e f g = Ok (ex_ink (2/10))) by reflexivity; rewrite E1; clear E1 end;
  match goal with |- context [mapM ?a ?b] => 
    let E2 := fresh in assert (E2 : mapM a b = Ok [exo_slack 0 0; exo_load (2/10) 0 0; exo_rer 0 0 3; exo_stor 0 0 (Some (Fin 10))])
      by (unfold dev_pre_soc, dgetE; cbn [ex_ink ti_p]; xeval; reflexivity); rewrite E2; clear E2 end;
  unfold sim_set_devs, sim_set_state; cbn [ex_simk sm_dt sm_lamb sm_base sm_buses sm_branches sm_devs sm_Y sm_state sm_conv].

Lemma ex_reset_aux w soc aux : sim_reset ex_or (ex_vec soc ++ aux) (ex_simk (2/10) w) = (ex_sim1k (2/10) w (Fin (soc / 10)), Ok true).
Proof.
  ex_reset_start.
  rewrite ex_trans_gen by lra. cbn [ex_sim1k ex_simpf sm_devs ex_devs set_socs is_stor exo_slack exo_load exo_rer exo_stor d_spec fst snd].
  unfold ex_sim1k, ex_simpf, d_set_soc. cbn [ndiv XRnum sm_dt sm_lamb sm_base sm_buses sm_branches sm_devs sm_Y sm_state sm_conv d_id d_bus d_type d_spec d_p d_q d_ppot]. rewrite xdiv_Fin by lra. reflexivity.
Qed.
Lemma ex_reset_fail w soc aux : snd (sim_reset ex_or2 (ex_vec soc ++ aux) (ex_simk (2/10) w)) = Ok false.
Proof.
  ex_reset_start.
  match goal with |- context [transition ex_or2 ?i ?s] =>
    destruct (ex_fail_any w i 0 0 (xc 0 0) (xc 0 0) 0 0 (xc 0 0) (xc 0 0) (xc 0 0) (xc 0 0) 0 0 0 0 (Fin 0) 0 0 0 0 0 0 0 0 3 10 None None (2/10) (1/20) (- (2/10)/2) (2/10/2) (10 - 1/72)) as (r & e & pen & E & Fm);
    [apply (ex_devs_trans (2/10) 0 0 0 0 0 0 0 0 3 10); lra|lra|lra|lra|] end.
  match goal with |- context [transition ex_or2 ?i ?s] => match type of E with transition _ _ ?s' = _ => change s with s' end end.
  rewrite E. generalize Fm. match goal with |- context [fst ?x] => generalize (fst x) end. clear. intros s (b0p & b0q & b0v & b0i & b1p & b1q & b1v & b1i & ifr & ito & pf & qf & pt & qt & sm & p0 & q0 & p1 & q1 & p2 & q2 & p3 & q3 & pot & st & cv & ->).
  reflexivity.
Qed.

(** ---- environment level ---- *)

(** The k-th draw gives the auxiliary variable k. *)
Definition ex_task : task XR nat := mkTask Z.to_nat
  (fun g => (Ok (ex_vec 50 ++ [Fin (INR g)]), S g)) (fun _ g => (Ok [Fin (-5); Fin (5/2); Fin (INR g)], S g)).
Notation ex_args w q c1 c2 := (env_init (ex_nwk (2/10) w) ObsState 1 (Fin (1/4)) (Fin q) (Fin 100) None (Some (Some (Fin c1), Some (Fin c2))) 0%nat).
Definition ex_idle_act : list XR := [Fin (5/2); Fin 1; Fin 0; Fin 0].

Lemma ex_ids w : ids_of (ex_nwk (2/10) w) ALL [0; 1; 2; 3]%Z /\ ids_of (ex_nwk (2/10) w) LOADS [1]%Z /\
  ids_of (ex_nwk (2/10) w) GENS [2]%Z /\ ids_of (ex_nwk (2/10) w) STORS [3]%Z.
Proof.
  repeat split; try (repeat constructor; lia).
  all: try (intros I; cbn in I; repeat destruct I as [<-|I]; try destruct I;
    [..]; match goal with |- exists r t, _ /\ dr_id r = Some ?i /\ _ =>
      match i with 0%Z => exists ex_slack | 1%Z => exists (ex_load (2/10)) | 2%Z => exists ex_rer | 3%Z => exists ex_stor end end;
    eexists; cbn; repeat split; auto 10).
  all: intros (r & t & I & E1 & E2 & It); cbn in I; repeat destruct I as [<-|I]; try destruct I; cbn in E1, E2; injection E1 as <-; injection E2 as <-; cbn in *; intuition discriminate.
Qed.

Definition ex_reqs : list (list req) :=
  [ map (fun i => ("dev_p", Some "MW", EId i)) [0; 1; 2; 3]%Z; map (fun i => ("dev_q", Some "MVAr", EId i)) [0; 1; 2; 3]%Z;
    [("des_soc", Some "MWh", EId 3%Z)]; [("gen_p_max", Some "MW", EId 2%Z)]; [("aux", None, EId 0%Z)] ].
Lemma ex_requested w : Forall2 (fun t r => requested (ex_simk (2/10) w) 1 t = Some r) state_tuples ex_reqs.
Proof. repeat constructor. Qed.
Lemma ex_no_default : forall t, In t state_tuples -> ~ i_magn_default t.
Proof. intros t I (n & ->). cbn in I. intuition discriminate. Qed.
Lemma ex_args_ok q : 0 <= q <= 1 -> ~ bad_args 1 (Fin (1/4)) (Fin q) (Fin 100) (@ObsState XR) None.
Proof.
  intros Hq [B|[B|[B|[B|[B|[B|(l & B & _)]]]]]]; try discriminate B; try lia.
  - cbn [nleb n0 n1 XRnum] in B. rewrite xleb_f in B by lra. discriminate.
  - cbn [nltb n0 n1 XRnum] in B. rewrite xltb_f in B by lra. discriminate.
  - cbn [nltb n0 n1 XRnum] in B. rewrite xltb_f in B by lra. discriminate.
  - cbn [nltb n0 n1 XRnum] in B. rewrite xltb_f in B by lra. discriminate.
Qed.
Lemma ex_built w q c1 c2 : 0 <= w -> 0 <= q <= 1 -> exists e0, ex_args w q c1 c2 = Ok e0.
Proof.
  intros Hw Hq. unfold env_init. rewrite (ex_initk Hw). cbn [bind].
  destruct (args_cases (ex_simk (2/10) w) 1 (Fin (1/4)) (Fin q) (Fin 100) (@ObsState XR) None) as (_ & _ & A). rewrite (A (ex_args_ok q Hq)).
  cbn [bind]. eexists. reflexivity.
Qed.

Section ExE.
  Variables (w q c1 c2 : R) (e0 : env XR nat).
  Hypotheses (Hw : 0 <= w) (Hq : 0 <= q <= 1) (built : ex_args w q c1 c2 = Ok e0).
  Notation exgood := (good (ex_nwk (2/10) w) ObsState 1 (Fin (1/4)) (Fin q) (Fin 100) None (Some (Some (Fin c1), Some (Fin c2))) 0%nat e0).

  Lemma exe_sim : e_sim e0 = ex_simk (2/10) w.
  Proof.
    pose proof (good_erun _ _ _ _ _ _ _ _ _ _ ex_task [] built) as Hg. pose proof (gd_sim0 _ Hg) as H. rewrite (ex_initk Hw) in H. congruence.
  Qed.

  Lemma exe_action (e : env XR nat) : exgood e -> valid_action e ex_idle_act.
  Proof.
    intros Hg. unfold valid_action. rewrite (gd_aspace _ Hg), exe_sim. unfold build_action_space, get_action_space, ex_simk, box_contains. xeval. 
    reflexivity.
  Qed.

  Lemma exe_bounds : ordered_bounds None e0 ex_reqs.
  Proof.
    unfold ordered_bounds. rewrite exe_sim. intros r b I E. cbn [ex_reqs List.concat app map] in I.
    cbn [In] in I. repeat destruct I as [<-|I]; try destruct I; unfold req_bound in E; cbn [String.eqb Ascii.eqb Bool.eqb] in E;
      unfold bound, get_state_space, ex_simk in E; cbn in E; injection E as <-; xeval; try reflexivity.
  Qed.

  (** what is read in the simulators of the example *)
  Lemma exe_reads (s : sim XR) soc r : s = ex_sim1k (2/10) w (Fin soc) \/ s = ex_sim2 w soc -> In r (List.concat ex_reqs) ->
    match r with (key, Some u, n) => exists x, SpecSim.obs s key u n = Some (Fin x) | (_, None, _) => True end.
  Proof.
    intros Hs I. cbn [ex_reqs List.concat app map In] in I. repeat destruct I as [<-|I]; try destruct I; try exact Logic.I;
      destruct Hs as [-> | ->]; eexists; reflexivity.
  Qed.
  Lemma exe_no_nan (e' : env XR nat) st soc x : e_sim e' = ex_sim1k (2/10) w (Fin soc) \/ e_sim e' = ex_sim2 w soc -> e_K e' = 1%nat -> e_state e' = Some st ->
    state_layout [0; 1; 2; 3]%Z [2]%Z [3]%Z 1 (e_sim e') [Fin x] st -> no_nan ex_reqs e' /\ List.length st = 11%nat.
  Proof.
    intros Hs HK Hst (_ & Ly). pose proof (f_equal (@List.length _) Ly) as Ll. unfold reads in Ll. rewrite !app_length, !map_length in Ll. cbn [List.length Nat.add] in Ll.
    split; [|exact Ll]. intros st' r v Est I Ev. rewrite Hst in Est. injection Est as <-.
    pose proof (exe_reads _ soc r Hs I) as Q. destruct r as ((key, u), n). unfold req_value in Ev.
    destruct u as [u|].
    - destruct Q as (y & Q). destruct (String.eqb key "aux") eqn:Ek.
      { exfalso. apply String.eqb_eq in Ek. subst key. cbn [ex_reqs List.concat app map In] in I. intuition discriminate. }
      rewrite Q in Ev. injection Ev as <-. destruct (nisnan _) eqn:Q2; [apply xisnan_spec in Q2; discriminate|reflexivity].
    - assert (E : key = "aux" /\ n = EId 0) by (cbn [ex_reqs List.concat app map In] in I; repeat destruct I as [I|I]; try discriminate I; try contradiction; injection I as <- <-; auto).
      destruct E as (-> & ->). cbn [String.eqb Ascii.eqb Bool.eqb] in Ev. rewrite Ll, HK in Ev. cbn [Nat.sub Z.to_nat] in Ev.
      assert (Ev2 : nth_error st 10 = Some v) by (clear -Ev Ll; do 11 (destruct st as [|? st]; [discriminate Ll|]); exact Ev).
      apply (f_equal (fun l => nth_error l 10)) in Ly. rewrite nth_error_map, Ev2 in Ly. cbn in Ly. injection Ly as ->. 
      destruct (nisnan _) eqn:Q2; [apply xisnan_spec in Q2; discriminate|reflexivity].
  Qed.

  Definition exlive (soc : R) (e : env XR nat) : Prop :=
    (exists cs, e = erun ex_task e0 cs) /\ ex_form w soc (e_sim e) /\ e_term e = Some false /\ exists st, e_state e = Some st /\ (1 <= List.length st)%nat.

  Lemma exe_K cs : e_K (erun ex_task e0 cs) = 1%nat.
  Proof. pose proof (good_erun _ _ _ _ _ _ _ _ _ _ ex_task cs built) as Hg. apply (gd_K _ Hg). Qed.

  Lemma exe_reset_rng cs seed : exists e' ob, env_reset ex_or ex_task seed (erun ex_task e0 cs) = (e', Ok ob) /\ exlive 5 e' /\ e_rng e' = S (gen_at ex_task seed (erun ex_task e0 cs)).
  Proof.
    pose proof (good_erun _ _ _ _ _ _ _ _ _ _ ex_task cs built) as Hg. destruct (ex_ids w) as (D1 & D2 & D3 & D4).
    set (e := erun ex_task e0 cs) in *.
    assert (Ha : forall k, attempt ex_or (e_sim e0) (state_size e0) (draw ex_task (gen_at ex_task seed e) k) true).
    { intros k. assert (P : exists g', fst (draw ex_task (gen_at ex_task seed e) k) = Ok (ex_vec 50 ++ [Fin (INR g')])).
      { generalize (gen_at ex_task seed e). induction k; intros g; cbn [draw]; [exists g; reflexivity|apply IHk]. }
      destruct P as (g' & P). exists (ex_vec 50 ++ [Fin (INR g')]). split; [exact P|]. split.
      - unfold state_size. rewrite exe_sim. pose proof (exe_K []) as Ek. cbn [erun fold_left] in Ek. rewrite Ek. reflexivity.
      - rewrite exe_sim, ex_reset_aux. reflexivity. }
    assert (H0 : (1 < 100)%nat) by lia.
    assert (Hb : forall j, (j < 0)%nat -> attempt ex_or (e_sim e0) (state_size e0) (draw ex_task (gen_at ex_task seed e) j) false) by (intros j L; exfalso; lia).
    destruct (gd_reset ex_or ex_task seed e 0 _ _ _ Hg H0 Hb (Ha 0%nat) D1 D3 D4)
      as (init & e' & st & A1 & A2 & A3 & A4 & A5 & A6 & A7).
    assert (Ei : init = ex_vec 50 ++ [Fin (INR (gen_at ex_task seed e))]).
    { assert (Q : Ok init = Ok (ex_vec 50 ++ [Fin (INR (gen_at ex_task seed e))])) by exact (eq_sym (f_equal fst A2)). congruence. }
    rewrite Ei in A4, A6. clear Ei. rewrite exe_sim, ex_reset_aux in A4. cbn [fst] in A4.
    assert (Ee : e' = erun ex_task e0 (cs ++ [EReset ex_or seed])).
    { unfold erun. rewrite fold_left_app. cbn [fold_left run_ecall]. symmetry. exact A1. }
    change (Z.to_nat 1) with 1%nat in A6. cbn [List.length ex_veck app Nat.sub skipn] in A6.
    destruct (exe_no_nan e' st (50/10) (INR (gen_at ex_task seed e)) (or_introl A4)) as (Nn & Ls); auto; [rewrite Ee; apply exe_K|].
    destruct (C62_step_returns (ex_nwk (2/10) w) ObsState 1 (Fin (1/4)) (Fin q) (Fin 100) None (Some (Some (Fin c1), Some (Fin c2))) 0%nat e0 ex_task cs built state_tuples ex_reqs eq_refl) 
      with (loads := [1]%Z) (gens := [2]%Z) (dess := [3]%Z) as (_ & R); auto.
    { rewrite exe_sim. apply ex_requested. } { apply ex_no_default. } { apply exe_bounds. }
    destruct (R ex_or seed 0%nat H0) as (ob & Ob).
    { exact Hb. } { apply Ha. } { fold e. rewrite A1. exact Nn. }
    exists e', ob. split; [rewrite <- A1; fold e in Ob; rewrite <- Ob; destruct (env_reset _ _ _ _); reflexivity|].
    split; [|symmetry; exact (f_equal snd A2)]. split; [eauto|]. split; [rewrite A4; replace (50/10) with 5 by lra; apply ex_form1|]. split.
    - pose proof (env_reset_const ex_or ex_task seed e) as Q. destruct (env_reset ex_or ex_task seed e) as (e1, r1). cbn in A1. subst e1. destruct (Q _ _ eq_refl) as (_ & _ & Qt & _). exact Qt.
    - exists st. split; auto. lia.
  Qed.
  Lemma exe_reset cs seed : exists e' ob, env_reset ex_or ex_task seed (erun ex_task e0 cs) = (e', Ok ob) /\ exlive 5 e'.
  Proof. destruct (exe_reset_rng cs seed) as (e' & ob & R & L & _). eauto. Qed.

  Lemma ex_layout x : layout [1]%Z [2]%Z [3]%Z [Fin (-5); Fin (5/2); x] ex_idle_act ex_ind.
  Proof.
    split; [|split].
    - intros [|[|k]] i E; try discriminate E. injection E as <-. reflexivity.
    - intros [|[|k]] i E; try discriminate E. injection E as <-. repeat split.
    - intros [|[|k]] i E; try discriminate E. injection E as <-. repeat split.
  Qed.

  Lemma exe_step_state e : 1/16 <= c1 -> 0 <= c2 -> exlive 5 e ->
    exists e' ob, env_step ex_or ex_task ex_idle_act e = (e', Ok (mkOut ob (Fin (- (1/16 + Rmin c2 (25 * Rabs (1 - w))))) false false)) /\ exlive 5 e' /\
      e_sim e' = ex_sim2 w 5 /\ e_rng e' = S (e_rng e) /\
      exists st', e_state e' = Some st' /\ state_layout [0; 1; 2; 3]%Z [2]%Z [3]%Z 1 (e_sim e') [Fin (INR (e_rng e))] st'.
  Proof.
    intros Hc1 Hc2 ((cs & ->) & Fm & Ht & st & Hst & Ls).
    pose proof (good_erun _ _ _ _ _ _ _ _ _ _ ex_task cs built) as Hg. destruct (ex_ids w) as (D1 & D2 & D3 & D4).
    set (e := erun ex_task e0 cs) in *. assert (V : valid_action e ex_idle_act) by (apply exe_action; auto).
    assert (H5 : 1 <= 5 <= 10) by lra. pose proof (ex_idle w 5 _ Fm H5) as Tr.
    assert (Hn : t_next ex_task st (e_rng e) = (Ok [Fin (-5); Fin (5/2); Fin (INR (e_rng e))], S (e_rng e))) by reflexivity.
    destruct (step_after ex_or ex_task ex_idle_act e st _ _ ex_ind _ _ _ _ _ _ _ _ _ Hg V Ht Hst Hn D2 D3 D4 eq_refl (ex_layout _) Ls Tr) as (S1 & S2 & S3 & S4 & S5 & S6 & _).
    destruct (S6 eq_refl) as (st' & T1 & T2 & T3 & T4 & T5 & T6). clear S6.
    destruct (C62_step_returns (ex_nwk (2/10) w) ObsState 1 (Fin (1/4)) (Fin q) (Fin 100) None (Some (Some (Fin c1), Some (Fin c2))) 0%nat e0 ex_task cs built state_tuples ex_reqs eq_refl) 
      with (loads := [1]%Z) (gens := [2]%Z) (dess := [3]%Z) as (R & _); auto.
    { rewrite exe_sim. apply ex_requested. } { apply ex_no_default. } { apply exe_bounds. }
    destruct (R ex_or ex_idle_act st _ _ ex_ind _ _ _ _ _ _ V Ht Hst Ls Hn eq_refl (ex_layout _) Tr) as (_ & _ & _ & R1 & _).
    fold e in R1. set (e' := fst (env_step ex_or ex_task ex_idle_act e)) in *.
    assert (Ee : e' = erun ex_task e0 (cs ++ [EStep ex_or ex_idle_act])).
    { unfold erun. rewrite fold_left_app. reflexivity. }
    specialize (T5 _ D1). cbn [List.length Nat.add skipn] in T5. change (Z.to_nat 1) with 1%nat in T5. rewrite <- S1 in T5.
    destruct (exe_no_nan e' st' 5 (INR (e_rng e)) (or_intror S1)) as (Nn & Ls'); auto; [rewrite Ee; apply exe_K|].
    destruct (R1 eq_refl Nn) as (ob & r & Er).
    assert (Er2 : r = nopp (nadd (e_eloss e') (e_pen e'))).
    { destruct (C28_step_reward (ex_nwk (2/10) w) ObsState 1 (Fin (1/4)) (Fin q) (Fin 100) None (Some (Some (Fin c1), Some (Fin c2))) 0%nat e0 ex_task cs built [1]%Z [2]%Z [3]%Z) with
        (C1 := Fin c1) (C2 := Fin c2) (Or := ex_or) (a := ex_idle_act) (e' := e') (out := mkOut ob r false false) as (x1 & x2 & x3 & x4 & x5 & x6 & x7 & _ & _ & _ & _ & Q & _); auto.
      - apply xleb_t; lra.
      - apply xleb_t; lra.
      - fold e. rewrite <- Er. unfold e'. destruct (env_step _ _ _ _); reflexivity. }
    assert (Ex : e_eloss e' = Fin (1/16)).
    { rewrite T3. unfold clip_eloss. rewrite (gd_clip _ Hg). cbn [clip_arg fst snd]. unfold np_sign, np_clip, np_max, np_min. cbn [nabs XRnum xabs]. rewrite Rabs_pos_eq by lra.
      destruct (Req_dec c1 (1/16)) as [->|]; xeval; xsame. }
    assert (Ep : e_pen e' = Fin (Rmin c2 (25 * Rabs (1 - w)))).
    { rewrite T4. unfold clip_pen. rewrite (gd_clip _ Hg). cbn [clip_arg fst snd]. pose proof (Rabs_pos (1 - w)). set (y := 25 * Rabs (1 - w)) in *. assert (Hy : 0 <= y) by (unfold y; lra). clearbody y.
      unfold Rmin. destruct (Rle_dec c2 y) as [L|L]; (destruct (Req_dec y 0); [subst y|]); (destruct (Req_dec c2 0); [subst c2|]); try (exfalso; lra); unfold np_clip, np_max, np_min; 
      try (destruct (Req_dec c2 y); [subst y|]); xeval; xsame. }
    rewrite Ex, Ep in Er2. exists e', ob. split; [rewrite Er2 in Er; transitivity (e', snd (env_step ex_or ex_task ex_idle_act e)); [unfold e'; destruct (env_step _ _ _ _); reflexivity|rewrite Er; reflexivity]|].
    split. { split; [eauto|]. split; [rewrite S1; apply ex_form2|]. split; [exact S5|]. exists st'. split; [auto|lia]. }
    split; [exact S1|]. split; [exact S2|]. exists st'. split; [auto|exact T5].
  Qed.
  Lemma exe_step e : 1/16 <= c1 -> 0 <= c2 -> exlive 5 e ->
    exists e' ob, env_step ex_or ex_task ex_idle_act e = (e', Ok (mkOut ob (Fin (- (1/16 + Rmin c2 (25 * Rabs (1 - w))))) false false)) /\ exlive 5 e'.
  Proof. intros H1 H2 L. destruct (exe_step_state e H1 H2 L) as (e' & ob & E & L' & _). eauto. Qed.

  (** a step whose power flow does not converge *)
  Lemma exe_collapse e : exlive 5 e ->
    (q < 1 -> exists e', env_step ex_or2 ex_task ex_idle_act e = (e', Ok (mkOut (repeat (Fin 0) 11) (Fin (- c2 / (1 - q))) true false))) /\
    (q = 1 -> snd (env_step ex_or2 ex_task ex_idle_act e) = Err ZeroDivisionError).
  Proof.
    intros ((cs & ->) & Fm & Ht & st & Hst & Ls).
    pose proof (good_erun _ _ _ _ _ _ _ _ _ _ ex_task cs built) as Hg. destruct (ex_ids w) as (D1 & D2 & D3 & D4).
    set (e := erun ex_task e0 cs) in *. assert (V : valid_action e ex_idle_act) by (apply exe_action; auto).
    assert (H5 : 1 <= 5 <= 10) by lra. destruct (ex_fail w 5 _ Fm H5) as (s' & fl & rr & el & pen & Tr & _).
    assert (Hn : t_next ex_task st (e_rng e) = (Ok [Fin (-5); Fin (5/2); Fin (INR (e_rng e))], S (e_rng e))) by reflexivity.
    split; intros Q.
    - destruct (C62_step_returns (ex_nwk (2/10) w) ObsState 1 (Fin (1/4)) (Fin q) (Fin 100) None (Some (Some (Fin c1), Some (Fin c2))) 0%nat e0 ex_task cs built state_tuples ex_reqs eq_refl) 
        with (loads := [1]%Z) (gens := [2]%Z) (dess := [3]%Z) as (R & _); auto.
      { rewrite exe_sim. apply ex_requested. } { apply ex_no_default. } { apply exe_bounds. }
      destruct (R ex_or2 ex_idle_act st _ _ ex_ind _ _ _ _ _ _ V Ht Hst Ls Hn eq_refl (ex_layout _) Tr) as (_ & _ & _ & _ & R1).
      exists (fst (env_step ex_or2 ex_task ex_idle_act e)). rewrite (surjective_pairing (env_step ex_or2 ex_task ex_idle_act e)) at 1. f_equal. fold e in R1. rewrite R1; auto.
      + cbn [penalty_limit nopp nsub ndiv XRnum n1 xopp xsub]. rewrite xdiv_Fin by lra. reflexivity.
      + cbn [nsub neqb n1 n0 XRnum xsub]. apply xeqb_f. lra.
    - destruct (step_after ex_or2 ex_task ex_idle_act e st _ _ ex_ind _ _ _ _ _ _ _ _ _ Hg V Ht Hst Hn D2 D3 D4 eq_refl (ex_layout _) Ls Tr) as (_ & _ & _ & _ & _ & _ & _ & S7).
      apply S7; auto. rewrite (gd_gamma _ Hg). cbn [nsub neqb n1 n0 XRnum xsub]. apply xeqb_t. lra.
  Qed.

  (** no sample makes the power flow converge *)
  Lemma exe_never seed e k : attempt ex_or2 (e_sim e0) (state_size e0) (draw ex_task (gen_at ex_task seed e) k) false.
  Proof.
    assert (P : exists g', fst (draw ex_task (gen_at ex_task seed e) k) = Ok (ex_vec 50 ++ [Fin (INR g')])).
    { generalize (gen_at ex_task seed e). induction k; intros g; cbn [draw]; [exists g; reflexivity|apply IHk]. }
    destruct P as (g' & P). exists (ex_vec 50 ++ [Fin (INR g')]). split; [exact P|]. split.
    - unfold state_size. rewrite exe_sim. pose proof (exe_K []) as Ek. cbn [erun fold_left] in Ek. rewrite Ek. reflexivity.
    - rewrite exe_sim. apply ex_reset_fail.
  Qed.
End ExE.
