(** C94 on the concrete network: a request that is not met, and a step of an environment. *)
From Coq Require Import Reals Lra.
From Verif Require Import Base Num NumXR Devices BusBranch CheckNetwork LoadFlow Simulator EnvArgs Env LibBase LibNum LibXR LibEval LibInit SpecSim ProofSim SpecDev SpecQp SpecEnv ProofStep ProofDraw ProofEnvOk ExNet ExRun ExExec PropSet PropExec PropResend.
Local Open Scope string_scope.
Local Open Scope list_scope.
Local Open Scope R_scope.
Set Bullet Behavior "Strict Subproofs".

(** A solver that answers 2 MW and 1 MVAr to every request of 3 MW or more, and 3 MW and 4 MVAr are requested from the generator. *)
Definition low_qp : qp_solver XR := fun rows pt => if xleb (Fin (3/10)) (fst pt) then ex_qp rows (Fin (2/10), Fin (2/10/2)) else ex_qp rows pt.
Definition high_in : tr_in XR := mkIn [(1%Z, Fin (-5))] [(2%Z, Fin (5/2))] [(2%Z, Fin 3); (3%Z, Fin (1/2))] [(2%Z, Fin 4); (3%Z, Fin 0)].
Lemma low_sound : qp_sound 0 low_qp.
Proof. intros rows req a b. unfold low_qp. destruct (xleb _ _); apply ex_qp_sound. Qed.
Lemma high_devs p0 q0 p1 q1 p2 q2 p3 q3 pot soc : 1 <= soc <= 10 ->
  devs_transition low_qp (Fin 10) (Fin (1/4)) high_in [exo_slack p0 q0; exo_load (2/10) p1 q1; exo_rer p2 q2 pot; exo_stor p3 q3 (Some (Fin soc))] =
  (ex_devs (2/10) 0 (Fin (soc - 1/72)), Ok tt).
Proof.
  intros H. unfold ex_devs, high_in, exo_slack, exo_load, exo_rer, exo_stor.
  cbn [devs_transition dev_transition d_spec d_slack d_type Z.eqb ti_load ti_pot ti_p ti_q dgetE dget d_id Z.eqb Pos.eqb fst snd d_soc bind].
  unfold load_map_pq, gen_clip_ppot, gen_map_pq, stor_map_pq, stor_rows, pydiv, low_qp, ex_qp, stor_update_soc.
  cbn [l_pmin l_pmax l_qp g_pmin g_pmax s_eff s_socmin s_socmax d_ppot d_set_ppot d_set_pq d_set_soc ndiv nsub nopp nmul XRnum fst snd].
  xeval. unfold d_set_soc, d_set_pq, d_set_ppot. xunfo. cbn [d_id d_bus d_type d_spec d_p d_q d_ppot d_soc]. xsame.
Qed.
Lemma high_step : transition (mkOr low_qp ex_lin) high_in (run ex_sim0 ([] ++ [ex_reset_call])) = (ex_sim1 (Fin (50/10 - 1/72)), Ok ex_out).
Proof.
  pose proof ex_step as E. rewrite (proj2 ex_reset_ret) in *. unfold transition in E |- *. cbn [o_qp o_lin ex_or] in E |- *.
  assert (Hs : 1 <= 50/10 <= 10) by lra.
  match type of E with context [devs_transition ?q ?b ?d ?i (sm_devs ?s)] => change (devs_transition q b d i (sm_devs s)) with
    (devs_transition ex_qp (Fin 10) (Fin (1/4)) ex_in (ex_devs (2/10) (1/2) (Fin (50/10)))) in E end.
  match goal with |- context [devs_transition ?q ?b ?d ?i (sm_devs ?s)] => change (devs_transition q b d i (sm_devs s)) with
    (devs_transition low_qp (Fin 10) (Fin (1/4)) high_in (ex_devs (2/10) (1/2) (Fin (50/10)))) end.
  unfold ex_devs at 1 in E. rewrite ex_devs_trans in E by (auto; lra). unfold ex_devs at 1. rewrite high_devs by auto. exact E.
Qed.
Example C94_ex : sim_init ex_nw (Fin (1/4)) (Fin 100) = Ok ex_sim0 /\ nw_base ex_nw = Fin 10 /\ qp_sound 0 low_qp /\
  transition (mkOr low_qp ex_lin) high_in (run ex_sim0 ([] ++ [ex_reset_call])) = (ex_sim1 (Fin (50/10 - 1/72)), Ok ex_out) /\
  sends_back ex_nw (ex_sim1 (Fin (50/10 - 1/72))) high_in ex_in /\
  exists qp, qp_exact qp /\ qp_complete qp /\ transition (mkOr qp ex_lin) ex_in (run ex_sim0 ([] ++ [ex_reset_call])) = (ex_sim1 (Fin (50/10 - 1/72)), Ok ex_out).
Proof.
  split; [exact ex_init|]. split; [reflexivity|]. split; [exact low_sound|]. split; [exact high_step|].
  assert (Sb : sends_back ex_nw (ex_sim1 (Fin (50/10 - 1/72))) high_in ex_in).
  { split; [reflexivity|]. split; [reflexivity|]. intros r i t Ir Ei Et It.
    cbn [nw_dev ex_nwk In] in Ir. destruct Ir as [<-|[<-|[<-|[<-|[]]]]]; injection Ei as <-; injection Et as <-; cbn in It; intuition try discriminate.
    all: match goal with |- _ = obs ?s ?k ?u ?i => let v := eval hnf in (obs s k u i) in change (obs s k u i) with v end; cbn; do 2 f_equal; lra. }
  split; [exact Sb|]. destruct C06_solver_exists as (qp & _ & Qe & Qc). exists qp. split; [exact Qe|]. split; [exact Qc|].
  apply (C94_transition ex_nw (Fin (1/4)) (Fin 100) ex_sim0 ([] ++ [ex_reset_call]) 10 (mkOr low_qp ex_lin) (mkOr qp ex_lin) high_in ex_in); auto using ex_init, low_sound, high_step.
Qed.
(** A step of the environment of [C66_ex]. *)
Example C94_step_ex : exists e0 e' ob r qp a', env_init (ex_nwk 0 1) ObsState 1 (Fin (1/4)) (Fin (9/10)) (Fin 100) None (Some (Some (Fin 1), Some (Fin 100))) 0%nat = Ok e0 /\
  ids_of (ex_nwk 0 1) GENS [2]%Z /\ ids_of (ex_nwk 0 1) STORS [3]%Z /\ qp_sound 0 (o_qp ex_or) /\ qp_exact qp /\ qp_complete qp /\
  let e := erun xx_task e0 [EReset ex_or None] in e_term e = Some false /\ env_step ex_or xx_task xx_plan_act e = (e', Ok (mkOut ob r false false)) /\
  reported_action [2]%Z [3]%Z (e_sim e') a' /\ env_step (mkOr qp ex_lin) xx_task a' e = (e', Ok (mkOut ob r false false)).
Proof.
  destruct C66_ex as (e0 & e' & ob & r & B & H). cbv zeta in H. destruct H as (_ & Ig & Id & _ & _ & _ & _ & Es & _). destruct C06_solver_exists as (qp & _ & Qe & Qc).
  assert (Ee : run_ecall xx_task e0 (EReset ex_or None) = erun xx_task e0 [EReset ex_or None]) by (unfold erun; cbn [fold_left]; reflexivity). rewrite Ee in Es. clear Ee.
  assert (Te : e_term (erun xx_task e0 [EReset ex_or None]) = Some false).
  { destruct (gd_step_inv _ _ _ _ _ _ (good_erun _ _ _ _ _ _ _ _ _ _ xx_task [EReset ex_or None] B) Es) as [(_ & _ & _ & sp & _ & Q)|(st & vars & el & pen & conv & Lv)]; [discriminate Q|]. exact (lv_term _ _ _ _ _ _ _ _ _ _ _ Lv). }
  destruct (C94_step nat (ex_nwk 0 1) ObsState 1 (Fin (1/4)) (Fin (9/10)) (Fin 100) None (Some (Some (Fin 1), Some (Fin 100))) 0%nat e0 xx_task [EReset ex_or None] 10 [2]%Z [3]%Z ex_or (mkOr qp ex_lin) xx_plan_act e' (mkOut ob r false false)
    B eq_refl Ig Id ex_qp_sound Qe Qc eq_refl Te Es) as ((a' & Ra) & A). destruct (A a' Ra) as (_ & Ea).
  exists e0, e', ob, r, qp, a'. do 3 (split; [assumption|]). split; [exact ex_qp_sound|]. split; [exact Qe|]. split; [exact Qc|]. intros e1. split; [exact Te|]. split; [exact Es|]. split; [exact Ra|exact Ea].
Qed.
