(** C70: whole histories of an environment that never raise. *)
From Coq Require Import Reals Lra.
From Verif Require Import Base Num NumXR Devices BusBranch CheckNetwork LoadFlow Simulator EnvArgs Env LibBase LibNum LibSim LibXR LibEval
  SpecNet SpecSim ProofSim SpecEnv ProofStep ProofState ProofDraw ProofEnvOk SpecObs ProofArgs LibC SpecDev SpecQp SpecPf SpecTotal PropSet PropPf PropTotal PropReward SpecEpisode ProofEpisode
  ExNet ExRun ExEnv.
Local Open Scope string_scope.
Local Open Scope list_scope.
Local Open Scope R_scope.
Set Bullet Behavior "Strict Subproofs".

(** C70, in exact arithmetic: an environment on a network that passes the documented conditions, with an
    [init_state] and a [next_vars] that honour their contract and a discount factor other than 1.  Whatever the
    sequence of resets (seeded or not) and of steps with finite actions of the action space, of any length, starting with a
    reset: every step returns, and a reset returns unless the power flow diverges for 99 samples in a row. *)
Theorem C70_episodes_return : forall (G : Type) (nw : network XR) o K d gamma lamb auxb clip (g : G) e0 T b l rs Or seed cs,
  env_init nw o K (Fin d) gamma lamb auxb clip g = Ok e0 ->
  nw_base nw = Fin b -> 0 < d -> Forall mappable (nw_dev nw) -> solvable_network nw ->
  Forall branch_row_fin (nw_br nw) -> Forall bus_row_fin (nw_bus nw) -> numbered nw ->
  tuples_of o = Some l -> Forall2 (fun t r => requested (e_sim e0) K t = Some r) l rs -> (forall t, In t l -> ~ i_magn_default t) ->
  ordered_bounds auxb e0 rs -> neqb (nsub n1 gamma) n0 = false -> good_task nw K (e_sim e0) T ->
  Forall (good_call e0) (EReset Or seed :: cs) ->
  forall cs1 c cs2, EReset Or seed :: cs = cs1 ++ c :: cs2 -> returns T (e_sim e0) (vec_size nw K) (erun T e0 cs1) c.
Proof.
  intros G nw o K d gamma lamb auxb clip g e0 T b l rs Or seed cs built Eb Hd Mp Sv H1 H2 H3 Hl Hr Hdm HB Hg GT Gc cs1 c cs2 E.
  rewrite <- (ep_size nw o K d gamma lamb auxb clip g e0 T built).
  apply (calls_alive nw o K d gamma lamb auxb clip g e0 T built b Eb Hd Mp Sv H1 H2 H3 l rs Hl Hr Hdm HB Hg GT (EReset Or seed) cs Gc) with (cs2 := cs2); eauto.
Qed.
(** If in addition every sample of [init_state] converges within 99 draws, nothing raises at all. *)
Theorem C70_nothing_raises : forall (G : Type) (nw : network XR) o K d gamma lamb auxb clip (g : G) e0 T b l rs Or seed cs,
  env_init nw o K (Fin d) gamma lamb auxb clip g = Ok e0 ->
  nw_base nw = Fin b -> 0 < d -> Forall mappable (nw_dev nw) -> solvable_network nw ->
  Forall branch_row_fin (nw_br nw) -> Forall bus_row_fin (nw_bus nw) -> numbered nw ->
  tuples_of o = Some l -> Forall2 (fun t r => requested (e_sim e0) K t = Some r) l rs -> (forall t, In t l -> ~ i_magn_default t) ->
  ordered_bounds auxb e0 rs -> neqb (nsub n1 gamma) n0 = false -> good_task nw K (e_sim e0) T ->
  Forall (good_call e0) (EReset Or seed :: cs) ->
  (forall Or' seed' g', In (EReset Or' seed') (EReset Or seed :: cs) -> exists j, (j < 99)%nat /\ attempt Or' (e_sim e0) (vec_size nw K) (draw T g' j) true) ->
  Forall (fun r => match r with inl x => is_ok x = true | inr x => is_ok x = true end) (outputs T e0 (EReset Or seed :: cs)).
Proof.
  intros G nw o K d gamma lamb auxb clip g e0 T b l rs Or seed cs built Eb Hd Mp Sv H1 H2 H3 Hl Hr Hdm HB Hg GT Gc Hc.
  pose proof (C70_episodes_return G nw o K d gamma lamb auxb clip g e0 T b l rs Or seed cs built Eb Hd Mp Sv H1 H2 H3 Hl Hr Hdm HB Hg GT Gc) as R. clear Gc.
  revert R Hc. generalize (EReset Or seed :: cs). clear -nw. intros calls R Hc.
  assert (Q : forall cs2 cs1, calls = cs1 ++ cs2 -> Forall (fun r => match r with inl x => is_ok x = true | inr x => is_ok x = true end) (outputs T (erun T e0 cs1) cs2)).
  { induction cs2 as [|c cs2 IH]; intros cs1 E; [constructor|]. cbn [outputs]. apply Forall_cons.
    - pose proof (R cs1 c cs2 E) as Rc. destruct c as [Or' seed'|Or' a]; cbn [returns] in Rc.
      + destruct Rc as [(ob & ->)|(_ & Rc)]; [reflexivity|]. exfalso. destruct (Hc Or' seed' (gen_at T seed' (erun T e0 cs1))) as (j & Lj & A).
        { rewrite E. apply in_or_app. right. left. reflexivity. }
        pose proof (attempt_det _ _ _ _ _ _ A (Rc j Lj)). discriminate.
      + destruct Rc as (out & ->). reflexivity.
    - replace (run_ecall T (erun T e0 cs1) c) with (erun T e0 (cs1 ++ [c])) by (unfold erun; rewrite fold_left_app; reflexivity).
      apply IH. rewrite <- app_assoc. exact E. }
  apply (Q calls []). reflexivity.
Qed.

(** ---- the hypotheses are met ---- *)
Lemma ex_good_task w : good_task (ex_nwk (2/10) w) 1 (ex_simk (2/10) w) ex_task.
Proof.
  split.
  - intros g. eexists. split; [reflexivity|]. split; [reflexivity|]. split.
    + repeat (apply Forall_cons; [exact (fin_Fin _)|]). apply Forall_nil.
    + intros k i lo hi c Ek Bd Ec. destruct k as [|k]; [|destruct k; discriminate Ek].
      assert (Ei : i = EId 3) by (cbn in Ek; congruence). subst i. unfold bound, get_state_space, ex_simk in Bd. cbn in Bd. injection Bd as <- <-.
      cbn in Ec. injection Ec as <-. cbn [ex_simk sm_base ndiv XRnum]. rewrite xdiv_Fin by lra. split; apply xleb_t; lra.
  - intros st g _ _. eexists. split; [reflexivity|]. split; [reflexivity|]. repeat (apply Forall_cons; [exact (fin_Fin _)|]). apply Forall_nil.
Qed.
(** An environment, and solvers, for which arbitrarily many episodes of arbitrary lengths return. *)
Example C70_ex : exists (e0 : env XR nat) Or, ex_args 1 (995/1000) 1 100 = Ok e0 /\ good_oracles Or /\
  forall (lens : list nat) cs1 c cs2, List.concat (map (fun n => EReset Or (Some (Z.of_nat n)) :: repeat (EStep Or ex_idle_act) n) lens) = cs1 ++ c :: cs2 ->
    returns ex_task (ex_simk (2/10) 1) 11 (erun ex_task e0 cs1) c.
Proof.
  destruct C06_solver_exists as (qp & _ & Qe & Qc). destruct (ex_built 1 (995/1000) 1 100) as (e0 & B); [lra|lra|]. exists e0, (mkOr qp gauss_solve).
  assert (Go : good_oracles (mkOr qp gauss_solve)) by (split; [exact Qe|split; [exact Qc|apply C68_linear_solver_exists]]).
  split; [exact B|]. split; [exact Go|]. intros lens cs1 c cs2 E.
  destruct lens as [|n lens]; [destruct cs1; discriminate E|]. cbn [map List.concat app] in E.
  assert (W : 0 <= 1) by lra. assert (Q : 0 <= 995/1000 <= 1) by lra.
  pose proof (exe_sim 1 (995/1000) 1 100 e0 W B) as Es. rewrite <- Es.
  refine (C70_episodes_return nat _ _ 1 (1/4) _ _ _ _ _ e0 ex_task 10 state_tuples ex_reqs (mkOr qp gauss_solve) (Some (Z.of_nat n)) _ B eq_refl _ _ _ _ _ _ eq_refl _ _ _ _ _ _ cs1 c cs2 E).
  - lra.
  - apply C06_ex.
  - apply ex_solvable.
  - apply ex_br_fin.
  - apply ex_bus_fin.
  - apply ex_numbered.
  - rewrite Es. apply ex_requested.
  - apply ex_no_default.
  - eapply exe_bounds; eauto.
  - cbn [nsub neqb n1 n0 XRnum xsub]. apply xeqb_f. lra.
  - rewrite Es. apply ex_good_task.
  - assert (V : valid_action e0 ex_idle_act).
    { apply (exe_action 1 (995/1000) 1 100 e0 W B). exact (good_erun _ _ _ _ _ _ _ _ _ _ ex_task [] B). }
    assert (Gs : good_call e0 (EStep (mkOr qp gauss_solve) ex_idle_act)).
    { split; [exact Go|]. split; [|exact V]. repeat (apply Forall_cons; [exact (fin_Fin _)|]). apply Forall_nil. }
    assert (Gr : forall m, Forall (good_call e0) (repeat (EStep (mkOr qp gauss_solve) ex_idle_act) m)).
    { intros m. apply Forall_forall. intros x I. apply repeat_spec in I. subst x. exact Gs. }
    apply Forall_cons; [exact Go|]. apply Forall_app. split; [apply Gr|]. clear E. induction lens as [|m lens IH]; [constructor|].
    cbn [map List.concat app]. apply Forall_cons; [exact Go|]. apply Forall_app. split; [apply Gr|exact IH].
Qed.
Print Assumptions C70_episodes_return.
Print Assumptions C70_nothing_raises.
