(** C81: the environment of examples/simple_env.py. *)
From Coq Require Import Reals Lra Lia.
From Coquelicot Require Import Complex.
From Verif Require Import Base Num NumXR Devices BusBranch CheckNetwork LoadFlow Simulator EnvArgs Env Anm6 Examples LibBase LibNum LibSim LibXR LibEval LibC
  SpecNet SpecSim ProofSim ProofSoc ProofReset SpecEnv ProofEnv ProofStep ProofState ProofDraw ProofEnvOk SpecObs ProofArgs SpecDev SpecQp SpecPf SpecTotal SpecAnm6 PropSet PropPf PropSet PropTotal PropReward SpecEpisode PropEpisode
  ProofEasy PropEasy PropMake PropEasy2 ExNet ProofAnm6 SpecLight ProofLight4 ProofLin ProofSimple PropLight.
Local Open Scope string_scope.
Local Open Scope list_scope.
Local Open Scope R_scope.
Set Bullet Behavior "Strict Subproofs".

(** A call with exact solvers; a step takes the only action there is, the empty vector. *)
Definition exact_call (c : ecall XR) : Prop :=
  match c with
  | EReset Or _ => good_oracles Or /\ exact_lin (o_lin Or)
  | EStep Or a => good_oracles Or /\ exact_lin (o_lin Or) /\ a = []
  end.
(** ... and what its user sees. *)
Definition fine {G} (T : task XR G) (e : env XR G) (c : ecall XR) : Prop :=
  match c with
  | EReset Or seed => exists ob, snd (env_reset Or T seed e) = Ok ob
  | EStep Or a => exists out r, snd (env_step Or T a e) = Ok out /\ so_terminated out = false /\ so_reward out = Fin r /\ -101 <= r <= 1
  end.

Notation s_auxb := (Some [(n0, nofZ 10)] : option (list (XR * XR))).
Notation s_clip := (Some (Some n1, Some (nofZ 100)) : option (option XR * option XR)).
Lemma sx_env {G} (g : G) : simple_env (F := XR) g = env_init simplex ObsState 1 (Fin (1/4)) (Fin (9/10)) (Fin 100) s_auxb s_clip g.
Proof. unfold simple_env. rewrite !nrat_XR by lia. reflexivity. Qed.
Lemma sx_args : ~ bad_args 1 (Fin (1/4) : XR) (Fin (9/10)) (Fin 100) (@ObsState XR) s_auxb.
Proof.
  intros [B|[B|[B|[B|[B|[B|(l & B & B')]]]]]]; try discriminate B; try lia.
  - cbn [nleb n0 n1 XRnum] in B. rewrite xleb_f in B by lra. discriminate.
  - cbn [nltb n0 n1 XRnum nofZ] in B. rewrite xltb_f in B by lra. discriminate.
  - cbn [nltb n0 n1 XRnum nofZ] in B. rewrite xltb_f in B by lra. discriminate.
  - cbn [nltb n0 n1 XRnum nofZ] in B. rewrite xltb_f in B by lra. discriminate.
  - injection B as <-. apply B'. reflexivity.
Qed.
Lemma sx_made {G} (g : G) : exists e0, simple_env (F := XR) g = Ok e0.
Proof. rewrite sx_env. destruct (sx_sim (Fin (1/4)) (Fin 100)) as (s & Es & _). exact (state_ok simplex 1 _ _ _ _ _ g s Es sx_args). Qed.

Definition sx_reqs : list (list req) :=
  [ map (fun i => ("dev_p", Some "MW", EId i)) [0; 1]%Z; map (fun i => ("dev_q", Some "MVAr", EId i)) [0; 1]%Z; []; []; [("aux", None, EId 0%Z)] ].
Lemma sx_requested (s : sim XR) : sm_devs s = sx_devs -> Forall2 (fun t r => requested s 1 t = Some r) state_tuples sx_reqs.
Proof.
  intros E. repeat apply Forall2_cons; try apply Forall2_nil; unfold requested, elements, get_state_space; cbn [String.eqb Ascii.eqb Bool.eqb dget default_unit]; try rewrite E; reflexivity.
Qed.
Lemma sx_bounds (s : sim XR) r b : sm_devs s = sx_devs -> sm_base s = Fin 100 -> In r (List.concat sx_reqs) -> req_bound s s_auxb r = Some b -> nleb (fst b) (snd b) = true.
Proof.
  intros Ed Eb I E. cbn [sx_reqs List.concat app map] in I.
  cbn [In] in I. repeat destruct I as [<-|I]; try destruct I; unfold req_bound in E; cbn [String.eqb Ascii.eqb Bool.eqb] in E.
  all: try (unfold bound, get_state_space in E; rewrite Ed, Eb in E; cbn in E; injection E as <-; xeval; reflexivity).
  cbn in E. injection E as <-. cbn. apply Rleb_spec. lra.
Qed.
Lemma sx_plain_tuples t : In t state_tuples -> ~ i_magn_default t.
Proof. intros I. cbn [state_tuples In] in I. decompose [or] I; try contradiction; subst t; unfold i_magn_default; intros (? & H); discriminate. Qed.

Lemma randn_spec {G} (ro : rng_ops XR G) n g : rng_sound ro -> List.length (fst (randn ro n g)) = n /\ Forall (fun x => exists v, x = Fin v /\ 0 <= v <= 1) (fst (randn ro n g)).
Proof.
  intros Rs. revert g. induction n as [|n IH]; intros g; [split; constructor|]. cbn [randn]. unfold rand1. cbn [n0 n1 XRnum].
  destruct (unif_between ro 0 1 g Rs ltac:(lra)) as (x & E & B). destruct (r_unif ro (Fin 0) (Fin 1) g) as (x', g1). cbn [fst] in E. subst x'.
  specialize (IH g1). destruct (randn ro n g1) as (xs, g2). cbn [fst List.length] in *. destruct IH as (L & Fx). split; [lia|]. constructor; eauto.
Qed.

Section Simple.
  Context {G : Type} (ro : rng_ops XR G) (sf : Z -> G) (Rs : rng_sound ro) (g : G) (e0 : env XR G) (built : simple_env g = Ok e0).
  Let s0 := e_sim e0.
  Let T := simple_task ro sf s0.
  Lemma sx_built : env_init simplex ObsState 1 (Fin (1/4)) (Fin (9/10)) (Fin 100) s_auxb s_clip g = Ok e0.
  Proof. rewrite <- sx_env. exact built. Qed.
  Lemma sx_sim0 : sim_init simplex (Fin (1/4)) (Fin 100) = Ok s0.
  Proof. exact (gd_sim0 _ (good_erun _ _ _ _ _ _ _ _ _ _ T [] sx_built)). Qed.
  Lemma sx_s0 : sm_devs s0 = sx_devs /\ sm_base s0 = Fin 100.
  Proof. destruct (sx_sim (Fin (1/4)) (Fin 100)) as (s & Es & Ed & Eb). rewrite sx_sim0 in Es. injection Es as <-. auto. Qed.
  Lemma sx_next st gr : exists vars, fst (simple_next ro st gr) = Ok vars /\ List.length vars = 2%nat /\ Forall fin vars.
  Proof.
    unfold simple_next, rand1. cbn [n0 n1 XRnum]. destruct (unif_between ro 0 1 gr Rs ltac:(lra)) as (x & E & B). destruct (r_unif ro (Fin 0) (Fin 1) gr) as (x', g1). cbn [fst] in E. subst x'.
    destruct (r_int ro 0%Z 10%Z g1) as (a, g2). eexists. split; [reflexivity|]. split; [reflexivity|]. repeat (apply Forall_cons; [eexists; reflexivity|]). constructor.
  Qed.
  Lemma sx_init gr : exists init, fst (t_init T gr) = Ok init /\ List.length init = 5%nat /\ Forall fin init.
  Proof.
    unfold T. cbn [t_init simple_task]. unfold simple_init. rewrite (proj1 sx_s0). unfold n_des, n_nsgen. rewrite (proj1 sx_s0). cbn [List.length sx_devs filter is_stor is_nsgen ax_slack ax_load d_spec d_type].
    match goal with |- context [randn ro ?n gr] => change n with 5%nat end. destruct (randn_spec ro 5 gr Rs) as (L & Fx). destruct (randn ro 5 gr) as (xs, g1). cbn [fst] in *.
    exists xs. split; [reflexivity|]. split; [auto|]. eapply Forall_impl; [|exact Fx]. intros x (v & -> & _). exists v. reflexivity.
  Qed.
  Lemma sx_good_task : good_task simplex 1 s0 T.
  Proof.
    split.
    - intros gr. destruct (sx_init gr) as (init & E & L & Fi). exists init. split; [exact E|]. split; [exact L|]. split; [exact Fi|].
      intros k i lo hi x Hk. exfalso. rewrite storage_ids_eq in Hk. rewrite (proj1 sx_s0) in Hk. destruct k; discriminate Hk.
    - intros st gr L Fs. apply sx_next.
  Qed.
  Lemma sx_action a : valid_action e0 a <-> a = [].
  Proof.
    unfold valid_action. pose proof (good_erun _ _ _ _ _ _ _ _ _ _ T [] sx_built) as Hg. pose proof (gd_aspace _ Hg) as Q. cbn [erun fold_left] in Q. rewrite Q. destruct sx_s0 as (Ed & Eb).
    unfold build_action_space, get_action_space. fold s0. rewrite Ed, Eb. split; [|intros ->; reflexivity]. destruct a; [reflexivity|discriminate].
  Qed.

  Lemma sx_attempt Or gr : good_oracles Or -> exact_lin (o_lin Or) -> attempt Or s0 5 (t_init T gr) true.
  Proof.
    intros Go Ex. destruct (sx_init gr) as (init & E & L & Fi). exists init. split; [exact E|]. split; [exact L|].
    assert (Ok1 : is_ok (snd (sim_reset Or init s0)) = true).
    { apply (C68_reset_never_raises simplex (1/4) (Fin 100) s0 100 [] Or init sx_sim0 eq_refl ltac:(lra) sx_mappable sx_solvable Go); auto. rewrite L. cbn. lia. }
    pose proof (C80_simple_network (Fin (1/4)) (Fin 100) s0 [] (CReset Or init) sx_sim0 Ok1 Ex) as Cv. cbn in Cv.
    destruct (sim_reset Or init s0) as (s', [b|x]) eqn:R; [|discriminate Ok1]. cbn [fst snd] in *. f_equal.
    apply sim_reset_ok in R as (inp & ds & s1 & st1 & r1 & x1 & p1 & ds2 & _ & _ & Et & _ & ->). cbn in Cv. apply transition_ok in Et as (_ & _ & ds' & v & i & T1).
    pose proof (tk_conv _ _ _ _ _ _ _ _ T1) as C. rewrite C in Cv. assert (Q : Some b = Some true); [|congruence]. apply Cv. intros x Hx. rewrite Forall_forall in Fi. apply Fi. destruct init as [|? [|? ?]]; try discriminate Hx. injection Hx as ->. right. left. reflexivity.
  Qed.

  Lemma sx_good_call c : exact_call c -> good_call e0 c.
  Proof. destruct c as [Or sd|Or a]; cbn [exact_call good_call]; [tauto|]. intros (H & _ & ->). split; [auto|]. split; [constructor|]. apply sx_action. reflexivity. Qed.
  Lemma sx_returns Or seed cs : Forall exact_call (EReset Or seed :: cs) -> forall cs1 c cs2, EReset Or seed :: cs = cs1 ++ c :: cs2 ->
    match c with EReset Or seed => exists ob, snd (env_reset Or T seed (erun T e0 cs1)) = Ok ob | EStep Or a => exists out, snd (env_step Or T a (erun T e0 cs1)) = Ok out end.
  Proof.
    intros Hc cs1 c cs2 E.
    assert (Ng : neqb (nsub n1 (Fin (9/10))) (n0 : XR) = false) by (cbn; apply Reqb_false; lra).
    assert (HB : ordered_bounds s_auxb e0 sx_reqs) by (intros r b I Eb; apply (sx_bounds s0 r b); auto; apply sx_s0).
    pose proof (C70_episodes_return G simplex ObsState 1 (1/4) (Fin (9/10)) (Fin 100) s_auxb s_clip g e0 T 100 state_tuples sx_reqs Or seed cs sx_built eq_refl ltac:(lra) sx_mappable sx_solvable
      sx_br_fin sx_bus_fin sx_numbered eq_refl (sx_requested s0 (proj1 sx_s0)) sx_plain_tuples HB Ng sx_good_task) as R.
    assert (Gc : Forall (good_call e0) (EReset Or seed :: cs)) by (eapply Forall_impl; [|exact Hc]; exact sx_good_call).
    specialize (R Gc cs1 c cs2 E). destruct c as [Or' sd|Or' a]; cbn [returns] in R; [|exact R]. destruct R as [R|(_ & R)]; [exact R|].
    exfalso. rewrite E in Hc. apply Forall_app in Hc as (_ & Hc). apply Forall_inv in Hc. destruct Hc as (Go & Ex).
    pose proof (attempt_det _ _ _ _ _ _ (sx_attempt Or' (gen_at T sd (erun T e0 cs1)) Go Ex) (R 0%nat ltac:(lia))). discriminate.
  Qed.

  Lemma dget_combine_in {A} (P : A -> Prop) l xs i x : Forall P xs -> dget Z.eqb (combine l xs) i = Some x -> P x.
  Proof.
    revert xs. induction l as [|a l IH]; intros [|y xs] Fx E; try discriminate E. inversion Fx; subst. cbn [combine dget] in E. destruct (Z.eqb i a); [injection E as <-; auto|eauto].
  Qed.
  (** an episode that is under way stays so *)
  Lemma sx_step Or a cs1 e' out : good_oracles Or -> exact_lin (o_lin Or) -> e_term (erun T e0 cs1) = Some false ->
    env_step Or T a (erun T e0 cs1) = (e', Ok out) -> e_term e' = Some false /\ so_terminated out = false.
  Proof.
    intros Go Ex Te E. pose proof (good_erun _ _ _ _ _ _ _ _ _ _ T cs1 sx_built) as Hg.
    destruct (gd_step_inv _ _ _ _ _ _ Hg E) as [(Tt & _)|(st & vars & el & pen & conv & L)]; [congruence|].
    destruct (lv_trans _ _ _ _ _ _ _ _ _ _ _ L) as (fl & rr & Tr).
    destruct (erun_sim e0 T cs1) as (scs & Es). rewrite Es in Tr.
    assert (Fv : Forall fin vars). { pose proof (lv_next _ _ _ _ _ _ _ _ _ _ _ L) as N. destruct (sx_next st (e_rng (erun T e0 cs1))) as (v & Ev & _ & Fv). change (simple_next ro st (e_rng (erun T e0 cs1)) = (Ok vars, e_rng e')) in N. rewrite N in Ev. cbn [fst] in Ev. congruence. }
    assert (conv = true) as ->.
    { assert (R : returned (run s0 scs) (CTrans Or (step_inputs (erun T e0 cs1) vars a))) by (cbn [returned]; fold s0 in Tr; rewrite Tr; reflexivity).
      pose proof (C80_simple_network (Fin (1/4)) (Fin 100) s0 scs _ sx_sim0 R Ex) as Cv. unfold run in Cv. rewrite fold_left_app in Cv. cbn [fold_left run_call] in Cv. fold (run s0 scs) in Cv. fold s0 in Tr. rewrite Tr in Cv. cbn [fst] in Cv.
      apply transition_ok in Tr as (_ & _ & ds' & v & i & T1). pose proof (tk_conv _ _ _ _ _ _ _ _ T1) as C. rewrite C in Cv.
      assert (Q : Some conv = Some true); [|congruence]. apply Cv. cbn [finite_load step_inputs ti_load]. intros x. apply dget_combine_in. rewrite <- (firstn_skipn (n_load (e_sim (erun T e0 cs1))) vars) in Fv. apply Forall_app in Fv as (Fv & _). exact Fv. }
    split; [apply L|]. destruct (lv_conv _ _ _ _ _ _ _ _ _ _ _ L eq_refl) as (_ & _ & st2 & ov & sp & _ & _ & _ & _ & -> & _). reflexivity.
  Qed.
  Lemma sx_running Or seed cs : Forall exact_call (EReset Or seed :: cs) -> e_term (erun T e0 (EReset Or seed :: cs)) = Some false.
  Proof.
    induction cs as [|c cs IH] using rev_ind; intros Hc.
    - cbn [erun fold_left run_ecall]. destruct (env_reset Or T seed e0) as (e1, r) eqn:Er. destruct (env_reset_const _ _ _ _ _ _ Er) as (_ & _ & Qt & _). exact Qt.
    - pose proof (sx_returns Or seed (cs ++ [c]) Hc (EReset Or seed :: cs) c [] eq_refl) as R. rewrite app_comm_cons in *. apply Forall_app in Hc as (Hc & H1). specialize (IH Hc). apply Forall_inv in H1.
      unfold erun in *. rewrite fold_left_app. cbn [fold_left]. fold (erun T e0 (EReset Or seed :: cs)) in *. destruct c as [Or' sd|Or' a]; cbn [run_ecall].
      + destruct (env_reset Or' T sd _) as (e1, r) eqn:Er. destruct (env_reset_const _ _ _ _ _ _ Er) as (_ & _ & Qt & _). exact Qt.
      + destruct R as (out & R). destruct H1 as (Go & Ex & _). destruct (env_step Or' T a _) as (e1, r) eqn:Er. cbn [fst snd] in *. subst r. eapply (sx_step Or' a (EReset Or seed :: cs)); eauto.
  Qed.
  Lemma sx_fine Or seed cs : Forall exact_call (EReset Or seed :: cs) -> forall cs1 c cs2, EReset Or seed :: cs = cs1 ++ c :: cs2 -> fine T (erun T e0 cs1) c.
  Proof.
    intros Hc cs1 c cs2 E. pose proof (sx_returns Or seed cs Hc cs1 c cs2 E) as R. destruct c as [Or' sd|Or' a]; cbn [fine]; [exact R|]. destruct R as (out & R).
    destruct cs1 as [|x cs1]; [discriminate E|]. injection E as <- E.
    assert (H1 : Forall exact_call (EReset Or seed :: cs1) /\ exact_call (EStep Or' a)). { rewrite E in Hc. rewrite app_comm_cons in Hc. apply Forall_app in Hc as (A & B). apply Forall_inv in B. auto. }
    destruct H1 as (H1 & Go & Ex & _). pose proof (sx_running Or seed cs1 H1) as Te.
    destruct (env_step Or' T a (erun T e0 (EReset Or seed :: cs1))) as (e', r) eqn:Er. cbn [snd] in R. subst r.
    destruct (sx_step Or' a _ e' out Go Ex Te Er) as (_ & Tf).
    destruct (ids_ex _ _ _ _ sx_sim0) as (devs & loads & gens & dess & _ & I2 & I3 & I4).
    destruct (C28_reward_bounds simplex ObsState 1 (Fin (1/4)) (Fin (9/10)) (Fin 100) s_auxb s_clip g e0 T (EReset Or seed :: cs1) sx_built loads gens dess I2 I3 I4 1 100 (1/4) 100 100 Or' a e' out) as (x & y & _ & _ & Rw & _ & _ & B);
      try reflexivity; try lra; auto using sx_br_fin, sx_bus_fin, sx_numbered, sx_alone.
    { intros r I. unfold of_type, simple_network in I. cbn in I. destruct I. }
    exists out, (- (x + y)). split; [reflexivity|]. split; [exact Tf|]. split; [exact Rw|lra].
  Qed.
End Simple.

(** C81, in exact arithmetic: whatever the random draws, examples/simple_env.py can be constructed, its action space contains the empty action and
    nothing else, and whatever the sequence of resets (seeded or not) and of steps, starting with a reset, every reset returns an observation and
    every step returns, does not end the episode, and gives a reward between -101 and 1. *)
Theorem C81_simple_environment : forall (G : Type) (ro : rng_ops XR G) (sf : Z -> G) (g : G), rng_sound ro ->
  exists e0, simple_env g = Ok e0 /\ (forall a, valid_action e0 a <-> a = []) /\
    let T := simple_task ro sf (e_sim e0) in
    forall Or seed cs, Forall exact_call (EReset Or seed :: cs) ->
    forall cs1 c cs2, EReset Or seed :: cs = cs1 ++ c :: cs2 -> fine T (erun T e0 cs1) c.
Proof.
  intros G ro sf g Rs. destruct (sx_made g) as (e0 & B). exists e0. split; [exact B|]. split; [exact (sx_action ro sf g e0 B)|]. intros T Or seed cs. exact (sx_fine ro sf Rs g e0 B Or seed cs).
Qed.
(** Solvers as [exact_call] wants them exist. *)
Theorem C81_solvers_exist : exists Or : oracles XR, good_oracles Or /\ exact_lin (o_lin Or).
Proof.
  destruct C06_solver_exists as (qp & _ & Qe & Qc). exists (mkOr qp exact_solver). split; [split; [exact Qe|split; [exact Qc|apply exact_solver_total]]|apply exact_solver_exact].
Qed.

Print Assumptions C81_simple_environment. Print Assumptions C81_solvers_exist.
