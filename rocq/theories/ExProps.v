(** Concrete cases for the environment properties: the four-device network of ExNet.v, driven through
    construction, reset, a converging step and a collapsing step.  Each Example names the theorems whose
    hypotheses it meets. *)
From Coq Require Import Reals Lra.
From Verif Require Import Base Num NumXR Devices BusBranch CheckNetwork LoadFlow Simulator EnvArgs Env LibBase LibNum LibSim LibXR
  SpecNet ProofNet LibInit SpecSim ProofSim ProofObs ProofHist ProofReset ProofDevs SpecEnv ProofEnv ProofStep ProofState ProofDraw ProofEnvOk
  SpecObs ProofArgs PropEnv PropObs PropReset ProofLive PropReward LibEval ExNet ExRun ExEnv.
Local Open Scope string_scope.
Local Open Scope list_scope.
Local Open Scope R_scope.
Set Bullet Behavior "Strict Subproofs".

(** C28, C29, C36, C37, C38, C39, C42, C43, C62: an environment is built; after any history a reset returns; the
    idle action is then in the action space, exogenous variables of the documented length are laid out as inputs, and
    the step returns a reward of -(1/16 + 25) without terminating; the same action with a power flow that does not
    converge terminates. *)
Example ex_env_runs : exists e0 : env XR nat, ex_args 2 (9/10) 1 100 = Ok e0 /\
  ids_of (ex_nwk (2/10) 2) ALL [0; 1; 2; 3]%Z /\ ids_of (ex_nwk (2/10) 2) LOADS [1]%Z /\
  ids_of (ex_nwk (2/10) 2) GENS [2]%Z /\ ids_of (ex_nwk (2/10) 2) STORS [3]%Z /\
  forall cs seed, exists e ob, env_reset ex_or ex_task seed (erun ex_task e0 cs) = (e, Ok ob) /\
    valid_action e ex_idle_act /\ e_term e = Some false /\
    (exists st vars gr, e_state e = Some st /\ t_next ex_task st (e_rng e) = (Ok vars, gr) /\
       List.length vars = (List.length [1]%Z + List.length [2]%Z + Z.to_nat 1)%nat /\ layout [1]%Z [2]%Z [3]%Z vars ex_idle_act ex_ind) /\
    (exists e' out, env_step ex_or ex_task ex_idle_act e = (e', Ok out) /\ so_terminated out = false /\ so_reward out = Fin (- (1/16 + 25))) /\
    (exists e' out, env_step ex_or2 ex_task ex_idle_act e = (e', Ok out) /\ so_terminated out = true /\ so_reward out = Fin (-1000)).
Proof.
  destruct (ex_built 2 (9/10) 1 100) as (e0 & B); [lra|lra|]. exists e0. split; [exact B|].
  destruct (ex_ids 2) as (D1 & D2 & D3 & D4). do 4 (split; [assumption|]). intros cs seed.
  destruct (exe_reset 2 (9/10) 1 100 e0 ltac:(lra) ltac:(lra) B cs seed) as (e & ob & R & L).
  exists e, ob. split; [exact R|]. split.
  { destruct L as ((cs' & ->) & _). apply (exe_action 2 (9/10) 1 100 e0 ltac:(lra) B). apply (good_erun _ _ _ _ _ _ _ _ _ _ ex_task cs' B). }
  split; [apply L|]. split.
  { destruct L as (_ & _ & _ & st & Hst & _). do 3 eexists. split; [exact Hst|]. split; [reflexivity|]. split; [reflexivity|]. apply ex_layout. }
  split.
  - destruct (exe_step 2 (9/10) 1 100 e0 ltac:(lra) ltac:(lra) B e ltac:(lra) ltac:(lra) L) as (e' & ob' & E & _). do 2 eexists. split; [exact E|]. split; [reflexivity|].
    cbn [so_reward]. do 3 f_equal. rewrite Rabs_left by lra. rewrite Rmin_right; lra.
  - destruct (exe_collapse 2 (9/10) 1 100 e0 ltac:(lra) ltac:(lra) B e L) as (Q & _). destruct Q as (e' & Q); [lra|]. do 2 eexists. split; [exact Q|]. split; [reflexivity|].
    cbn [so_reward]. f_equal. lra.
Qed.

(** C62, C40: the remaining hypotheses, on the same environment *)
Example ex_env_obs : exists e0 : env XR nat, ex_args 2 (9/10) 1 100 = Ok e0 /\
  tuples_of (@ObsState XR) = Some state_tuples /\ Forall2 (fun t r => requested (e_sim e0) 1 t = Some r) state_tuples ex_reqs /\
  (forall t, In t state_tuples -> ~ i_magn_default t) /\ ~ bad_args 1 (Fin (1/4)) (Fin (9/10)) (Fin 100) (@ObsState XR) None /\
  ordered_bounds None e0 ex_reqs.
Proof.
  destruct (ex_built 2 (9/10) 1 100) as (e0 & B); [lra|lra|]. exists e0. split; [exact B|]. split; [reflexivity|].
  split. { rewrite (exe_sim 2 (9/10) 1 100 e0 ltac:(lra) B). apply ex_requested. }
  split; [apply ex_no_default|]. split; [apply ex_args_ok; lra|]. apply (exe_bounds 2 (9/10) 1 100 e0 ltac:(lra) B).
Qed.

(** C41: the hypotheses on failing samples are met with a power flow that never converges; the reset then
    raises AttributeError instead of a documented error *)
Example ex_hundredth : exists e0 : env XR nat, ex_args 2 (9/10) 1 100 = Ok e0 /\
  forall cs seed, snd (env_reset ex_or2 ex_task seed (erun ex_task e0 cs)) = Err AttributeError.
Proof.
  destruct (ex_built 2 (9/10) 1 100) as (e0 & B); [lra|lra|]. exists e0. split; [exact B|]. intros cs seed.
  eapply C41_hundredth; [exact B|..].
  - intros j _. apply (exe_never 2 (9/10) 1 100 e0 ltac:(lra) B).
  - exists false. apply (exe_never 2 (9/10) 1 100 e0 ltac:(lra) B).
Qed.

(** C40, C59: arguments that meet the hypotheses of the two refutations *)
Example ex_i_magn : exists s0, sim_init (ex_nwk (2/10) 2) (Fin (1/4)) (Fin 100) = Ok s0 /\ nw_br (ex_nwk (2/10) 2) <> [] /\
  ~ bad_args 1 (Fin (1/4)) (Fin (9/10)) (Fin 100) (ObsList [OT2 "branch_i_magn" NAll] : obs_arg XR) None.
Proof.
  eexists. split; [apply ex_initk; lra|]. split; [discriminate|].
  intros [B|[B|[B|[B|[B|[B|(l & B & _)]]]]]]; try discriminate B; try lia.
  - cbn [nleb n0 n1 XRnum] in B. rewrite xleb_f in B by lra. discriminate.
  - cbn [nltb n0 n1 XRnum] in B. rewrite xltb_f in B by lra. discriminate.
  - cbn [nltb n0 n1 XRnum] in B. rewrite xltb_f in B by lra. discriminate.
  - cbn [nleb nltb n0 n1 XRnum] in B. first [rewrite xleb_f in B by lra|rewrite xltb_f in B by lra]. discriminate.
Qed.
Example ex_neg_aux : exists s0, sim_init (ex_nwk (2/10) 2) (Fin (1/4)) (Fin 100) = Ok s0 /\ nw_dev (ex_nwk (2/10) 2) <> [] /\
  ~ bad_args 1 (Fin (1/4)) (Fin (9/10)) (Fin 100) (ObsList [OT2 "aux" (NList [EId (-1)])] : obs_arg XR) None.
Proof.
  eexists. split; [apply ex_initk; lra|]. split; [discriminate|].
  intros [B|[B|[B|[B|[B|[B|(l & B & _)]]]]]]; try discriminate B; try lia.
  - cbn [nleb n0 n1 XRnum] in B. rewrite xleb_f in B by lra. discriminate.
  - cbn [nltb n0 n1 XRnum] in B. rewrite xltb_f in B by lra. discriminate.
  - cbn [nltb n0 n1 XRnum] in B. rewrite xltb_f in B by lra. discriminate.
  - cbn [nleb nltb n0 n1 XRnum] in B. first [rewrite xleb_f in B by lra|rewrite xltb_f in B by lra]. discriminate.
Qed.

(** C61: an environment whose observation is the state itself, given as a callable, is built and never resets *)
Example ex_callable : exists e0 : env XR nat,
  env_init (ex_nwk (2/10) 2) (ObsFun (fun st => mkObs true st)) 1 (Fin (1/4)) (Fin (9/10)) (Fin 100) None None 0%nat = Ok e0 /\
  forall cs Or seed, is_ok (snd (env_reset Or ex_task seed (erun ex_task e0 cs))) = false.
Proof.
  assert (X : exists e0 : env XR nat, env_init (ex_nwk (2/10) 2) (ObsFun (fun st => mkObs true st)) 1 (Fin (1/4)) (Fin (9/10)) (Fin 100) None None 0%nat = Ok e0).
  { destruct (C59_argument_checks (ex_nwk (2/10) 2) (ObsFun (fun st => mkObs true st)) 1 (Fin (1/4)) (Fin (9/10)) (Fin 100) None None 0%nat
      _ (ex_initk (w:=2) ltac:(lra))) as (_ & _ & _ & A & _). apply A; [|discriminate].
    intros [B|[B|[B|[B|[B|[B|(l & B & _)]]]]]]; try discriminate B; try lia.
    - cbn [nleb n0 n1 XRnum] in B. rewrite xleb_f in B by lra. discriminate.
    - cbn [nltb n0 n1 XRnum] in B. rewrite xltb_f in B by lra. discriminate.
    - cbn [nltb n0 n1 XRnum] in B. rewrite xltb_f in B by lra. discriminate.
    - cbn [nltb n0 n1 XRnum] in B. rewrite xltb_f in B by lra. discriminate. }
  destruct X as (e0 & B). exists e0. split; [exact B|]. intros cs Or seed.
  destruct (env_reset Or ex_task seed (erun ex_task e0 cs)) as (e', [ob|x]) eqn:E; [|reflexivity].
  exfalso. exact (C61_callable_refuted _ _ _ _ _ _ _ _ _ _ _ cs B (fun st => mkObs true st) eq_refl (fun _ => eq_refl) Or seed e' ob E).
Qed.

(** C60: two environments built with different generators and different histories, reset with the same seed *)
Example ex_seeded : exists e0 e0' : env XR nat, ex_args 2 (9/10) 1 100 = Ok e0 /\
  env_init (ex_nwk (2/10) 2) ObsState 1 (Fin (1/4)) (Fin (9/10)) (Fin 100) None (Some (Some (Fin 1), Some (Fin 100))) 7%nat = Ok e0' /\
  forall cs cs' later, outputs ex_task (erun ex_task e0 cs) (EReset ex_or (Some 3%Z) :: later) = outputs ex_task (erun ex_task e0' cs') (EReset ex_or (Some 3%Z) :: later).
Proof.
  destruct (ex_built 2 (9/10) 1 100) as (e0 & B); [lra|lra|].
  assert (X : exists e0' : env XR nat, env_init (ex_nwk (2/10) 2) ObsState 1 (Fin (1/4)) (Fin (9/10)) (Fin 100) None (Some (Some (Fin 1), Some (Fin 100))) 7%nat = Ok e0').
  { destruct (C59_argument_checks (ex_nwk (2/10) 2) ObsState 1 (Fin (1/4)) (Fin (9/10)) (Fin 100) None (Some (Some (Fin 1), Some (Fin 100))) 7%nat
      _ (ex_initk (w:=2) ltac:(lra))) as (_ & _ & _ & A & _). apply A; [|discriminate]. apply ex_args_ok. lra. }
  destruct X as (e0' & B'). exists e0, e0'. split; [exact B|]. split; [exact B'|]. intros cs cs' later.
  destruct (exe_reset 2 (9/10) 1 100 e0 ltac:(lra) ltac:(lra) B cs (Some 3%Z)) as (e & ob & R & L).
  destruct (C60_seeded _ _ _ _ _ _ _ _ _ _ _ _ ex_task cs cs' B B' ltac:(discriminate) ex_or 3%Z) as (_ & Q). apply (Q ob). rewrite R. reflexivity.
Qed.
