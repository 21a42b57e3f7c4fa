(** C76: the order of the rows of a network file does not matter. *)
From Coq Require Import Reals Lra Permutation.
From Verif Require Import Base Num NumXR NumFloat Devices BusBranch CheckNetwork LoadFlow Simulator EnvArgs Env LibBase SpecNet LibInit SpecSim SpecEnv ProofPf PropMake SpecOrder ProofOrder ProofOrder2 ProofOrder3.
Local Open Scope string_scope.
Local Open Scope list_scope.
Set Bullet Behavior "Strict Subproofs".

(** C76: in every arithmetic, moving the rows of buses and of devices gives the same simulator and the same environment. *)
Theorem C76_bus_device_order : forall (F : Type) (N : Num F) (nw nw' : network F), reordered nw nw' -> nw_br nw' = nw_br nw ->
  (forall dt lamb s, sim_init nw dt lamb = Ok s -> sim_init nw' dt lamb = Ok s) /\
  (forall (G : Type) o K dt gamma lamb auxb clip (g : G) e,
     env_init nw o K dt gamma lamb auxb clip g = Ok e -> env_init nw' o K dt gamma lamb auxb clip g = Ok e).
Proof.
  intros F N nw nw' Re Er.
  assert (Si : forall dt lamb s, sim_init nw dt lamb = Ok s -> sim_init nw' dt lamb = Ok s).
  { intros dt lamb s E. destruct (sim_init_built _ _ _ _ E) as (bs & ds & B). destruct (init_reordered _ _ _ _ _ _ _ Re B) as (brs' & _ & Eq & K).
    rewrite (Eq Er) in K. rewrite (K _ (bt_Y _ _ _ _ _ _ B)). f_equal.
    pose proof (bt_dt _ _ _ _ _ _ B). pose proof (bt_lamb _ _ _ _ _ _ B). pose proof (bt_state _ _ _ _ _ _ B). pose proof (bt_conv _ _ _ _ _ _ B). destruct s; cbn in *. congruence. }
  split; auto. intros G o K dt gamma lamb auxb clip g e E. unfold env_init in *. apply bind_ok in E as (s & Es & E). rewrite (Si _ _ _ Es). exact E.
Qed.

Lemma file_ids_nonneg {F} (nw : network F) : Forall (fun i => 0 <= i)%Z (file_ids nw) -> forall r i, In r (nw_bus nw) -> br_id r = Some i -> (0 <= i)%Z.
Proof. intros Nn r i I E. rewrite Forall_forall in Nn. apply Nn. unfold file_ids. apply in_flat_map. exists r. rewrite E. cbn; auto. Qed.
Lemma XaddA (x y z : XR) : nadd x (nadd y z) = nadd (nadd x y) z.
Proof. apply xadd_assoc. Qed.
Lemma XaddC (x y : XR) : nadd x y = nadd y x.
Proof. apply xadd_comm. Qed.
Lemma init_like (nw nw' : network XR) dt lamb s : reordered nw nw' -> Forall (fun i => 0 <= i)%Z (file_ids nw) -> sim_init nw dt lamb = Ok s ->
  exists s', sim_init nw' dt lamb = Ok s' /\ like s s'.
Proof.
  intros Re Nn E. destruct (sim_init_built _ _ _ _ E) as (bs & ds & B). destruct (init_reordered _ _ _ _ _ _ _ Re B) as (brs' & P & _ & K).
  pose proof (Y_reordered XaddA XaddC _ _ _ _ _ _ _ B (file_ids_nonneg _ Nn) P) as EY. eexists. split; [apply (K _ EY)|]. exists brs', None.
  pose proof (bt_dt _ _ _ _ _ _ B). pose proof (bt_lamb _ _ _ _ _ _ B). pose proof (bt_state _ _ _ _ _ _ B) as Es. pose proof (bt_conv _ _ _ _ _ _ B) as Ec. pose proof (bt_brnodup _ _ _ _ _ _ B).
  split; [|split; [auto|split; [auto|]]]; [|rewrite Es; exact I]. destruct s; cbn in *. unfold sim_set_state, sim_set_branches. cbn. congruence.
Qed.

(** C76: in exact arithmetic with non-negative bus IDs, moving any rows (including those of branches) gives a simulator that nobody can tell apart: the same
    bounds, the same admittance matrix, and after any history of calls the same values of every quantity, the same rewards, costs, flags and exceptions. *)
Theorem C76_row_order : forall (nw nw' : network XR) dt lamb s, reordered nw nw' -> Forall (fun i => 0 <= i)%Z (file_ids nw) -> sim_init nw dt lamb = Ok s ->
  exists s', sim_init nw' dt lamb = Ok s' /\ sm_Y s' = sm_Y s /\ (forall k u i, bound s' k u i = bound s k u i) /\
    forall cs, (forall k u i, obs (run s' cs) k u i = obs (run s cs) k u i) /\
      (forall Or inp, same_result (snd (transition Or inp (run s cs))) (snd (transition Or inp (run s' cs)))) /\
      (forall Or init, snd (sim_reset Or init (run s' cs)) = snd (sim_reset Or init (run s cs))).
Proof.
  intros nw nw' dt lamb s Re Nn E. destruct (init_like _ _ _ _ _ Re Nn E) as (s' & E' & L). exists s'. split; auto.
  destruct (like_fields _ _ L) as (_ & _ & _ & _ & _ & EY & _). split; auto. split.
  { intros k u i. destruct (space_like _ _ L) as (Ek & Eg). specialize (Eg k i). unfold bound. unfold bget in Eg.
    destruct (dget_keys (get_state_space s) (get_state_space s') k Ek) as [(E1 & E2)|(v & w & E1 & E2)]; rewrite E1, E2 in *; auto. rewrite Eg. reflexivity. }
  intros cs. assert (Lr : like (run s cs) (run s' cs)).
  { clear E E' EY. revert s s' L. induction cs as [|c cs IH]; intros s s' L; [exact L|]. cbn. apply IH. destruct c; cbn; [apply (reset_like XaddA XaddC)|apply (transition_like XaddA XaddC)]; auto. }
  split; [|split].
  - intros k u i. unfold obs. destruct Lr as (brs' & st' & -> & _ & _ & A). cbn [sim_set_state sm_state]. destruct (sm_state (run s cs)), st'; cbn in A; try contradiction; auto. symmetry. apply A.
  - intros Or inp. apply (transition_like XaddA XaddC); auto.
  - intros Or init. apply (reset_like XaddA XaddC); auto.
Qed.

(** C76, for environments whose observation does not ask for 'all' the branches: the same spaces and, after any history of calls, the same observations,
    rewards, flags and exceptions. *)
Theorem C76_env_row_order : forall (nw nw' : network XR) (G : Type) o K dt gamma lamb auxb clip (g : G) e, reordered nw nw' -> Forall (fun i => 0 <= i)%Z (file_ids nw) ->
  lists_branches o -> env_init nw o K dt gamma lamb auxb clip g = Ok e ->
  exists e', env_init nw' o K dt gamma lamb auxb clip g = Ok e' /\
    forall (T : task XR G) cs, e_aspace (erun T e' cs) = e_aspace (erun T e cs) /\ e_ospace (erun T e' cs) = e_ospace (erun T e cs) /\
      e_state (erun T e' cs) = e_state (erun T e cs) /\ e_term (erun T e' cs) = e_term (erun T e cs) /\
      (forall Or seed, snd (env_reset Or T seed (erun T e' cs)) = snd (env_reset Or T seed (erun T e cs))) /\
      (forall Or a, snd (env_step Or T a (erun T e' cs)) = snd (env_step Or T a (erun T e cs))).
Proof.
  intros nw nw' G o K dt gamma lamb auxb clip g e Re Nn Lb E.
  assert (Es : exists s, sim_init nw dt lamb = Ok s) by (unfold env_init in E; apply bind_ok in E as (s & Es & _); eauto). destruct Es as (s & Es).
  destruct (init_like _ _ _ _ _ Re Nn Es) as (s' & Es' & L).
  destruct (einit_like _ _ _ _ _ _ _ _ _ _ _ _ _ Es Es' L Lb E) as (e' & E' & Le). exists e'. split; auto. intros T cs.
  assert (Lr : elike (erun T e cs) (erun T e' cs)).
  { clear -Le. revert e e' Le. induction cs as [|c cs IH]; intros e e' L; [exact L|]. cbn. apply IH. destruct c; cbn; [apply (ereset_like XaddA XaddC)|apply (estep_like XaddA XaddC)]; auto. }
  destruct (elike_fields _ _ Lr) as (_ & _ & _ & _ & _ & _ & E1 & E2 & E3 & _ & E4 & _). repeat split; auto.
  - intros Or seed. apply (ereset_like XaddA XaddC); auto.
  - intros Or a. apply (estep_like XaddA XaddC); auto.
Qed.

Print Assumptions C76_bus_device_order.
Print Assumptions C76_row_order.
Print Assumptions C76_env_row_order.
