(** Property C35: saving the state vector after a transition and resetting to it. *)
From Coq Require Import Reals Lra.
From Verif Require Import Base Num NumXR Devices BusBranch CheckNetwork LoadFlow Simulator LibBase LibNum LibSim LibXR
  ProofNet LibInit SpecSim SpecEnv ProofEnv SpecDev SpecQp LibQp ProofEnergy ProofRestore LibEval ExNet ExRun ExEnv PropSet.
Local Open Scope string_scope.
Local Open Scope list_scope.
Local Open Scope R_scope.

Set Bullet Behavior "Strict Subproofs".

(** C35: let [vec] list, in the layout [P, Q, SoC, P_max, aux] of the environment, the values
    reported after a transition that returned.  A [reset] to [vec], at any later or earlier point of
    any other history of the same simulator, gives back the same object: every device injection,
    potential, state of charge, voltage, current and flow, the reported state, and the convergence
    flag.  The linear solver is the same function; the QP solver of the reset solves solvable
    problems; the rows are those of C06. *)
Theorem C35_save_restore : forall (nw : network XR) d lamb s0 b Or Or' inp cs cl cs' s' st r e pen conv devs gens dess K aux vec,
  sim_init nw (Fin d) lamb = Ok s0 -> nw_base nw = Fin b -> 0 < d -> Forall mappable (nw_dev nw) ->
  returned (run s0 cs) cl ->
  (forall i v, obs (run s0 (cs ++ [cl])) "des_soc" "pu" (EId i) = Some v ->
     exists c, v = Fin c /\ forall lo hi, bound s0 "des_soc" "pu" (EId i) = Some (lo, hi) -> within (Fin c) lo hi) ->
  usable_inputs nw inp -> qp_sound 0 (o_qp Or) ->
  transition Or inp (run s0 (cs ++ [cl])) = (s', Ok (st, r, e, pen, conv)) ->
  ids_of nw ALL devs -> ids_of nw GENS gens -> ids_of nw STORS dess ->
  state_layout devs gens dess K s' aux vec ->
  o_lin Or' = o_lin Or -> qp_exact (o_qp Or') -> qp_complete (o_qp Or') ->
  sim_reset Or' vec (run s0 cs') = (s', Ok conv).
Proof.
  intros nw d lamb s0 b Or Or' inp cs cl cs' s' st r e pen conv devs gens dess K aux vec H Eb Hd Mp.
  exact (C35_lemma nw lamb s0 b d H Eb Hd Mp Or Or' inp cs cl cs' s' st r e pen conv devs gens dess K aux vec).
Qed.

(** The concrete transition of ExRun.v, with a discharging storage unit, a curtailed generator and
    the vector its state gives, meets the hypotheses, for every exact solver. *)
Example C35_ex : exists qp vec,
  qp_exact qp /\ qp_complete qp /\
  state_layout [0; 1; 2; 3]%Z [2]%Z [3]%Z 1 (ex_sim1 (Fin (50/10 - 1/72))) [Fin 7] vec /\
  sim_reset (mkOr qp ex_lin) vec ex_sim0 = (ex_sim1 (Fin (50/10 - 1/72)), Ok true).
Proof.
  destruct C06_solver_exists as (qp & _ & Qe & Qc). destruct C06_ex as (E1 & E2 & E3 & E4 & E5).
  assert (L : exists vec, state_layout [0; 1; 2; 3]%Z [2]%Z [3]%Z 1 (ex_sim1 (Fin (50/10 - 1/72))) [Fin 7] vec).
  { eexists. split; [reflexivity|].
    match goal with |- map Some ?x = _ ++ _ =>
      instantiate (1 := map (fun z => nmul (Fin z) (Fin 10)) [1/2; -5/10; 2/10; 1/20] ++ map (fun z => nmul (Fin z) (Fin 10)) [0; - (2/10)/2; (2/10)/2; 0] ++
        [nmul (Fin (50/10 - 1/72)) (Fin 10)] ++ [nmul (Fin (1/4)) (Fin 10)] ++ [Fin 7]) end. reflexivity. }
  destruct L as (vec & L). exists qp, vec. split; auto. split; auto. split; auto.
  destruct (ex_ids 1) as (I1 & _ & I2 & I3).
  refine (C35_save_restore ex_nw (1/4) (Fin 100) ex_sim0 10 ex_or (mkOr qp ex_lin) ex_in [] ex_reset_call [] _ _ _ _ _ _ _ _ _ _ _ vec
    E1 eq_refl _ E2 E3 E5 E4 ex_qp_sound ex_step I1 I2 I3 L eq_refl Qe Qc). lra.
Qed.
Print Assumptions C35_save_restore.
