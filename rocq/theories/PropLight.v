(** C80: lightly loaded networks never collapse. *)
From Coq Require Import Reals Lra Lia.
From Coquelicot Require Import Complex.
From Verif Require Import Base Num NumXR Devices BusBranch CheckNetwork LoadFlow Simulator Examples LibBase LibNum LibSim LibXR LibEval LibC SpecSim SpecDev SpecPf SpecTotal ProofSim PropTotal
  SpecLight ProofLight4 ProofLin ProofLight5 ProofSimple ExNet.
Local Open Scope string_scope.
Local Open Scope list_scope.
Local Open Scope R_scope.
Set Bullet Behavior "Strict Subproofs".

(** C80, in exact arithmetic, with an exact linear solver: a network of lines without charging and with nominal taps, whose impedance
    matrix has rows of size at most [z] and whose admittance matrix has rows of size at most [y].  After any history, whenever a
    reset or a transition returns and the powers of the devices at each bus other than the slack bus do not exceed [s] with
    48 (z y) (z s) <= 1, Newton's method has converged. *)
Theorem C80_light_load : forall (nw : network XR) dt lamb s0 b Zm z y s cs c,
  sim_init nw dt lamb = Ok s0 -> nw_base nw = Fin b -> Forall branch_row_fin (nw_br nw) -> numbered nw ->
  flat_rest nw -> impedance nw Zm z -> admits nw y -> 48 * (z * y) * (z * s) <= 1 -> z * y * s <= 10 ^ 20 ->
  returned (run s0 cs) c -> exact_lin (o_lin (call_or c)) -> injections_below nw (run s0 (cs ++ [c])) s ->
  sm_conv (run s0 (cs ++ [c])) = Some true.
Proof.
  intros nw dt lamb s0 b Zm z y s cs c H0 Eb Hr Hn Hf HZ Hy Hc Ht R L. unfold run at 1 2. rewrite fold_left_app. cbn [fold_left].
  apply (light_call nw dt lamb s0 H0 b Eb Hr Hn Zm z y s Hf HZ Hy Hc Ht (run s0 cs) c (strip_run s0 cs) R L).
Qed.

(** Every connected network of such lines tolerates some load: there is an [eps] below which no call ever reports a collapse. *)
Theorem C80_light_enough : forall (nw : network XR) dt lamb s0 b,
  sim_init nw dt lamb = Ok s0 -> nw_base nw = Fin b -> Forall branch_row_fin (nw_br nw) -> numbered nw ->
  Forall plain_line (nw_br nw) -> connected nw ->
  exists eps, 0 < eps /\ forall cs c, returned (run s0 cs) c -> exact_lin (o_lin (call_or c)) ->
    injections_below nw (run s0 (cs ++ [c])) eps -> sm_conv (run s0 (cs ++ [c])) = Some true.
Proof.
  intros nw dt lamb s0 b H0 Eb Hr Hn Hp Hc. destruct (light_enough nw dt lamb s0 H0 b Eb Hr Hn Hp Hc) as (eps & E0 & H). exists eps. split; auto.
  intros cs c R L. unfold run at 1 2. rewrite fold_left_app. cbn [fold_left]. apply H; auto. apply strip_run.
Qed.

(** The solver these theorems ask for exists (and always answers). *)
Theorem C80_solver_exists : exists lin, exact_lin lin /\ lin_total lin.
Proof. exists exact_solver. split; [apply exact_solver_exact|apply exact_solver_total]. Qed.

(** ---- the network of examples/simple_env.py ---- *)
(** Its only load takes at most 10 MW: it never collapses, whatever the requests. *)
Theorem C80_simple_network : forall dt lamb s0 cs c, sim_init simplex dt lamb = Ok s0 ->
  returned (run s0 cs) c -> exact_lin (o_lin (call_or c)) -> finite_load c -> sm_conv (run s0 (cs ++ [c])) = Some true.
Proof.
  intros dt lamb s0 cs c H0 R L Fl.
  apply (C80_light_load simplex dt lamb s0 100 (fun _ _ => sz) (1005/10000) 20 (1025/10000) cs c H0 eq_refl sx_br_fin sx_numbered sx_flat sx_impedance sx_admits); auto; try lra.
  unfold run at 1. rewrite fold_left_app. cbn [fold_left]. apply (sx_light dt lamb s0 H0 cs c R Fl).
Qed.
Example C80_ex : exists s0, sim_init simplex (Fin (1/4)) (Fin 100) = Ok s0 /\
  Forall branch_row_fin (nw_br simplex) /\ numbered simplex /\ Forall plain_line (nw_br simplex) /\ connected simplex /\
  flat_rest simplex /\ impedance simplex (fun _ _ => sz) (1005/10000) /\ admits simplex 20 /\ 48 * (1005/10000 * 20) * (1005/10000 * (1025/10000)) <= 1.
Proof.
  destruct (sx_sim (Fin (1/4)) (Fin 100)) as (s0 & E & _). exists s0.
  repeat (split; [first [exact E|exact sx_br_fin|exact sx_numbered|exact sx_plain|exact sx_connected|exact sx_flat|exact sx_impedance|exact sx_admits]|]). lra.
Qed.

Print Assumptions C80_light_load. Print Assumptions C80_light_enough. Print Assumptions C80_solver_exists. Print Assumptions C80_simple_network.
