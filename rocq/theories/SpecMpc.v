(** Vocabulary for the properties of the MPC agents: what a plan is, when it is feasible, what its entries say. *)
From Coq Require Import Reals.
From Coquelicot Require Import Complex.
From Verif Require Import Base Num NumXR Devices BusBranch CheckNetwork LoadFlow Simulator EnvArgs Env Mpc LibXR SpecSim SpecDev SpecQp SpecPf SpecEnv.
Local Open Scope string_scope.
Local Open Scope list_scope.

(** The entry for device [i] of a vector that has one entry per device, in the order of the IDs [all]. *)
Definition entry {V} (zero : V) (all : list Z) (p : list V) (i : Z) : V :=
  match dget Z.eqb (combine all p) i with Some v => v | None => zero end.

(** The action documented for the agent, before it is clipped: the planned P of the generators in MW, as many zeros, the planned P of the
    storage units in MW, as many zeros. *)
Definition planned_action {F} {N : Num F} (base : F) (all gens dess : list Z) (p : list F) : list F :=
  map (fun i => nmul (entry n0 all p i) base) gens ++ map (fun _ => n0) gens ++
  map (fun i => nmul (entry n0 all p i) base) dess ++ map (fun _ => n0) dess.

(** ---- plans (real numbers) ---- *)
(** One stage: bus angles, device injections, charging and discharging powers of the storage units. *)
Record rstage := mkRstage { rs_ang : list R; rs_p : list R; rs_pc : list R; rs_pd : list R }.
Definition lift (st : rstage) : stage XR := mkStage (map Fin (rs_ang st)) (map Fin (rs_p st)) (map Fin (rs_pc st)) (map Fin (rs_pd st)).
Definition shaped (m : mpc XR) (st : rstage) : Prop :=
  List.length (rs_ang st) = m_nbus m /\ List.length (rs_p st) = m_ndev m /\
  List.length (rs_pc st) = List.length (m_dess m) /\ List.length (rs_pd st) = List.length (m_dess m).
Definition sat (c : constr XR) : Prop := match c with CEq a b => xeqb a b = true | CLe a b => xleb a b = true end.
(** [sts] satisfies all the constraints of the optimization problem that the agent builds for these forecasts and initial SoC *)
Definition feasible (m : mpc XR) (PL PG : list (list XR)) (soc : list XR) (sts : list rstage) : Prop :=
  List.length sts = m_steps m /\ Forall (shaped m) sts /\ Forall sat (plan_constraints m PL PG 0 soc (map lift sts)).

(** The planned state of charge of a unit of efficiency [e], from [c0], after charging and discharging powers [l], in steps of [d] hours *)
Definition planned_soc (e d c0 : R) (l : list (R * R)) : R :=
  (fold_left (fun c x => c + d * e * fst x - d * snd x / e) l c0)%R.
(** The state of charge that the simulator's update law gives for the injections [l]: the energy law of [soc_after], then clipping to
    [lo, hi] *)
Definition simulated_soc (lo hi e d c0 : R) (l : list R) : R :=
  fold_left (fun c p => Rmax lo (Rmin hi (soc_after e d c p))) l c0.

(** A branch without losses or without phase shift *)
Definition lossless_or_unshifted (r : branch_row XR) : Prop := row_r r = 0%R \/ lr_shift r = None \/ lr_shift r = Some (Fin 0).

(** ---- the DC power flow, from the rows of the network file ---- *)
(** Bus IDs are 0..N-1 (rows in any order). *)
Definition contiguous (nw : network XR) : Prop :=
  forall k, In (Some k) (map br_id (nw_bus nw)) <-> (0 <= k < Z.of_nat (List.length (nw_bus nw)))%Z.
Definition unshifted (r : branch_row XR) : Prop := lr_shift r = None \/ lr_shift r = Some (Fin 0).
(** the series susceptance of a branch of impedance r + jx and tap ratio a: x / (a |r + jx|^2) *)
Definition dc_sus (r : branch_row XR) : R := (row_x r / (val_or (lr_tap r) 1 * (row_r r * row_r r + row_x r * row_x r)))%R.
(** the active power flowing from bus [k] into its branches when bus [i] has angle [th i] *)
Definition ang_at (th : Z -> R) (o : option Z) : R := match o with Some k => th k | None => 0%R end.
Definition dc_out (nw : network XR) (th : Z -> R) (k : Z) : R :=
  sumR (map (fun r => (if end_of (lr_f r) k then dc_sus r * (ang_at th (lr_f r) - ang_at th (lr_t r)) else 0) +
                      (if end_of (lr_t r) k then dc_sus r * (ang_at th (lr_t r) - ang_at th (lr_f r)) else 0))%R (nw_br nw)).
(** the planned injections at bus [k] *)
Definition planned_at (nw : network XR) (all : list Z) (p : list R) (k : Z) : R :=
  sumR (map (fun r => match dr_id r with Some i => entry 0%R all p i | None => 0%R end) (rows_at nw k)).

(** ---- executing a plan ---- *)
(** When the optimiser returns, it returns the first-stage injections of a plan that satisfies the constraints. *)
Definition opf_sound (solve : opf_solver (F := XR)) : Prop :=
  forall m PL PG soc p, solve m PL PG soc = Ok p -> exists st sts, p = map Fin (rs_p st) /\ feasible m PL PG soc (st :: sts).
(** The device may run at zero reactive power up to its active limits. *)
Definition zero_q_allowed (r : dev_row XR) : Prop := xle (QMINUS r) (Fin 0) /\ xle (Fin 0) (QPLUS r).
(** The call returned, and left the episode alive. *)
Definition live_call {F G} {N : Num F} (T : task F G) (e : env F G) (c : ecall F) : Prop :=
  match c with
  | EReset Or seed => is_ok (snd (env_reset Or T seed e)) = true
  | EStep Or a => exists out, snd (env_step Or T a e) = Ok out /\ so_terminated out = false
  end.
