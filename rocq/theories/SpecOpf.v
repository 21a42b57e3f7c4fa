(** The multi-stage DC optimal power flow that the MPC agents are documented to solve (C67), in terms of the network file. *)
From Coq Require Import Reals.
From Verif Require Import Base Num NumXR Devices BusBranch CheckNetwork LoadFlow Simulator EnvArgs Env Mpc LibXR SpecSim SpecDev SpecQp SpecPf SpecEnv SpecMpc.
Local Open Scope string_scope.
Local Open Scope list_scope.
Local Open Scope R_scope.

(** non-renewable generators: the slack generator and the classical ones *)
Definition NONREN : list Z := [0; 1]%Z.

(** The lists of IDs, in increasing order, by which vectors are indexed. *)
Record index := mkIndex { ix_all : list Z; ix_buses : list Z; ix_loads : list Z; ix_gens : list Z; ix_dess : list Z; ix_nonren : list Z }.
Definition index_of (nw : network XR) (I : index) : Prop :=
  ids_of nw ALL (ix_all I) /\ ids_of nw LOADS (ix_loads I) /\ ids_of nw GENS (ix_gens I) /\ ids_of nw STORS (ix_dess I) /\ ids_of nw NONREN (ix_nonren I) /\
  Sorted.Sorted Z.lt (ix_buses I) /\ forall k, In k (ix_buses I) <-> In (Some k) (map br_id (nw_bus nw)).

(** The decisions of one stage, by ID. *)
Definition angle (I : index) (st : rstage) : Z -> R := entry 0 (ix_buses I) (rs_ang st).
Definition inject (I : index) (st : rstage) : Z -> R := entry 0 (ix_all I) (rs_p st).
Definition charge (I : index) (st : rstage) : Z -> R := entry 0 (ix_dess I) (rs_pc st).
Definition discharge (I : index) (st : rstage) : Z -> R := entry 0 (ix_dess I) (rs_pd st).
(** The stage has one angle per bus, one injection per device, one charging and one discharging power per storage unit. *)
Definition well_shaped (I : index) (st : rstage) : Prop :=
  List.length (rs_ang st) = List.length (ix_buses I) /\ List.length (rs_p st) = List.length (ix_all I) /\
  List.length (rs_pc st) = List.length (ix_dess I) /\ List.length (rs_pd st) = List.length (ix_dess I).
(** Row [i] of a forecast, at stage [n]. *)
Definition forecast (ids : list Z) (M : list (list R)) (n : nat) (i : Z) : R := nth n (entry [] ids M i) 0.
(** A forecast has one row per device and one entry per stage. *)
Definition matrix (ids : list Z) (k : nat) (M : list (list R)) : Prop :=
  List.length M = List.length ids /\ Forall (fun row => List.length row = k) M.
(** [x] is between the bounds that [state_bounds] advertises. *)
Definition in_bounds (s0 : sim XR) (key : string) (i : Z) (x : R) : Prop :=
  exists lo hi, bound s0 key "pu" (EId i) = Some (lo, hi) /\ xle lo (Fin x) /\ xle (Fin x) hi.

(** The constraints of stage [n] of the plan [sts]. *)
Record opf_stage (nw : network XR) (s0 : sim XR) (I : index) (d : R) (eff c0 : Z -> R) (slack_bus : Z) (PL PG : list (list R)) (sts : list rstage) (n : nat) (st : rstage) : Prop := mkOpf {
  (* DC power flow at every bus; angles between -pi and pi; the slack bus is the reference *)
  os_flow : forall k, In k (ix_buses I) -> planned_at nw (ix_all I) (rs_p st) k = dc_out nw (angle I st) k;
  os_angles : forall k, In k (ix_buses I) -> - PI <= angle I st k <= PI;
  os_slack : angle I st slack_bus = 0;
  (* loads consume the forecast, generators stay within their limits and below the forecast of their potential *)
  os_loads : forall i, In i (ix_loads I) -> inject I st i = forecast (ix_loads I) PL n i;
  os_gens : forall i, In i (ix_gens I) -> in_bounds s0 "dev_p" i (inject I st i) /\ inject I st i <= forecast (ix_gens I) PG n i;
  (* storage units: power limits, split in charge and discharge, state of charge after the stage within its limits *)
  os_stors : forall i, In i (ix_dess I) -> in_bounds s0 "dev_p" i (inject I st i) /\ 0 <= charge I st i /\ 0 <= discharge I st i /\
    inject I st i = discharge I st i - charge I st i /\
    in_bounds s0 "des_soc" i (planned_soc (eff i) d (c0 i) (map (fun x => (charge I x i, discharge I x i)) (firstn (S n) sts))) }.
Definition opf_plan (nw : network XR) (s0 : sim XR) (I : index) (d : R) (eff c0 : Z -> R) (slack_bus : Z) (PL PG : list (list R)) (k : nat) (sts : list rstage) : Prop :=
  List.length sts = k /\ Forall (well_shaped I) sts /\
  forall n st, nth_error sts n = Some st -> opf_stage nw s0 I d eff c0 slack_bus PL PG sts n st.

(** The cost of a stage: the active power of the non-renewable generators plus [lamb] times the DC flows in excess of the fraction [margin] of
    the branch ratings (none for a branch without rating). *)
Definition dc_flow (r : branch_row XR) (th : Z -> R) : R := dc_sus r * (ang_at th (lr_f r) - ang_at th (lr_t r)).
Definition excess (base margin : R) (r : branch_row XR) (flow : R) : R :=
  match lr_rate r with Some (Fin rate) => Rmax 0 (Rabs flow - margin * (rate / base)) | _ => 0 end.
Definition opf_cost1 (nw : network XR) (I : index) (base margin lamb : R) (st : rstage) : R :=
  sumR (map (inject I st) (ix_nonren I)) + lamb * sumR (map (fun r => excess base margin r (dc_flow r (angle I st))) (nw_br nw)).
(** The cost of a plan, discounted by [gam] per stage. *)
Fixpoint opf_cost (nw : network XR) (I : index) (base margin lamb gam : R) (sts : list rstage) : R :=
  match sts with [] => 0 | st :: sts' => opf_cost1 nw I base margin lamb st + gam * opf_cost nw I base margin lamb gam sts' end.

(** An optimiser that returns the first-stage injections of a plan that is feasible and has the least objective. *)
Definition opf_optimal (solve : opf_solver (F := XR)) : Prop :=
  forall m PL PG soc p, solve m PL PG soc = Ok p -> exists st sts, p = map Fin (rs_p st) /\ feasible m PL PG soc (st :: sts) /\
    forall sts', feasible m PL PG soc sts' -> xleb (plan_cost m (map lift (st :: sts))) (plan_cost m (map lift sts')) = true.
