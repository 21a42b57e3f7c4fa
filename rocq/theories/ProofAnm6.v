(** The 6-bus network (network.py 49-82) in exact arithmetic: it is accepted, and what the documented conditions say of it. *)
From Coq Require Import Reals Lra.
From Verif Require Import Base Num NumXR Devices BusBranch CheckNetwork LoadFlow Simulator EnvArgs Env Anm6 LibBase LibNum LibSim LibXR LibEval
  SpecSim SpecDev SpecQp SpecPf SpecTotal SpecObs SpecEnv ProofEnv ProofStep ProofState ProofDraw ProofEnvOk ProofArgs PropObs PropReward ProofEasy PropSet PropPf PropEasy PropMake ExNet.
Local Open Scope string_scope.
Local Open Scope list_scope.
Local Open Scope R_scope.
Set Bullet Behavior "Strict Subproofs".

Notation anm6x := (anm6_network (F := XR)).
Definition ids6 : list Z := [0; 1; 2; 3; 4; 5]%Z.

(** ---- the devices ---- *)
Definition ax_slack : device XR := mkDev 0 0 0
  (SGen (mkGen (Fin (-2)) (Fin 2) (Fin (-2)) (Fin 2) (Fin 2) (Fin 2) (Fin (-2)) (Fin 0) (Fin 0) (Fin 2) (Fin (-2))))
  (Fin 0) (Fin 0) (Fin 2) None.
Definition ax_load (i b : Z) (m : R) : device XR := mkDev i b (-1)
  (SLoad (mkLoad (Fin (2/10)) (Fin (- m)) (Fin 0) (Fin (- m * (2/10))) (Fin 0))) (Fin 0) (Fin 0) (Fin 0) None.
Definition ax_rer (i b : Z) (m pplus qplus tau rho : R) : device XR := mkDev i b 2
  (SGen (mkGen (Fin 0) (Fin m) (Fin (- m)) (Fin m) (Fin pplus) (Fin qplus) (Fin (- qplus)) (Fin (- tau)) (Fin tau) (Fin rho) (Fin (- rho))))
  (Fin 0) (Fin 0) (Fin m) None.
Definition ax_stor : device XR := mkDev 6 5 3
  (SStor (mkStor (Fin (-5/10)) (Fin (5/10)) (Fin (-5/10)) (Fin (5/10)) (Fin (3/10)) (Fin (-3/10)) (Fin (25/100)) (Fin (-25/100))
     (Fin (-25/20)) (Fin (25/20)) (Fin (35/40)) (Fin (-35/40)) (Fin (-25/20)) (Fin (25/20)) (Fin (-35/40)) (Fin (35/40))
     (Fin 0) (Fin 1) (Fin (9/10)))) (Fin 0) (Fin 0) (Fin 0) None.
Definition ax_devs : list (device XR) :=
  [ax_slack; ax_load 1 3 (1/10); ax_rer 2 3 (3/10) (2/10) (15/100) (15/10) (6/10); ax_load 3 4 (3/10);
   ax_rer 4 4 (5/10) (35/100) (2/10) 2 (12/10); ax_load 5 5 (3/10); ax_stor].

Definition row6 (k : nat) : dev_row XR := nth k (nw_dev anm6x) ex_slack.
Ltac arow := unfold row6, anm6_network, ids6, nrat; cbn [nth nw_dev]; xeval; unfold ax_slack, ax_load, ax_rer, ax_stor; cbn [n0 n1 XRnum]; xsame.
Lemma ax_row0 : dev_init CGen (row6 0) ids6 (Fin 100) = Ok ax_slack. Proof. arow. Qed.
Lemma ax_row1 : dev_init CLoad (row6 1) ids6 (Fin 100) = Ok (ax_load 1 3 (1/10)). Proof. arow. Qed.
Lemma ax_row2 : dev_init CGen (row6 2) ids6 (Fin 100) = Ok (ax_rer 2 3 (3/10) (2/10) (15/100) (15/10) (6/10)). Proof. arow. Qed.
Lemma ax_row3 : dev_init CLoad (row6 3) ids6 (Fin 100) = Ok (ax_load 3 4 (3/10)). Proof. arow. Qed.
Lemma ax_row4 : dev_init CGen (row6 4) ids6 (Fin 100) = Ok (ax_rer 4 4 (5/10) (35/100) (2/10) 2 (12/10)). Proof. arow. Qed.
Lemma ax_row5 : dev_init CLoad (row6 5) ids6 (Fin 100) = Ok (ax_load 5 5 (3/10)). Proof. arow. Qed.
Lemma ax_row6 : dev_init CStor (row6 6) ids6 (Fin 100) = Ok ax_stor. Proof. arow. Qed.
Lemma ax_load_devs : load_devices (nw_dev anm6x) (Fin 100) ids6 = Ok ax_devs.
Proof.
  change (nw_dev anm6x) with [row6 0; row6 1; row6 2; row6 3; row6 4; row6 5; row6 6]. unfold load_devices. cbn [foldM].
  change (dev_class (row6 0)) with (Ok CGen). change (dev_class (row6 1)) with (Ok CLoad). change (dev_class (row6 2)) with (Ok CGen).
  change (dev_class (row6 3)) with (Ok CLoad). change (dev_class (row6 4)) with (Ok CGen). change (dev_class (row6 5)) with (Ok CLoad).
  change (dev_class (row6 6)) with (Ok CStor). cbn [bind].
  rewrite ax_row0, ax_row1, ax_row2, ax_row3, ax_row4, ax_row5, ax_row6. reflexivity.
Qed.

(** ---- the buses ---- *)
Definition ax_bus (i ty : Z) (kv vmax vmin : R) : bus XR := exo_bus i ty kv vmax vmin 0 0 (xc 0 0) (xc 0 0) 0 0 0 0.
Definition busrow (k : nat) : bus_row XR := nth k (nw_bus anm6x) ex_bus1.
Ltac brow := unfold busrow, anm6_network, nrat; cbn [nth nw_bus]; xeval; unfold ax_bus; xunfo; xsame.
Lemma ax_bus0 : bus_init (busrow 0) = Ok (ax_bus 0 0 132 1 1). Proof. brow. Qed.
Lemma ax_bus1 : bus_init (busrow 1) = Ok (ax_bus 1 1 33 (11/10) (9/10)). Proof. brow. Qed.
Lemma ax_bus2 : bus_init (busrow 2) = Ok (ax_bus 2 1 33 (11/10) (9/10)). Proof. brow. Qed.
Lemma ax_bus3 : bus_init (busrow 3) = Ok (ax_bus 3 1 33 (11/10) (9/10)). Proof. brow. Qed.
Lemma ax_bus4 : bus_init (busrow 4) = Ok (ax_bus 4 1 33 (11/10) (9/10)). Proof. brow. Qed.
Lemma ax_bus5 : bus_init (busrow 5) = Ok (ax_bus 5 1 33 (11/10) (9/10)). Proof. brow. Qed.
Definition ax_buses : list (bus XR) := ax_bus 0 0 132 1 1 :: map (fun i => ax_bus i 1 33 (11/10) (9/10)) [1; 2; 3; 4; 5]%Z.
Lemma ax_load_buses : load_buses (nw_bus anm6x) = Ok ax_buses.
Proof.
  change (nw_bus anm6x) with [busrow 0; busrow 1; busrow 2; busrow 3; busrow 4; busrow 5]. unfold load_buses. cbn [foldM].
  rewrite ax_bus0, ax_bus1, ax_bus2, ax_bus3, ax_bus4, ax_bus5. reflexivity.
Qed.

(** ---- the branches (only their ends matter here) ---- *)
Definition brrow (k : nat) : branch_row XR := nth k (nw_br anm6x) ex_line.
Ltac lrow := unfold brrow, anm6_network, ids6, nrat; cbn [nth nw_br]; xeval; eexists; split; [reflexivity|split; reflexivity].
Lemma ax_br0 : exists b, branch_init (brrow 0) (Fin 100) ids6 = Ok b /\ ln_f b = 0%Z /\ ln_t b = 1%Z. Proof. lrow. Qed.
Lemma ax_br1 : exists b, branch_init (brrow 1) (Fin 100) ids6 = Ok b /\ ln_f b = 1%Z /\ ln_t b = 2%Z. Proof. lrow. Qed.
Lemma ax_br2 : exists b, branch_init (brrow 2) (Fin 100) ids6 = Ok b /\ ln_f b = 1%Z /\ ln_t b = 3%Z. Proof. lrow. Qed.
Lemma ax_br3 : exists b, branch_init (brrow 3) (Fin 100) ids6 = Ok b /\ ln_f b = 2%Z /\ ln_t b = 4%Z. Proof. lrow. Qed.
Lemma ax_br4 : exists b, branch_init (brrow 4) (Fin 100) ids6 = Ok b /\ ln_f b = 2%Z /\ ln_t b = 5%Z. Proof. lrow. Qed.

(** ---- the simulator and the environment ---- *)
Lemma ax_check : check_network_specs anm6x = Ok tt.
Proof. unfold check_network_specs, anm6_network. cbn -[xleb IZR]. rewrite xleb_f by lra. reflexivity. Qed.
Lemma ax_sim dt lamb : exists s, sim_init anm6x dt lamb = Ok s /\ sm_devs s = ax_devs /\ sm_base s = Fin 100 /\ map b_vmin (sm_buses s) = map b_vmin ax_buses.
Proof.
  destruct ax_br0 as (b0 & E0 & F0 & T0), ax_br1 as (b1 & E1 & F1 & T1), ax_br2 as (b2 & E2 & F2 & T2), ax_br3 as (b3 & E3 & F3 & T3), ax_br4 as (b4 & E4 & F4 & T4).
  unfold sim_init. rewrite ax_check, ax_load_buses. cbn [bind]. change (map b_id ax_buses) with ids6. change (nw_base anm6x) with (Fin 100). rewrite ax_load_devs.
  change (nw_br anm6x) with [brrow 0; brrow 1; brrow 2; brrow 3; brrow 4]. unfold load_branches. cbn [foldM]. rewrite E0, E1, E2, E3, E4. cbn [bind].
  rewrite F0, F1, F2, F3, F4, T0, T1, T2, T3, T4. cbn [dset zz_eqb fst snd Z.eqb Pos.eqb andb map bind].
  destruct (build_total ax_buses [b0; b1; b2; b3; b4]) as (Y & ->); [discriminate| | |].
  - intros b I. cbn in I. decompose [or] I; try contradiction; subst b; cbn; lia.
  - intros l I. change (map b_id ax_buses) with ids6. cbn [In] in I. unfold ids6. decompose [or] I; try contradiction; subst l; rewrite ?F0, ?F1, ?F2, ?F3, ?F4, ?T0, ?T1, ?T2, ?T3, ?T4; cbn; tauto.
  - cbn [bind]. eexists. split; [reflexivity|]. auto.
Qed.

Lemma ax_args : ~ bad_args 1 (easy_dt : XR) easy_gamma (nofZ 100) (@ObsState XR) (Some [(n0, nsub (ndiv (nofZ 24) easy_dt) n1)]).
Proof.
  unfold easy_dt, easy_gamma. rewrite !nrat_XR by lia.
  intros [B|[B|[B|[B|[B|[B|(l & B & B')]]]]]]; try discriminate B; try lia.
  - cbn [nleb n0 n1 XRnum] in B. rewrite xleb_f in B by lra. discriminate.
  - cbn [nltb n0 n1 XRnum nofZ] in B. rewrite xltb_f in B by lra. discriminate.
  - cbn [nltb n0 n1 XRnum nofZ] in B. rewrite xltb_f in B by lra. discriminate.
  - cbn [nltb n0 n1 XRnum nofZ] in B. rewrite xltb_f in B by lra. discriminate.
  - injection B as <-. apply B'. reflexivity.
Qed.
Lemma easy_made {G} (g : G) : exists a0, easy_make (F := XR) g = Ok a0.
Proof.
  destruct (ax_sim easy_dt (nofZ 100)) as (s & Es & Ed & Eb & Ev).
  destruct (state_ok anm6x 1 (easy_dt : XR) easy_gamma (nofZ 100) (Some [(n0, nsub (ndiv (nofZ 24) easy_dt) n1)]) (Some (Some n1, Some (nofZ 100))) g s Es ax_args) as (e0 & E0).
  unfold easy_make, easy_env. rewrite E0. cbn [bind]. unfold anm6_init.
  assert (E1 : e_sim e0 = s) by (pose proof (gd_sim0 _ (good_erun _ _ _ _ _ _ _ _ _ _ (mkTask (fun _ => g) (fun g => (Err KeyError, g)) (fun _ g => (Err KeyError, g))) [] E0)) as Q; congruence).
  rewrite E1.
  assert (E3 : exists r, rendering_bus_v s = Ok r).
  { unfold rendering_bus_v. revert Ev. generalize (sm_buses s). intros l Ev. destruct l as [|u0 [|u1 [|u2 [|u3 [|u4 [|u5 [|]]]]]]]; cbn in Ev; try discriminate Ev.
    injection Ev as V0 V1 V2 V3 V4 V5. cbn [mapM]. rewrite V0, V1, V2, V3, V4, V5. eexists. reflexivity. }
  destruct E3 as (r & ->). cbn [bind]. rewrite (proj2 (proj2 clock_XR)). eexists. reflexivity.
Qed.

(** ---- what the documented conditions say ---- *)
Ltac rowsof := unfold anm6_network, nrat; cbn [nw_dev nw_bus nw_br].
Lemma ax_mappable : Forall mappable (nw_dev anm6x).
Proof.
  unfold anm6_network. cbn [nw_dev]. rewrite !nrat_XR by lia. repeat apply Forall_cons; try apply Forall_nil; (split; [row_fin|split]);
      try (intros [E|E]; discriminate); try (intros E; discriminate); intros _.
  - split; [discriminate|right; split; discriminate].
  - split; [discriminate|right; split; discriminate].
  - split; [split; [discriminate|split; [discriminate|right; split; discriminate]]|]. unfold EFF. cbn [dr_eff or_else]. apply xlt_Fin; lra.
Qed.
Lemma ax_br_fin : Forall branch_row_fin (nw_br anm6x).
Proof. unfold anm6_network. cbn [nw_br]. rewrite !nrat_XR by lia. fin_rows. Qed.
Lemma ax_bus_fin : Forall bus_row_fin (nw_bus anm6x).
Proof. unfold anm6_network. cbn [nw_bus]. rewrite !nrat_XR by lia. fin_rows. Qed.
Lemma ax_ids k : In (Some k) (map br_id (nw_bus anm6x)) <-> (0 <= k < Z.of_nat (List.length (nw_bus anm6x)))%Z.
Proof.
  unfold anm6_network. cbn [nw_bus map br_id List.length]. split.
  - intros I. cbn [In] in I. decompose [or] I; try contradiction; match goal with H : Some _ = Some _ |- _ => injection H as <- end; lia.
  - intros H. assert (K : (k = 0 \/ k = 1 \/ k = 2 \/ k = 3 \/ k = 4 \/ k = 5)%Z) by lia. cbn [In]. decompose [or] K; subst k; tauto.
Qed.
Lemma ax_numbered : numbered anm6x.
Proof.
  split; [apply ax_ids|]. intros r I T. unfold anm6_network in I. cbn [nw_bus In] in I. decompose [or] I; try contradiction; subst r; cbn in *; congruence.
Qed.
Lemma ax_solvable : solvable_network anm6x.
Proof.
  split; [apply ax_ids|split; [cbn; lia|]]. intros r I T. unfold anm6_network in I. cbn [nw_bus In] in I. decompose [or] I; try contradiction; subst r; discriminate.
Qed.
Lemma ax_alone : slack_alone anm6x.
Proof. intros r I T. unfold anm6_network in I. cbn [nw_dev In] in I. decompose [or] I; try contradiction; subst r; cbn in *; congruence. Qed.

(** ---- the state vector and its bounds ---- *)
Definition ax_reqs : list (list req) :=
  [ map (fun i => ("dev_p", Some "MW", EId i)) [0; 1; 2; 3; 4; 5; 6]%Z; map (fun i => ("dev_q", Some "MVAr", EId i)) [0; 1; 2; 3; 4; 5; 6]%Z;
    [("des_soc", Some "MWh", EId 6%Z)]; map (fun i => ("gen_p_max", Some "MW", EId i)) [2; 4]%Z; [("aux", None, EId 0%Z)] ].
Lemma ax_requested (s : sim XR) : sm_devs s = ax_devs -> Forall2 (fun t r => requested s 1 t = Some r) state_tuples ax_reqs.
Proof.
  intros E. repeat apply Forall2_cons; try apply Forall2_nil; unfold requested, elements, get_state_space; cbn [String.eqb Ascii.eqb Bool.eqb dget default_unit]; try rewrite E; reflexivity.
Qed.
Lemma ax_bounds (s : sim XR) r b : sm_devs s = ax_devs -> sm_base s = Fin 100 -> In r (List.concat ax_reqs) ->
  req_bound s (Some [(n0, nsub (ndiv (nofZ 24) easy_dt) n1)]) r = Some b -> nleb (fst b) (snd b) = true.
Proof.
  intros Ed Eb I E. unfold easy_dt in E. rewrite nrat_XR in E by lia. cbn [ax_reqs List.concat app map] in I.
  cbn [In] in I. repeat destruct I as [<-|I]; try destruct I; unfold req_bound in E; cbn [String.eqb Ascii.eqb Bool.eqb] in E.
  all: try (unfold bound, get_state_space in E; rewrite Ed, Eb in E; cbn in E; injection E as <-; xeval; reflexivity).
  cbn [nofZ XRnum ndiv] in E. rewrite xdiv_Fin in E by lra. cbn in E. injection E as <-. cbn. apply Rleb_spec. lra.
Qed.
