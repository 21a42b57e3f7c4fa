(** Order and number of the elements, per-unit conversion, units, angles: C10, C14, C31, C58. *)
From Coq Require Import Permutation Sorted Reals Lra.
From Verif Require Import Base Num NumXR Devices BusBranch CheckNetwork LoadFlow Simulator LibBase LibNum LibXR LibEval
  SpecNet SpecDev SpecSim ProofObs ProofUnits ProofVals ProofBounds ExNet ExRun.
Local Open Scope string_scope.
Local Open Scope list_scope.
Local Open Scope R_scope.

(** C14: buses and devices in strictly increasing ID order, branches in file order, nothing
    lost, and the counters count them. *)
Theorem C14_order_and_counts : forall (F : Type) (N : Num F) (nw : network F) dt lamb s, sim_init nw dt lamb = Ok s ->
  Sorted Z.lt (map b_id (sm_buses s)) /\ Permutation (map Some (map b_id (sm_buses s))) (map br_id (nw_bus nw)) /\
  Sorted Z.lt (map d_id (sm_devs s)) /\ Permutation (map Some (map d_id (sm_devs s))) (map dr_id (nw_dev nw)) /\
  map (fun b => (Some (ln_f b), Some (ln_t b))) (sm_branches s) = map (fun r => (lr_f r, lr_t r)) (nw_br nw) /\
  n_bus s = List.length (nw_bus nw) /\ n_device s = List.length (nw_dev nw) /\
  n_load s = rows_of_type [-1]%Z nw /\ n_nsgen s = rows_of_type [1; 2]%Z nw /\ n_des s = rows_of_type [3]%Z nw /\
  n_rer s = rows_of_type [2]%Z nw /\
  (n_load s + n_nsgen s + n_des s + 1 = n_device s)%nat.
Proof. exact @C14_lemma. Qed.
(** an accepted network whose rows are not sorted *)
Example C14_ex : sim_init ex_nw (Fin (1/4)) (Fin 100) = Ok ex_sim0 /\
  map dr_id (nw_dev ex_nw) = [Some 3; Some 0; Some 1; Some 2]%Z.
Proof. exact (conj ex_init eq_refl). Qed.

(** C10: per-unit limits are the file limits divided by baseMVA (defaults for empty cells as
    documented in SpecDev.v); for the PMAX of a load see the refutation. *)
Theorem C10_per_unit : forall (nw : network XR) dt lamb s0 b r i, sim_init nw dt lamb = Ok s0 -> nw_base nw = Fin b ->
  In r (nw_dev nw) -> dr_id r = Some i ->
  let pu x := xdiv x (Fin b) in
  (dr_type r = Some (-1)%Z ->
     bound s0 "dev_p" "pu" (EId i) = Some (pu (PMIN r NInf), or_else (dr_pmax r) (Fin 0))) /\
  (dr_type r = Some 0%Z \/ dr_type r = Some 1%Z \/ dr_type r = Some 2%Z ->
     bound s0 "dev_p" "pu" (EId i) = Some (pu (PMIN r (if optz_eqb (dr_type r) (Some 0%Z) then NInf else Fin 0)), pu (PMAX r)) /\
     bound s0 "dev_q" "pu" (EId i) = Some (pu (QMIN r), pu (QMAX r))) /\
  (dr_type r = Some 3%Z ->
     bound s0 "dev_p" "pu" (EId i) = Some (pu (PMIN r NInf), pu (PMAX r)) /\
     bound s0 "dev_q" "pu" (EId i) = Some (pu (QMIN r), pu (QMAX r)) /\
     exists socmax, dr_socmax r = Some socmax /\
     bound s0 "des_soc" "pu" (EId i) = Some (pu (SOCMIN r), pu socmax)).
Proof. intros nw dt lamb s0 b r i H Eb. exact (C10_lemma nw dt lamb s0 H b Eb r i). Qed.
(** a load with PMAX = -0.5 MW and baseMVA = 10 gets the limit -0.5 p.u. *)
Theorem C10_load_refuted : exists (nw : network XR) dt lamb s0 r i pmax b lo hi,
  sim_init nw dt lamb = Ok s0 /\ nw_base nw = Fin b /\ In r (nw_dev nw) /\ dr_id r = Some i /\
  dr_type r = Some (-1)%Z /\ dr_pmax r = Some (Fin pmax) /\
  bound s0 "dev_p" "pu" (EId i) = Some (lo, Fin hi) /\ hi <> pmax / b.
Proof.
  exists ex_nw, (Fin (1/4)), (Fin 100), ex_sim0, (ex_load (2/10)), 1%Z, (-1/2), 10, (Fin (-1)), (-1/2).
  split; [exact ex_init|]. do 4 (split; [cbn; auto|]). split; [reflexivity|].
  split; [reflexivity|lra].
Qed.
Example C10_ex : sim_init ex_nw (Fin (1/4)) (Fin 100) = Ok ex_sim0 /\ nw_base ex_nw = Fin 10 /\
  In ex_stor (nw_dev ex_nw) /\ In ex_rer (nw_dev ex_nw) /\ dr_type ex_stor = Some 3%Z /\ dr_type ex_rer = Some 2%Z.
Proof. split; [exact ex_init|]. cbn; auto 10. Qed.

(** C31, reported values: power = p.u. * baseMVA, degrees = rad * 180 / pi, kV = p.u. * BASE_KV. *)
Theorem C31_state_power_units : forall (F : Type) (N : Num F) (nw : network F) dt lamb s0 cs k u i,
  sim_init nw dt lamb = Ok s0 -> In (k, u) power_units ->
  obs (run s0 cs) k u i = option_map (fun v => nmul v (nw_base nw)) (obs (run s0 cs) k "pu" i).
Proof. exact @units_power_state. Qed.
Theorem C31_state_angle_units : forall (F : Type) (N : Num F) (nw : network F) dt lamb s0 cs k i,
  sim_init nw dt lamb = Ok s0 -> In k angle_keys ->
  obs (run s0 cs) k "degree" i = option_map (fun v => ndiv (nmul v (nofZ 180)) npi) (obs (run s0 cs) k "rad" i).
Proof. exact @units_angle_state. Qed.
Theorem C31_state_bus_units : forall (F : Type) (N : Num F) (nw : network F) dt lamb s0 cs r i kv,
  sim_init nw dt lamb = Ok s0 -> In r (nw_bus nw) -> br_id r = Some i -> br_kv r = Some kv ->
  obs (run s0 cs) "bus_v_magn" "kV" (EId i) = option_map (fun v => nmul v kv) (obs (run s0 cs) "bus_v_magn" "pu" (EId i)) /\
  obs (run s0 cs) "bus_i_magn" "kA" (EId i) = option_map (fun v => ndiv (nmul v (nw_base nw)) kv) (obs (run s0 cs) "bus_i_magn" "pu" (EId i)).
Proof. exact @units_kv_state. Qed.
(** C31, bounds: all power quantities except gen_p_max; angles; voltages. *)
Theorem C31_bound_power_units : forall (nw : network XR) dt lamb s0 b k u i,
  sim_init nw dt lamb = Ok s0 -> nw_base nw = Fin b -> In (k, u) power_units -> k <> "gen_p_max" ->
  bound s0 k u i = option_map (fun p => (nmul (fst p) (Fin b), nmul (snd p) (Fin b))) (bound s0 k "pu" i).
Proof.
  intros nw dt lamb s0 b k u i H Eb K1 K2. rewrite (bounds_power nw dt lamb s0 H b Eb k u i K1 K2), Eb. reflexivity.
Qed.
Theorem C31_bound_angle_units : forall (s0 : sim XR) k i, In k angle_keys ->
  bound s0 k "degree" i = option_map (fun p => (ndiv (nmul (fst p) (nofZ 180)) npi, ndiv (nmul (snd p) (nofZ 180)) npi)) (bound s0 k "rad" i).
Proof. exact bounds_angle. Qed.
Theorem C31_bound_voltage_units : forall (nw : network XR) dt lamb s0 b r i kv,
  sim_init nw dt lamb = Ok s0 -> nw_base nw = Fin b ->
  In r (nw_bus nw) -> br_id r = Some i -> br_kv r = Some (Fin kv) ->
  bound s0 "bus_v_magn" "kV" (EId i) = option_map (fun p => (nmul (fst p) (Fin kv), nmul (snd p) (Fin kv))) (bound s0 "bus_v_magn" "pu" (EId i)).
Proof. intros nw dt lamb s0 b r i kv H Eb. exact (bounds_kv nw dt lamb s0 H b Eb r i kv). Qed.
(** the MW upper bound of gen_p_max is another quantity (it is q_max) *)
Theorem C31_gen_p_max_refuted : exists (nw : network XR) dt lamb s0 i b lo hi lo' hi',
  sim_init nw dt lamb = Ok s0 /\ nw_base nw = Fin b /\
  bound s0 "gen_p_max" "pu" i = Some (Fin lo, Fin hi) /\ bound s0 "gen_p_max" "MW" i = Some (Fin lo', Fin hi') /\
  lo' = lo * b /\ hi' <> hi * b.
Proof.
  exists ex_nw, (Fin (1/4)), (Fin 100), ex_sim0, (EId 2), 10, 0, 3, (0 * 10), (2 * 10).
  split; [exact ex_init|]. do 4 (split; [reflexivity|]). lra.
Qed.

(** C58: reported angles are within [-pi, pi] and [-180, 180], or NaN. *)
Theorem C58_angles_in_range : forall (nw : network XR) dt lamb s0 cs k i,
  sim_init nw dt lamb = Ok s0 -> In k angle_keys ->
  (forall v, obs (run s0 cs) k "rad" i = Some v -> v = NaN \/ exists a, v = Fin a /\ - PI <= a <= PI) /\
  (forall v, obs (run s0 cs) k "degree" i = Some v -> v = NaN \/ exists a, v = Fin a /\ - 180 <= a <= 180).
Proof. intros; split; intros; [eapply angles_rad|eapply angles_deg]; eauto. Qed.
(** a run in which the state is reported *)
Definition ex_calls : list (call XR) := [CReset ex_or (ex_vec 50); CTrans ex_or ex_in].
Lemma ex_run : run ex_sim0 ex_calls = ex_sim1 (Fin (50/10 - 1/72)).
Proof. unfold run, ex_calls. cbn [fold_left run_call]. rewrite ex_reset. cbn [fst]. rewrite ex_trans by lra. reflexivity. Qed.
Example C31_C58_ex : sim_init ex_nw (Fin (1/4)) (Fin 100) = Ok ex_sim0 /\
  obs (run ex_sim0 ex_calls) "dev_p" "MW" (EId 3) = Some (nmul (Fin (1/20)) (Fin 10)) /\
  obs (run ex_sim0 ex_calls) "branch_p" "pu" (EBr 0 1) = Some (Fin (1/2)) /\
  obs (run ex_sim0 ex_calls) "bus_v_ang" "rad" (EId 1) = Some (Fin (ratan2 0 (1/2))).
Proof. rewrite ex_run. split; [exact ex_init|]. repeat split; reflexivity. Qed.

Print Assumptions C14_order_and_counts.
Print Assumptions C10_per_unit.
Print Assumptions C10_load_refuted.
Print Assumptions C31_state_power_units.
Print Assumptions C31_state_angle_units.
Print Assumptions C31_state_bus_units.
Print Assumptions C31_bound_power_units.
Print Assumptions C31_bound_angle_units.
Print Assumptions C31_bound_voltage_units.
Print Assumptions C31_gen_p_max_refuted.
Print Assumptions C58_angles_in_range.
