(** C88: in binary64, a reported value that is within its advertised bounds in one unit is within its advertised bounds in the other unit.
    The values and the bounds of a unit are computed by separate multiplications and divisions, each of which rounds. *)
From Coq Require Import Reals Lra Floats ZArith Bool.
From Verif Require Import Base Num NumXR NumFloat Devices BusBranch CheckNetwork LoadFlow Simulator LibBase LibNum LibXR LibSim LibInit SpecNet SpecSim SpecF64
  ProofSim ProofObs ProofUnits ProofBounds LibF64 ProofF64 ProofUnits64 PropSim.
From Coq Require Import List. Import ListNotations.
Local Open Scope string_scope.
Local Open Scope list_scope.

(** C88, powers and energies: p.u. against MW, MVAr, MVA and MWh (gen_p_max excepted: see C31). *)
Theorem C88_power : forall (L : libm) (nw : network float) dt lamb s0 cs k u i v lo hi,
  sim_init (N := Fnum L) nw dt lamb = Ok s0 -> fin64 (nw_base nw) -> In (k, u) power_units -> k <> "gen_p_max" ->
  obs (run (N := Fnum L) s0 cs) k "pu" i = Some v -> bound (N := Fnum L) s0 k "pu" i = Some (lo, hi) -> between64 lo v hi ->
  exists v' lo' hi', obs (run (N := Fnum L) s0 cs) k u i = Some v' /\ bound (N := Fnum L) s0 k u i = Some (lo', hi') /\ between64 lo' v' hi'.
Proof.
  intros L nw dt lamb s0 cs k u i v lo hi H0 Fb K Kn. eapply in_range.
  - exact (mono_mul _ Fb (base_nonpos L nw dt lamb s0 H0)).
  - exact (units_power_state (N := Fnum L) nw dt lamb s0 cs k u i H0 K).
  - exact (bounds_power64 L nw dt lamb s0 H0 k u i Fb K Kn).
Qed.

(** C88, angles: radians against degrees. *)
Theorem C88_angle : forall (L : libm) (nw : network float) dt lamb s0 cs k i v lo hi,
  sim_init (N := Fnum L) nw dt lamb = Ok s0 -> In k angle_keys ->
  obs (run (N := Fnum L) s0 cs) k "rad" i = Some v -> bound (N := Fnum L) s0 k "rad" i = Some (lo, hi) -> between64 lo v hi ->
  exists v' lo' hi', obs (run (N := Fnum L) s0 cs) k "degree" i = Some v' /\ bound (N := Fnum L) s0 k "degree" i = Some (lo', hi') /\ between64 lo' v' hi'.
Proof.
  intros L nw dt lamb s0 cs k i v lo hi H0 K. eapply in_range.
  - exact (deg64_mono L).
  - exact (units_angle_state (N := Fnum L) nw dt lamb s0 cs k i H0 K).
  - exact (bounds_angle64 L s0 k i K).
Qed.

(** C88, bus voltages: p.u. against kV; and a bus current that is a number in p.u. is a number in kA. *)
Theorem C88_voltage : forall (L : libm) (nw : network float) dt lamb s0 cs r i kv v lo hi,
  sim_init (N := Fnum L) nw dt lamb = Ok s0 -> In r (nw_bus nw) -> br_id r = Some i -> br_kv r = Some kv -> fin64 kv ->
  obs (run (N := Fnum L) s0 cs) "bus_v_magn" "pu" (EId i) = Some v -> bound (N := Fnum L) s0 "bus_v_magn" "pu" (EId i) = Some (lo, hi) -> between64 lo v hi ->
  exists v' lo' hi', obs (run (N := Fnum L) s0 cs) "bus_v_magn" "kV" (EId i) = Some v' /\ bound (N := Fnum L) s0 "bus_v_magn" "kV" (EId i) = Some (lo', hi') /\ between64 lo' v' hi'.
Proof.
  intros L nw dt lamb s0 cs r i kv v lo hi H0 I Ei Ek Fk. eapply in_range.
  - exact (mono_mul _ Fk (kv_pos L nw dt lamb s0 H0 r i kv I Ei Ek)).
  - exact (proj1 (units_kv_state (N := Fnum L) nw dt lamb s0 cs r i kv H0 I Ei Ek)).
  - exact (bounds_kv64 L nw dt lamb s0 H0 r i kv I Ei Ek Fk).
Qed.
Theorem C88_current : forall (L : libm) (nw : network float) dt lamb s0 cs r i kv v,
  sim_init (N := Fnum L) nw dt lamb = Ok s0 -> In r (nw_bus nw) -> br_id r = Some i -> br_kv r = Some kv -> fin64 kv -> fin64 (nw_base nw) ->
  obs (run (N := Fnum L) s0 cs) "bus_i_magn" "pu" (EId i) = Some v -> num64 v ->
  exists v', obs (run (N := Fnum L) s0 cs) "bus_i_magn" "kA" (EId i) = Some v' /\ num64 v' /\
    (PrimFloat.leb 0 v = true -> PrimFloat.leb 0 v' = true).
Proof.
  intros L nw dt lamb s0 cs r i kv v H0 I Ei Ek Fk Fb O Nv.
  rewrite (proj2 (units_kv_state (N := Fnum L) nw dt lamb s0 cs r i kv H0 I Ei Ek)), O. eexists. split; [reflexivity|].
  pose proof (mono_mul _ Fb (base_nonpos L nw dt lamb s0 H0)) as M1. pose proof (mono_div _ Fk (kv_pos L nw dt lamb s0 H0 r i kv I Ei Ek)) as M2.
  cbn [nmul ndiv Fnum]. split.
  - assert (Q : forall x, num64 x <-> PrimFloat.leb x x = true).
    { intros x. unfold num64. rewrite fval_eqb, fval_leb. destruct (fval x); cbn [xeqb xleb]; try tauto. rewrite Rleb_spec. unfold Reqb. destruct (Req_EM_T r0 r0) as [E|E]; [|contradiction E; reflexivity]. split; intros; auto. apply Rle_refl. }
    apply Q, M2, M1, Q, Nv.
  - intros P. apply M1, M2 in P. revert P. rewrite !fval_leb.
    destruct (pos_val _ Fb (base_nonpos L nw dt lamb s0 H0)) as (b & Eb & _). destruct (pos_val _ Fk (kv_pos L nw dt lamb s0 H0 r i kv I Ei Ek)) as (q & Eq & Pq).
    replace (fval (0 * nw_base nw / kv)%float) with (Fin 0%R); [rewrite fval_0; auto|].
    rewrite (fval_div _ _ q Eq), fval_mul, Eb, Eq, fval_0 by lra. cbn [xmul]. rewrite Rmult_0_l. cbn [xrnd]. rewrite frnd_0, xdiv_Fin by lra.
    unfold Rdiv. rewrite Rmult_0_l. cbn [xrnd]. symmetry. apply frnd_0.
Qed.

(** C88, state of charge: in MWh too it stays within the advertised bounds, in every history. *)
Theorem C88_soc : forall (L : libm) (nw : network float) dt lamb s0 cs i v,
  sim_init (N := Fnum L) nw dt lamb = Ok s0 -> fin64 (nw_base nw) -> Forall (call_soc_ok (N := Fnum L) s0) cs ->
  obs (run (N := Fnum L) s0 cs) "des_soc" "MWh" i = Some v ->
  exists lo hi, bound (N := Fnum L) s0 "des_soc" "MWh" i = Some (lo, hi) /\ (PrimFloat.eqb v v = false \/ between64 lo v hi).
Proof.
  intros L nw dt lamb s0 cs i v H0 Fb C O. assert (K : In ("des_soc", "MWh") power_units) by (cbn; tauto). assert (Kn : "des_soc" <> "gen_p_max") by discriminate.
  pose proof O as O'. rewrite (units_power_state (N := Fnum L) nw dt lamb s0 cs _ _ i H0 K) in O'. destruct (obs (run (N := Fnum L) s0 cs) "des_soc" "pu" i) as [w|] eqn:W; [|discriminate O']. injection O' as Ev.
  destruct (C01_soc_in_range_float L nw dt lamb s0 cs H0 C i w W) as (lo & hi & B & [D|D]).
  - rewrite (bounds_power64 L nw dt lamb s0 H0 _ _ i Fb K Kn), B. eexists _, _. split; [reflexivity|]. left. rewrite <- Ev. cbn [nmul Fnum].
    rewrite fval_eqb in *. rewrite fval_mul. destruct (fval w); try discriminate D; [|reflexivity]. exfalso. cbn [xeqb] in D. unfold Reqb in D. destruct (Req_EM_T r r) as [E|E]; [discriminate D|auto].
  - destruct (C88_power L nw dt lamb s0 cs _ _ i w lo hi H0 Fb K Kn W B D) as (v' & lo' & hi' & O2 & B2 & Q). rewrite O2 in O. injection O as <-. exists lo', hi'. auto.
Qed.

(** C88, angles: when atan2 stays within [-pi, pi] of binary64, every reported angle is NaN or within [-180, 180] degrees. *)
Definition atan2_in_range (L : libm) : Prop := forall y x, PrimFloat.eqb (fatan2 L y x) (fatan2 L y x) = false \/ between64 (-0x1.921fb54442d18p+1) (fatan2 L y x) 0x1.921fb54442d18p+1.
Theorem C88_degrees : forall (L : libm) (nw : network float) dt lamb s0 cs k i v,
  atan2_in_range L -> sim_init (N := Fnum L) nw dt lamb = Ok s0 -> In k angle_keys ->
  obs (run (N := Fnum L) s0 cs) k "degree" i = Some v -> PrimFloat.eqb v v = false \/ between64 (-180) v 180.
Proof.
  intros L nw dt lamb s0 cs k i v Ra H0 K O. rewrite (units_angle_state (N := Fnum L) nw dt lamb s0 cs k i H0 K) in O.
  destruct (obs (run (N := Fnum L) s0 cs) k "rad" i) as [w|] eqn:W; [|discriminate O]. injection O as <-. change (PrimFloat.eqb (deg64 L w) (deg64 L w) = false \/ between64 (-180) (deg64 L w) 180).
  assert (A : exists y x, w = fatan2 L y x).
  { revert w W. apply (gathered_obs (N := Fnum L) _ _ _ _ cs (fun f => forall w, f k "rad" i = Some w -> exists y x, w = fatan2 L y x) H0); [discriminate|].
    intros s1 S v R. cbn [In angle_keys] in K. destruct K as [<-|[<-|[<-|[]]]].
    - eapply read_bus_inv in R; [|cbn; do 6 right; left; reflexivity]. destruct R as (b & _ & _ & ->). eexists _, _. reflexivity.
    - eapply read_bus_inv in R; [|cbn; do 10 right; left; reflexivity]. destruct R as (b & _ & _ & ->). eexists _, _. reflexivity.
    - eapply read_br_inv in R; [|cbn; do 7 right; left; reflexivity]. destruct R as (b & _ & _ & ->). eexists _, _. reflexivity. }
  destruct A as (y & x & ->). destruct (Ra y x) as [E|[E1 E2]].
  - left. rewrite fval_eqb in *. assert (Z : fval (fatan2 L y x) = NaN).
    { destruct (fval (fatan2 L y x)); try discriminate E; [|reflexivity]. exfalso. cbn [xeqb] in E. unfold Reqb in E. destruct (Req_EM_T r r) as [E'|E']; [discriminate E|auto]. }
    unfold deg64. assert (P : fin64 (npi (Num := Fnum L))) by (vm_compute; reflexivity). assert (P' : PrimFloat.leb (npi (Num := Fnum L)) 0%float = false) by (vm_compute; reflexivity).
    destruct (pos_val _ P P') as (q & Eq & Pq). rewrite (fval_div _ _ q Eq), fval_mul, Z by lra. reflexivity.
  - right. destruct (deg64_ends L) as (_ & Z1 & Z2). split.
    + apply (deg64_mono L) in E1. change (deg64 L (-0x1.921fb54442d18p+1)) with (-180)%float in E1. exact E1.
    + apply (deg64_mono L) in E2. change (deg64 L 0x1.921fb54442d18p+1) with 180%float in E2. exact E2.
Qed.

Print Assumptions C88_power.
Print Assumptions C88_angle.
Print Assumptions C88_voltage.
Print Assumptions C88_current.
Print Assumptions C88_soc.
Print Assumptions C88_degrees.
