(** C64: the plans of the MPC agents satisfy the DC power flow of the network. *)
From Coq Require Import Reals Lra Sorted Permutation.
From Coquelicot Require Import Complex.
From Verif Require Import Base Num NumXR Devices BusBranch CheckNetwork LoadFlow Simulator EnvArgs Env Mpc LibBase LibNum LibSim LibXR SpecNet ProofNet LibInit SpecSim ProofSim ProofObs SpecDev ProofDev ProofSoc ProofVals
  SpecQp SpecPf LibC ProofBr ProofY ProofBal SpecEnv ProofEnv SpecMpc ProofMpc PropMpc ProofPlan.
Local Open Scope string_scope.
Local Open Scope list_scope.
Local Open Scope R_scope.
Set Bullet Behavior "Strict Subproofs".

Lemma sus_of r : row_z r <> RtoC 0 -> row_t r <> RtoC 0 -> unshifted r -> snd (- / (row_z r * Cconj (row_t r)))%C = dc_sus r.
Proof.
  intros Hz Ht Hu. pose proof (C_norm_pos _ Hz) as P1. pose proof (C_norm_pos _ Ht) as P2.
  assert (E : row_t r = (val_or (lr_tap r) 1, 0)). { unfold row_t. cbv zeta. destruct Hu as [-> | ->]; cbn [val_or]; unfold Rdiv; rewrite !Rmult_0_l, sin_0, cos_0; f_equal; ring. }
  rewrite E in *. unfold dc_sus. set (a := val_or (lr_tap r) 1) in *. unfold row_z in *. set (rr := row_r r) in *. set (x := row_x r) in *. cbn [fst snd] in *.
  assert (a <> 0) by nra. unfold Cinv, Cmult, Cconj, Copp. cbn [fst snd pow]. field. split; [|split; [auto|]]; nra.
Qed.
(** only one branch links two given buses *)
Lemma link_sum (l : list (branch_row XR)) r0 f t : ForallOrdPairs (fun r r' => ~ same_link r r') l -> In r0 l -> lr_f r0 = Some f -> lr_t r0 = Some t ->
  sumR (map (fun r => snd (yterm r f t)) l) = snd (yterm r0 f t) /\ sumR (map (fun r => snd (yterm r t f)) l) = snd (yterm r0 t f).
Proof.
  intros O I Ef Et.
  assert (Z0 : forall r k j, ~ (lr_f r = Some k /\ lr_t r = Some j) -> ~ (lr_f r = Some j /\ lr_t r = Some k) -> snd (yterm r k j) = 0).
  { intros r k j N1 N2. unfold yterm. destruct (end_of (lr_f r) k && end_of (lr_t r) j) eqn:E1; [apply andb_true_iff in E1; rewrite !end_of_eq in E1; tauto|].
    destruct (end_of (lr_t r) k && end_of (lr_f r) j) eqn:E2; [apply andb_true_iff in E2; rewrite !end_of_eq in E2; tauto|]. cbn [Cplus RtoC snd]. lra. }
  assert (Zl : forall l' k j, (forall r, In r l' -> ~ (lr_f r = Some k /\ lr_t r = Some j) /\ ~ (lr_f r = Some j /\ lr_t r = Some k)) -> sumR (map (fun r => snd (yterm r k j)) l') = 0).
  { intros l' k j H. rewrite <- (sumR_zero l'). f_equal. apply map_ext_in. intros r Ir. destruct (H r Ir). apply Z0; auto. }
  assert (G : forall k j, (k = f /\ j = t) \/ (k = t /\ j = f) -> sumR (map (fun r => snd (yterm r k j)) l) = snd (yterm r0 k j)).
  { intros k j C. induction O as [|r l H O IH]; [destruct I|]. cbn [map]. rewrite sumR_cons. destruct I as [-> | I].
    - rewrite Zl; [lra|]. intros r Ir. rewrite Forall_forall in H. specialize (H r Ir). unfold same_link in H. rewrite Ef, Et in H. destruct C as [(-> & ->)|(-> & ->)]; split; intros (Q1 & Q2); apply H; rewrite Q1, Q2; auto.
    - rewrite IH by auto. rewrite Z0; [lra| |]; rewrite Forall_forall in H; specialize (H r0 I); unfold same_link in H; rewrite Ef, Et in H; destruct C as [(-> & ->)|(-> & ->)]; intros (Q1 & Q2); apply H; rewrite Q1, Q2; auto. }
  split; apply G; auto.
Qed.
Lemma sorted_range (l : list Z) : forall a, Sorted Z.lt l -> (forall k, In k l <-> (a <= k < a + Z.of_nat (List.length l))%Z) -> l = map (fun n => (a + Z.of_nat n)%Z) (seq 0 (List.length l)).
Proof.
  intros a S H. apply sorted_unique; auto.
  - clear. generalize (List.length l) as n. intros n. generalize 0%nat as q. induction n as [|n IH]; intros q; cbn; constructor; auto. destruct n; cbn; constructor. lia.
  - intros x. rewrite H, in_map_iff. split.
    + intros K. exists (Z.to_nat (x - a)). split; [lia|]. apply in_seq. lia.
    + intros (n & <- & I). apply in_seq in I. lia.
Qed.
Lemma pos_range n i : forall q, (0 <= i < Z.of_nat n)%Z -> pos_of (map (fun x => (q + Z.of_nat x)%Z) (seq 0 n)) (q + i) = Z.to_nat i.
Proof.
  intros q H. apply pos_of_nth.
  - apply FinFun.Injective_map_NoDup; [intros x y E; lia|apply seq_NoDup].
  - rewrite nth_error_map, nth_error_nth' with (d := 0%nat) by (rewrite seq_length; lia). rewrite seq_nth by lia. cbn. f_equal. lia.
Qed.

Section Dc.
  Context (nw : network XR) (b : R) (dt lamb : XR) (s0 : sim XR) (H0 : sim_init nw dt lamb = Ok s0) (Eb : nw_base nw = Fin b).
  Context (Hr : Forall branch_row_fin (nw_br nw)) (Hc : contiguous nw) (Hu : Forall unshifted (nw_br nw)) (all : list Z) (Ha : ids_of nw ALL all).
  Context (s : sim XR) (Hs : strip s = strip s0) (asp : box XR) (gam mg : XR) (k : nat) (m : mpc XR) (M : mpc_init s asp gam mg k = Ok m).

  Lemma dc_bus_ids x : In x (m_buses m) <-> In (Some x) (map br_id (nw_bus nw)).
  Proof.
    destruct (agent_fields nw dt lamb s0 H0 s Hs asp gam mg k m M) as (_ & _ & _ & _ & F5 & F6 & F7 & F8 & F9 & F10 & _).
    destruct (sim_init_built _ _ _ _ H0) as (bs & ds & B).
    rewrite F8, (bt_bus_ids B), (mapM_keys _ br_id b_id _ _ bus_init_id (bt_buses _ _ _ _ _ _ B)), !in_map_iff. split.
    - intros (y & <- & I). exists (b_id y). split; auto. apply in_map. apply (Permutation_in _ (sort_by_perm b_id bs)); auto.
    - intros (y & E & I). injection E as ->. apply in_map_iff in I as (z & <- & I). exists z. split; auto. apply (Permutation_in _ (Permutation_sym (sort_by_perm b_id bs))); auto.
  Qed.
  Lemma dc_nbus : m_nbus m = List.length (nw_bus nw).
  Proof. exact (ag_nbus _ _ _ _ _ _ _ _ (agent_inv _ _ _ s0 _ asp gam mg k m H0 Hs M)). Qed.
  Lemma dc_buses : m_buses m = map (fun n => (0 + Z.of_nat n)%Z) (seq 0 (List.length (nw_bus nw))).
  Proof.
    destruct (agent_fields nw dt lamb s0 H0 s Hs asp gam mg k m M) as (_ & _ & _ & _ & F5 & F6 & F7 & F8 & F9 & F10 & _).
    destruct (sim_init_built _ _ _ _ H0) as (bs & ds & B).
    assert (Lb : List.length (m_buses m) = List.length (nw_bus nw)) by (rewrite <- dc_nbus, F9, F8, map_length; auto).
    rewrite <- Lb. apply sorted_range; [rewrite F8; exact (bt_bus_sorted B)|]. intros x. rewrite dc_bus_ids, (Hc x), Lb. lia.
  Qed.
  Lemma dc_pos i : In i (m_buses m) -> bpos m i = Z.to_nat i.
  Proof. intros I. unfold bpos. rewrite dc_buses. rewrite <- (Z.add_0_l i) at 1. apply pos_range. apply dc_bus_ids, Hc in I. lia. Qed.

  Context (st : rstage) (Sh : shaped m st).
  Let th := fun j => nth (Z.to_nat j) (rs_ang st) 0.
  (** the planned injections at a bus *)
  Lemma dc_p_bus i : In i (m_buses m) -> p_bus m (lift st) (bpos m i) = Fin (planned_at nw all (rs_p st) i).
  Proof.
    intros Im. rewrite (p_bus_fin nw dt lamb s0 H0 s Hs asp gam mg k m M st Sh). f_equal.
    pose proof (agent_inv _ _ _ s0 _ asp gam mg k m H0 Hs M) as Ag. destruct (ag_devs _ _ _ _ _ _ _ _ Ag _ Ha) as (Ea & _).
    destruct (agent_fields nw dt lamb s0 H0 s Hs asp gam mg k m M) as (_ & _ & _ & _ & F5 & F6 & F7 & F8 & F9 & F10 & _).
    destruct (sim_init_built _ _ _ _ H0) as (bs & ds & B).
    rewrite F7, map_map. cbn [fst snd].
    rewrite (sumR_perm _ _ (Permutation_map _ (eq_ind_r (fun l => Permutation l ds) (sort_by_perm d_id ds) (bt_sdevs _ _ _ _ _ _ B)))).
    pose proof (bt_devs _ _ _ _ _ _ B) as Ed. apply mapM_ok in Ed. unfold planned_at, rows_at.
    rewrite <- (bt_bus_ids B), <- F8 in Ed.
    assert (Ia : forall d, In d ds -> In (d_id d) all). { intros d Id. rewrite <- Ea, F5, (bt_sdevs _ _ _ _ _ _ B). apply in_map. apply (Permutation_in _ (Permutation_sym (sort_by_perm d_id ds))); auto. }
    clear -Ed Im Ea Ia. induction Ed as [|r d l l' Er Ed IH]; [reflexivity|]. apply mk_dev_fields in Er as (E1 & E2 & _ & E4 & _).
    cbn [filter map]. rewrite sumR_cons, IH by (intros; apply Ia; cbn; auto). rewrite E2. cbn [optz_eqb].
    assert (C : Nat.eqb (bpos m (d_bus d)) (bpos m i) = Z.eqb (d_bus d) i).
    { destruct (Z.eqb_spec (d_bus d) i) as [->|Ne]; [apply Nat.eqb_refl|]. apply Nat.eqb_neq. intros Q. apply Ne. unfold bpos in Q. apply pos_of_in in E4 as (_ & E4). apply pos_of_in in Im as (_ & Im). congruence. }
    rewrite C. destruct (Z.eqb (d_bus d) i); [|lra]. cbn [map]. rewrite sumR_cons, E1. unfold dpos. rewrite Ea, entry_pos by (apply Ia; cbn; auto). reflexivity.
  Qed.
  (** the susceptance read for a branch *)
  Lemma dc_branch (Y : nat -> nat -> C) r x : (forall i j, (i < m_nbus m)%nat -> (j < m_nbus m)%nat -> i <> j -> Y i j = sumC (map (fun r => yterm r (Z.of_nat i) (Z.of_nat j)) (nw_br nw))) ->
    In r (nw_br nw) -> branch_init r (nw_base nw) (m_buses m) = Ok x ->
    lr_f r = Some (ln_f x) /\ lr_t r = Some (ln_t x) /\ In (ln_f x) (m_buses m) /\ In (ln_t x) (m_buses m) /\
    snd (Y (bpos m (ln_f x)) (bpos m (ln_t x))) = dc_sus r /\ snd (Y (bpos m (ln_t x)) (bpos m (ln_f x))) = dc_sus r.
  Proof.
    intros HY Ir E1. apply branch_init_ends in E1 as (Ef & Et & If & It).
    assert (Hid : forall i, In (Some i) (map br_id (nw_bus nw)) -> (0 <= i)%Z) by (intros i I; apply Hc in I; lia).
    destruct (sim_init_built _ _ _ _ H0) as (bs & ds & B). destruct (bt_wf _ _ _ _ _ _ B) as (_ & _ & _ & _ & _ & _ & (WL1 & WL2) & _).
    assert (Ne : ln_f x <> ln_t x). { intros Q'. rewrite Forall_forall in WL1. apply (WL1 r Ir). congruence. }
    assert (Np : bpos m (ln_f x) <> bpos m (ln_t x)) by (intros Q'; apply Ne; eapply (bpos_inj m); eauto).
    pose proof (bus_pos nw dt lamb s0 H0 s Hs asp gam mg k m M) as Bp.
    do 4 (split; [assumption|]).
    rewrite !HY by auto. rewrite !sumC_snd, !map_map, !dc_pos by auto. rewrite !Z2Nat.id by (apply Hid, dc_bus_ids; auto).
    destruct (link_sum _ r (ln_f x) (ln_t x) WL2 Ir Ef Et) as (-> & ->). destruct (rows_nonzero nw dt lamb s0 H0 b Eb Hr r Ir) as (Z1 & Z2). rewrite Forall_forall in Hu.
    rewrite (yterm_sym r (ln_t x) (ln_f x)) by (auto; right; apply Hu; auto).
    assert (Ey : snd (yterm r (ln_f x) (ln_t x)) = dc_sus r); [|auto].
    unfold yterm. rewrite Ef, Et. unfold end_of, optz_eqb. rewrite !Z.eqb_refl. destruct (Z.eqb_spec (ln_t x) (ln_f x)); [congruence|]. cbn [andb]. cbn [Cplus snd]. rewrite sus_of by auto. cbn [RtoC snd]. ring.
  Qed.
  (** the power driven into the branches of a bus *)
  Lemma dc_p_dc i : p_dc m (lift st) i = Fin (dc_out nw th i).
  Proof.
    assert (Hid : forall i, In (Some i) (map br_id (nw_bus nw)) -> (0 <= i)%Z) by (intros j I; apply Hc in I; lia).
    destruct (agent_B nw dt lamb s0 H0 s Hs asp gam mg k m M b Eb Hr Hid) as (Y & HB & HY).
    rewrite (p_dc_fin nw dt lamb s0 H0 s Hs asp gam mg k m M st Sh Y i HB). f_equal.
    destruct (agent_fields nw dt lamb s0 H0 s Hs asp gam mg k m M) as (_ & _ & _ & _ & F5 & F6 & F7 & F8 & F9 & F10 & _).
    destruct (sim_init_built _ _ _ _ H0) as (bs & ds & B).
    rewrite F10, map_map. cbn [fst snd]. unfold dc_out. pose proof (bt_brs _ _ _ _ _ _ B) as Er. apply mapM_ok in Er. rewrite <- (bt_bus_ids B), <- F8 in Er.
    f_equal. revert Er. assert (Ii : incl (nw_br nw) (nw_br nw)) by apply incl_refl. revert Ii. generalize (nw_br nw) at 1 3 4. generalize (sm_branches s0).
    intros brs rows Ii Er. induction Er as [|r x rows brs E1 _ IH]; [reflexivity|]. cbn [map]. rewrite IH by (intros y Iy; apply Ii; right; auto). f_equal.
    destruct (dc_branch Y r x HY (Ii _ (or_introl eq_refl)) E1) as (Ef & Et & If & It & -> & ->).
    rewrite !dc_pos, Ef, Et by auto. unfold end_of, optz_eqb, ang_at, th. reflexivity.
  Qed.
  (** the flows on the branches *)
  Lemma dc_p_branch : p_branch m (lift st) = map (fun r => Fin (dc_sus r * (ang_at th (lr_f r) - ang_at th (lr_t r)))) (nw_br nw).
  Proof.
    assert (Hid : forall i, In (Some i) (map br_id (nw_bus nw)) -> (0 <= i)%Z) by (intros j I; apply Hc in I; lia).
    destruct (agent_B nw dt lamb s0 H0 s Hs asp gam mg k m M b Eb Hr Hid) as (Y & HB & HY).
    destruct (agent_fields nw dt lamb s0 H0 s Hs asp gam mg k m M) as (_ & _ & _ & _ & F5 & F6 & F7 & F8 & F9 & F10 & _).
    destruct (sim_init_built _ _ _ _ H0) as (bs & ds & B).
    unfold p_branch. rewrite F10, map_map. cbn [fst snd]. pose proof (bt_brs _ _ _ _ _ _ B) as Er. apply mapM_ok in Er. rewrite <- (bt_bus_ids B), <- F8 in Er.
    revert Er. assert (Ii : incl (nw_br nw) (nw_br nw)) by apply incl_refl. revert Ii. generalize (nw_br nw) at 1 3 4. generalize (sm_branches s0).
    intros brs rows Ii Er. induction Er as [|r x rows brs E1 _ IH]; [reflexivity|]. cbn [map]. rewrite IH by (intros y Iy; apply Ii; right; auto). f_equal.
    destruct (dc_branch Y r x HY (Ii _ (or_introl eq_refl)) E1) as (Ef & Et & If & It & Es & _).
    rewrite HB by (apply (bus_pos nw dt lamb s0 H0 s Hs asp gam mg k m M); auto).
    rewrite !(th_fin nw dt lamb s0 H0 s Hs asp gam mg k m M st Sh) by auto. rewrite Es, !dc_pos, Ef, Et by auto. reflexivity.
  Qed.
End Dc.

(** C64.  On a network whose bus IDs are 0..N-1 and whose branches have no phase shift, in each stage of a feasible plan and at each bus, the
    planned injections of the devices of the bus equal the power that the planned angles (in the order of the bus IDs) drive into its branches. *)
Theorem C64_dc_flow_partial : forall (nw : network XR) b dt lamb s0 cs asp gam mg k m PL PG soc sts all,
  sim_init nw dt lamb = Ok s0 -> nw_base nw = Fin b -> Forall branch_row_fin (nw_br nw) -> contiguous nw -> Forall unshifted (nw_br nw) -> ids_of nw ALL all ->
  mpc_init (run s0 cs) asp gam mg k = Ok m -> feasible m PL PG soc sts ->
  Forall (fun st => forall i, In (Some i) (map br_id (nw_bus nw)) ->
    planned_at nw all (rs_p st) i = dc_out nw (fun j => nth (Z.to_nat j) (rs_ang st) 0) i) sts.
Proof.
  intros nw b dt lamb s0 cs asp gam mg k m PL PG soc sts all H0 Eb Hr Hc Hu Ha M (_ & Sh & Fe).
  pose proof (strip_run s0 cs) as Hs. set (s := run s0 cs) in *. clearbody s.
  apply Forall_forall. intros st I. apply In_nth_error in I as (n & E). pose proof (proj1 (plan_stage m PL PG sts 0 soc) Fe n st E) as Sok.
  rewrite Forall_forall in Sh. specialize (Sh st (nth_error_In _ _ E)). intros i Ii.
  pose proof (so_balance _ _ _ _ _ Sok) as Bl.
  assert (Im : In i (m_buses m)) by (eapply dc_bus_ids; eauto). assert (Hn : (0 <= i < Z.of_nat (List.length (nw_bus nw)))%Z) by (apply Hc; auto).
  assert (N1 : nth_error (m_buses m) (Z.to_nat i) = Some i).
  { rewrite (dc_buses nw dt lamb s0 H0 Hc s Hs asp gam mg k m M), nth_error_map, nth_error_nth' with (d := 0%nat) by (rewrite seq_length; lia). rewrite seq_nth by lia. cbn. f_equal. lia. }
  assert (N2 : nth_error (seq 0 (m_nbus m)) (Z.to_nat i) = Some (bpos m i)).
  { rewrite (dc_pos nw dt lamb s0 H0 Hc s Hs asp gam mg k m M i Im), (dc_nbus nw dt lamb s0 H0 s Hs asp gam mg k m M), nth_error_nth' with (d := 0%nat) by (rewrite seq_length; lia). rewrite seq_nth by lia. reflexivity. }
  pose proof (eqs_nth _ _ (Z.to_nat i) _ _ Bl (map_nth_error _ _ _ N1) (map_nth_error _ _ _ N2)) as Q.
  rewrite (dc_p_dc nw b dt lamb s0 H0 Eb Hr Hc Hu s Hs asp gam mg k m M st Sh i), (dc_p_bus nw dt lamb s0 H0 all Ha s Hs asp gam mg k m M st Sh i Im) in Q.
  apply xeqb_Fin in Q. auto.
Qed.
Print Assumptions C64_dc_flow_partial.
