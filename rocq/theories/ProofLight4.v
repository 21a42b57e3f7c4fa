(** C80: the Newton loop of the simulator on a lightly loaded network. *)
From Coq Require Import Reals Lra Lia Permutation.
From Coquelicot Require Import Complex.
From Verif Require Import Base Num NumXR LibBase LibNum LibXR LibEval Devices BusBranch CheckNetwork LoadFlow Simulator SpecNet ProofNet LibInit LibSim
  SpecDev SpecSim ProofSim ProofSoc ProofObs ProofDev ProofBusP SpecPf LibC ProofBr ProofY SpecNr ProofNr ProofPf ProofBal SpecLight ProofLight ProofLight2 ProofLight3.
Local Open Scope string_scope.
Local Open Scope list_scope.
Local Open Scope R_scope.
Set Bullet Behavior "Strict Subproofs".

(** the solvers of a call *)
Definition call_or (c : call XR) : oracles XR := match c with CReset Or _ => Or | CTrans Or _ => Or end.

Lemma last_pf (s0 s : sim XR) c : strip s = strip s0 -> returned s c ->
  exists inp sp sq conv ds v i s1, strip sp = strip s0 /\ trans_ok (call_or c) inp sp sq conv ds v i /\
    sm_buses s1 = sm_buses sq /\ map dev_core (sm_devs s1) = map dev_core (sm_devs sq) /\ strip s1 = strip s0 /\
    sm_state (run_call s c) = Some (gather_state s1) /\ sm_conv (run_call s c) = Some conv.
Proof.
  intros S R. destruct c as [Or init|Or inp]; cbn [run_call returned call_or] in *.
  - unfold sim_reset in *.
    destruct (reset_inputs _ _ _ _ _ _ _) as [inp|e]; [|discriminate R].
    destruct (mapM (dev_pre_soc inp) (sm_devs s)) as [ds|e] eqn:Em; [|discriminate R].
    set (s1 := sim_set_devs (sim_set_state s None) ds) in *.
    assert (S1 : strip s1 = strip s0).
    { rewrite <- S. unfold s1. apply (strip_set_devs (sim_set_state s None)). cbn.
      eapply (mapM_proj _ strip_dev strip_dev); [|eauto]. intros; eapply strip_pre_soc; eauto. }
    pose proof (strip_transition Or inp s1) as S2.
    pose proof (transition_ok Or inp s1) as TK.
    destruct (transition Or inp s1) as [s2 [[[[[st r] e] pen] conv]|e]]; cbn [fst snd] in *; [|discriminate R].
    destruct (TK _ _ _ _ _ _ eq_refl) as (_ & _ & ds' & v & i & T). clear TK.
    pose proof (strip_set_socs (sm_base s) (slice (2 * n_device s) (n_des s) init) (sm_devs s2)) as Q.
    pose proof (core_set_socs (sm_base s) (slice (2 * n_device s) (n_des s) init) (sm_devs s2)) as Q2.
    destruct (set_socs (sm_base s) _ (sm_devs s2)) as [ds2 [u|x]]; cbn [fst snd] in *; [|discriminate R].
    exists inp, s1, s2, conv, ds', v, i, (sim_set_devs s2 ds2). split; auto. split; auto. split; [reflexivity|]. split; [exact Q2|].
    split; [rewrite strip_set_devs by exact Q; congruence|]. split; [reflexivity|]. cbn. apply T.
  - pose proof (strip_transition Or inp s) as S2. pose proof (transition_ok Or inp s) as TK.
    destruct (transition Or inp s) as [s2 [[[[[st r] e] pen] conv]|e]]; cbn [fst snd] in *; [|discriminate R].
    destruct (TK _ _ _ _ _ _ eq_refl) as (_ & _ & ds' & v & i & T).
    exists inp, s, s2, conv, ds', v, i, s2. split; auto. split; auto. split; auto. split; auto. split; [congruence|]. split; apply T.
Qed.

Section Sim.
  Context (nw : network XR) (dt lamb : XR) (s0 : sim XR) (H0 : sim_init nw dt lamb = Ok s0) (b : R) (Eb : nw_base nw = Fin b).
  Context (Hr : Forall branch_row_fin (nw_br nw)) (Hn : numbered nw).
  Context (Zm : Z -> Z -> C) (z y sM : R) (Hflat : flat_rest nw) (HZ : impedance nw Zm z) (Hy : admits nw y).
  Context (Hc : 48 * (z * y) * (z * sM) <= 1) (Ht : z * y * sM <= 10 ^ 20).

  Definition small_at (ds : list (device XR)) : Prop := forall k, In k (load_ids nw) -> exists P Q,
    sumX (map d_p (devs_at ds k)) = Fin P /\ sumX (map d_q (devs_at ds k)) = Fin Q /\ Cmod (P, Q) <= sM.

  Lemma load_ids_seq n : List.length (nw_bus nw) = S n -> load_ids nw = map Z.of_nat (seq 1 n).
  Proof. intros E. unfold load_ids, bus_ids. rewrite E. reflexivity. Qed.
  Lemma load_on n k : List.length (nw_bus nw) = S n -> on n k -> In (Z.of_nat k) (load_ids nw).
  Proof. intros E K. rewrite (load_ids_seq n E). apply in_map, in_seq. unfold on in K. lia. Qed.

  Lemma light_pfe lin s ds : exact_lin lin -> strip s = strip s0 -> (2 <= List.length (nw_bus nw))%nat -> small_at ds ->
    let pq := pq_vectors (map (bus_injection ds) (sm_buses s)) in
    exists v i, solve_pfe lin (n_bus s) (map fst pq) (map snd pq) (sm_Y s) xtol_pfe = Ok (v, i, true).
  Proof.
    intros Hl Ss L2 Sm. destruct (num_Y nw dt lamb s0 H0 b Eb Hr Hn) as (M & EY & Np & KCL). destruct (num_ids nw dt lamb s0 H0 Hn s Ss) as [Ids Len].
    assert (Ln : exists n, List.length (nw_bus nw) = S n /\ (1 <= n)%nat) by (destruct (List.length (nw_bus nw)) as [|n]; [lia|]; exists n; lia).
    destruct Ln as (n & Ln & N1). assert (Li := load_ids_seq n Ln). assert (Lo := load_on n). rewrite Ln in KCL, EY, Len.
    assert (EY' : sm_Y s = tab (S n) M) by (apply (f_equal sm_Y) in Ss; cbn in Ss; congruence).
    assert (NB : n_bus s = S n) by (unfold n_bus; exact Len).
    set (S0 := fun k : nat => (val_or (Some (sumX (map d_p (devs_at ds (Z.of_nat k))))) 0, val_or (Some (sumX (map d_q (devs_at ds (Z.of_nat k))))) 0) : C).
    set (bs := map (bus_injection ds) (sm_buses s)).
    assert (Lb : List.length bs = S n) by (unfold bs; rewrite map_length; auto).
    assert (Idb : map b_id bs = map Z.of_nat (seq 0 (List.length bs))).
    { rewrite Lb. unfold bs. rewrite map_map. cbn [b_id bus_injection]. unfold bus_ids in Ids. rewrite Ln in Ids. exact Ids. }
    assert (Slb : forall x, In x bs -> b_slack x = Z.eqb (b_id x) 0).
    { intros x I. unfold bs in I. apply in_map_iff in I as (x0 & <- & I). apply (num_slack nw dt lamb s0 H0 Hn s x0 Ss I). }
    assert (PQb : forall x, In x bs -> b_p x = sumX (map d_p (devs_at ds (b_id x))) /\ b_q x = sumX (map d_q (devs_at ds (b_id x)))).
    { intros x I. unfold bs in I. apply in_map_iff in I as (x0 & <- & I). cbn. rewrite !nsum_sumX. auto. }
    cbv zeta. fold bs. destruct bs as [|bz bs'] eqn:Ebs; [discriminate Lb|].
    assert (Idr : map b_id bs' = map Z.of_nat (seq 1 n)).
    { rewrite Lb in Idb. cbn [seq map] in Idb. injection Idb as _ I2. exact I2. }
    assert (PQ : pq_vectors (bz :: bs') = map (fun x => (b_p x, b_q x)) bs').
    { rewrite pq_numbered by auto. cbn [flat_map]. rewrite (Slb bz) by (left; auto).
      cbn in Idb. injection Idb as I1 _. rewrite I1. cbn [Z.eqb app]. apply flat_all. intros x I. rewrite Slb by (right; auto).
      apply Z.eqb_neq. assert (J : In (b_id x) (map b_id bs')) by (apply in_map; auto). rewrite Idr in J.
      apply in_map_iff in J as (k & <- & J). apply in_seq in J. lia. }
    rewrite PQ, !map_map. cbn [fst snd].
    assert (Ep : map b_p bs' = map (fun k => Fin (fst (S0 k))) (seq 1 n)).
    { transitivity (map (fun k => sumX (map d_p (devs_at ds k))) (map b_id bs')).
      - rewrite map_map. apply map_ext_in. intros x I. apply (PQb x). right; auto.
      - rewrite Idr, map_map. apply map_ext_in. intros k I. apply on_seq in I. destruct (Sm _ (Lo k Ln I)) as (P & Q & E1 & _). unfold S0. cbn [fst]. rewrite E1. reflexivity. }
    assert (Eq : map b_q bs' = map (fun k => Fin (snd (S0 k))) (seq 1 n)).
    { transitivity (map (fun k => sumX (map d_q (devs_at ds k))) (map b_id bs')).
      - rewrite map_map. apply map_ext_in. intros x I. apply (PQb x). right; auto.
      - rewrite Idr, map_map. apply map_ext_in. intros k I. apply on_seq in I. destruct (Sm _ (Lo k Ln I)) as (P & Q & _ & E1 & _). unfold S0. cbn [snd]. rewrite E1. reflexivity. }
    change (map (fun x => b_p x) bs') with (map b_p bs'). change (map (fun x => b_q x) bs') with (map b_q bs').
    rewrite Ep, Eq, NB, EY', xtol_val.
    set (Vz := fun (V : nat -> C) (k : Z) => V (Z.to_nat k)).
    assert (CU : forall V k, on n k -> cur n M V k = current_out nw (Vz V) (Z.of_nat k)).
    { intros V k K. unfold cur. rewrite <- (KCL (Vz V) k) by (unfold on in K; lia). unfold sumn. apply sumC_ext_in. intros j _. unfold Vz. rewrite Nat2Z.id. reflexivity. }
    apply (light_conv n M (fun i k => Zm (Z.of_nat i) (Z.of_nat k)) z y sM S0 lin N1); auto.
    - intros k K. rewrite CU by auto. apply Hflat. apply Lo; auto.
    - intros V V0 i I. destruct HZ as (HZ1 & _). specialize (HZ1 (Vz V) V0 (Z.of_nat i) (Lo i Ln I)). rewrite Li, map_map in HZ1. unfold Vz at 2 in HZ1. rewrite Nat2Z.id in HZ1. rewrite <- HZ1.
      apply sumC_ext_in. intros k K. apply on_seq in K. rewrite CU by auto. reflexivity.
    - intros i I. destruct HZ as (_ & HZ2). specialize (HZ2 _ (Lo i Ln I)). rewrite Li, map_map in HZ2. exact HZ2.
    - intros V r HV k K. rewrite CU by auto. apply Hy; [|apply Lo; auto]. intros j J. unfold bus_ids in J. apply in_map_iff in J as (j' & <- & J). apply in_seq in J. unfold Vz. rewrite Nat2Z.id. apply HV. lia.
    - intros k K. destruct (Sm _ (Lo k Ln K)) as (P & Q & E1 & E2 & E3). unfold S0. rewrite E1, E2. exact E3.
  Qed.

  Lemma pfe_two lin s ds v i c : strip s = strip s0 -> (let pq := pq_vectors (map (bus_injection ds) (sm_buses s)) in
    solve_pfe lin (n_bus s) (map fst pq) (map snd pq) (sm_Y s) xtol_pfe = Ok (v, i, c)) -> (2 <= List.length (nw_bus nw))%nat.
  Proof.
    intros Ss H. destruct (num_Y nw dt lamb s0 H0 b Eb Hr Hn) as (M & EY & Np & KCL). destruct (num_ids nw dt lamb s0 H0 Hn s Ss) as [Ids Len].
    destruct (List.length (nw_bus nw)) as [|[|n]] eqn:E; [lia| |lia]. exfalso. cbv zeta in H. unfold n_bus in H. rewrite Len in H. unfold solve_pfe, newton_raphson in H. cbn [Nat.sub repeat app] in H.
    apply bind_ok in H as (x & H & _). apply bind_ok in H as (f & Hf & H). apply bind_ok in H as (d & Hd & _).
    apply pfe_shape in Hf as (A1 & A2 & A3 & A4 & _). cbn [construct_v List.length] in A3. rewrite A4 in Hd. clear -Hd A2 A3.
    destruct (map fst _) as [|? l]; [|cbn in A3; lia]. destruct (map snd _); [|cbn in A2; lia]. destruct (mat_vec _ _) as [|? [|? ?]]; cbn in Hd; discriminate Hd.
  Qed.

  Lemma devs_same Or inp s s' conv ds v i k : strip s = strip s0 -> trans_ok Or inp s s' conv ds v i -> In k (load_ids nw) -> devs_at ds k = devs_at (sm_devs s') k.
  Proof.
    intros Ss T Ik. assert (Ss' : strip s' = strip s0) by (rewrite (tk_strip _ _ _ _ _ _ _ _ T); auto).
    assert (Ib : In k (bus_ids nw) /\ k <> 0%Z).
    { unfold load_ids, bus_ids in *. destruct (List.length (nw_bus nw)); [destruct Ik|]. cbn [seq map tl] in Ik |- *. split; [right; auto|]. apply in_map_iff in Ik as (j & <- & J). apply in_seq in J. lia. }
    destruct Ib as (Ib & Nz). destruct (bus_at nw dt lamb s0 H0 Hn s' k Ss' Ib) as (bb & Ibb & Ek & Sl). apply Z.eqb_neq in Nz. rewrite Nz in Sl.
    apply (devs_at_ns (sm_buses s')); [apply T|]. intros d Id Ed.
    pose proof (tk_sdevs _ _ _ _ _ _ _ _ T) as M. apply mapM_ok in M. destruct (Forall2_in_l _ _ _ _ M Id) as (d2 & I2 & E2).
    apply strip_slack_update in E2. apply strip_dev_fields in E2 as (_ & G2 & G3 & _).
    assert (K : d_slack d2 = false) by (eapply (slack_dev_bus nw dt lamb s0 H0 s' bb); eauto; congruence).
    unfold d_slack in *. congruence.
  Qed.

  Theorem light_call s c : strip s = strip s0 -> returned s c -> exact_lin (o_lin (call_or c)) -> injections_below nw (run_call s c) sM -> sm_conv (run_call s c) = Some true.
  Proof.
    intros Ss R Hl Inj. destruct (last_pf s0 s c Ss R) as (inp & sp & sq & conv & ds & v & i & s1 & Sp & T & _ & Ed & S1 & St & Cv). rewrite Cv. f_equal.
    assert (Sm : small_at ds).
    { intros k Ik. destruct (Inj k Ik) as (P & Q & E1 & E2 & E3). exists P, Q. rewrite (devs_same _ _ _ _ _ _ _ _ k Sp T Ik).
      rewrite <- (core_devs_at d_p (fun x => fst (fst (snd x))) (fun _ => eq_refl) _ _ k Ed).
      rewrite <- (core_devs_at d_q (fun x => snd (fst (snd x))) (fun _ => eq_refl) _ _ k Ed).
      split; [rewrite <- E1|split; [rewrite <- E2|auto]]; apply sumX_perm, Permutation_sym; unfold rows_at, devs_at.
      - apply (rows_sum nw dt lamb s0 H0 (run_call s c) s1 "dev_p" (fun _ => true) d_p); auto; [cbn; auto|]. intros r d base ids. apply st_dev_p.
      - apply (rows_sum nw dt lamb s0 H0 (run_call s c) s1 "dev_q" (fun _ => true) d_q); auto; [cbn; auto|]. intros r d base ids. apply st_dev_p. }
    pose proof (tk_pfe _ _ _ _ _ _ _ _ T) as Pf. pose proof (pfe_two _ _ _ _ _ _ Sp Pf) as L2.
    destruct (light_pfe _ sp ds Hl Sp L2 Sm) as (v' & i' & E). cbv zeta in Pf, E. rewrite E in Pf. congruence.
  Qed.
End Sim.
