(** The plans of the MPC agents: C51, C52, C53. *)
From Coq Require Import Reals Lra Sorted.
From Coquelicot Require Import Complex.
From Verif Require Import Base Num NumXR Devices BusBranch CheckNetwork LoadFlow Simulator EnvArgs Env Mpc LibBase LibNum LibSim LibXR SpecNet ProofNet LibInit SpecSim ProofSim ProofObs SpecDev ProofDev ProofSoc ProofVals
  SpecQp SpecPf LibC ProofBr ProofY SpecEnv ProofEnv SpecMpc ProofMpc PropMpc ProofPlan.
Local Open Scope string_scope.
Local Open Scope list_scope.
Local Open Scope R_scope.
Set Bullet Behavior "Strict Subproofs".

Lemma params_soc {F} {N : Num F} (m : mpc F) s PL PG soc : params m s PL PG = Ok soc -> init_soc m s = Ok soc.
Proof.
  unfold params. intros H. do 3 (apply bind_ok in H; destruct H as (? & _ & H)). apply bind_ok in H as (soc' & E & H). apply bind_ok in H as (? & _ & H). congruence.
Qed.
Lemma init_soc_nth {F} {N : Num F} (m : mpc F) s soc j i : init_soc m s = Ok soc -> nth_error (m_dess m) j = Some i -> nth_error soc j = obs s "des_soc" "pu" (EId i).
Proof.
  unfold init_soc, obs, read. destruct (sm_state s) as [st|]; [|discriminate]. intros H E. apply bind_ok in H as (q & Hq & H). apply bind_ok in H as (d & Hd & H). apply mapM_ok in H.
  unfold dgetE in Hq, Hd. destruct (dget String.eqb st "des_soc") as [q'|]; [|discriminate]. injection Hq as ->. destruct (dget String.eqb q "pu") as [d'|]; [|discriminate]. injection Hd as ->.
  revert j E. induction H as [|x y l l' Hx H IH]; intros [|j] E; cbn in *; try discriminate; [|auto]. injection E as ->. unfold dgetE in Hx. destruct (dget eid_eqb d (EId i)); congruence.
Qed.

(** C51.  The agent is built on a simulator with any past and called after any further calls ([soc]: the initial states of charge of the
    problem).  In every plan that satisfies the constraints, at the end of each stage [n], the planned state of charge of each storage unit
    is within the unit's bounds, and is at most the state of charge that the simulator's law gives for the planned injections; it is equal to
    it if the unit never charges and discharges at once. *)
Theorem C51_plan_soc : forall (nw : network XR) b d lamb s0 cs1 cs2 asp gam mg k m PL PG soc sts all dess r i e c0 lo hi,
  sim_init nw (Fin d) lamb = Ok s0 -> nw_base nw = Fin b -> 0 < d -> ids_of nw ALL all -> ids_of nw STORS dess ->
  mpc_init (run s0 cs1) asp gam mg k = Ok m -> let s := run (run s0 cs1) cs2 in params m s PL PG = Ok soc -> feasible m PL PG soc sts ->
  In r (nw_dev nw) -> dr_id r = Some i -> dr_type r = Some 3%Z -> EFF r = Fin e -> 0 < e ->
  obs s "des_soc" "pu" (EId i) = Some (Fin c0) -> bound s0 "des_soc" "pu" (EId i) = Some (Fin lo, Fin hi) ->
  let charge st := entry 0 dess (rs_pc st) i in let discharge st := entry 0 dess (rs_pd st) i in let inject st := entry 0 all (rs_p st) i in
  List.length sts = k /\ forall n, (1 <= n <= k)%nat ->
    let soc_n := planned_soc e d c0 (map (fun st => (charge st, discharge st)) (firstn n sts)) in
    let sim_n := simulated_soc lo hi e d c0 (map inject (firstn n sts)) in
    lo <= soc_n <= hi /\ soc_n <= sim_n /\
    (Forall (fun st => charge st = 0 \/ discharge st = 0) (firstn n sts) -> soc_n = sim_n).
Proof.
  intros nw b d lamb s0 cs1 cs2 asp gam mg k m PL PG soc sts all dess r i e c0 lo hi H0 Eb Hd Ha Hds M s P (Ls & Sh & Fe) Ir Ei Ty Ee He Oc Bd charge discharge inject.
  pose proof (agent_inv _ _ _ s0 _ asp gam mg k m H0 (strip_run s0 cs1) M) as Ag. rewrite (ag_steps _ _ _ _ _ _ _ _ Ag) in Ls. split; [auto|].
  destruct (agent_stor nw (Fin d) lamb s0 H0 _ (strip_run s0 cs1) asp gam mg k m M b r i e Eb Ir Ei Ty Ee) as (Er & j & lo' & hi' & Ej & Ef & Emin & Emax & Bd').
  rewrite Bd in Bd'. injection Bd' as <- <-.
  assert (Hj : (j < List.length (m_dess m))%nat) by (apply nth_error_Some; congruence).
  pose proof (init_soc_nth m s soc j i (params_soc _ _ _ _ _ P) Ej) as Ec. rewrite Oc in Ec.
  pose proof (proj1 (plan_stage m PL PG sts 0 soc) Fe) as St.
  assert (Ed : m_dess m = dess) by (apply (ag_dess _ _ _ _ _ _ _ _ Ag); auto). destruct (ag_devs _ _ _ _ _ _ _ _ Ag _ Ha) as (Eall & _).
  assert (ND : NoDup dess) by (apply sorted_lt_nodup; apply Hds). assert (Pj : pos_of dess i = j) by (apply pos_of_nth; congruence).
  assert (Id : In i dess) by (rewrite <- Ed; eapply nth_error_In; eauto).
  assert (Ia : In i all). { apply (proj2 Ha). apply (proj2 Hds) in Id. destruct Id as (r' & t & I1 & I2 & I3 & I4). exists r', t. repeat split; auto. cbn in *. tauto. }
  assert (Ech : forall st, charge st = nth j (rs_pc st) 0) by (intros st; unfold charge; rewrite <- entry_pos, Pj; auto).
  assert (Edi : forall st, discharge st = nth j (rs_pd st) 0) by (intros st; unfold discharge; rewrite <- entry_pos, Pj; auto).
  assert (Em : forall l, map (fun st => (charge st, discharge st)) l = map (pcd j) l). { intros l. apply map_ext. intros st. unfold pcd. rewrite Ech, Edi. reflexivity. }
  (* each stage *)
  assert (Sg : forall n st, nth_error sts n = Some st -> 0 <= charge st /\ 0 <= discharge st /\ inject st = discharge st - charge st).
  { intros n st E. specialize (St n st E). destruct St as [_ _ _ _ _ _ _ A8 A9 A10 _ _ _ _ _]. rewrite Forall_forall in Sh. destruct (Sh st (nth_error_In _ _ E)) as (_ & L0 & L1 & L2).
    specialize (A8 j Hj). specialize (A9 j Hj). specialize (A10 j i Ej). cbn [lift sg_pc sg_pd sg_p] in *. rewrite ix_fin in A8, A9 by lia. rewrite !ix_fin in A10.
    - rewrite Ech, Edi. apply xle_Fin in A8. apply xle_Fin in A9. apply xeqb_Fin in A10. split; [auto|]. split; [auto|]. unfold inject. rewrite <- entry_pos by auto. unfold dpos in A10. rewrite Eall in A10. exact A10.
    - lia.
    - lia.
    - unfold dpos. rewrite Eall, L0. destruct (ag_devs _ _ _ _ _ _ _ _ Ag _ Ha) as (_ & ->). apply pos_of_in. auto. }
  assert (Bn : forall n, (1 <= n <= k)%nat -> lo <= planned_soc e d c0 (map (pcd j) (firstn n sts)) <= hi).
  { intros [|n] Hn; [lia|]. destruct (nth_error sts n) as [st|] eqn:E; [|apply nth_error_None in E; lia]. rewrite (firstn_S _ _ _ E).
    specialize (St n st E). pose proof (so_socmin _ _ _ _ _ St) as A1. pose proof (so_socmax _ _ _ _ _ St) as A2.
    rewrite <- socs_after_snoc, <- (firstn_S _ _ _ E) in A1, A2. rewrite <- (firstn_S _ _ _ E).
    assert (V : nth_error (socs_after m soc (firstn (S n) sts)) j = Some (Fin (planned_soc e d c0 (map (pcd j) (firstn (S n) sts))))).
    { apply socs_after_nth; auto; [apply (ag_dt _ _ _ _ _ _ _ _ Ag)|lra|]. apply Forall_forall. intros x I. rewrite Forall_forall in Sh. apply Sh. rewrite <- (firstn_skipn (S n) sts). apply in_or_app. auto. }
    split; apply xle_Fin; [eapply les_nth; [exact A1|exact Emin|exact V]|eapply les_nth; [exact A2|exact V|exact Emax]]. }
  assert (Cmp : forall n, (n <= k)%nat -> planned_soc e d c0 (map (pcd j) (firstn n sts)) <= simulated_soc lo hi e d c0 (map inject (firstn n sts)) /\
    (Forall (fun st => charge st = 0 \/ discharge st = 0) (firstn n sts) -> planned_soc e d c0 (map (pcd j) (firstn n sts)) = simulated_soc lo hi e d c0 (map inject (firstn n sts)))).
  { induction n as [|n IH]; intros Hn; [cbn; split; [lra|auto]|]. destruct (IH ltac:(lia)) as (I1 & I2). specialize (Bn (S n) ltac:(lia)).
    destruct (nth_error sts n) as [st|] eqn:E; [|apply nth_error_None in E; lia]. rewrite (firstn_S _ _ _ E) in *. rewrite !map_app in *. cbn [map] in *. rewrite planned_snoc in *. rewrite simulated_snoc.
    destruct (Sg n st E) as (Q1 & Q2 & Q3). rewrite Q3. cbn [pcd fst snd] in *. rewrite <- Ech, <- Edi in *.
    set (c := planned_soc e d c0 (map (pcd j) (firstn n sts))) in *. set (c' := simulated_soc lo hi e d c0 (map inject (firstn n sts))) in *. split.
    - apply Rle_trans with (Rmin hi (soc_after e d c' (discharge st - charge st))); [|apply Rmax_r]. apply Rmin_glb; [lra|].
      eapply Rle_trans; [apply (waste e d c (charge st) (discharge st)); lra|apply soc_after_mono; auto].
    - intros Hw. apply Forall_app in Hw as (Hw1 & Hw2). inversion_clear Hw2 as [|? ? Hw3 _]. rewrite <- (I2 Hw1). rewrite (no_waste e d c (charge st) (discharge st)); auto.
      rewrite Rmin_right, Rmax_right by lra. reflexivity. }
  intros n Hn. cbv zeta. rewrite Em. split; [apply Bn; auto|]. apply Cmp. lia.
Qed.

(** C52.  If every branch is lossless or has no phase shift, the injections of each stage of a feasible plan sum to zero, whatever the forecasts
    and the initial states of charge. *)
Theorem C52_balanced_partial : forall (nw : network XR) b dt lamb s0 cs asp gam mg k m PL PG soc sts,
  sim_init nw dt lamb = Ok s0 -> nw_base nw = Fin b -> Forall branch_row_fin (nw_br nw) -> (forall i, In (Some i) (map br_id (nw_bus nw)) -> (0 <= i)%Z) ->
  Forall lossless_or_unshifted (nw_br nw) -> mpc_init (run s0 cs) asp gam mg k = Ok m -> feasible m PL PG soc sts ->
  Forall (fun st => sumR (rs_p st) = 0) sts.
Proof.
  intros nw b dt lamb s0 cs asp gam mg k m PL PG soc sts H0 Eb Hr Hid Hl M (_ & Sh & Fe).
  destruct (agent_B nw dt lamb s0 H0 _ (strip_run s0 cs) asp gam mg k m M b Eb Hr Hid) as (Y & HB & HY).
  apply Forall_forall. intros st I. apply In_nth_error in I as (n & E). pose proof (proj1 (plan_stage m PL PG sts 0 soc) Fe n st E) as Ok.
  rewrite Forall_forall in Sh. specialize (Sh st (nth_error_In _ _ E)).
  rewrite (stage_balance nw dt lamb s0 H0 _ (strip_run s0 cs) asp gam mg k m M st Sh Y _ _ _ HB Ok). rewrite <- (sumR_zero (m_brs m)). f_equal. apply map_ext_in. intros (f, t) I. cbn [fst snd].
  destruct (ends nw dt lamb s0 H0 _ (strip_run s0 cs) asp gam mg k m M f t I) as (If & It & Ne).
  pose proof (bus_pos nw dt lamb s0 H0 _ (strip_run s0 cs) asp gam mg k m M) as Bp.
  assert (Np : bpos m f <> bpos m t) by (intros Q; apply Ne; eapply bpos_inj; eauto).
  rewrite !HY by auto. rewrite !sumC_snd, !map_map.
  replace (map (fun x => snd (yterm x (Z.of_nat (bpos m t)) (Z.of_nat (bpos m f)))) (nw_br nw)) with (map (fun x => snd (yterm x (Z.of_nat (bpos m f)) (Z.of_nat (bpos m t)))) (nw_br nw)); [ring|].
  apply map_ext_in. intros r Ir. destruct (rows_nonzero nw dt lamb s0 H0 b Eb Hr r Ir) as (Z1 & Z2). apply yterm_sym; auto. rewrite Forall_forall in Hl. auto.
Qed.

(** the device that the agent takes for the slack device is the slack device of the network *)
Lemma slackdev_is (nw : network XR) dt lamb s0 cs asp gam mg k m r i : sim_init nw dt lamb = Ok s0 -> mpc_init (run s0 cs) asp gam mg k = Ok m ->
  In r (nw_dev nw) -> dr_type r = Some 0%Z -> dr_id r = Some i -> m_slackdev m = i.
Proof.
  intros H0 M Ir Ty Ei.
  destruct (agent_fields nw dt lamb s0 H0 _ (strip_run s0 cs) asp gam mg k m M) as (F1 & _ & _ & _ & F5 & F6 & _ & F8 & F9 & _ & F11 & F12 & _ & _ & _ & _ & _ & _ & _ & _ & l & Fl).
  destruct (init_dev_types _ _ _ _ H0) as (Sd & T1 & T2 & T3).
  destruct (sim_init_built _ _ _ _ H0) as (bs & ds & B).
  assert (I : In (m_slackdev m) (filter (fun i => negb (zmem i (m_dess m)) && negb (zmem i (m_nsgens m)) && negb (zmem i (m_loads m))) (map d_id (sm_devs s0)))) by (rewrite <- Fl; left; auto).
  apply filter_In in I as (I & Q). apply in_map_iff in I as (d & Ed & Id). apply andb_true_iff in Q as (Q & Q3). apply andb_true_iff in Q as (Q1 & Q2). apply negb_true_iff in Q1, Q2, Q3.
  assert (Z1 : forall p : device XR -> bool, zmem (m_slackdev m) (map d_id (filter p (sm_devs s0))) = false -> p d = false).
  { intros q E. destruct (q d) eqn:Eq; auto. rewrite <- E. symmetry. apply zmem_spec. rewrite <- Ed. apply in_map, filter_In. auto. }
  rewrite F1 in Q1. rewrite F11 in Q2. rewrite F12 in Q3. apply Z1 in Q1. apply Z1 in Q2. apply Z1 in Q3. destruct (T3 d Id) as (K1 & K2 & K3 & K4). rewrite Q3 in K1. rewrite Q2 in K2. rewrite Q1 in K3.
  assert (Et : d_type d = 0%Z). { apply zmem_spec in K4. cbn in K4. repeat (destruct K4 as [K4|K4]; [try (rewrite <- K4; reflexivity); exfalso; rewrite <- K4 in K1, K2, K3; discriminate|]). destruct K4. }
  destruct (T1 d Id) as (r' & Ir' & E1 & E2). rewrite Et in E2. destruct (bt_wf _ _ _ _ _ _ B) as (_ & _ & (l1 & a & l2 & El & Pa' & Fn) & _). rewrite Forall_forall in Fn.
  assert (U : forall x, In x (nw_dev nw) -> dr_type x = Some 0%Z -> x = a). { intros x Ix Tx. rewrite El in Ix. apply in_app_or in Ix as [Ix|[Ix|Ix]]; auto; exfalso; apply (Fn x); auto; apply in_or_app; auto. }
  rewrite (U r Ir Ty) in Ei. rewrite (U r' Ir' E2) in E1. congruence.
Qed.
(** C53.  The angle that is fixed to zero is the one at the position of the slack device in the list of devices: if the slack device (ID [i], at
    bus [j]) has the same position among the devices as the slack bus among the buses, the slack bus has angle 0 in each stage. *)
Theorem C53_reference_partial : forall (nw : network XR) dt lamb s0 cs asp gam mg k m PL PG soc sts all buses r i j p,
  sim_init nw dt lamb = Ok s0 -> mpc_init (run s0 cs) asp gam mg k = Ok m -> feasible m PL PG soc sts ->
  ids_of nw ALL all -> Sorted Z.lt buses -> (forall x, In x buses <-> In (Some x) (map br_id (nw_bus nw))) ->
  In r (nw_dev nw) -> dr_type r = Some 0%Z -> dr_id r = Some i -> dr_bus r = Some j -> nth_error all p = Some i -> nth_error buses p = Some j ->
  Forall (fun st => entry 0 buses (rs_ang st) j = 0) sts.
Proof.
  intros nw dt lamb s0 cs asp gam mg k m PL PG soc sts all buses r i j p H0 M (_ & Sh & Fe) Ha Sb Hb Ir Ty Ei Ej Pa Pb.
  pose proof (agent_inv _ _ _ s0 _ asp gam mg k m H0 (strip_run s0 cs) M) as Ag.
  destruct (agent_fields nw dt lamb s0 H0 _ (strip_run s0 cs) asp gam mg k m M) as (F1 & _ & _ & _ & F5 & F6 & _ & F8 & F9 & _).
  destruct (sim_init_built _ _ _ _ H0) as (bs & ds & B).
  assert (Eb : m_buses m = buses).
  { rewrite F8. apply sorted_unique; [exact (bt_bus_sorted B)|exact Sb|]. intros x. rewrite Hb, (bt_bus_ids B).
    rewrite (mapM_keys _ br_id b_id _ _ bus_init_id (bt_buses _ _ _ _ _ _ B)), !in_map_iff. split.
    - intros (y & <- & I). exists (b_id y). split; auto. apply in_map. apply (Permutation.Permutation_in _ (sort_by_perm b_id bs)); auto.
    - intros (y & E & I). injection E as ->. apply in_map_iff in I as (z & <- & I). exists z. split; auto. apply (Permutation.Permutation_in _ (Permutation.Permutation_sym (sort_by_perm b_id bs))); auto. }
  assert (Es : m_slackdev m = i) by (eapply slackdev_is; eauto).
  apply Forall_forall. intros st I. apply In_nth_error in I as (n & E). pose proof (so_slack _ _ _ _ _ (proj1 (plan_stage m PL PG sts 0 soc) Fe n st E)) as Q. rewrite Forall_forall in Sh. destruct (Sh st (nth_error_In _ _ E)) as (L & _).
  destruct (ag_devs _ _ _ _ _ _ _ _ Ag _ Ha) as (Ea & _). unfold dpos in Q. rewrite Ea, Es, (pos_of_nth all p i) in Q by (auto; apply sorted_lt_nodup; apply Ha).
  assert (Lp : (p < m_nbus m)%nat). { rewrite F9, <- (map_length b_id), <- F8, Eb. apply nth_error_Some. congruence. }
  cbn [lift sg_ang] in Q. rewrite ix_fin in Q by lia. apply xeqb_Fin in Q. rewrite <- entry_pos by (eapply nth_error_In; eauto). rewrite (pos_of_nth buses p j) by (auto; apply sorted_lt_nodup; auto). exact Q.
Qed.

(** C53, when there is no such bus: if the position of the slack device among the devices is not the position of a bus, the agent can be built
    but every call to it raises IndexError, with whatever solver, forecasts and simulator. *)
Theorem C53_unusable : forall (nw : network XR) dt lamb s0 cs asp gam mg k m solve s PL PG all r i p,
  sim_init nw dt lamb = Ok s0 -> mpc_init (run s0 cs) asp gam mg k = Ok m -> ids_of nw ALL all ->
  In r (nw_dev nw) -> dr_type r = Some 0%Z -> dr_id r = Some i -> nth_error all p = Some i -> (List.length (nw_bus nw) <= p)%nat ->
  mpc_act solve m s PL PG = Err IndexError.
Proof.
  intros nw dt lamb s0 cs asp gam mg k m solve s PL PG all r i p H0 M Ha Ir Ty Ei Pa Le.
  pose proof (agent_inv _ _ _ s0 _ asp gam mg k m H0 (strip_run s0 cs) M) as Ag. destruct (ag_devs _ _ _ _ _ _ _ _ Ag _ Ha) as (Ea & _).
  unfold mpc_act. destruct (Nat.eqb (m_steps m) 0); [reflexivity|]. cbn [raise_if bind].
  unfold dpos. rewrite Ea, (slackdev_is _ _ _ _ _ _ _ _ _ _ _ _ H0 M Ir Ty Ei), (pos_of_nth all p i) by (auto; apply sorted_lt_nodup; apply Ha).
  rewrite (ag_nbus _ _ _ _ _ _ _ _ Ag). apply Nat.leb_le in Le. rewrite Le. reflexivity.
Qed.

Print Assumptions C51_plan_soc.
Print Assumptions C52_balanced_partial.
Print Assumptions C53_reference_partial.
Print Assumptions C53_unusable.
