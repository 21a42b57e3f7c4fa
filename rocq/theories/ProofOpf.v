(** The problem of the MPC agents is the documented optimal power flow. *)
From Coq Require Import Reals Lra Sorted Permutation.
From Coquelicot Require Import Complex.
From Verif Require Import Base Num NumXR Devices BusBranch CheckNetwork LoadFlow Simulator EnvArgs Env Mpc LibBase LibNum LibSim LibXR SpecNet ProofNet LibInit SpecSim ProofSim ProofObs SpecDev ProofDev ProofSoc ProofVals
  SpecQp SpecPf LibC ProofBr ProofY ProofBal SpecEnv ProofEnv SpecMpc ProofMpc PropMpc ProofPlan PropPlan PropDc SpecOpf.
Local Open Scope string_scope.
Local Open Scope list_scope.
Local Open Scope R_scope.
Set Bullet Behavior "Strict Subproofs".

(** ---- lists ---- *)
Lemma zip_iff {A B} (P : constr XR -> Prop) (c : A -> B -> constr XR) a b : Forall P (zip_with c a b) <-> forall j x y, nth_error a j = Some x -> nth_error b j = Some y -> P (c x y).
Proof.
  split.
  - intros H j x y Ha Hb. rewrite Forall_forall in H. apply H. eapply nth_error_In, zip_nth; eauto.
  - revert b. induction a as [|x a IH]; intros [|y b] H; cbn [zip_with]; constructor.
    + apply (H 0%nat); reflexivity.
    + apply IH. intros j u v Hu Hv. apply (H (S j)); auto.
Qed.
Lemma zip_map_iff {A} (P : constr XR -> Prop) (c : XR -> XR -> constr XR) (f g : A -> XR) l : Forall P (zip_with c (map f l) (map g l)) <-> forall x, In x l -> P (c (f x) (g x)).
Proof.
  induction l as [|x l IH]; cbn [map zip_with]; [split; [intros _ y []|constructor]|]. rewrite Forall_cons_iff, IH. split.
  - intros (H1 & H2) y [->|I]; auto.
  - intros H. split; [apply H; left; auto|intros y I; apply H; right; auto].
Qed.
Lemma entry_map {V} (z : V) l p : NoDup l -> List.length p = List.length l -> map (entry z l p) l = p.
Proof.
  revert p; induction l as [|a l IH]; intros [|x p] ND L; cbn in L; try discriminate; [reflexivity|]. inversion_clear ND as [|? ? Na ND']. cbn [map]. f_equal.
  - unfold entry. cbn [combine dget]. rewrite Z.eqb_refl. reflexivity.
  - transitivity (map (entry z l p) l); [|apply IH; auto; lia]. apply map_ext_in. intros i I. unfold entry. cbn [combine dget]. destruct (Z.eqb_spec i a); [subst; tauto|reflexivity].
Qed.
Lemma entry_In {V} (z : V) l p i : In i l -> List.length p = List.length l -> In (entry z l p i) p.
Proof.
  revert p; induction l as [|a l IH]; intros [|x p] I L; cbn in L; try discriminate; [destruct I|]. unfold entry. cbn [combine dget]. destruct (Z.eqb_spec i a); [left; auto|].
  destruct I as [->|I]; [congruence|]. right. apply IH; auto.
Qed.
Lemma xle_Fin_iff a b : xle (Fin a) (Fin b) <-> a <= b.
Proof. unfold xle. cbn. apply Rleb_spec. Qed.
Lemma xeqb_Fin_iff a b : xeqb (Fin a) (Fin b) = true <-> a = b.
Proof. cbn. apply Reqb_spec. Qed.

Section Opf.
  Context (nw : network XR) (b d : R) (lamb : XR) (s0 : sim XR) (H0 : sim_init nw (Fin d) lamb = Ok s0) (Eb : nw_base nw = Fin b).
  Context (Hr : Forall branch_row_fin (nw_br nw)) (Hc : contiguous nw) (Hu : Forall unshifted (nw_br nw)).
  Context (I : index) (HI : index_of nw I).
  Context (s : sim XR) (Hs : strip s = strip s0) (asp : box XR) (gam mg : XR) (k : nat) (m : mpc XR) (M : mpc_init s asp gam mg k = Ok m).

  Let Ag := agent_inv nw (Fin d) lamb s0 s asp gam mg k m H0 Hs M.
  Let AF := agent_fields nw (Fin d) lamb s0 H0 s Hs asp gam mg k m M.
  Lemma op_buses : m_buses m = ix_buses I.
  Proof.
    destruct AF as (_ & _ & _ & _ & _ & _ & _ & F8 & _). destruct HI as (_ & _ & _ & _ & _ & Sb & Hb). destruct (sim_init_built _ _ _ _ H0) as (bs & ds & B).
    apply sorted_unique; [rewrite F8; exact (bt_bus_sorted B)|exact Sb|]. intros x. rewrite Hb. eapply dc_bus_ids; eauto.
  Qed.
  Lemma op_all : m_devs m = ix_all I /\ m_ndev m = List.length (ix_all I).
  Proof. apply (ag_devs _ _ _ _ _ _ _ _ Ag). apply HI. Qed.
  Lemma op_loads : m_loads m = ix_loads I. Proof. apply (ag_loads _ _ _ _ _ _ _ _ Ag). apply HI. Qed.
  Lemma op_gens : m_nsgens m = ix_gens I. Proof. apply (ag_gens _ _ _ _ _ _ _ _ Ag). apply HI. Qed.
  Lemma op_dess : m_dess m = ix_dess I. Proof. apply (ag_dess _ _ _ _ _ _ _ _ Ag). apply HI. Qed.
  Lemma op_nbus : m_nbus m = List.length (ix_buses I).
  Proof. destruct AF as (_ & _ & _ & _ & _ & _ & _ & F8 & F9 & _). rewrite <- op_buses, F8, map_length. auto. Qed.
  Lemma op_shaped st : shaped m st <-> well_shaped I st.
  Proof. unfold shaped, well_shaped. rewrite op_nbus, op_dess, (proj2 op_all). tauto. Qed.
  Lemma op_nodup ts l : ids_of nw ts l -> NoDup l.
  Proof. intros (S & _). apply sorted_lt_nodup; auto. Qed.
  Lemma op_incl ts l : ids_of nw ts l -> incl ts ALL -> incl l (ix_all I).
  Proof. intros (_ & Hl) Hi i Ii. apply (proj2 (proj1 HI)). apply Hl in Ii as (r & t & I1 & I2 & I3 & I4). exists r, t. auto. Qed.

  (** decisions by ID *)
  Lemma op_p st i : well_shaped I st -> In i (ix_all I) -> ix (sg_p (lift st)) (dpos m i) = Fin (inject I st i).
  Proof.
    intros (_ & L & _) Ii. cbn [lift sg_p]. unfold dpos. rewrite (proj1 op_all), ix_fin by (rewrite L; apply pos_of_in; auto). unfold inject. rewrite entry_pos by auto. reflexivity.
  Qed.
  Lemma op_ang st i : well_shaped I st -> In i (ix_buses I) -> nth (Z.to_nat i) (rs_ang st) 0 = angle I st i.
  Proof.
    intros _ Ii. unfold angle. rewrite <- entry_pos by auto. rewrite <- op_buses in *. rewrite <- (dc_pos nw (Fin d) lamb s0 H0 Hc s Hs asp gam mg k m M i Ii). reflexivity.
  Qed.
  Lemma op_ends r : In r (nw_br nw) -> exists f t, lr_f r = Some f /\ lr_t r = Some t /\ In f (ix_buses I) /\ In t (ix_buses I).
  Proof.
    intros Ir. destruct (sim_init_built _ _ _ _ H0) as (bs & ds & B). pose proof (bt_brs _ _ _ _ _ _ B) as Er. apply mapM_ok in Er.
    destruct AF as (_ & _ & _ & _ & _ & _ & _ & F8 & _). rewrite <- (bt_bus_ids B), <- F8, op_buses in Er. clear -Er Ir. induction Er as [|x y l l' E Er IH]; [destruct Ir|].
    destruct Ir as [->|Ir]; auto. apply branch_init_ends in E as (E1 & E2 & E3 & E4). eauto 10.
  Qed.
  Lemma op_ang_at st r : well_shaped I st -> In r (nw_br nw) -> ang_at (fun j => nth (Z.to_nat j) (rs_ang st) 0) (lr_f r) = ang_at (angle I st) (lr_f r) /\
    ang_at (fun j => nth (Z.to_nat j) (rs_ang st) 0) (lr_t r) = ang_at (angle I st) (lr_t r).
  Proof. intros W Ir. destruct (op_ends r Ir) as (f & t & -> & -> & If & It). cbn [ang_at]. rewrite !op_ang by auto. auto. Qed.
  Lemma op_dc st i : well_shaped I st -> p_dc m (lift st) i = Fin (dc_out nw (angle I st) i).
  Proof.
    intros W. rewrite (dc_p_dc nw b (Fin d) lamb s0 H0 Eb Hr Hc Hu s Hs asp gam mg k m M st (proj2 (op_shaped st) W) i). f_equal. unfold dc_out. f_equal. apply map_ext_in. intros r Ir.
    destruct (op_ang_at st r W Ir) as (-> & ->). reflexivity.
  Qed.
  Lemma op_flows st : well_shaped I st -> p_branch m (lift st) = map (fun r => Fin (dc_flow r (angle I st))) (nw_br nw).
  Proof.
    intros W. rewrite (dc_p_branch nw b (Fin d) lamb s0 H0 Eb Hr Hc Hu s Hs asp gam mg k m M st (proj2 (op_shaped st) W)). apply map_ext_in. intros r Ir.
    destruct (op_ang_at st r W Ir) as (-> & ->). reflexivity.
  Qed.

  (** ---- the constraints of one stage ---- *)
  Lemma op_balance st : well_shaped I st -> Forall sat (eqs (map (p_dc m (lift st)) (m_buses m)) (map (p_bus m (lift st)) (seq 0 (m_nbus m)))) <->
    forall i, In i (ix_buses I) -> planned_at nw (ix_all I) (rs_p st) i = dc_out nw (angle I st) i.
  Proof.
    intros W. pose proof (proj2 (op_shaped st) W) as Sh.
    assert (E : map (p_bus m (lift st)) (seq 0 (m_nbus m)) = map (fun i => p_bus m (lift st) (bpos m i)) (m_buses m)).
    { rewrite <- (map_map (bpos m) (p_bus m (lift st))). f_equal. rewrite (dc_nbus nw (Fin d) lamb s0 H0 s Hs asp gam mg k m M).
      transitivity (map Z.to_nat (m_buses m)).
      - rewrite (dc_buses nw (Fin d) lamb s0 H0 Hc s Hs asp gam mg k m M), map_map. rewrite <- (map_id (seq 0 _)) at 1. apply map_ext. intros a. rewrite Z.add_0_l, Nat2Z.id. reflexivity.
      - apply map_ext_in. intros i Ii. rewrite (dc_pos nw (Fin d) lamb s0 H0 Hc s Hs asp gam mg k m M i Ii). reflexivity. }
    rewrite E. unfold eqs. rewrite zip_map_iff. rewrite <- op_buses. split; intros H i Ii; specialize (H i Ii).
    - cbn [sat] in H. rewrite op_dc in H by auto. rewrite (dc_p_bus nw (Fin d) lamb s0 H0 (ix_all I) (proj1 HI) s Hs asp gam mg k m M st Sh i Ii) in H. apply xeqb_Fin_iff in H. auto.
    - cbn [sat]. rewrite op_dc by auto. rewrite (dc_p_bus nw (Fin d) lamb s0 H0 (ix_all I) (proj1 HI) s Hs asp gam mg k m M st Sh i Ii). apply xeqb_Fin_iff. auto.
  Qed.
  Lemma col_fin ids PL n : NoDup ids -> matrix ids k PL -> (n < k)%nat -> column (map (map Fin) PL) n = map (fun i => Fin (forecast ids PL n i)) ids.
  Proof.
    intros ND (L1 & L2) Hn. unfold column. rewrite map_map. rewrite <- (entry_map [] ids PL ND L1) at 1. rewrite map_map. apply map_ext_in. intros i Ii. unfold forecast. apply ix_fin.
    rewrite Forall_forall in L2. rewrite (L2 (entry [] ids PL i)); [auto|apply entry_In; auto].
  Qed.
  Lemma op_load st PL n : well_shaped I st -> matrix (ix_loads I) k PL -> (n < k)%nat ->
    Forall sat (eqs (map (fun x => ix (sg_p (lift st)) (dpos m x)) (m_loads m)) (column (map (map Fin) PL) n)) <-> forall i, In i (ix_loads I) -> inject I st i = forecast (ix_loads I) PL n i.
  Proof.
    intros W Mx Hn. assert (Hl : ids_of nw LOADS (ix_loads I)) by apply HI. rewrite (col_fin (ix_loads I) PL n) by (auto; eapply op_nodup; eauto). rewrite op_loads. unfold eqs. rewrite zip_map_iff.
    assert (In' : incl (ix_loads I) (ix_all I)) by (eapply op_incl; eauto; intros x; cbn; tauto).
    split; intros H i Ii; specialize (H i Ii); cbn [sat] in *; rewrite op_p in * by auto; apply xeqb_Fin_iff; auto.
  Qed.
  Lemma op_pot st PG n : well_shaped I st -> matrix (ix_gens I) k PG -> (n < k)%nat ->
    Forall sat (les (map (fun x => ix (sg_p (lift st)) (dpos m x)) (m_nsgens m)) (column (map (map Fin) PG) n)) <-> forall i, In i (ix_gens I) -> inject I st i <= forecast (ix_gens I) PG n i.
  Proof.
    intros W Mx Hn. assert (Hl : ids_of nw GENS (ix_gens I)) by apply HI. rewrite (col_fin (ix_gens I) PG n) by (auto; eapply op_nodup; eauto). rewrite op_gens. unfold les. rewrite zip_map_iff.
    assert (In' : incl (ix_gens I) (ix_all I)) by (eapply op_incl; eauto; intros x; cbn; tauto).
    split; intros H i Ii; specialize (H i Ii); cbn [sat] in *; rewrite op_p in * by auto; apply xle_Fin_iff; auto.
  Qed.
  (** limits of the devices selected by [q] *)
  Lemma op_lims (q : device XR -> bool) ids st : ids = map d_id (filter q (sm_devs s0)) -> incl ids (ix_all I) -> well_shaped I st ->
    (Forall sat (les (map d_pmin (filter q (sm_devs s0))) (map (fun x => ix (sg_p (lift st)) (dpos m x)) ids)) /\
     Forall sat (les (map (fun x => ix (sg_p (lift st)) (dpos m x)) ids) (map d_pmax (filter q (sm_devs s0)))) <->
     forall i, In i ids -> in_bounds s0 "dev_p" i (inject I st i)).
  Proof.
    intros E In' W. assert (ND : NoDup (map d_id (sm_devs s0))) by (eapply init_nodup; eauto).
    assert (Bd : forall x, In x (sm_devs s0) -> bound s0 "dev_p" "pu" (EId (d_id x)) = Some (d_pmin x, d_pmax x)) by (intros; apply bound_dev_p; auto).
    rewrite E in *. rewrite !map_map. unfold les. rewrite !zip_map_iff. split.
    - intros (A1 & A2) i Ii. pose proof (In' i Ii) as Ia. apply in_map_iff in Ii as (x & <- & Ix). specialize (A1 x Ix). specialize (A2 x Ix). cbn [sat] in A1, A2. rewrite op_p in A1, A2 by auto.
      apply filter_In in Ix as (Ix & _). exists (d_pmin x), (d_pmax x). rewrite Bd by auto. auto.
    - intros A. split; intros x Ix; destruct (A (d_id x) ltac:(apply in_map; auto)) as (lo & hi & B1 & B2 & B3); pose proof (In' _ (in_map d_id _ _ Ix)); apply filter_In in Ix as (Ix & _);
        rewrite Bd in B1 by auto; injection B1 as <- <-; cbn [sat]; rewrite op_p by auto; auto.
  Qed.

  (** ---- storage units ---- *)
  Context (eff c0 : Z -> R) (He : forall r i, In r (nw_dev nw) -> dr_id r = Some i -> dr_type r = Some 3%Z -> EFF r = Fin (eff i) /\ 0 < eff i).
  Lemma op_stor_row i : In i (ix_dess I) -> exists j lo hi, nth_error (ix_dess I) j = Some i /\ nth_error (m_eff m) j = Some (Fin (eff i)) /\
    nth_error (m_socmin m) j = Some lo /\ nth_error (m_socmax m) j = Some hi /\ bound s0 "des_soc" "pu" (EId i) = Some (lo, hi) /\ 0 < eff i.
  Proof.
    intros Ii. assert (Hd : ids_of nw STORS (ix_dess I)) by apply HI. apply (proj2 Hd) in Ii as (r & t & Ir & Ei & Et & It). assert (Et' : dr_type r = Some 3%Z) by (destruct It as [<-|[]]; auto).
    destruct (He r i Ir Ei Et') as (Ee & Pe).
    destruct (agent_stor nw (Fin d) lamb s0 H0 s Hs asp gam mg k m M b r i (eff i) Eb Ir Ei Et' Ee) as (_ & j & lo & hi & E1 & E2 & E3 & E4 & E5). rewrite op_dess in E1. eauto 12.
  Qed.
  Lemma op_pc st j i : well_shaped I st -> nth_error (ix_dess I) j = Some i -> nth j (rs_pc st) 0 = charge I st i /\ nth j (rs_pd st) 0 = discharge I st i.
  Proof.
    intros _ Ej. assert (Hd : ids_of nw STORS (ix_dess I)) by apply HI. unfold charge, discharge. rewrite <- !entry_pos by (eapply nth_error_In; eauto).
    rewrite (pos_of_nth (ix_dess I) j i (op_nodup _ _ Hd) Ej). auto.
  Qed.
  Lemma op_soc sts i j : Forall (well_shaped I) sts -> nth_error (ix_dess I) j = Some i ->
    nth_error (socs_after m (map (fun x => Fin (c0 x)) (ix_dess I)) sts) j = Some (Fin (planned_soc (eff i) d (c0 i) (map (fun x => (charge I x i, discharge I x i)) sts))).
  Proof.
    intros W Ej. assert (Ii : In i (ix_dess I)) by (eapply nth_error_In; eauto). destruct (op_stor_row i Ii) as (j' & lo & hi & E1 & E2 & _ & _ & _ & Pe).
    assert (j' = j). { assert (Hd : ids_of nw STORS (ix_dess I)) by apply HI. apply (NoDup_nth_error (ix_dess I)); [eapply op_nodup; eauto|apply nth_error_Some; congruence|congruence]. } subst j'.
    rewrite (socs_after_nth m j (eff i) d) with (c := c0 i); auto.
    - do 3 f_equal. apply map_ext_in. intros x Ix. rewrite Forall_forall in W. unfold pcd. destruct (op_pc x j i (W x Ix) Ej) as (-> & ->). reflexivity.
    - rewrite op_dess. apply nth_error_Some. congruence.
    - apply (ag_dt _ _ _ _ _ _ _ _ Ag).
    - lra.
    - apply Forall_forall. intros x Ix. rewrite Forall_forall in W. apply op_shaped. auto.
    - rewrite nth_error_map, Ej. reflexivity.
  Qed.
  Lemma op_stor sts n st : Forall (well_shaped I) sts -> nth_error sts n = Some st ->
    let soc := socs_after m (map (fun x => Fin (c0 x)) (ix_dess I)) (firstn n sts) in
    ((Forall sat (les (m_dmin m) (map (fun x => ix (sg_p (lift st)) (dpos m x)) (m_dess m))) /\ Forall sat (les (map (fun x => ix (sg_p (lift st)) (dpos m x)) (m_dess m)) (m_dmax m))) /\
     (forall j, (j < List.length (m_dess m))%nat -> xle (Fin 0) (ix (sg_pc (lift st)) j)) /\ (forall j, (j < List.length (m_dess m))%nat -> xle (Fin 0) (ix (sg_pd (lift st)) j)) /\
     (forall j i, nth_error (m_dess m) j = Some i -> xeqb (ix (sg_p (lift st)) (dpos m i)) (xsub (ix (sg_pd (lift st)) j) (ix (sg_pc (lift st)) j)) = true) /\
     Forall sat (les (m_socmin m) (new_socs m soc (lift st))) /\ Forall sat (les (new_socs m soc (lift st)) (m_socmax m))) <->
    forall i, In i (ix_dess I) -> in_bounds s0 "dev_p" i (inject I st i) /\ 0 <= charge I st i /\ 0 <= discharge I st i /\ inject I st i = discharge I st i - charge I st i /\
      in_bounds s0 "des_soc" i (planned_soc (eff i) d (c0 i) (map (fun x => (charge I x i, discharge I x i)) (firstn (S n) sts))).
  Proof.
    intros W E soc. assert (Hd : ids_of nw STORS (ix_dess I)) by apply HI. pose proof W as W'. rewrite Forall_forall in W'. pose proof (W' st (nth_error_In _ _ E)) as Ws. clear W'.
    assert (In' : incl (ix_dess I) (ix_all I)) by (eapply op_incl; eauto; intros x; cbn; tauto).
    destruct AF as (F1 & F2 & F3 & F4 & _ & _ & _ & _ & _ & _ & _ & _ & _ & _ & F15 & F16 & _).
    rewrite F15, F16, op_dess, (op_lims is_stor (ix_dess I) st) by (auto; rewrite <- op_dess; auto).
    destruct (Ws) as (L1 & L2 & L3 & L4).
    assert (Q : forall j i, nth_error (ix_dess I) j = Some i -> ix (sg_pc (lift st)) j = Fin (charge I st i) /\ ix (sg_pd (lift st)) j = Fin (discharge I st i)).
    { intros j i Ej. destruct (op_pc st j i Ws Ej) as (<- & <-). assert (j < List.length (ix_dess I))%nat by (apply nth_error_Some; congruence). cbn [lift sg_pc sg_pd]. rewrite !ix_fin by lia. auto. }
    assert (Sn : forall j i, nth_error (ix_dess I) j = Some i -> nth_error (new_socs m soc (lift st)) j = Some (Fin (planned_soc (eff i) d (c0 i) (map (fun x => (charge I x i, discharge I x i)) (firstn (S n) sts))))).
    { intros j i Ej. unfold soc. rewrite <- socs_after_snoc, <- (firstn_S _ _ _ E). apply op_soc; auto. apply Forall_forall. intros x Ix. rewrite Forall_forall in W. apply W. rewrite <- (firstn_skipn (S n) sts). apply in_or_app. auto. }
    assert (Lm : List.length (m_socmin m) = List.length (ix_dess I) /\ List.length (m_socmax m) = List.length (ix_dess I)) by (rewrite F3, F4, !map_length, <- op_dess, F1, map_length; auto).
    split.
    - intros (A1 & A2 & A3 & A4 & A5 & A6) i Ii. split; [auto|]. destruct (op_stor_row i Ii) as (j & lo & hi & E1 & E2 & E3 & E4 & E5 & Pe). destruct (Q j i E1) as (Q1 & Q2).
      assert (Hj : (j < List.length (ix_dess I))%nat) by (apply nth_error_Some; congruence).
      specialize (A2 j Hj). specialize (A3 j Hj). specialize (A4 j i E1). rewrite Q1 in A2. rewrite Q2 in A3. rewrite Q1, Q2, op_p in A4 by auto. cbn [xsub] in A4.
      apply xle_Fin_iff in A2, A3. apply xeqb_Fin_iff in A4. split; [auto|]. split; [auto|]. split; [auto|].
      exists lo, hi. split; [auto|]. pose proof (Sn j i E1) as S. split; [exact (les_nth _ _ _ _ _ A5 E3 S)|exact (les_nth _ _ _ _ _ A6 S E4)].
    - intros A. split; [intros i Ii; apply A; auto|].
      assert (G : forall j, (j < List.length (ix_dess I))%nat -> exists i, nth_error (ix_dess I) j = Some i) by (intros j Hj; apply nth_error_Some in Hj; destruct (nth_error (ix_dess I) j); [eauto|congruence]).
      split; [|split; [|split]].
      + intros j Hj. destruct (G j Hj) as (i & Ej). rewrite (proj1 (Q j i Ej)). apply xle_Fin_iff. apply A. eapply nth_error_In; eauto.
      + intros j Hj. destruct (G j Hj) as (i & Ej). rewrite (proj2 (Q j i Ej)). apply xle_Fin_iff. apply A. eapply nth_error_In; eauto.
      + intros j i Ej. destruct (Q j i Ej) as (-> & ->). assert (Ii : In i (ix_dess I)) by (eapply nth_error_In; eauto). rewrite op_p by auto. cbn [xsub]. apply xeqb_Fin_iff. apply A; auto.
      + split.
        * unfold les. apply zip_iff. intros j x y E1 E2. assert (Hj : (j < List.length (ix_dess I))%nat) by (rewrite <- (proj1 Lm); apply nth_error_Some; congruence). destruct (G j Hj) as (i & Ej).
          rewrite (Sn j i Ej) in E2. injection E2 as <-. assert (Ii : In i (ix_dess I)) by (eapply nth_error_In; eauto). destruct (A i Ii) as (_ & _ & _ & _ & lo & hi & B1 & B2 & B3).
          destruct (op_stor_row i Ii) as (j' & lo' & hi' & E1' & E2' & E3' & E4' & E5' & Pe). assert (j' = j) by (apply (NoDup_nth_error (ix_dess I)); [eapply op_nodup; eauto|apply nth_error_Some; congruence|congruence]). subst j'. cbn [sat]. rewrite B1 in E5'. injection E5' as <- <-. rewrite E1 in E3'. injection E3' as <-. exact B2.
        * unfold les. apply zip_iff. intros j x y E2 E1. assert (Hj : (j < List.length (ix_dess I))%nat) by (rewrite <- (proj2 Lm); apply nth_error_Some; congruence). destruct (G j Hj) as (i & Ej).
          rewrite (Sn j i Ej) in E2. injection E2 as <-. assert (Ii : In i (ix_dess I)) by (eapply nth_error_In; eauto). destruct (A i Ii) as (_ & _ & _ & _ & lo & hi & B1 & B2 & B3).
          destruct (op_stor_row i Ii) as (j' & lo' & hi' & E1' & E2' & E3' & E4' & E5' & Pe). assert (j' = j) by (apply (NoDup_nth_error (ix_dess I)); [eapply op_nodup; eauto|apply nth_error_Some; congruence|congruence]). subst j'. cbn [sat]. rewrite B1 in E5'. injection E5' as <- <-. rewrite E1 in E4'. injection E4' as <-. exact B3.
  Qed.

  (** ---- angles ---- *)
  Lemma op_angles st : well_shaped I st ->
    (Forall sat (les (repeat (xopp npi) (m_nbus m)) (sg_ang (lift st))) /\ Forall sat (les (sg_ang (lift st)) (repeat npi (m_nbus m)))) <->
    forall i, In i (ix_buses I) -> - PI <= angle I st i <= PI.
  Proof.
    intros (L & _). assert (ND : NoDup (ix_buses I)) by (apply sorted_lt_nodup; apply HI).
    assert (E : sg_ang (lift st) = map (fun i => Fin (angle I st i)) (ix_buses I)). { cbn [lift sg_ang]. rewrite <- (entry_map 0 (ix_buses I) (rs_ang st) ND L) at 1. rewrite map_map. reflexivity. }
    assert (C : forall (v : XR), repeat v (m_nbus m) = map (fun _ => v) (ix_buses I)). { intros v. rewrite op_nbus. clear. induction (ix_buses I); cbn; f_equal; auto. }
    rewrite E, !C. unfold les. rewrite !zip_map_iff. cbn [sat]. split.
    - intros (A1 & A2) i Ii. specialize (A1 i Ii). specialize (A2 i Ii). split; [apply (proj1 (xle_Fin_iff (- PI) _)); exact A1|apply (proj1 (xle_Fin_iff _ PI)); exact A2].
    - intros A. split; intros i Ii; destruct (A i Ii); [apply (proj2 (xle_Fin_iff (- PI) _)); auto|apply (proj2 (xle_Fin_iff _ PI)); auto].
  Qed.
  (** ---- the reference ---- *)
  Lemma op_slack st r i sb p : well_shaped I st -> In r (nw_dev nw) -> dr_type r = Some 0%Z -> dr_id r = Some i ->
    nth_error (ix_all I) p = Some i -> nth_error (ix_buses I) p = Some sb -> m_slackdev m = i ->
    (xeqb (ix (sg_ang (lift st)) (dpos m (m_slackdev m))) (Fin 0) = true <-> angle I st sb = 0).
  Proof.
    intros (L & _) Ir Ty Ei Pa Pb ->. unfold dpos. rewrite (proj1 op_all), (pos_of_nth (ix_all I) p i) by (auto; eapply op_nodup; apply HI).
    assert (Hp : (p < List.length (ix_buses I))%nat) by (apply nth_error_Some; congruence). cbn [lift sg_ang]. rewrite ix_fin by lia. rewrite xeqb_Fin_iff.
    unfold angle. rewrite <- entry_pos by (eapply nth_error_In; eauto). rewrite (pos_of_nth (ix_buses I) p sb) by (auto; apply sorted_lt_nodup; apply HI). tauto.
  Qed.

  (** ---- the constraints ---- *)
  Lemma op_feasible PL PG sts r i sb p : matrix (ix_loads I) k PL -> matrix (ix_gens I) k PG -> In r (nw_dev nw) -> dr_type r = Some 0%Z -> dr_id r = Some i ->
    nth_error (ix_all I) p = Some i -> nth_error (ix_buses I) p = Some sb -> m_slackdev m = i ->
    feasible m (map (map Fin) PL) (map (map Fin) PG) (map (fun x => Fin (c0 x)) (ix_dess I)) sts <-> opf_plan nw s0 I d eff c0 sb PL PG k sts.
  Proof.
    intros ML MG Ir Ty Ei Pa Pb Es. unfold feasible, opf_plan. rewrite (ag_steps _ _ _ _ _ _ _ _ Ag), plan_stage. cbn [Nat.add].
    assert (Hg : ids_of nw GENS (ix_gens I)) by apply HI. assert (In' : incl (ix_gens I) (ix_all I)) by (eapply op_incl; eauto; intros x; cbn; tauto).
    destruct AF as (_ & _ & _ & _ & _ & _ & _ & _ & _ & _ & F11 & _ & F13 & F14 & _).
    assert (Gl : forall st, well_shaped I st -> (Forall sat (les (m_gmin m) (map (fun x => ix (sg_p (lift st)) (dpos m x)) (m_nsgens m))) /\ Forall sat (les (map (fun x => ix (sg_p (lift st)) (dpos m x)) (m_nsgens m)) (m_gmax m)) <->
      forall i, In i (ix_gens I) -> in_bounds s0 "dev_p" i (inject I st i))).
    { intros st W. rewrite F13, F14, op_gens. apply op_lims; auto. rewrite <- op_gens. auto. }
    split.
    - intros (A1 & A2 & A3). split; [auto|]. assert (W : Forall (well_shaped I) sts) by (eapply Forall_impl; [|exact A2]; intros; apply op_shaped; auto). split; [auto|].
      intros n st E. specialize (A3 n st E). destruct A3 as [B1 B2 B3 B4 B5 B6 B7 B8 B9 B10 B11 B12 B13 B14 B15].
      assert (Hn : (n < k)%nat) by (rewrite <- A1; apply nth_error_Some; congruence). pose proof W as W'. rewrite Forall_forall in W'. pose proof (W' st (nth_error_In _ _ E)) as Ws. constructor.
      + apply op_balance; auto.
      + apply op_angles; auto.
      + eapply op_slack; eauto.
      + apply op_load; auto.
      + intros i' Ii. split; [eapply Gl; eauto|eapply op_pot; eauto].
      + apply op_stor; auto. repeat (split; auto).
    - intros (A1 & W & A3). split; [auto|]. split; [eapply Forall_impl; [|exact W]; intros; apply op_shaped; auto|].
      intros n st E. specialize (A3 n st E). destruct A3 as [B1 B2 B3 B4 B5 B6].
      assert (Hn : (n < k)%nat) by (rewrite <- A1; apply nth_error_Some; congruence). pose proof W as W'. rewrite Forall_forall in W'. pose proof (W' st (nth_error_In _ _ E)) as Ws.
      destruct (proj2 (Gl st Ws) ltac:(intros; apply B5; auto)) as (G1 & G2). destruct (proj2 (op_angles st Ws) B2) as (G3 & G4). destruct (proj2 (op_stor sts n st W E) B6) as ((S1 & S2) & S3 & S4 & S5 & S6 & S7).
      constructor; auto.
      + apply op_balance; auto.
      + apply op_load; auto.
      + apply op_pot; auto. intros; apply B5; auto.
      + eapply op_slack; eauto.
  Qed.
End Opf.
