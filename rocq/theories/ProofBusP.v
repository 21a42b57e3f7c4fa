(** Device bounds of loads (C09), bus bounds (C32), success of the device phase (C06). *)
From Coq Require Import Reals Lra.
From Verif Require Import Base Num NumXR Devices BusBranch CheckNetwork LoadFlow Simulator LibBase LibNum LibXR LibSim
  SpecNet ProofNet SpecDev LibInit SpecSim ProofSim ProofSoc ProofHist ProofDev ProofObs ProofUnits ProofVals SpecQp LibQp ProofSet ProofDevs ProofEnergy.
Local Open Scope string_scope.
Local Open Scope list_scope.
Local Open Scope R_scope.

(** sums of bounds *)
Lemma xadd_le_l a x s p : xle a (Fin s) -> xle x (Fin p) -> xle (xadd a x) (Fin (s + p)).
Proof. unfold xle. destruct a, x; cbn; auto; try discriminate. rewrite !Rleb_spec. lra. Qed.
Lemma xadd_le_r a x s p : xle (Fin s) a -> xle (Fin p) x -> xle (Fin (s + p)) (xadd a x).
Proof. unfold xle. destruct a, x; cbn; auto; try discriminate. rewrite !Rleb_spec. lra. Qed.
Lemma sum_bounds {A} (f lo hi : A -> XR) (l : list A) eps a s al ah :
  (forall d, In d l -> exists p, f d = Fin p /\ xle (lo d) (Fin (p + eps)) /\ xle (Fin (p - eps)) (hi d)) ->
  a = Fin s ->
  exists t, fold_left nadd (map f l) a = Fin t /\
    (forall s', xle al (Fin s') -> xle (fold_left nadd (map lo l) al) (Fin (t - s + s' + INR (List.length l) * eps))) /\
    (forall s', xle (Fin s') ah -> xle (Fin (t - s + s' - INR (List.length l) * eps)) (fold_left nadd (map hi l) ah)).
Proof.
  revert a s al ah. induction l as [|d l IH]; intros a s al ah H E.
  - exists s. cbn [map fold_left List.length INR]. split; auto. split; intros s' K; [refine (proj2 (xle_r _ s' _ _) K)|refine (proj2 (xle_l _ s' _ _) K)]; lra.
  - destruct (H d (or_introl eq_refl)) as (p & E1 & L & U). cbn [map fold_left].
    destruct (IH (nadd a (f d)) (s + p) (nadd al (lo d)) (nadd ah (hi d))) as (t & T1 & T2 & T3).
    { intros x Hx. apply H. right; auto. } { rewrite E, E1. reflexivity. }
    exists t. split; auto.
    assert (EL : INR (List.length (d :: l)) = INR (List.length l) + 1) by (cbn [List.length]; apply S_INR). rewrite EL.
    split; intros s' K.
    + specialize (T2 (s' + (p + eps)) (xadd_le_l _ _ _ _ K L)). refine (proj2 (xle_r _ _ _ _) T2). lra.
    + specialize (T3 (s' + (p - eps)) (xadd_le_r _ _ _ _ K U)). refine (proj2 (xle_l _ _ _ _) T3). lra.
Qed.

(** ---- what the power flow does to a non-slack bus ---- *)
Section Bus.
  Context {F : Type} {N : Num F}.

  Lemma pf_bus_ns Or inp (s s' : sim F) conv ds v i : trans_ok Or inp s s' conv ds v i ->
    forall b', In b' (sm_buses s') -> b_slack b' = false ->
    b_p b' = nsum (map d_p (devs_at ds (b_id b'))) /\ b_q b' = nsum (map d_q (devs_at ds (b_id b'))).
  Proof.
    intros T b' I Ns. pose proof (tk_buses _ _ _ _ _ _ _ _ T) as M. apply mapM_ok in M.
    destruct (Forall2_in_r _ _ _ _ M I) as ([k b] & Ib & E).
    apply (in_map snd) in Ib. unfold enumerate in Ib. rewrite enum_from_map_snd in Ib. cbn [snd] in Ib.
    apply in_map_iff in Ib as (b0 & <- & I0).
    unfold bus_update in E. apply bind_ok in E as (vk & _ & E). apply bind_ok in E as (ik & _ & E). cbn [snd] in E.
    destruct (b_slack (bus_set_vi (bus_injection ds b0) vk ik)) eqn:Sl.
    - apply bind_ok in E as (v0 & _ & E). apply bind_ok in E as (i0 & _ & E). inversion E; subst b'.
      change (b_slack (bus_set_vi (bus_injection ds b0) vk ik) = false) in Ns. congruence.
    - inversion E; subst b'. split; reflexivity.
  Qed.
  Lemma devs_at_ns (bs : list (bus F)) ds ds' j : mapM (dev_slack_update bs) ds = Ok ds' ->
    (forall d, In d ds -> d_bus d = j -> d_slack d = false) -> devs_at ds j = devs_at ds' j.
  Proof.
    intros M H. apply mapM_ok in M. unfold devs_at. induction M as [|d d' l l' E M IH]; auto.
    cbn [filter]. rewrite IH by (intros; apply H; auto; right; auto).
    assert (Ebus : d_bus d' = d_bus d).
    { apply strip_slack_update in E. apply (f_equal (d_bus)) in E. exact E. }
    rewrite Ebus. destruct (Z.eqb_spec (d_bus d) j) as [Ej|Ej]; auto.
    f_equal. symmetry. eapply slack_update_id; eauto. apply H; auto. left; auto.
  Qed.
  Lemma devs_at_strip (f : device F -> F) (Hs : forall d, f (strip_dev d) = f d) ds ds' j :
    map strip_dev ds = map strip_dev ds' -> map f (devs_at ds j) = map f (devs_at ds' j).
  Proof. intros H. eapply map_strip; [exact Hs|]. unfold devs_at. apply strip_dev_filter; auto. Qed.
End Bus.

Section SlackBus.
  Context {F : Type} {N : Num F} (nw : network F) (dt lamb : F) (s0 : sim F) (H0 : sim_init nw dt lamb = Ok s0).
  (** a device at a non-slack bus is not the slack device *)
  Lemma slack_dev_bus s' b' d : strip s' = strip s0 -> In b' (sm_buses s') -> b_slack b' = false ->
    In d (sm_devs s') -> d_bus d = b_id b' -> d_slack d = false.
  Proof.
    intros S I Ns Id Eb. destruct (d_slack d) eqn:Sl; auto. exfalso.
    destruct (sim_init_built _ _ _ _ H0) as (bs & ds & B).
    destruct (static_dev _ _ _ S Id) as (d0 & I0 & Ed0). destruct (static_bus _ _ _ S I) as (b0 & J0 & Eb0).
    destruct (bt_dev_row B _ I0) as (r & Ir & Mr). destruct (bt_bus_row B _ J0) as (rb & b1 & Irb & Mrb & Eb1).
    pose proof (mk_dev_fields _ _ _ _ Mr) as (_ & M2 & M3 & _).
    apply strip_dev_fields in Ed0. destruct Ed0 as (D1 & D2 & D3 & _). apply strip_bus_fields in Eb0. destruct Eb0 as (B1 & B2 & _).
    unfold d_slack in Sl. apply Z.eqb_eq in Sl.
    assert (Sr : slack_dev_row r) by (unfold slack_dev_row; congruence).
    destruct (bt_wf _ _ _ _ _ _ B) as (_ & W1 & _ & W3 & W4 & _).
    destruct W1 as (l1 & a & l2 & El & Sa & _).
    assert (Ia : In a (nw_bus nw)) by (rewrite El; apply in_or_app; right; left; auto).
    pose proof (W3 _ _ Ia Sa Ir Sr) as E.
    pose proof (bus_init_id _ _ Mrb) as Ei. pose proof (bus_init_type _ _ Mrb) as Et.
    assert (Eid : b_id b1 = b_id b0) by (rewrite Eb1; reflexivity).
    assert (Ety : b_type b1 = b_type b0) by (rewrite Eb1; reflexivity).
    assert (Eq : br_id a = br_id rb) by (rewrite Ei, E, M2; congruence).
    assert (a = rb).
    { clear -W4 Ia Irb Eq. unfold rule_bus_ids in W4. induction (nw_bus nw) as [|x l IH]; [destruct Ia|].
      cbn in W4. inversion W4 as [|? ? Nx Nd]; subst. destruct Ia as [->|Ia], Irb as [->|Irb]; auto.
      - exfalso. apply Nx. rewrite Eq. apply in_map; auto.
      - exfalso. apply Nx. rewrite <- Eq. apply in_map; auto. }
    subst a. unfold slack_bus_row in Sa. rewrite Et in Sa. inversion Sa as [Sb].
    unfold b_slack in Ns. apply Z.eqb_neq in Ns. congruence.
  Qed.
End SlackBus.

Section Exact.
  Context (nw : network XR) (dt lamb : XR) (s0 : sim XR) (H0 : sim_init nw dt lamb = Ok s0) (b : R) (Eb : nw_base nw = Fin b).
  Notation pu x := (xdiv x (Fin b)).

  (** C09: loads *)
  Lemma load_bounds cs Or inp s' out r i : transition Or inp (run s0 cs) = (s', Ok out) -> In r (nw_dev nw) -> dr_id r = Some i ->
    dr_type r = Some (-1)%Z -> dev_row_fin r -> (forall x, dget Z.eqb (ti_load inp) i = Some x -> fin x) ->
    exists p k lo hi lo' hi', obs s' "dev_p" "pu" (EId i) = Some (Fin p) /\ obs s' "dev_q" "pu" (EId i) = Some (Fin (p * k)) /\
      bound s0 "dev_p" "pu" (EId i) = Some (lo, hi) /\ bound s0 "dev_q" "pu" (EId i) = Some (lo', hi') /\
      dr_qp r = Some (Fin k) /\ within (Fin p) lo hi /\
      (0 <= k -> dr_pmin r <> None \/ 0 < k -> within (Fin (p * k)) lo' hi').
  Proof.
    intros T Ir Ei Ty Hf Fx. pose proof (base_pos nw dt lamb s0 H0 b Eb) as Hb.
    destruct (C07_lemma nw dt lamb s0 H0 _ _ _ _ _ _ _ T Ir Ei Ty) as (x & kk & lo & hi & pp & X1 & X2 & X3 & X4 & X5 & X6).
    destruct (row_stepped_run nw dt lamb s0 H0 _ _ _ _ _ _ _ T Ir Ei) as (d0 & d & d1 & d' & R).
    destruct (row_type _ _ _ _ _ _ _ _ _ _ _ _ R) as (R1 & R2 & R3 & R4 & R5 & R6 & R7).
    pose proof (rs_bp _ _ _ _ _ _ _ _ _ _ _ _ R) as BP. rewrite X3 in BP. injection BP as E1 E2.
    pose proof (rs_bq _ _ _ _ _ _ _ _ _ _ _ _ R) as BQ.
    pose proof (rs_mk _ _ _ _ _ _ _ _ _ _ _ _ R) as Mk. rewrite Eb in Mk.
    pose proof (spec_of_row s0 b r d0 Mk) as SP. unfold d_pmin, d_pmax, d_qmin, d_qmax in *.
    rewrite <- R2 in E1, E2, BQ. rewrite Ty in R1. inversion R1 as [Td]. rewrite R5, <- Td in SP.
    destruct (d_spec d0) as [l|g|t] eqn:Sp; [|destruct SP as [[SP|[SP|[SP|[]]]] _]; discriminate|destruct SP; discriminate].
    destruct SP as [_ LC]. destruct (load_check_vals b Hb _ _ _ LC) as (V1 & V2 & V3 & V4 & V5 & V6 & V7).
    assert (C0 : cell_fin (dr_qp r) /\ cell_fin (dr_pmax r) /\ cell_fin (dr_pmin r)).
    { unfold dev_row_fin in Hf. rewrite !Forall_cons_iff in Hf. tauto. }
    destruct C0 as (C1 & C2 & C3). destruct (C1 _ X2) as [k Ek]. subst kk.
    assert (Elq : l_qp l = Fin k) by congruence.
    destruct (else_fin (dr_pmax r) (Fin 0) C2 (or_intror (fin_Fin 0))) as [h Eh]. rewrite <- V2, <- E2 in Eh.
    assert (Lo : lo = NInf /\ dr_pmin r = None \/ exists y, lo = Fin y).
    { rewrite E1, V1. unfold PMIN. destruct (dr_pmin r) as [v|] eqn:Ev; cbn [or_else].
      - right. destruct (C3 _ eq_refl) as [y ->]. rewrite xdiv_Fin by lra. eauto.
      - left. split; auto. apply xdiv_inf; auto. }
    rewrite <- E1, <- E2 in V7.
    destruct (Fx _ X1) as [xx ->]. rewrite Eb in X6. cbn [ndiv XRnum] in X6. rewrite xdiv_Fin in X6 by lra.
    assert (Lh : xle lo hi).
    { rewrite Eh in *. destruct Lo as [[-> _]|[y ->]]; [reflexivity|]. cbn [nltb XRnum xltb] in V7. apply Rltb_false in V7. apply xle_Fin; auto. }
    assert (Pn : nisnan pp = false).
    { rewrite (rs_p _ _ _ _ _ _ _ _ _ _ _ _ R) in X4. injection X4 as Ep. rewrite <- Ep.
      rewrite <- R2 in R3. destruct (dev_transition_load _ _ _ _ _ _ _ R3 (rs_tr _ _ _ _ _ _ _ _ _ _ _ _ R)) as (x & Y1 & Y2 & Y3).
      assert (d' = d1). { eapply slack_update_id; [apply (rs_sl _ _ _ _ _ _ _ _ _ _ _ _ R)|]. unfold d_slack. rewrite R7, <- Td. reflexivity. }
      subst d1. rewrite Y2. rewrite R4, X1 in Y1. inversion Y1; subst x. rewrite Eb. cbn [ndiv XRnum]. rewrite xdiv_Fin by lra.
      rewrite <- E1, <- E2. destruct (np_clip_in (Fin (xx / b)) lo hi) as [A _]; auto; [apply xisnan_false; discriminate|].
      apply xle_nonan in A. apply xisnan_false. apply A. }
    destruct X6 as [[X6 _]|(W & Cl & Ne)]; [congruence|].
    assert (Fp : exists p, pp = Fin p).
    { destruct W as [W1 W2]. rewrite Eh in *.
      destruct (nleb lo (Fin (xx / b))) eqn:L1.
      - destruct (nleb (Fin (xx / b)) (Fin h)) eqn:L2; [exists (xx / b); apply (proj1 Cl); split; auto|].
        exists h. apply Cl. cbn [nltb nleb XRnum xltb xleb] in *. apply Rleb_false in L2. apply Rltb_spec; auto.
      - destruct Lo as [[-> _]|[y ->]]; [discriminate L1|]. exists y. apply Cl. cbn [nltb nleb XRnum xltb xleb] in *. apply Rleb_false in L1. apply Rltb_spec; auto. }
    destruct Fp as [p ->]. exists p, k, lo, hi, (l_qmin l), (l_qmax l).
    rewrite BQ, X4, X5, X3. cbn [nmul XRnum xmul]. do 6 (split; [auto|]).
    intros Hk K. rewrite V4, V5, Elq, <- E1, <- E2, Eh in *. destruct W as [W1 W2]. apply Rleb_spec in W2.
    split; [|cbn [nmul nleb XRnum xmul xleb]; apply Rleb_spec; apply Rmult_le_compat_r; auto].
    destruct Lo as [[-> Pn']|[y ->]].
    - destruct K as [K|K]; [congruence|]. cbn [nmul XRnum xmul]. rewrite inf_sgn_neg by lra. reflexivity.
    - cbn [nmul nleb XRnum xmul xleb] in *. apply Rleb_spec in W1. apply Rleb_spec. apply Rmult_le_compat_r; auto.
  Qed.

  (** every non-slack device: finite active power within its bounds *)
  Lemma dev_p_ok eps cs Or inp s' out r i : 0 <= eps -> transition Or inp (run s0 cs) = (s', Ok out) -> qp_sound eps (o_qp Or) ->
    In r (nw_dev nw) -> dr_id r = Some i -> dr_type r <> Some 0%Z -> dev_row_fin r ->
    (forall x, dget Z.eqb (ti_load inp) i = Some x -> fin x) ->
    exists p lo hi, obs s' "dev_p" "pu" (EId i) = Some (Fin p) /\ bound s0 "dev_p" "pu" (EId i) = Some (lo, hi) /\
      xle lo (Fin (p + eps)) /\ xle (Fin (p - eps)) hi.
  Proof.
    intros He T Q Ir Ei Ty Hf Fx.
    destruct (init_dev_of_row nw dt lamb s0 H0 b Eb r Ir) as (d & _ & M & _ & Et).
    pose proof (spec_of_row s0 b r d M) as SP.
    assert (K : dr_type r = Some (-1)%Z \/ dr_type r = Some 1%Z \/ dr_type r = Some 2%Z \/ dr_type r = Some 3%Z).
    { rewrite Et in *. destruct (d_spec d); destruct SP as [SP _]; try (rewrite SP; auto; fail).
      destruct SP as [SP|[SP|[SP|[]]]]; rewrite <- SP in *; auto. congruence. }
    destruct K as [K|K].
    - destruct (load_bounds cs Or inp s' out r i T Ir Ei K Hf Fx) as (p & k & lo & hi & lo' & hi' & A1 & _ & A3 & _ & _ & [A5 A6] & _).
      exists p, lo, hi. split; auto. split; auto. split; [eapply xle_trans; [exact A5|]|eapply xle_trans; [|exact A6]]; apply xle_Fin; lra.
    - destruct (C09_flex nw dt lamb s0 H0 cs Or inp s' out T r i Ir Ei eps Q K) as (p & q & lo & hi & lo' & hi' & A1 & A2 & A3 & A4 & A5 & A6 & _).
      exists p, lo, hi. auto.
  Qed.

  (** C32 *)
  Lemma C32_lemma eps cs Or inp s' out rb j : 0 <= eps -> transition Or inp (run s0 cs) = (s', Ok out) -> qp_sound eps (o_qp Or) ->
    In rb (nw_bus nw) -> br_id rb = Some j -> br_type rb <> Some 0%Z ->
    Forall dev_row_fin (nw_dev nw) -> (forall i x, dget Z.eqb (ti_load inp) i = Some x -> fin x) ->
    exists P lo hi, obs s' "bus_p" "pu" (EId j) = Some (Fin P) /\ bound s0 "bus_p" "pu" (EId j) = Some (lo, hi) /\
      let n := INR (List.length (filter (fun r => optz_eqb (dr_bus r) (Some j)) (nw_dev nw))) in
      xle lo (Fin (P + n * eps)) /\ xle (Fin (P - n * eps)) hi.
  Proof.
    intros He T Q Irb Ej Ns Hf Fx.
    destruct (sim_init_built _ _ _ _ H0) as (bs & ds0 & B).
    destruct (bt_bus_row_inv B _ Irb) as (b0 & Mb & Ib). set (b1 := bus_with_bounds (sm_devs s0) b0) in *.
    pose proof (bus_init_id _ _ Mb) as Ei. pose proof (bus_init_type _ _ Mb) as Et. rewrite Ej in Ei. injection Ei as Ei.
    destruct out as [[[[st rw] e] pen] conv]. pose proof T as T0. apply transition_ok in T as (_ & _ & ds & v & k & T).
    assert (S' : strip s' = strip s0) by (rewrite (tk_strip _ _ _ _ _ _ _ _ T); apply strip_run).
    destruct (static_bus s' s0 b1 (eq_sym S') Ib) as (b' & Ib' & Eb').
    pose proof (strip_bus_fields _ _ Eb') as (F1 & F2 & _ & _ & _ & F6 & F7 & _).
    assert (Id' : b_id b' = j) by (rewrite F1, Ei; reflexivity).
    assert (Sl : b_slack b' = false).
    { unfold b_slack. apply Z.eqb_neq. rewrite F2. cbn. intros K. apply Ns. rewrite Et. unfold b1 in K. cbn in K. congruence. }
    destruct (pf_bus_ns _ _ _ _ _ _ _ _ T b' Ib' Sl) as [EP _]. rewrite Id' in EP.
    assert (DA : devs_at ds j = devs_at (sm_devs s') j).
    { apply (devs_at_ns (sm_buses s')); [apply T|]. intros d Id Ed.
      pose proof (tk_sdevs _ _ _ _ _ _ _ _ T) as M. apply mapM_ok in M. destruct (Forall2_in_l _ _ _ _ M Id) as (d2 & I2 & E2).
      apply strip_slack_update in E2. apply strip_dev_fields in E2 as (_ & G2 & G3 & _).
      assert (K : d_slack d2 = false) by (eapply (slack_dev_bus nw dt lamb s0 H0 s' b'); eauto; congruence).
      unfold d_slack in *. congruence. }
    rewrite DA in EP.
    destruct (sum_bounds d_p d_pmin d_pmax (devs_at (sm_devs s') j) eps n0 0 n0 n0) as (P & P1 & P2 & P3); [|reflexivity|].
    { intros d Id. unfold devs_at in Id. apply filter_In in Id as [Id Ed]. apply Z.eqb_eq in Ed.
      assert (Nd : d_slack d = false) by (eapply (slack_dev_bus nw dt lamb s0 H0 s' b'); eauto; congruence).
      destruct (static_dev _ _ _ S' Id) as (d0 & I0 & E0). destruct (bt_dev_row B _ I0) as (r & Ir & Mr).
      pose proof (mk_dev_fields _ _ _ _ Mr) as (M1 & M2 & M3 & _). apply strip_dev_fields in E0. destruct E0 as (D1 & D2 & D3 & D4 & _).
      rewrite Forall_forall in Hf.
      assert (Nt : dr_type r <> Some 0%Z) by (rewrite M3; unfold d_slack in Nd; apply Z.eqb_neq in Nd; congruence).
      destruct (dev_p_ok eps cs Or inp s' _ r (d_id d0) He T0 Q Ir M1 Nt (Hf r Ir) (Fx _)) as (p & lo & hi & O1 & O2 & O3 & O4).
      exists p.
      assert (ND' : NoDup (map d_id (sm_devs s'))) by (eapply static_nodup; eauto).
      assert (X : obs s' "dev_p" "pu" (EId (d_id d)) = Some (d_p d)).
      { unfold obs. rewrite (tk_state _ _ _ _ _ _ _ _ T). apply (read_dev _ _ _ (fun _ => true) d_p); auto. cbn; auto. }
      rewrite <- D1 in X. rewrite O1 in X. injection X as X.
      rewrite <- (bound_static _ _ _ _ _ S'), D1, bound_dev_p in O2; auto. injection O2 as Y1 Y2. subst lo hi. auto. }
    exists P, (b_pmin b1), (b_pmax b1).
    assert (NB' : NoDup (map b_id (sm_buses s'))) by (eapply static_bus_nodup; eauto).
    assert (NB : NoDup (map b_id (sm_buses s0))) by (eapply init_bus_nodup; eauto).
    split.
    { rewrite <- Id'. unfold obs. rewrite (tk_state _ _ _ _ _ _ _ _ T). rewrite (read_bus _ _ _ b_p); auto; [|cbn; auto].
      rewrite EP. f_equal. exact P1. }
    split.
    { replace j with (b_id b1) by (rewrite Ei; reflexivity). erewrite (bound_bus s0 "bus_p" "pu"); [..|reflexivity|auto|auto]. reflexivity. }
    cbv zeta.
    assert (L1 : List.length (devs_at (sm_devs s') j) = List.length (filter (fun r => optz_eqb (dr_bus r) (Some j)) (nw_dev nw))).
    { transitivity (List.length (devs_at (sm_devs s0) j)).
      { pose proof (strip_dev_filter (fun d => Z.eqb (d_bus d) j) _ _ (fun _ => eq_refl) (strip_devs _ _ S')) as K.
        apply (f_equal (@List.length _)) in K. rewrite !map_length in K. exact K. }
      rewrite (bt_sdevs _ _ _ _ _ _ B). pose proof (sort_by_perm d_id ds0) as Pm.
      unfold devs_at. transitivity (List.length (filter (fun d => Z.eqb (d_bus d) j) ds0)).
      { clear -Pm. induction Pm; cbn [filter]; auto; try congruence.
        - destruct (Z.eqb (d_bus x) j); cbn; congruence.
        - destruct (Z.eqb (d_bus x) j), (Z.eqb (d_bus y) j); reflexivity. }
      pose proof (bt_devs _ _ _ _ _ _ B) as M. apply mapM_ok in M. clear -M.
      induction M as [|r d rs ds E M IH]; auto. cbn [filter]. apply mk_dev_fields in E as (_ & E & _). rewrite E.
      unfold optz_eqb at 1. destruct (Z.eqb (d_bus d) j); cbn [List.length]; congruence. }
    rewrite <- L1. specialize (P2 0 ltac:(apply xle_Fin; lra)). specialize (P3 0 ltac:(apply xle_Fin; lra)).
    assert (E1 : b_pmin b1 = fold_left nadd (map d_pmin (devs_at (sm_devs s') j)) n0).
    { unfold b1. cbn [bus_with_bounds b_pmin]. unfold nsum. f_equal. rewrite <- Ei. apply devs_at_strip; [reflexivity|]. symmetry. apply strip_devs; auto. }
    assert (E2 : b_pmax b1 = fold_left nadd (map d_pmax (devs_at (sm_devs s') j)) n0).
    { unfold b1. cbn [bus_with_bounds b_pmax]. unfold nsum. f_equal. rewrite <- Ei. apply devs_at_strip; [reflexivity|]. symmetry. apply strip_devs; auto. }
    rewrite E1, E2. split; [refine (proj2 (xle_r _ _ _ _) P2)|refine (proj2 (xle_l _ _ _ _) P3)]; lra.
  Qed.
End Exact.

Section Phase.
  Context (nw : network XR) (dt lamb : XR) (s0 : sim XR) (H0 : sim_init nw dt lamb = Ok s0) (b : R) (Eb : nw_base nw = Fin b).
  Context (d : R) (Ed : dt = Fin d) (Hd : 0 < d) (Mp : Forall mappable (nw_dev nw)).

  Lemma devs_transition_all qp base (t : XR) inp (ds : list (device XR)) :
    (forall d, In d ds -> snd (dev_transition qp base t inp d) = Ok tt) -> snd (devs_transition qp base t inp ds) = Ok tt.
  Proof.
    induction ds as [|x ds IH]; intros H; auto. cbn [devs_transition].
    pose proof (H x (or_introl eq_refl)) as E. destruct (dev_transition qp base t inp x) as [x' [u|e]]; [|discriminate].
    cbn [snd]. apply IH. intros y Hy. apply H. right; auto.
  Qed.
  Lemma fin_pos_eff r : dev_row_fin r -> xlt (Fin 0) (EFF r) -> exists e, EFF r = Fin e /\ 0 < e.
  Proof.
    intros Hf L. destruct (cells r Hf) as (_ & _ & _ & _ & _ & _ & _ & _ & _ & _ & C).
    destruct (else_fin (dr_eff r) (Fin 1) C (or_intror (fin_Fin 1))) as [e Ee]. fold (EFF r) in Ee. rewrite Ee in L. apply xlt_Fin in L. eauto.
  Qed.

  Lemma C06_phase Or inp cs cl : returned (run s0 cs) cl ->
    (forall i v, obs (run s0 (cs ++ [cl])) "des_soc" "pu" (EId i) = Some v -> exists c, v = Fin c /\ in_range s0 i c) ->
    qp_exact (o_qp Or) -> qp_complete (o_qp Or) -> usable_inputs nw inp ->
    let s := run s0 (cs ++ [cl]) in
    snd (devs_transition (o_qp Or) (sm_base s) (sm_dt s) inp (sm_devs s)) = Ok tt.
  Proof.
    intros Rt Soc Q C U s. pose proof (base_pos nw dt lamb s0 H0 b Eb) as Hb.
    assert (Fr : fresh s). { unfold s, run. rewrite fold_left_app. cbn [fold_left]. apply call_fresh. exact Rt. }
    assert (St : strip s = strip s0) by apply strip_run.
    rewrite (strip_base _ _ St), (strip_dt _ _ St), (init_base _ _ _ _ H0), (init_dt _ _ _ _ H0), Eb, Ed.
    apply devs_transition_all. intros dv I.
    destruct (sim_init_built _ _ _ _ H0) as (bs & ds0 & B).
    destruct (static_dev _ _ _ St I) as (d0 & I0 & E0). destruct (bt_dev_row B _ I0) as (r & Ir & Mr).
    rewrite Eb in Mr. pose proof (spec_of_row s0 b r d0 Mr) as SP.
    pose proof (mk_dev_fields _ _ _ _ Mr) as (M1 & M2 & M3 & _). apply strip_dev_fields in E0. destruct E0 as (D1 & D2 & D3 & D4 & _).
    rewrite Forall_forall in Mp. destruct (Mp r Ir) as (Hf & Lg & Ls).
    destruct (U r (d_id d0) Ir M1) as (U1 & U2 & U3). unfold has_num in *. rewrite D1 in *. rewrite D3, D4 in SP. rewrite D3 in M3. rewrite M3 in *.
    unfold dev_transition. destruct (d_spec dv) as [l|g|t] eqn:Sp.
    - destruct SP as [T _]. rewrite T in *. destruct (U1 eq_refl) as (x & X). unfold dgetE. rewrite X. reflexivity.
    - destruct SP as [T G]. destruct (d_slack dv) eqn:Sl; [reflexivity|]. unfold d_slack in Sl. rewrite Sl in G. apply Z.eqb_neq in Sl.
      assert (T' : Some (d_type dv) = Some 1%Z \/ Some (d_type dv) = Some 2%Z) by (destruct T as [T|[T|[T|[]]]]; rewrite <- T in *; auto; congruence).
      destruct (U2 T') as ((x & X) & (u & Xu) & (v & Xv)). unfold dgetE. rewrite X, Xu, Xv. cbn [bind].
      cbn [ndiv XRnum]. rewrite !xdiv_Fin by lra. cbn [d_set_ppot d_ppot].
      set (pot := gen_clip_ppot g _).
      assert (Lp : xle (g_pmin g) pot).
      { destruct (gen_is_valid b Hb r Hf g G) as (_ & V1 & V2 & _). assert (V := xle_trans _ _ _ V1 V2). apply (xle_pu b Hb) in V.
        destruct (gen_check_vals b Hb r false g G) as [G1 G2 _ _ _ _ _ _ _ _ _]. cbn [PMIN] in V. cbn in G1. rewrite <- G1, <- G2 in V.
        unfold pot, gen_clip_ppot. destruct (np_clip_in (Fin (x / b)) (g_pmin g) (g_pmax g)) as [A1 A2]; auto; [apply xisnan_false; discriminate|].
        rewrite np_clip_id; auto. }
      destruct (C06_gen_lemma b Hb r Hf g pot (o_qp Or) (u / b) (v / b) G (Lg T') Lp Q C) as (_ & p & q & E). rewrite E. reflexivity.
    - destruct SP as [T G]. rewrite T in *. destruct (U3 eq_refl) as ((u & Xu) & (v & Xv)). unfold dgetE. rewrite Xu, Xv. cbn [bind].
      cbn [ndiv XRnum]. rewrite !xdiv_Fin by lra.
      destruct (Ls eq_refl) as [Ls1 Ls2]. destruct (fin_pos_eff r Hf Ls2) as (e & Ee & He).
      assert (Ist : is_stor dv = true) by (unfold is_stor; rewrite Sp; auto).
      destruct (d_soc dv) as [vs|] eqn:Sc; [|exfalso; apply (proj2 Fr dv I Ist Sc)].
      assert (ND : NoDup (map d_id (sm_devs s))) by (eapply static_nodup; eauto).
      assert (O : obs s "des_soc" "pu" (EId (d_id dv)) = Some vs).
      { unfold obs. rewrite (proj1 Fr). rewrite (read_dev s "des_soc" "pu" is_stor soc_of dv); auto; [unfold soc_of; rewrite Sc; auto|cbn; auto 10]. }
      destruct (Soc _ _ O) as (c & -> & Rg).
      assert (Bd : bound s0 "des_soc" "pu" (EId (d_id dv)) = Some (s_socmin t, s_socmax t)).
      { rewrite <- D1. apply bound_soc; [eapply init_nodup; eauto|auto|congruence]. }
      destruct (Rg _ _ Bd) as [W1 W2].
      destruct (C06_stor_lemma b Hb r Hf t c d e (o_qp Or) (u / b) (v / b) G Ls1 Ee He Hd W1 W2 Q C) as (rows & _ & _ & p & q & E). rewrite E. reflexivity.
  Qed.
End Phase.

(** Rows that can never be mapped. *)
Section Unmappable.
  Context (nw : network XR) (dt lamb : XR) (s0 : sim XR) (H0 : sim_init nw dt lamb = Ok s0) (b : R) (Eb : nw_base nw = Fin b).
  Lemma no_pmax_fails eps cs Or inp r i : In r (nw_dev nw) -> dr_id r = Some i -> dr_type r = Some 1%Z \/ dr_type r = Some 2%Z ->
    dr_pmax r = None -> dr_pplus r = None -> qp_sound eps (o_qp Or) -> is_ok (snd (transition Or inp (run s0 cs))) = false.
  Proof.
    intros Ir Ei Ty Np Npp Q. pose proof (base_pos nw dt lamb s0 H0 b Eb) as Hb.
    destruct (transition Or inp (run s0 cs)) as [s' [out|e]] eqn:T; [exfalso|reflexivity].
    destruct (row_stepped_run nw dt lamb s0 H0 _ _ _ _ _ _ _ T Ir Ei) as (d0 & d & d1 & d' & R).
    destruct (gen_step _ _ _ _ _ _ _ _ _ _ _ _ R Ty) as (g & x & u & v & G1 & G2 & G3 & G4 & G5 & G6 & G7 & G8).
    rewrite Eb in *. apply Q in G8 as (p & q & E1 & E2 & Rows). unfold gen_rows in Rows. rewrite Forall7 in Rows.
    destruct Rows as (_ & _ & _ & _ & _ & K & _). revert K. apply row_nan. right.
    destruct (gen_check_vals b Hb r false g G1). rewrite gv_rho1, gv_tau1, gv_pmax, gv_pplus.
    unfold PPLUS, PMAX. rewrite Np, Npp. cbn [or_else]. rewrite (proj1 (xdiv_inf b Hb)). unfold tau1_of. cbn [neqb XRnum xeqb].
    cbn [nmul n0 XRnum xmul]. rewrite inf_sgn_0. destruct (g_qmax g); reflexivity.
  Qed.
  Lemma eff0_fails cs Or inp r i : In r (nw_dev nw) -> dr_id r = Some i -> dr_type r = Some 3%Z ->
    dr_eff r = Some (Fin 0) -> fin dt -> is_ok (snd (transition Or inp (run s0 cs))) = false.
  Proof.
    intros Ir Ei Ty Ne [d Ed]. pose proof (base_pos nw dt lamb s0 H0 b Eb) as Hb.
    destruct (transition Or inp (run s0 cs)) as [s' [out|e]] eqn:T; [exfalso|reflexivity].
    destruct (row_stepped_run nw dt lamb s0 H0 _ _ _ _ _ _ _ T Ir Ei) as (d0 & dd & d1 & d' & R).
    destruct (stor_step _ _ _ _ H0 _ _ _ _ _ _ _ _ _ _ R Ty) as (t & u & v & soc & rows & G1 & G2 & G3 & G3' & G4 & G5 & G6 & G7 & G8 & G9).
    rewrite Eb in *. unfold stor_rows in G7. apply bind_ok in G7 as (h & G7 & _).
    rewrite (sv_eff _ _ _ (stor_check_vals b Hb r t G1)) in G7. unfold EFF in G7. rewrite Ne, Ed in G7. cbn [or_else] in G7.
    unfold pydiv in G7. cbn [nmul neqb n0 XRnum xmul xeqb] in G7. rewrite (proj2 (Reqb_spec (d * 0) 0)) in G7 by lra. discriminate.
  Qed.
End Unmappable.
