(** Proof of C35: resetting to the state vector read after a transition reproduces the simulator. *)
From Coq Require Import Reals Lra.
From Verif Require Import Base Num NumXR Devices BusBranch CheckNetwork LoadFlow Simulator LibBase LibNum LibSim LibXR
  ProofNet LibInit SpecSim ProofSim ProofSoc ProofHist ProofDev ProofObs ProofReset SpecEnv ProofEnv SpecDev SpecQp LibQp
  ProofVals ProofBounds ProofSet ProofDevs ProofEnergy ProofBusP.
Local Open Scope num_scope.

Section Gen.
  Context {F : Type} {N : Num F}.

  (** Equal except possibly for the state of charge of a storage unit. *)
  Definition sbs (a c : device F) : Prop :=
    strip_dev a = strip_dev c /\ d_p a = d_p c /\ d_q a = d_q c /\ d_ppot a = d_ppot c.

  Lemma sbs_at (f : device F -> F) ds2 ds k : (forall a c, sbs a c -> f a = f c) -> Forall2 sbs ds2 ds ->
    map f (devs_at ds2 k) = map f (devs_at ds k).
  Proof.
    intros Hf H. unfold devs_at. induction H as [|a c l m S H IH]; auto. cbn [filter].
    destruct (strip_dev_fields _ _ (proj1 S)) as (_ & E & _). rewrite E.
    destruct (Z.eqb (d_bus c) k); cbn [map]; auto. f_equal; auto.
  Qed.
  Lemma slack_update_sbs bs a c c' : sbs a c -> dev_slack_update bs c = Ok c' ->
    exists a', dev_slack_update bs a = Ok a' /\ sbs a' c'.
  Proof.
    intros S H. destruct S as (S1 & S2 & S3 & S4). destruct (strip_dev_fields _ _ S1) as (E1 & E2 & E3 & E4 & _).
    unfold dev_slack_update in *. replace (d_slack a) with (d_slack c) by (unfold d_slack; congruence).
    rewrite E2. destruct (d_slack c).
    - destruct (find_bus bs (d_bus c)) as [bb|]; [|discriminate]. injection H as <-.
      eexists; split; [reflexivity|]. repeat split; auto.
    - injection H as <-. eexists; split; [reflexivity|]. repeat split; auto.
  Qed.
  Lemma mapM_rel {A B C D} (f : A -> res B) (g : C -> res D) (P : A -> C -> Prop) (Q : B -> D -> Prop) l m m' :
    (forall a c c', P a c -> g c = Ok c' -> exists a', f a = Ok a' /\ Q a' c') -> Forall2 P l m -> mapM g m = Ok m' ->
    exists l', mapM f l = Ok l' /\ Forall2 Q l' m'.
  Proof.
    intros K H. revert m'. induction H as [|a c l m S H IH]; intros m' E; cbn [mapM] in *.
    - injection E as <-. exists []. split; auto.
    - apply bind_ok in E as (c' & E1 & E). apply bind_ok in E as (m2 & E2 & E). injection E as <-.
      destruct (K _ _ _ S E1) as (a' & A1 & A2). destruct (IH _ E2) as (l2 & B1 & B2).
      exists (a' :: l2). rewrite A1, B1. split; auto.
  Qed.

  (** The power flow, run again with the same injections, gives the same result. *)
  Lemma flow_again Or Or' inp inp2 (s s' z : sim F) rw conv ds v i ds2 :
    trans_ok Or inp s s' conv ds v i -> compute_reward s' = Ok rw -> o_lin Or' = o_lin Or -> strip z = strip s ->
    devs_transition (o_qp Or') (sm_base z) (sm_dt z) inp2 (sm_devs z) = (ds2, Ok tt) -> Forall2 sbs ds2 ds ->
    exists z' st2 r2 e2 pen2, transition Or' inp2 z = (z', Ok (st2, r2, e2, pen2, conv)) /\
      sm_buses z' = sm_buses s' /\ sm_branches z' = sm_branches s' /\ sm_conv z' = sm_conv s' /\
      Forall2 sbs (sm_devs z') (sm_devs s') /\ strip z' = strip s'.
  Proof.
    intros [T1 T2 T3 T4 T5 T6 T7 T8] Rw L S E R. unfold strip in S. injection S as E1 E2 E3 E4 E5 E6 E7.
    assert (Hids : map b_id (sm_buses z) = map b_id (sm_buses s)).
    { assert (K : map b_id (map strip_bus (sm_buses z)) = map b_id (map strip_bus (sm_buses s))) by congruence.
      rewrite !map_map in K; auto. }
    assert (Hp : map b_p (map (bus_injection ds2) (sm_buses z)) = map b_p (map (bus_injection ds) (sm_buses s))).
    { rewrite !map_map. cbn. rewrite <- (map_map b_id (fun k => nsum (map d_p (devs_at ds2 k)))), Hids, map_map.
      apply map_ext. intros x. f_equal. apply sbs_at; auto. intros a c K; apply K. }
    assert (Hq : map b_q (map (bus_injection ds2) (sm_buses z)) = map b_q (map (bus_injection ds) (sm_buses s))).
    { rewrite !map_map. cbn. rewrite <- (map_map b_id (fun k => nsum (map d_q (devs_at ds2 k)))), Hids, map_map.
      apply map_ext. intros x. f_equal. apply sbs_at; auto. intros a c K; apply K. }
    assert (Hb : map strip_bus (map (bus_injection ds2) (sm_buses z)) = map strip_bus (map (bus_injection ds) (sm_buses s)))
      by (rewrite !strip_inj_bus; auto).
    assert (Hbs : mapM (bus_update v i) (enumerate (map (bus_injection ds2) (sm_buses z))) = Ok (sm_buses s')).
    { rewrite <- T3. apply mapM_Forall2. unfold enumerate. generalize O as k.
      revert Hb Hp Hq. generalize (map (bus_injection ds2) (sm_buses z)) as l, (map (bus_injection ds) (sm_buses s)) as l'.
      induction l as [|x l IH]; intros [|x' l'] Hb Hp Hq k; cbn [map enum_from] in *; try discriminate; constructor;
        apply cons_inj in Hb as [Hb1 Hb]; apply cons_inj in Hp as [Hp1 Hp]; apply cons_inj in Hq as [Hq1 Hq].
      - apply bus_update_dep; auto.
      - apply IH; auto. }
    assert (Hbr : mapM (branch_flow (sm_buses s')) (sm_branches z) = Ok (sm_branches s')).
    { rewrite <- T5. apply mapM_Forall2. apply map_eq_Forall2 in E5. clear -E5. induction E5; constructor; auto using branch_flow_dep. }
    destruct (mapM_rel (dev_slack_update (sm_buses s')) _ sbs sbs _ _ _ (slack_update_sbs (sm_buses s')) R T4) as (ds3 & S1 & S2).
    assert (Hn : n_bus z = n_bus s). { unfold n_bus. rewrite <- (map_length b_id), Hids, map_length; auto. }
    pose proof (strip_transition Or' inp2 z) as HS.
    unfold transition in *. rewrite E in *. unfold solve_load_flow in *.
    change (n_bus (sim_set_buses (sim_set_devs z ds2) (map (bus_injection ds2) (sm_buses (sim_set_devs z ds2))))) with
      (List.length (map (bus_injection ds2) (sm_buses z))) in *.
    cbn [sm_buses sm_devs sm_branches sm_Y sim_set_buses sim_set_devs] in *.
    rewrite map_length in *. change (List.length (sm_buses z)) with (n_bus z) in *.
    rewrite (pq_vectors_dep _ _ Hb Hp Hq), Hn, E7, L in *. cbv zeta in T2. rewrite T2 in *. cbn [bind] in *.
    rewrite Hbs in *. cbn [bind] in *. rewrite S1 in *. cbn [bind] in *. rewrite Hbr in *. cbn [bind] in *.
    match goal with |- context [compute_reward ?x] => assert (exists w, compute_reward x = Ok w) as [[[r2 e2] pen2] Ew] end.
    { unfold compute_reward in *. apply bind_ok in Rw as (pn & P1 & _). unfold penalty_of in *. apply bind_ok in P1 as (a & A1 & _).
      cbn [sm_buses sim_set_state sim_set_conv sim_set_branches sim_set_devs sim_set_buses]. rewrite A1. cbn [bind]. eauto. }
    rewrite Ew in *. cbn [fst snd] in *. do 5 eexists. split; [reflexivity|].
    split; [reflexivity|]. split; [reflexivity|]. split; [exact (eq_sym T6)|]. split; [exact S2|].
    rewrite HS, T8. unfold strip. congruence.
  Qed.

  (** ---- the dictionaries built from the vector ---- *)
  Definition flex (d : device F) : bool := negb (is_load d) && negb (d_slack d).
  Lemma nth_map_app {A B} (f : A -> B) pre x suf : nth_res (map f (pre ++ x :: suf)) (List.length pre) = Ok (f x).
  Proof.
    unfold nth_res. rewrite nth_error_map, nth_error_app2, Nat.sub_diag by lia. reflexivity.
  Qed.
  Lemma reset_inputs_val (f g h : device F -> F) suf : forall pre inp,
    reset_inputs suf (List.length pre) (List.length (filter is_nsgen pre)) (map f (pre ++ suf)) (map g (pre ++ suf))
      (map h (filter is_nsgen (pre ++ suf))) inp =
    Ok (mkIn (ti_load inp ++ map (fun d => (d_id d, f d)) (filter is_load suf))
             (ti_pot inp ++ map (fun d => (d_id d, h d)) (filter is_nsgen suf))
             (ti_p inp ++ map (fun d => (d_id d, f d)) (filter flex suf))
             (ti_q inp ++ map (fun d => (d_id d, g d)) (filter flex suf))).
  Proof.
    induction suf as [|x suf IH]; intros pre inp.
    - cbn. rewrite !app_nil_r. destruct inp; reflexivity.
    - assert (A : pre ++ x :: suf = (pre ++ [x]) ++ suf) by (rewrite <- app_assoc; reflexivity).
      assert (Lp : S (List.length pre) = List.length (pre ++ [x])) by (rewrite app_length; cbn; lia).
      cbn [reset_inputs filter]. rewrite !nth_map_app. cbn [bind].
      rewrite Lp, A.
      destruct (is_load x) eqn:El.
      + assert (En : is_nsgen x = false) by (unfold is_nsgen, is_gen, is_load in *; destruct (d_spec x); auto; discriminate).
        assert (Ef : flex x = false) by (unfold flex; rewrite El; auto). rewrite En, Ef.
        replace (List.length (filter is_nsgen pre)) with (List.length (filter is_nsgen (pre ++ [x])))
          by (rewrite filter_app; cbn; rewrite En, app_nil_r; auto).
        rewrite IH. cbn. rewrite <- app_assoc. reflexivity.
      + destruct (d_slack x) eqn:Es.
        * assert (En : is_nsgen x = false) by (unfold is_nsgen; rewrite Es, andb_false_r; auto).
          assert (Ef : flex x = false) by (unfold flex; rewrite Es, andb_false_r; auto). rewrite En, Ef.
          replace (List.length (filter is_nsgen pre)) with (List.length (filter is_nsgen (pre ++ [x])))
            by (rewrite filter_app; cbn; rewrite En, app_nil_r; auto).
          rewrite IH. reflexivity.
        * assert (Ef : flex x = true) by (unfold flex; rewrite El, Es; auto). rewrite Ef.
          destruct (is_gen x) eqn:Eg.
          -- assert (En : is_nsgen x = true) by (unfold is_nsgen; rewrite Eg, Es; auto). rewrite En.
             rewrite <- A, filter_app. cbn [filter]. rewrite En. rewrite nth_map_app. cbn [bind].
             assert (A2 : filter is_nsgen pre ++ x :: filter is_nsgen suf = filter is_nsgen ((pre ++ [x]) ++ suf)).
             { rewrite <- A, filter_app. cbn [filter]. rewrite En. reflexivity. }
             rewrite A2, A. replace (S (List.length (filter is_nsgen pre))) with (List.length (filter is_nsgen (pre ++ [x]))).
             2: { rewrite filter_app, app_length. cbn. rewrite En. cbn. lia. }
             rewrite IH. cbn. rewrite <- !app_assoc. reflexivity.
          -- assert (En : is_nsgen x = false) by (unfold is_nsgen; rewrite Eg; auto). rewrite En.
             replace (List.length (filter is_nsgen pre)) with (List.length (filter is_nsgen (pre ++ [x])))
               by (rewrite filter_app; cbn; rewrite En, app_nil_r; auto).
             rewrite IH. cbn. rewrite <- !app_assoc. reflexivity.
  Qed.
  Lemma dget_dev (p : device F -> bool) (f : device F -> F) ds d : NoDup (map d_id ds) -> In d ds -> p d = true ->
    dget Z.eqb (map (fun d => (d_id d, f d)) (filter p ds)) (d_id d) = Some (f d).
  Proof.
    intros ND I P. apply dget_nodup; [exact Z.eqb_eq| |].
    - rewrite map_map. cbn. apply ProofSim.NoDup_filter. auto.
    - apply in_map_iff. exists d. split; auto. apply filter_In; auto.
  Qed.

  (** the states of charge of the vector are put back *)
  Lemma set_socs_back base (f : device F -> F) zs ds :
    Forall2 sbs zs ds -> (forall d, In d ds -> is_stor d = true -> exists c, d_soc d = Some c /\ f d / base = c) ->
    set_socs base (map f (filter is_stor ds)) zs = (ds, Ok tt).
  Proof.
    intros H. induction H as [|a c zs ds S H IH]; intros K; auto.
    cbn [set_socs filter]. destruct S as (S1 & S2 & S3 & S4). destruct (strip_dev_fields _ _ S1) as (E1 & E2 & E3 & E4 & E5 & E6).
    assert (Es : is_stor a = is_stor c) by (unfold is_stor; rewrite E4; auto). rewrite Es.
    destruct (is_stor c) eqn:Ec.
    - destruct (K c (or_introl eq_refl) Ec) as (v & V1 & V2). cbn [map]. rewrite IH by (intros; apply K; cbn; auto). cbn [fst snd].
      f_equal. f_equal. apply dev_eq.
      + rewrite strip_set_soc; auto.
      + unfold dyn_dev, d_set_soc. cbn. rewrite V1, V2. congruence.
    - rewrite IH by (intros; apply K; cbn; auto). cbn [fst snd]. f_equal. f_equal. apply dev_eq; auto.
      unfold dyn_dev. rewrite E6; auto. congruence.
  Qed.

  Lemma sim_back (z s : sim F) : strip z = strip s -> sm_buses z = sm_buses s -> sm_branches z = sm_branches s -> sm_conv z = sm_conv s ->
    sm_state s = Some (gather_state s) ->
    sim_set_state (sim_set_devs z (sm_devs s)) (Some (gather_state (sim_set_devs z (sm_devs s)))) = s.
  Proof.
    intros A E1 E2 E3 E4. unfold strip in A. injection A as Y1 Y2 Y3 _ _ _ Y7.
    assert (E : sim_set_state (sim_set_devs z (sm_devs s)) None = sim_set_state s None).
    { destruct z, s. cbn in *. unfold sim_set_state, sim_set_devs. cbn. congruence. }
    assert (G : gather_state (sim_set_devs z (sm_devs s)) = gather_state s).
    { change (gather_state (sim_set_state (sim_set_devs z (sm_devs s)) None) = gather_state (sim_set_state s None)). rewrite E. auto. }
    rewrite G, <- E4. change (sim_set_state (sim_set_state (sim_set_devs z (sm_devs s)) None) (sm_state s) = s).
    rewrite E. destruct s; reflexivity.
  Qed.
End Gen.

Section Layout.
  Context {F : Type} {N : Num F}.
  Local Open Scope string_scope.
  Local Open Scope list_scope.
  Local Open Scope num_scope.
  Lemma reads_devs (s : sim F) k u p f l : In (k, u, (p, f)) (dev_quants (sm_base s)) -> sm_state s = Some (gather_state s) ->
    NoDup (map d_id (sm_devs s)) -> (forall d, In d l -> In d (sm_devs s) /\ p d = true) ->
    reads s k u (map d_id l) = map Some (map f l).
  Proof.
    intros Q S ND H. unfold reads. rewrite !map_map. apply map_ext_in. intros d I. unfold obs. rewrite S.
    destruct (H d I). apply (read_dev s k u p f d Q); auto.
  Qed.
  Lemma layout_eq nw dt lamb (s0 s : sim F) devs gens dess K aux st : sim_init nw dt lamb = Ok s0 -> strip s = strip s0 ->
    sm_state s = Some (gather_state s) -> ids_of nw ALL devs -> ids_of nw GENS gens -> ids_of nw STORS dess ->
    state_layout devs gens dess K s aux st ->
    st = map (fun d => d_p d * sm_base s) (sm_devs s) ++ map (fun d => d_q d * sm_base s) (sm_devs s) ++
         map (fun d => soc_of d * sm_base s) (filter is_stor (sm_devs s)) ++
         map (fun d => d_ppot d * sm_base s) (filter is_nsgen (sm_devs s)) ++ aux.
  Proof.
    intros H S G I1 I2 I3 [_ L]. destruct (ids_lists _ _ _ _ _ H S) as (E1 & _ & E2 & E3).
    rewrite (E1 _ I1), (E2 _ I2), (E3 _ I3) in L.
    assert (ND : NoDup (map d_id (sm_devs s))) by (eapply ProofEnv.static_nodup; eauto).
    rewrite (reads_devs s "dev_p" "MW" (fun _ => true) (fun d => d_p d * sm_base s)) in L; auto; [|cbn; auto 10].
    rewrite (reads_devs s "dev_q" "MVAr" (fun _ => true) (fun d => d_q d * sm_base s)) in L; auto; [|cbn; auto 10].
    rewrite (reads_devs s "des_soc" "MWh" is_stor (fun d => soc_of d * sm_base s)) in L; auto; [|cbn; auto 10|intros d I; apply filter_In; auto].
    rewrite (reads_devs s "gen_p_max" "MW" is_nsgen (fun d => d_ppot d * sm_base s)) in L; auto; [|cbn; auto 10|intros d I; apply filter_In; auto].
    rewrite <- !map_app in L. revert L. generalize (map (fun d => d_p d * sm_base s) (sm_devs s) ++ map (fun d => d_q d * sm_base s) (sm_devs s) ++
      map (fun d => soc_of d * sm_base s) (filter is_stor (sm_devs s)) ++ map (fun d => d_ppot d * sm_base s) (filter is_nsgen (sm_devs s)) ++ aux).
    clear. induction st as [|x st IH]; intros [|y l] E; try discriminate; auto. cbn in E. injection E as -> E. f_equal; auto.
  Qed.
  Lemma slice_mid {A} (a c e : list A) : slice (List.length a) (List.length c) (a ++ c ++ e) = c.
  Proof.
    unfold slice. rewrite skipn_app, skipn_all, Nat.sub_diag. cbn. rewrite firstn_app, firstn_all, Nat.sub_diag. cbn. apply app_nil_r.
  Qed.
End Layout.

Local Open Scope R_scope.
Lemma clip_fin x lo hi : lo = NInf \/ fin lo -> fin hi -> fin (np_clip (Fin x) lo hi).
Proof.
  intros [->|[l ->]] [h ->]; unfold np_clip, np_max, np_min; cbn -[Rleb];
    repeat match goal with |- context [if ?c then _ else _] => destruct c end; apply fin_Fin.
Qed.
Lemma mul_div_back b x : 0 < b -> ndiv (nmul (Fin x) (Fin b)) (Fin b) = Fin x.
Proof. intros Hb. cbn [nmul ndiv XRnum xmul]. rewrite xdiv_Fin by lra. f_equal. field. lra. Qed.

Section Dev.
  Context (b d : R) (Hb : 0 < b) (Hd : 0 < d) (qp qp' : qp_solver XR) (inp inp2 : tr_in XR).
  Context (Qs : qp_sound 0 qp) (Qe : qp_exact qp') (Qc : qp_complete qp').

  Lemma qp_self rows p q : Forall (row_holds 0 p q) rows -> qp' rows (Fin p, Fin q) = Ok (Fin p, Fin q).
  Proof.
    intros H. destruct (Qc rows p q p q) as (a & c & E). { apply nearest_feasible; auto. }
    rewrite E. apply Qe in E as (x & y & -> & -> & Ne). apply nearest_self in Ne; auto. destruct Ne; subst; auto.
  Qed.

  Definition spec_row (r : dev_row XR) (dv : device XR) : Prop :=
    dr_id r = Some (d_id dv) /\ dr_type r = Some (d_type dv) /\
    match d_spec dv with
    | SLoad l => d_type dv = (-1)%Z /\ load_check r (-1) (Fin b) = Ok l
    | SGen g => In (d_type dv) [0; 1; 2]%Z /\ gen_check r (Z.eqb (d_type dv) 0) (Fin b) = Ok g
    | SStor t => d_type dv = 3%Z /\ stor_check r (Fin b) = Ok t
    end.
  Definition stored (dv : device XR) : Prop :=
    match d_spec dv with
    | SStor t => exists c, d_soc dv = Some (Fin c) /\ xle (s_socmin t) (Fin c) /\ xle (Fin c) (s_socmax t)
    | _ => True
    end.

  Lemma restore_dev r dv d1 dz :
    spec_row r dv -> mappable r -> stored dv -> strip_dev dz = strip_dev dv ->
    (dr_type r = Some (-1)%Z -> has_num (ti_load inp) (d_id dv)) ->
    (dr_type r = Some 1%Z \/ dr_type r = Some 2%Z -> has_num (ti_pot inp) (d_id dv)) ->
    dev_transition qp (Fin b) (Fin d) inp dv = (d1, Ok tt) ->
    (is_load dv = true -> dget Z.eqb (ti_load inp2) (d_id dv) = Some (nmul (d_p d1) (Fin b))) ->
    (is_nsgen dv = true -> dget Z.eqb (ti_pot inp2) (d_id dv) = Some (nmul (d_ppot d1) (Fin b))) ->
    (flex dv = true -> dget Z.eqb (ti_p inp2) (d_id dv) = Some (nmul (d_p d1) (Fin b)) /\
                       dget Z.eqb (ti_q inp2) (d_id dv) = Some (nmul (d_q d1) (Fin b))) ->
    exists dz2 d2, dev_pre_soc inp2 dz = Ok dz2 /\ dev_transition qp' (Fin b) (Fin d) inp2 dz2 = (d2, Ok tt) /\ sbs d2 d1 /\
      (is_stor dv = true -> exists c, d_soc d1 = Some (Fin c)).
  Proof.
    intros (R1 & R2 & SP) (Hf & Lg & Ls) St Sz U1 U2 T I1 I2 I3.
    pose proof (strip_dev_transition qp (Fin b) (Fin d) inp dv) as S1. rewrite T in S1. cbn [fst] in S1.
    destruct (strip_dev_fields _ _ Sz) as (Z1 & Z2 & Z3 & Z4 & Z5 & Z6).
    unfold dev_pre_soc. rewrite Z4. destruct (d_spec dv) as [l|g|t] eqn:Sp.
    - destruct SP as [Ty LC]. exists dz, (d_set_pq dz (d_p d1) (d_q d1)). split; auto.
      assert (Nn : is_nsgen dz = false) by (unfold is_nsgen, is_gen; rewrite Z4; auto).
      assert (Nn1 : is_nsgen d1 = false).
      { destruct (strip_dev_fields _ _ S1) as (_ & _ & _ & E & _). unfold is_nsgen, is_gen; rewrite E, Sp; auto. }
      split; [|split].
      + destruct (U1 ltac:(congruence)) as (x & X).
        destruct (dev_transition_load _ _ _ _ _ _ _ Sp T) as (x' & X' & P & Q). rewrite X in X'. injection X' as <-.
        destruct (load_check_vals b Hb _ _ _ LC) as (V1 & V2 & V3 & V4 & V5 & V6 & V7).
        assert (C0 : cell_fin (dr_pmax r) /\ cell_fin (dr_pmin r)).
        { unfold dev_row_fin in Hf. rewrite !Forall_cons_iff in Hf. tauto. }
        destruct C0 as (C2 & C3).
        destruct (else_fin (dr_pmax r) (Fin 0) C2 (or_intror (fin_Fin 0))) as [h Eh]. rewrite <- V2 in Eh.
        assert (Lo : l_pmin l = NInf \/ fin (l_pmin l)).
        { rewrite V1. unfold PMIN. destruct (dr_pmin r) as [v|] eqn:Ev; cbn [or_else].
          - right. destruct (C3 _ eq_refl) as [y ->]. rewrite xdiv_Fin by lra. apply fin_Fin.
          - left. apply xdiv_inf; auto. }
        assert (Lh : xle (l_pmin l) (l_pmax l)).
        { rewrite Eh in *. destruct Lo as [Ey|[y Ey]]; rewrite Ey in *; [reflexivity|]. cbn [nltb XRnum xltb] in V7. apply Rltb_false in V7. apply xle_Fin; auto. }
        cbn [ndiv XRnum] in P. rewrite xdiv_Fin in P by lra.
        destruct (clip_fin (x / b) (l_pmin l) (l_pmax l) Lo (ex_intro _ h Eh)) as [p Ep].
        destruct (np_clip_in (Fin (x / b)) (l_pmin l) (l_pmax l)) as [A1 A2]; auto; [apply xisnan_false; discriminate|].
        rewrite Ep in P. rewrite Ep in A1, A2.
        unfold dev_transition. rewrite Z4. unfold dgetE. rewrite Z1, I1 by (unfold is_load; rewrite Sp; auto).
        rewrite P, mul_div_back by auto. unfold load_map_pq. cbn [fst snd]. rewrite np_clip_id by auto. rewrite Q, P. reflexivity.
      + unfold sbs. cbn. repeat split; [rewrite <- Sz in S1; symmetry; exact S1|].
        rewrite <- Sz in S1. apply strip_dev_fields in S1. symmetry. apply S1. auto.
      + unfold is_stor. rewrite Sp. discriminate.
    - destruct SP as [Ty G]. exists dz.
      destruct (d_slack dv) eqn:Sl.
      + exists (d_set_pq dz n0 n0). split; auto.
        assert (Sz' : d_slack dz = true) by (unfold d_slack in *; congruence).
        unfold dev_transition in *. rewrite Z4, Sz'. split; auto. rewrite Sp, Sl in T. injection T as <-.
        split; [|unfold is_stor; rewrite Sp; discriminate]. unfold sbs. cbn. repeat split; auto.
        apply Z5. unfold is_nsgen. rewrite Sz', andb_false_r. auto.
      + assert (Nsl : (d_type dv =? 0)%Z = false) by exact Sl. rewrite Nsl in G. apply Z.eqb_neq in Nsl.
        assert (T' : dr_type r = Some 1%Z \/ dr_type r = Some 2%Z).
        { rewrite R2. destruct Ty as [Ty|[Ty|[Ty|[]]]]; rewrite <- Ty in *; auto; congruence. }
        specialize (Lg T'). destruct (U2 T') as (x & X).
        destruct (dev_transition_gen _ _ _ _ _ _ _ Sp Sl T) as (x' & u & v & X' & _ & _ & P & Q). rewrite X in X'. injection X' as <-.
        apply Qs in Q as (p & q & Ep & Eq & Rows).
        destruct (gen_check_vals b Hb r false g G) as [G1 G2 _ _ _ _ _ _ _ _ _]. cbn [or_else] in G1.
        destruct (cells r Hf) as (C1 & C2 & _).
        assert (Fl : fin (g_pmin g)).
        { rewrite G1. apply (pu_fin b Hb). unfold PMIN. apply else_fin; auto. }
        assert (Fh : fin (g_pmax g)).
        { rewrite G2. apply (pu_fin b Hb). unfold PMAX. destruct Lg as [Lg _]. destruct (dr_pmax r) as [vv|] eqn:Ev; [|congruence]. cbn. apply C1; auto. }
        assert (Lh : xle (g_pmin g) (g_pmax g)).
        { destruct (gen_is_valid b Hb r Hf g G) as (_ & V1 & V2 & _). assert (V := xle_trans _ _ _ V1 V2). apply (xle_pu b Hb) in V.
          cbn [PMIN] in V. rewrite <- G1, <- G2 in V. exact V. }
        cbn [ndiv XRnum] in P. rewrite xdiv_Fin in P by lra.
        destruct (np_clip_in (Fin (x / b)) (g_pmin g) (g_pmax g)) as [A1 A2]; auto; [apply xisnan_false; discriminate|].
        rewrite np_clip_id in P by auto. destruct (clip_fin (x / b) _ _ (or_intror Fl) Fh) as [w Ew]. rewrite Ew in *.
        exists (d_set_pq (d_set_ppot dz (Fin w)) (Fin p) (Fin q)). split; auto.
        assert (Sz' : d_slack dz = false) by (unfold d_slack in *; congruence).
        assert (Ng : is_nsgen dv = true) by (unfold is_nsgen, is_gen; rewrite Sp, Sl; auto).
        assert (Nf : flex dv = true) by (unfold flex, is_load; rewrite Sp, Sl; auto).
        split; [|split].
        * unfold dev_transition. rewrite Z4, Sz', Z1. unfold dgetE. rewrite I2 by auto. destruct (I3 Nf) as [-> ->]. cbn [bind].
          rewrite P, Ep, Eq, !mul_div_back by auto. unfold gen_clip_ppot. rewrite !(np_clip_id (Fin w)) by auto.
          unfold gen_map_pq. cbn [d_ppot d_set_ppot]. rewrite qp_self by (rewrite P in Rows; auto). reflexivity.
        * unfold sbs. cbn. repeat split; auto. rewrite <- Sz in S1. rewrite S1.
          change (strip_dev (d_set_ppot dz (Fin w)) = strip_dev dz). apply strip_set_ppot.
          unfold is_nsgen, is_gen. rewrite Z4, Sz'. auto.
        * unfold is_stor. rewrite Sp. discriminate.
    - destruct SP as [Ty G].
      assert (Sl : d_slack dv = false) by (unfold d_slack; rewrite Ty; auto).
      assert (Nf : flex dv = true) by (unfold flex, is_load; rewrite Sp, Sl; auto).
      assert (Ist : is_stor dz = true) by (unfold is_stor; rewrite Z4; auto).
      destruct (I3 Nf) as [J1 J2].
      destruct (Ls ltac:(congruence)) as [Ls1 Ls2]. destruct (fin_pos_eff r Hf Ls2) as (e & Ee & He).
      unfold stored in St. rewrite Sp in St. destruct St as (c & Ec & W1 & W2).
      destruct (dev_transition_stor _ _ _ _ _ _ _ Sp T) as (c' & u & v & rows & X0 & _ & _ & Rw & Q & So). rewrite Ec in X0. injection X0 as <-.
      apply Qs in Q as (p & q & Ep & Eq & Rows).
      destruct (stor_check_vals b Hb r t G). destruct sv_socmax as (vm & Evm & Em).
      destruct (cells r Hf) as (_ & _ & _ & _ & _ & _ & _ & _ & C1 & C2 & _).
      destruct (pu_fin b Hb vm (C1 _ Evm)) as [hi Ehi]. rewrite Ehi in Em.
      destruct (pu_fin b Hb (SOCMIN r)) as [lo Elo]. { unfold SOCMIN. apply else_fin; auto. }
      assert (El := sv_socmin). rewrite Elo in El.
      assert (Hc : lo <= c <= hi). { rewrite El in W1. rewrite Em in W2. apply xle_Fin in W1. apply xle_Fin in W2. auto. }
      assert (Ef0 := stor_rows_eq b Hb r t G e d c lo hi Ee He Hd El Em rows Rw). rewrite Ef0 in Rows. clear Ef0.
      rewrite Forall10 in Rows. destruct Rows as (K1 & K2 & K3 & K4 & K5 & K6 & K7 & K8 & K9 & K10).
      apply row_plo_Fin in K9. apply row_phi in K10. rewrite minus0, xle_Fin in K10.
      assert (Pde : 0 < d * e) by (apply Rmult_lt_0_compat; auto).
      assert (M1 : forall a a' k, 0 < k -> a <= a' -> a / k <= a' / k).
      { intros a a' k Hk L. apply Rmult_le_compat_r; auto. left. apply Rinv_0_lt_compat; auto. }
      unfold dgetE. rewrite Z1, J1. cbn [bind]. rewrite Ep.
      set (c2 := if Rle_dec p 0 then lo else hi).
      assert (Es : (if nleb (nmul (Fin p) (Fin b)) n0 then s_socmin t else s_socmax t) = Fin c2).
      { rewrite El, Em. cbn [nmul nleb n0 XRnum xmul xleb]. unfold Rleb, c2.
        destruct (Rle_dec (p * b) 0) as [A|A], (Rle_dec p 0) as [B|B]; auto; exfalso; [nra|].
        apply A. nra. }
      rewrite Es. exists (d_set_soc dz (Fin c2)).
      destruct (stor_rows_ok b Hb r t G e d c2 lo hi Ee He Hd El Em) as (rows2 & Er2).
      assert (F2 : Forall (row_holds 0 p q) rows2).
      { rewrite (stor_rows_eq b Hb r t G e d c2 lo hi Ee He Hd El Em rows2 Er2).
        rewrite Forall10. repeat (split; [assumption|]). rewrite row_plo_Fin, row_phi, minus0, xle_Fin.
        unfold c2. destruct (Rle_dec p 0) as [B|B]; split.
        - eapply Rle_trans; [exact K9|]. apply M1; auto. lra.
        - replace (e * (lo - lo) / d) with 0 by (field; lra). auto.
        - replace (- (hi - hi) / (d * e)) with 0 by (field; lra). lra.
        - eapply Rle_trans; [exact K10|]. apply M1; auto. apply Rmult_le_compat_l; lra. }
      exists (d_set_soc (d_set_pq (d_set_soc dz (Fin c2)) (Fin p) (Fin q)) (stor_update_soc t (Fin c2) (Fin p) (Fin d))).
      split; auto. split; [|split].
      + unfold dev_transition. cbn [d_spec d_set_soc d_id d_soc]. rewrite Z4. unfold dgetE. rewrite Z1, J1, J2. cbn [bind].
        rewrite Ep, Eq, !mul_div_back by auto. unfold stor_map_pq. rewrite Er2. cbn [bind]. rewrite qp_self by auto. reflexivity.
      + unfold sbs. split; [|cbn; split; auto; split; auto].
        * rewrite strip_set_soc, strip_set_pq, strip_set_soc by auto. rewrite S1. auto.
        * assert (Nn : is_nsgen dz = false) by (unfold is_nsgen, is_gen; rewrite Z4; auto).
          rewrite <- Sz in S1. apply strip_dev_fields in S1. symmetry. apply S1.
          destruct S1 as (_ & _ & _ & E & _). unfold is_nsgen, is_gen. rewrite E, Z4. auto.
      + intros _. rewrite So. unfold stor_update_soc. rewrite Ep, sv_eff, Ee, El, Em.
        cbn [nmul nsub ndiv n0 nleb XRnum xmul xsub xleb].
        assert (K : forall y, exists z, np_clip (Fin y) (Fin lo) (Fin hi) = Fin z).
        { intros y. destruct (clip_fin y (Fin lo) (Fin hi) (or_intror (fin_Fin lo)) (fin_Fin hi)) as [z Hz]. eauto. }
        destruct (Rleb p 0).
        * destruct (K (c - d * e * p)) as [z Hz]. exists z. rewrite <- Hz. auto.
        * rewrite xdiv_Fin by lra. destruct (K (c - d * p / e)) as [z Hz]. exists z. rewrite <- Hz. auto.
  Qed.
End Dev.

Section Restore.
  Local Open Scope string_scope.
  Local Open Scope list_scope.
  Context (nw : network XR) (lamb : XR) (s0 : sim XR) (b d : R) (H0 : sim_init nw (Fin d) lamb = Ok s0) (Eb : nw_base nw = Fin b).
  Context (Hd : 0 < d) (Mp : Forall mappable (nw_dev nw)).

  Lemma pre_and_trans qp qp' inp inp2 zs vs ds :
    Forall2 (fun dz dv => strip_dev dz = strip_dev dv) zs vs ->
    Forall2 (fun dv d1 => dev_transition qp (Fin b) (Fin d) inp dv = (d1, Ok tt)) vs ds ->
    (forall dz dv d1, In dv vs -> In d1 ds -> strip_dev dz = strip_dev dv -> dev_transition qp (Fin b) (Fin d) inp dv = (d1, Ok tt) ->
      exists dz2 d2, dev_pre_soc inp2 dz = Ok dz2 /\ dev_transition qp' (Fin b) (Fin d) inp2 dz2 = (d2, Ok tt) /\ sbs d2 d1 /\
        (is_stor dv = true -> exists c, d_soc d1 = Some (Fin c))) ->
    exists dzs ds2, mapM (dev_pre_soc inp2) zs = Ok dzs /\ devs_transition qp' (Fin b) (Fin d) inp2 dzs = (ds2, Ok tt) /\ Forall2 sbs ds2 ds /\
      forall d1, In d1 ds -> is_stor d1 = true -> exists c, d_soc d1 = Some (Fin c).
  Proof.
    intros H. revert ds. induction H as [|dz dv zs vs S H IH]; intros ds K L; inversion K as [|a d1 b0 ds' T K']; subst.
    - exists [], []. repeat split; auto. intros d1 [].
    - destruct (L dz dv d1 (or_introl eq_refl) (or_introl eq_refl) S T) as (dz2 & d2 & A1 & A2 & A3 & A4).
      destruct (IH ds' K') as (dzs & ds2 & B1 & B2 & B3 & B4).
      { intros x y w Iy Iw. apply L; cbn; auto. }
      exists (dz2 :: dzs), (d2 :: ds2). cbn [mapM devs_transition]. rewrite A1, B1, A2, B2. cbn [bind fst snd].
      repeat split; auto. intros x [<-|I] St; auto. apply A4.
      pose proof (strip_dev_transition qp (Fin b) (Fin d) inp dv) as S1. rewrite T in S1. cbn [fst] in S1.
      apply strip_dev_fields in S1. destruct S1 as (_ & _ & _ & E & _). unfold is_stor in *. rewrite <- E. auto.
  Qed.

  Lemma C35_lemma Or Or' inp cs cl cs' s' st r e pen conv devs gens dess K aux vec :
    returned (run s0 cs) cl ->
    (forall i v, obs (run s0 (cs ++ [cl])) "des_soc" "pu" (EId i) = Some v -> exists c, v = Fin c /\ in_range s0 i c) ->
    usable_inputs nw inp -> qp_sound 0 (o_qp Or) ->
    transition Or inp (run s0 (cs ++ [cl])) = (s', Ok (st, r, e, pen, conv)) ->
    ids_of nw ALL devs -> ids_of nw GENS gens -> ids_of nw STORS dess -> state_layout devs gens dess K s' aux vec ->
    o_lin Or' = o_lin Or -> qp_exact (o_qp Or') -> qp_complete (o_qp Or') ->
    sim_reset Or' vec (run s0 cs') = (s', Ok conv).
  Proof.
    intros Rt Soc U Qs T Ia Ig Is Lay El Qe Qc. pose proof (base_pos nw (Fin d) lamb s0 H0 b Eb) as Hb.
    set (s := run s0 (cs ++ [cl])) in *. set (z0 := run s0 cs').
    assert (Fr : fresh s). { unfold s, run. rewrite fold_left_app. cbn [fold_left]. apply call_fresh. exact Rt. }
    assert (Ss : strip s = strip s0) by apply strip_run. assert (Sz : strip z0 = strip s0) by apply strip_run.
    apply transition_ok in T as (-> & Rw & ds & v & i & TK). assert (TK' := TK). destruct TK' as [T1 T2 T3 T4 T5 T6 T7 T8].
    assert (Ss' : strip s' = strip s0) by congruence. assert (Szs : strip z0 = strip s') by congruence.
    assert (Bs : sm_base s = Fin b) by (rewrite (strip_base _ _ Ss), (init_base _ _ _ _ H0); auto).
    assert (Bs' : sm_base s' = Fin b) by (rewrite (strip_base _ _ Ss'), (init_base _ _ _ _ H0); auto).
    assert (Bz : sm_base z0 = Fin b) by (rewrite (strip_base _ _ Sz), (init_base _ _ _ _ H0); auto).
    assert (Ds : sm_dt s = Fin d) by (rewrite (strip_dt _ _ Ss), (init_dt _ _ _ _ H0); auto).
    assert (Dz : sm_dt z0 = Fin d) by (rewrite (strip_dt _ _ Sz), (init_dt _ _ _ _ H0); auto).
    rewrite (layout_eq _ _ _ _ _ _ _ _ _ _ _ H0 Ss' T7 Ia Ig Is Lay). rewrite Bs'. clear Lay vec.
    set (f := fun x : device XR => nmul (d_p x) (Fin b)). set (g := fun x : device XR => nmul (d_q x) (Fin b)).
    set (fs := fun x : device XR => nmul (soc_of x) (Fin b)). set (h := fun x : device XR => nmul (d_ppot x) (Fin b)).
    destruct (strip_counts _ _ Szs) as (N1 & N2 & N3).
    unfold sim_reset. rewrite N1, N2, N3, Bz.
    assert (L1 : n_device s' = List.length (map f (sm_devs s'))) by (rewrite map_length; auto).
    assert (L2 : n_device s' = List.length (map g (sm_devs s'))) by (rewrite map_length; auto).
    assert (L3 : n_des s' = List.length (map fs (filter is_stor (sm_devs s')))) by (rewrite map_length; auto).
    assert (L4 : n_nsgen s' = List.length (map h (filter is_nsgen (sm_devs s')))) by (rewrite map_length; auto).
    assert (V1 : firstn (n_device s') (map f (sm_devs s') ++ map g (sm_devs s') ++ map fs (filter is_stor (sm_devs s')) ++ map h (filter is_nsgen (sm_devs s')) ++ aux) = map f (sm_devs s')).
    { rewrite L1, firstn_app, firstn_all, Nat.sub_diag. cbn. apply app_nil_r. }
    assert (V2 : slice (n_device s') (n_device s') (map f (sm_devs s') ++ map g (sm_devs s') ++ map fs (filter is_stor (sm_devs s')) ++ map h (filter is_nsgen (sm_devs s')) ++ aux) = map g (sm_devs s')).
    { rewrite L1 at 1. rewrite L2. apply slice_mid. }
    assert (V3 : slice (2 * n_device s') (n_des s') (map f (sm_devs s') ++ map g (sm_devs s') ++ map fs (filter is_stor (sm_devs s')) ++ map h (filter is_nsgen (sm_devs s')) ++ aux) = map fs (filter is_stor (sm_devs s'))).
    { replace (2 * n_device s')%nat with (List.length (map f (sm_devs s') ++ map g (sm_devs s'))) by (rewrite app_length; lia).
      rewrite L3, app_assoc. apply slice_mid. }
    assert (V4 : slice (2 * n_device s' + n_des s') (n_nsgen s') (map f (sm_devs s') ++ map g (sm_devs s') ++ map fs (filter is_stor (sm_devs s')) ++ map h (filter is_nsgen (sm_devs s')) ++ aux) = map h (filter is_nsgen (sm_devs s'))).
    { replace (2 * n_device s' + n_des s')%nat with (List.length ((map f (sm_devs s') ++ map g (sm_devs s')) ++ map fs (filter is_stor (sm_devs s')))) by (rewrite !app_length; lia).
      rewrite L4. rewrite (app_assoc (map f (sm_devs s'))), (app_assoc (map f (sm_devs s') ++ map g (sm_devs s'))). apply slice_mid. }
    rewrite V1, V2, V3, V4. clear V1 V2 V3 V4.
    rewrite (reset_inputs_dep _ _ _ _ _ _ _ _ (strip_devs _ _ Szs)).
    pose proof (reset_inputs_val f g h (sm_devs s') [] (mkIn [] [] [] [])) as RI. cbn [List.length filter app] in RI. rewrite RI. clear RI.
    cbn [ti_load ti_pot ti_p ti_q app].
    match goal with |- context [mapM (dev_pre_soc ?x)] => set (inp2 := x) end.
    assert (ND : NoDup (map d_id (sm_devs s'))) by (eapply ProofEnv.static_nodup; eauto).
    assert (Keep : forall d1, In d1 ds -> d_slack d1 = false -> In d1 (sm_devs s')).
    { intros d1 I Sl. clear -T4 I Sl. revert T4 I. generalize (sm_devs s') as l. induction ds as [|x ds IH]; intros l E I; [destruct I|].
      cbn [mapM] in E. apply bind_ok in E as (x' & E1 & E). apply bind_ok in E as (l' & E2 & E). injection E as <-.
      destruct I as [->|I]; [left|right; auto]. unfold dev_slack_update in E1. rewrite Sl in E1. injection E1 as <-. auto. }
    rewrite Bs, Ds in T1.
    destruct (sim_init_built _ _ _ _ H0) as (bs & ds0 & B).
    destruct (pre_and_trans (o_qp Or) (o_qp Or') inp inp2 (sm_devs z0) (sm_devs s) ds) as (dzs & ds2 & P1 & P2 & P3 & P4); auto.
    { apply map_eq_Forall2. apply strip_devs. congruence. }
    { intros dz dv d1 Iv I1 Sd Tr.
      destruct (static_dev _ _ _ Ss Iv) as (d0 & I0 & E0). destruct (bt_dev_row B _ I0) as (rr & Ir & Mr).
      rewrite Eb in Mr. pose proof (spec_of_row s0 b rr d0 Mr) as SP.
      pose proof (mk_dev_fields _ _ _ _ Mr) as (M1 & M2 & M3 & _). apply strip_dev_fields in E0. destruct E0 as (D1 & D2 & D3 & D4 & _).
      assert (Mr' := Mp). rewrite Forall_forall in Mr'. specialize (Mr' rr Ir). destruct (U rr (d_id d0) Ir M1) as (U1 & U2 & U3).
      rewrite D1 in *. rewrite D3, D4 in SP. rewrite D3 in M3.
      pose proof (strip_dev_transition (o_qp Or) (Fin b) (Fin d) inp dv) as S1. rewrite Tr in S1. cbn [fst] in S1.
      destruct (strip_dev_fields _ _ S1) as (F1 & _ & F3 & F4 & _).
      assert (Sl1 : d_slack d1 = d_slack dv) by (unfold d_slack; rewrite F3; auto).
      assert (Ild : is_load d1 = is_load dv) by (unfold is_load; rewrite F4; auto).
      assert (Sld : is_load dv = true -> d_slack dv = false).
      { unfold is_load, d_slack. destruct (d_spec dv); try discriminate. destruct SP as [-> _]. auto. }
      apply (restore_dev b d Hb Hd (o_qp Or) (o_qp Or') inp inp2 Qs Qe Qc rr dv d1 dz); auto.
      - split; auto.
      - unfold stored. destruct (d_spec dv) as [l|gg|t] eqn:Sp; auto.
        assert (Ist : is_stor dv = true) by (unfold is_stor; rewrite Sp; auto).
        destruct (d_soc dv) as [vs|] eqn:Sc; [|exfalso; apply (proj2 Fr dv Iv Ist Sc)].
        assert (ND' : NoDup (map d_id (sm_devs s))) by (eapply ProofEnv.static_nodup; eauto).
        assert (O : obs s "des_soc" "pu" (EId (d_id dv)) = Some vs).
        { unfold obs. rewrite (proj1 Fr). rewrite (read_dev s "des_soc" "pu" is_stor soc_of dv); auto; [unfold soc_of; rewrite Sc; auto|cbn; auto 10]. }
        destruct (Soc _ _ O) as (c & -> & Rg).
        assert (Bd : bound s0 "des_soc" "pu" (EId (d_id dv)) = Some (s_socmin t, s_socmax t)).
        { rewrite <- D1. apply bound_soc; [eapply init_nodup; eauto|auto|congruence]. }
        destruct (Rg _ _ Bd) as [W1 W2]. eauto.
      - intros Q. apply U2; auto.
      - intros Q. rewrite <- F1. unfold inp2. cbn [ti_load]. apply (dget_dev is_load f); auto; [|congruence]. apply Keep; auto. rewrite Sl1; auto.
      - intros Q. rewrite <- F1. unfold inp2. cbn [ti_pot].
        assert (Q' := Q). unfold is_nsgen in Q'. apply andb_true_iff in Q' as [Q1 Q2]. apply negb_true_iff in Q2.
        apply (dget_dev is_nsgen h); auto. apply Keep; auto. congruence.
        unfold is_nsgen, is_gen in *. rewrite F4, Q1, Sl1, Q2. auto.
      - intros Q. rewrite <- F1. unfold inp2. cbn [ti_p ti_q].
        assert (Q' := Q). unfold flex in Q'. apply andb_true_iff in Q' as [Q1 Q2]. apply negb_true_iff in Q2.
        assert (Fx : flex d1 = true) by (unfold flex; rewrite Ild, Sl1; auto).
        assert (In d1 (sm_devs s')) by (apply Keep; auto; congruence).
        split; [apply (dget_dev flex f)|apply (dget_dev flex g)]; auto. }
    rewrite P1.
    set (z := sim_set_devs (sim_set_state z0 None) dzs).
    assert (Stz : strip z = strip s).
    { unfold z. rewrite strip_set_devs; [|apply (mapM_proj _ strip_dev strip_dev _ _ (strip_pre_soc inp2) P1)].
      change (strip z0 = strip s). congruence. }
    destruct (flow_again Or Or' inp inp2 s s' z (r, e, pen) conv ds v i ds2) as (z' & st2 & r2 & e2 & pen2 & A1 & A2 & A3 & A4 & A5 & A6); auto.
    { change (sm_base z) with (sm_base z0). change (sm_dt z) with (sm_dt z0). rewrite Bz, Dz. exact P2. }
    rewrite A1.
    rewrite (set_socs_back (Fin b) fs (sm_devs z') (sm_devs s') A5).
    2: { intros x Ix St.
      assert (X : exists d1, In d1 ds /\ is_stor d1 = true /\ (d_soc x = d_soc d1)).
      { clear -T4 Ix St. revert T4 Ix. generalize (sm_devs s') as l. induction ds as [|y ds IH]; intros l E I.
        - cbn in E. injection E as <-. destruct I.
        - cbn [mapM] in E. apply bind_ok in E as (x' & E1 & E). apply bind_ok in E as (l' & E2 & E). injection E as <-.
          destruct I as [->|I]; [|destruct (IH _ E2 I) as (d1 & J1 & J2); exists d1; split; auto; right; auto].
          exists y. split; [left; auto|]. unfold dev_slack_update in E1. destruct (d_slack y).
          + destruct (find_bus (sm_buses s') (d_bus y)) as [bb|] eqn:Fb; [|discriminate]. injection E1 as <-. unfold is_stor in *. cbn in *. auto.
          + injection E1 as <-. auto. }
      destruct X as (d1 & X1 & X2 & X3). destruct (P4 d1 X1 X2) as [c Ec]. exists (Fin c). split; [congruence|].
      unfold fs, soc_of. rewrite X3, Ec. apply mul_div_back; auto. }
    assert (E2 : sim_set_state (sim_set_devs z' (sm_devs s')) (Some (gather_state (sim_set_devs z' (sm_devs s')))) = s').
    { apply sim_back; auto. }
    rewrite E2. reflexivity.
  Qed.
End Restore.
