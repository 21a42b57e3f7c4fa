(** Units of the reported quantities and bounds (C31), angles (C58), conversion of the file
    limits (C10), order and number of the elements (C14). *)
From Coq Require Import Permutation Sorted Reals Lra.
From Verif Require Import Base Num NumXR Devices BusBranch CheckNetwork LoadFlow Simulator LibBase LibNum LibXR LibSim
  SpecNet ProofNet SpecDev LibInit SpecSim ProofSim ProofSoc ProofHist ProofDev ProofObs.
Local Open Scope string_scope.
Local Open Scope list_scope.

Section Units.
  Context {F : Type} {N : Num F}.

  Lemma units_power_state (nw : network F) dt lamb s0 cs k u i :
    sim_init nw dt lamb = Ok s0 -> In (k, u) power_units ->
    obs (run s0 cs) k u i = option_map (fun v => nmul v (nw_base nw)) (obs (run s0 cs) k "pu" i).
  Proof.
    intros H K.
    apply (gathered_obs _ _ _ _ cs (fun f => f k u i = option_map (fun v => nmul v (nw_base nw)) (f k "pu" i)) H); [reflexivity|].
    intros s1 S. assert (E : sm_base s1 = nw_base nw) by (rewrite (strip_base _ _ S); eapply init_base; eauto).
    cbn [In power_units] in K.
    repeat (destruct K as [K|K]; [injection K as <- <-; unfold read, gather_state; cbn [dget String.eqb Ascii.eqb Bool.eqb];
      rewrite E; first [exact (dget_map_val (fun d => EId (b_id d)) _ (fun v => nmul v (nw_base nw)) _ _) | exact (dget_map_val (fun d => EId (d_id d)) _ (fun v => nmul v (nw_base nw)) _ _)
        | exact (dget_map_val (fun b => EBr (ln_f b) (ln_t b)) _ (fun v => nmul v (nw_base nw)) _ _)]|]).
    destruct K.
  Qed.
  Lemma units_angle_state (nw : network F) dt lamb s0 cs k i :
    sim_init nw dt lamb = Ok s0 -> In k angle_keys ->
    obs (run s0 cs) k "degree" i = option_map (fun v => ndiv (nmul v (nofZ 180)) npi) (obs (run s0 cs) k "rad" i).
  Proof.
    intros H K.
    apply (gathered_obs _ _ _ _ cs (fun f => f k "degree" i = option_map (fun v => ndiv (nmul v (nofZ 180)) npi) (f k "rad" i)) H); [reflexivity|].
    intros s1 S. cbn [In angle_keys] in K.
    repeat (destruct K as [K|K]; [subst k; unfold read, gather_state; cbn [dget String.eqb Ascii.eqb Bool.eqb];
      first [exact (dget_map_val (fun d => EId (b_id d)) _ (fun v => ndiv (nmul v (nofZ 180)) npi) _ _) | exact (dget_map_val (fun b => EBr (ln_f b) (ln_t b)) _ (fun v => ndiv (nmul v (nofZ 180)) npi) _ _)]|]).
    destruct K.
  Qed.
  Lemma bus_row_of (nw : network F) dt lamb s0 s1 b : sim_init nw dt lamb = Ok s0 -> strip s1 = strip s0 ->
    In b (sm_buses s1) -> exists r, In r (nw_bus nw) /\ br_id r = Some (b_id b) /\ br_type r = Some (b_type b) /\
      br_kv r = Some (b_kv b) /\ br_vmax r = Some (b_vmax b) /\ br_vmin r = b_vmin b.
  Proof.
    intros H S I. destruct (sim_init_built _ _ _ _ H) as (bs & ds & B).
    destruct (static_bus _ _ _ S I) as (b' & I' & E'). apply strip_bus_fields in E'.
    destruct E' as (E1 & E2 & E3 & E4 & E5 & _).
    destruct (bt_bus_row B _ I') as (r & b0 & Ir & Eb & ->). cbn in *.
    exists r. split; auto. unfold bus_init in Eb. rewrite <- E1, <- E2, <- E3, <- E4, <- E5. dm; cbn; auto.
  Qed.
  Lemma bus_row_unique (nw : network F) dt lamb s0 r r' : sim_init nw dt lamb = Ok s0 ->
    In r (nw_bus nw) -> In r' (nw_bus nw) -> br_id r = br_id r' -> r = r'.
  Proof.
    intros H I I' E. destruct (sim_init_built _ _ _ _ H) as (bs & ds & B).
    destruct (bt_wf _ _ _ _ _ _ B) as (_ & _ & _ & _ & ND & _). unfold rule_bus_ids in ND.
    clear -ND I I' E. induction (nw_bus nw) as [|a l IH]; [destruct I|]. cbn in ND. inversion ND; subst.
    destruct I as [->|I], I' as [->|I']; auto.
    - exfalso. apply H1. rewrite E. apply in_map; auto.
    - exfalso. apply H1. rewrite <- E. apply in_map; auto.
  Qed.
  Lemma units_kv_state (nw : network F) dt lamb s0 cs r i kv :
    sim_init nw dt lamb = Ok s0 -> In r (nw_bus nw) -> br_id r = Some i -> br_kv r = Some kv ->
    obs (run s0 cs) "bus_v_magn" "kV" (EId i) = option_map (fun v => nmul v kv) (obs (run s0 cs) "bus_v_magn" "pu" (EId i)) /\
    obs (run s0 cs) "bus_i_magn" "kA" (EId i) = option_map (fun v => ndiv (nmul v (nw_base nw)) kv) (obs (run s0 cs) "bus_i_magn" "pu" (EId i)).
  Proof.
    intros H Ir Ei Ek.
    apply (gathered_obs _ _ _ _ cs (fun f => f "bus_v_magn" "kV" (EId i) = option_map (fun v => nmul v kv) (f "bus_v_magn" "pu" (EId i)) /\
      f "bus_i_magn" "kA" (EId i) = option_map (fun v => ndiv (nmul v (nw_base nw)) kv) (f "bus_i_magn" "pu" (EId i))) H); [auto|].
    intros s1 S. assert (E : sm_base s1 = nw_base nw) by (rewrite (strip_base _ _ S); eapply init_base; eauto).
    unfold read, gather_state; cbn [dget String.eqb Ascii.eqb Bool.eqb]. rewrite E.
    assert (G : forall b, In b (sm_buses s1) -> b_id b = i -> b_kv b = kv).
    { intros b I Eb. destruct (bus_row_of _ _ _ _ _ _ H S I) as (r' & Ir' & E1 & _ & E2 & _).
      assert (r = r') by (eapply bus_row_unique; eauto; congruence). congruence. }
    clear -G. induction (sm_buses s1) as [|b l IH]; cbn [map dget]; [auto|].
    cbn [eid_eqb]. destruct (Z.eqb_spec i (b_id b)) as [->|Hn]; cbn [option_map].
    - rewrite (G b) by (cbn; auto). auto.
    - apply IH. intros; apply G; cbn; auto.
  Qed.
End Units.

(** ---- C14 ---- *)
Section Order.
  Context {F : Type} {N : Num F}.
  Lemma filter_perm_len {A} (p : A -> bool) l l' : Permutation l l' -> List.length (filter p l) = List.length (filter p l').
  Proof. induction 1; cbn; auto; repeat (destruct (p _); cbn; auto). congruence. Qed.
  Lemma count_rows (nw : network F) dt lamb s (p : device F -> bool) ts : sim_init nw dt lamb = Ok s ->
    (forall d ids r, mk_dev (nw_base nw) ids r = Ok d -> p d = zmem (d_type d) ts) ->
    List.length (filter p (sm_devs s)) = rows_of_type ts nw.
  Proof.
    intros H P. destruct (sim_init_built _ _ _ _ H) as (bs & ds & B).
    rewrite (bt_sdevs _ _ _ _ _ _ B). rewrite (filter_perm_len p _ ds) by apply sort_by_perm.
    unfold rows_of_type. pose proof (bt_devs _ _ _ _ _ _ B) as E. apply mapM_ok in E.
    clear -P E. induction E as [|r d rs ds' E1 E IH]; cbn; auto.
    rewrite (P _ _ _ E1). apply mk_dev_fields in E1. destruct E1 as (_ & _ & -> & _).
    destruct (zmem (d_type d) ts); cbn; [f_equal|]; exact IH.
  Qed.
  Lemma mk_dev_kind base ids r (d : device F) : mk_dev base ids r = Ok d ->
    is_load d = zmem (d_type d) [-1]%Z /\ is_nsgen d = zmem (d_type d) [1; 2]%Z /\
    is_stor d = zmem (d_type d) [3]%Z /\ is_rer d = zmem (d_type d) [2]%Z /\ d_slack d = zmem (d_type d) [0]%Z /\
    In (d_type d) [-1; 0; 1; 2; 3]%Z.
  Proof.
    unfold mk_dev, dev_init, dev_class. intros H.
    unfold is_nsgen, is_rer, is_load, is_gen, is_stor, d_slack.
    apply bind_ok in H as (c & Hc & H). apply bind_ok in H as (id & Hi & H). apply bind_ok in H as (b & Hb & H).
    apply bind_ok in H as (ty & Ht & H).
    destruct (dr_type r) as [t|]; [|discriminate].
    destruct (zmem t [-1; 0; 1; 2; 3]%Z) eqn:Hz; [|discriminate]. inversion Ht; subst. apply zmem_spec in Hz.
    cbn [In] in Hz. decompose [or] Hz; clear Hz; try contradiction; subst ty;
      cbn in Hc; inversion Hc; subst; apply bind_ok in H as (x & Hx & H); inversion H; subst; cbn; repeat split; auto 10.
  Qed.

  Lemma mapM_map_eq {A B C} (f : A -> res B) (ka : A -> C) (kb : B -> C) l l' :
    (forall a b, f a = Ok b -> ka a = kb b) -> mapM f l = Ok l' -> map ka l = map kb l'.
  Proof. intros H E. apply mapM_ok in E. induction E; cbn; auto. rewrite (H x y), IHE; auto. Qed.

  Lemma C14_lemma (nw : network F) dt lamb s : sim_init nw dt lamb = Ok s ->
    Sorted Z.lt (map b_id (sm_buses s)) /\ Permutation (map Some (map b_id (sm_buses s))) (map br_id (nw_bus nw)) /\
    Sorted Z.lt (map d_id (sm_devs s)) /\ Permutation (map Some (map d_id (sm_devs s))) (map dr_id (nw_dev nw)) /\
    map (fun b => (Some (ln_f b), Some (ln_t b))) (sm_branches s) = map (fun r => (lr_f r, lr_t r)) (nw_br nw) /\
    n_bus s = List.length (nw_bus nw) /\ n_device s = List.length (nw_dev nw) /\
    n_load s = rows_of_type [-1]%Z nw /\ n_nsgen s = rows_of_type [1; 2]%Z nw /\ n_des s = rows_of_type [3]%Z nw /\
    n_rer s = rows_of_type [2]%Z nw /\
    (n_load s + n_nsgen s + n_des s + 1 = n_device s)%nat.
  Proof.
    intros H. destruct (sim_init_built _ _ _ _ H) as (bs & ds & B).
    split; [apply (bt_bus_sorted B)|]. split.
    { rewrite (bt_bus_ids B). rewrite (mapM_keys _ br_id b_id _ _ bus_init_id (bt_buses _ _ _ _ _ _ B)).
      apply Permutation_map, Permutation_map, sort_by_perm. }
    split; [apply (bt_dev_sorted B)|]. split.
    { rewrite (bt_sdevs _ _ _ _ _ _ B).
      rewrite (mapM_keys _ dr_id d_id _ _ (fun a b E => proj1 (mk_dev_fields a _ _ b E)) (bt_devs _ _ _ _ _ _ B)).
      apply Permutation_map, Permutation_map, sort_by_perm. }
    split.
    { symmetry. apply (mapM_map_eq _ _ _ _ _ (fun a b (E : branch_init a _ _ = Ok b) =>
        match branch_init_ends _ _ _ _ E with conj E1 (conj E2 _) => f_equal2 pair E1 E2 end) (bt_brs _ _ _ _ _ _ B)). }
    assert (LB : n_bus s = List.length (nw_bus nw)).
    { unfold n_bus. rewrite (bt_sbuses _ _ _ _ _ _ B), map_length, (Permutation_length (sort_by_perm b_id bs)).
      apply (mapM_length _ _ _ (bt_buses _ _ _ _ _ _ B)). }
    assert (LD : n_device s = List.length (nw_dev nw)).
    { unfold n_device. rewrite (bt_sdevs _ _ _ _ _ _ B), (Permutation_length (sort_by_perm d_id ds)).
      apply (mapM_length _ _ _ (bt_devs _ _ _ _ _ _ B)). }
    assert (L1 : n_load s = rows_of_type [-1]%Z nw) by (eapply count_rows; eauto; intros d ids r E; apply (mk_dev_kind _ _ _ _ E)).
    assert (L2 : n_nsgen s = rows_of_type [1; 2]%Z nw) by (eapply count_rows; eauto; intros d ids r E; apply (mk_dev_kind _ _ _ _ E)).
    assert (L3 : n_des s = rows_of_type [3]%Z nw) by (eapply count_rows; eauto; intros d ids r E; apply (mk_dev_kind _ _ _ _ E)).
    assert (L4 : n_rer s = rows_of_type [2]%Z nw) by (eapply count_rows; eauto; intros d ids r E; apply (mk_dev_kind _ _ _ _ E)).
    do 6 (split; [auto|]).
    rewrite LD, L1, L2, L3.
    destruct (bt_wf _ _ _ _ _ _ B) as (_ & _ & (l1 & a & l2 & El & Pa & Nl) & _).
    assert (T : Forall (fun r => exists t, dr_type r = Some t /\ In t [-1; 0; 1; 2; 3]%Z) (nw_dev nw)).
    { pose proof (bt_devs _ _ _ _ _ _ B) as E. apply mapM_ok in E. clear -E.
      induction E as [|r d rs ds' E1 E IH]; constructor; auto.
      pose proof (mk_dev_kind _ _ _ _ E1) as K. apply mk_dev_fields in E1. exists (d_type d). tauto. }
    unfold rows_of_type. rewrite El in *. clear El.
    rewrite !filter_app, !app_length. cbn [filter List.length]. unfold slack_dev_row in Pa. rewrite Pa.
    repeat match goal with |- context [if zmem ?a ?l then _ else _] => let b := eval compute in (zmem a l) in change (zmem a l) with b end.
    cbn [List.length].
    apply Forall_app in T. destruct T as [T1 T2]. apply Forall_cons_iff in T2. destruct T2 as [_ T2].
    apply Forall_app in Nl. destruct Nl as [N1 N2].
    assert (G : forall l : list (dev_row F), Forall (fun r => exists t, dr_type r = Some t /\ In t [-1; 0; 1; 2; 3]%Z) l ->
      Forall (fun x => ~ slack_dev_row x) l ->
      (List.length (filter (fun r => match dr_type r with Some t => zmem t [-1]%Z | None => false end) l) +
       List.length (filter (fun r => match dr_type r with Some t => zmem t [1; 2]%Z | None => false end) l) +
       List.length (filter (fun r => match dr_type r with Some t => zmem t [3]%Z | None => false end) l) = List.length l)%nat).
    { induction l as [|r l IH]; intros T M; [reflexivity|]. cbn [filter].
      apply Forall_cons_iff in T. destruct T as [(t & Et & It) T]. apply Forall_cons_iff in M. destruct M as [Mt M].
      specialize (IH T M). unfold slack_dev_row in Mt. rewrite Et in *.
      cbn [In] in It. decompose [or] It; clear It; try contradiction; subst t; try congruence; 
        repeat match goal with |- context [if zmem ?a ?l then _ else _] => let b := eval compute in (zmem a l) in change (zmem a l) with b end;
        cbn [List.length]; lia. }
    pose proof (G l1 T1 N1). pose proof (G l2 T2 N2). lia.
  Qed.
End Order.
