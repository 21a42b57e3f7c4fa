(** The environment: what each call does to the object. *)
From Coq Require Import Permutation Sorted.
From Verif Require Import Base Num Devices BusBranch CheckNetwork LoadFlow Simulator EnvArgs Env LibBase LibNum LibSim
  SpecNet ProofNet LibInit SpecSim ProofSim ProofObs ProofHist ProofReset SpecEnv.
Local Open Scope string_scope.
Local Open Scope list_scope.

Lemma sorted_unique : forall l m : list Z, Sorted Z.lt l -> Sorted Z.lt m -> (forall i, In i l <-> In i m) -> l = m.
Proof.
  assert (T : Relations_1.Transitive Z.lt) by (intros x y z; lia).
  induction l as [|a l IH]; intros [|b m] Hl Hm E; auto.
  - exfalso. apply (E b). left; auto.
  - exfalso. apply (E a). left; auto.
  - apply Sorted_StronglySorted in Hl; [|intros x y z; lia]. apply Sorted_StronglySorted in Hm; [|intros x y z; lia].
    inversion Hl as [|x y Sl Fl]; subst. inversion Hm as [|x y Sm Fm]; subst. rewrite Forall_forall in Fl, Fm.
    assert (a = b).
    { destruct (proj1 (E a) (or_introl eq_refl)) as [->|I]; auto. destruct (proj2 (E b) (or_introl eq_refl)) as [->|J]; auto.
      specialize (Fl _ J). specialize (Fm _ I). lia. }
    subst b. f_equal. apply IH; auto using StronglySorted_Sorted. intros i. split; intros I.
    + destruct (proj1 (E i) (or_intror I)) as [->|J]; auto. specialize (Fl _ I). lia.
    + destruct (proj2 (E i) (or_intror I)) as [->|J]; auto. specialize (Fm _ I). lia.
Qed.
Lemma sorted_filter {A} (key : A -> Z) p l : Sorted Z.lt (map key l) -> Sorted Z.lt (map key (filter p l)).
Proof.
  intros H. apply Sorted_StronglySorted in H; [|intros x y z; lia]. apply StronglySorted_Sorted.
  induction l as [|a l IH]; cbn in *; [constructor|]. inversion H as [|x y S1 F1]; subst. destruct (p a); cbn; auto.
  constructor; auto. rewrite Forall_forall in *. intros x I. apply F1. apply in_map_iff in I as (b & <- & I). apply filter_In in I. apply in_map, I.
Qed.

Section Dict.
  Context {V : Type}.
  Lemma dget_app (d1 d2 : list (Z * V)) k : dget Z.eqb (d1 ++ d2) k = match dget Z.eqb d1 k with Some v => Some v | None => dget Z.eqb d2 k end.
  Proof. induction d1 as [|[k' v] d1 IH]; cbn; auto. destruct (Z.eqb k k'); auto. Qed.
  Lemma dget_combine (ids : list Z) (vals : list V) k i : NoDup ids -> nth_error ids k = Some i ->
    dget Z.eqb (combine ids vals) i = nth_error vals k.
  Proof.
    revert vals k; induction ids as [|a ids IH]; intros vals k ND E; [destruct k; discriminate|].
    inversion ND as [|x y NI ND']; subst. destruct k as [|k]; cbn in E.
    - injection E as ->. destruct vals as [|v vals]; cbn; [auto|]. rewrite Z.eqb_refl. auto.
    - destruct vals as [|v vals]; cbn; [auto|]. destruct (Z.eqb_spec i a) as [->|Hne]; [|apply IH; auto].
      exfalso. apply NI. eapply nth_error_In; eauto.
  Qed.
  Lemma dget_combine_out (ids : list Z) (vals : list V) i : ~ In i ids -> dget Z.eqb (combine ids vals) i = None.
  Proof.
    intros NI. apply (dget_none Z.eqb zeqb_iff). intros I. apply in_map_iff in I as ([a v] & E & I). cbn in E; subst. apply in_combine_l in I. auto.
  Qed.
End Dict.
Lemma nth_firstn_error {A} (l : list A) n k : (k < n)%nat -> nth_error (firstn n l) k = nth_error l k.
Proof. revert l k; induction n as [|n IH]; intros [|a l] [|k] H; try lia; cbn; auto. apply IH; lia. Qed.
Lemma nth_skipn_error {A} (l : list A) n k : nth_error (skipn n l) k = nth_error l (n + k).
Proof. revert l; induction n as [|n IH]; intros [|a l]; cbn; auto. destruct k; auto. Qed.
Lemma nth_slice {A} (l : list A) a n k : (k < n)%nat -> nth_error (slice a n l) k = nth_error l (a + k).
Proof. intros H. unfold slice. rewrite nth_firstn_error by auto. apply nth_skipn_error. Qed.

Section Env.
  Context {F G : Type} {N : Num F}.

  (** ---- device classes and the DEV_TYPE of the file ---- *)
  Lemma init_dev_types nw dt lamb (s0 : sim F) : sim_init nw dt lamb = Ok s0 ->
    Sorted Z.lt (map d_id (sm_devs s0)) /\
    (forall d, In d (sm_devs s0) -> exists r, In r (nw_dev nw) /\ dr_id r = Some (d_id d) /\ dr_type r = Some (d_type d)) /\
    (forall r, In r (nw_dev nw) -> exists d, In d (sm_devs s0) /\ dr_id r = Some (d_id d) /\ dr_type r = Some (d_type d)) /\
    (forall d, In d (sm_devs s0) -> is_load d = zmem (d_type d) LOADS /\ is_nsgen d = zmem (d_type d) GENS /\ is_stor d = zmem (d_type d) STORS /\
        zmem (d_type d) ALL = true).
  Proof.
    intros H. destruct (sim_init_built _ _ _ _ H) as (bs & ds & B).
    pose proof (bt_devs _ _ _ _ _ _ B) as Ed. pose proof (bt_sdevs _ _ _ _ _ _ B) as Es.
    assert (ND : NoDup (map d_id ds)).
    { apply map_some_nodup. rewrite <- (mapM_keys _ dr_id d_id _ _ (fun a b E => proj1 (mk_dev_fields a _ _ b E)) Ed). apply (bt_wf _ _ _ _ _ _ B). }
    assert (P : Permutation (sm_devs s0) ds) by (rewrite Es; apply sort_by_perm).
    apply mapM_ok in Ed.
    split; [|split; [|split]].
    - rewrite Es. apply sorted_le_lt; [apply sort_by_sorted|]. eapply Permutation_NoDup; [apply Permutation_map, Permutation_sym, sort_by_perm|auto].
    - intros d I. apply (Permutation_in _ P) in I. destruct (Forall2_in_r _ _ _ _ Ed I) as (r & Ir & E).
      exists r. apply mk_dev_fields in E. tauto.
    - intros r I. destruct (Forall2_in_l _ _ _ _ Ed I) as (d & Id & E). exists d.
      apply mk_dev_fields in E. split; [apply (Permutation_in _ (Permutation_sym P)); auto|tauto].
    - intros d I. apply (Permutation_in _ P) in I. destruct (Forall2_in_r _ _ _ _ Ed I) as (r & Ir & E).
      apply mk_dev_class in E. unfold is_load, is_nsgen, is_gen, is_stor, d_slack in *. 
      destruct (d_type d) as [|[[q|q|]|[q|q|]|]|[q|q|]]; cbn in E; try contradiction; destruct (d_spec d); try discriminate; cbn; auto.
  Qed.

  Lemma ids_of_filter nw dt lamb (s0 s : sim F) ts l : sim_init nw dt lamb = Ok s0 -> strip s = strip s0 ->
    ids_of nw ts l -> l = map d_id (filter (fun d => zmem (d_type d) ts) (sm_devs s)).
  Proof.
    intros H S (Sl & Hl). destruct (init_dev_types _ _ _ _ H) as (So & T1 & T2 & _).
    assert (E : map d_id (filter (fun d => zmem (d_type d) ts) (sm_devs s)) = map d_id (filter (fun d => zmem (d_type d) ts) (sm_devs s0))).
    { apply strip_devs in S. eapply (map_strip strip_dev d_id); [reflexivity|]. apply strip_dev_filter; [reflexivity|auto]. }
    rewrite E. apply sorted_unique; auto; [apply sorted_filter; auto|].
    intros i. rewrite Hl. split.
    - intros (r & t & Ir & Ei & Et & It). destruct (T2 r Ir) as (d & Id & E1 & E2). assert (i = d_id d) by congruence. assert (t = d_type d) by congruence. subst.
      apply in_map, filter_In. split; auto. apply zmem_spec; auto.
    - intros I. apply in_map_iff in I as (d & <- & I). apply filter_In in I as (I & Z1). apply zmem_spec in Z1.
      destruct (T1 d I) as (r & Ir & E1 & E2). exists r, (d_type d). auto.
  Qed.
  Lemma ids_of_ex nw dt lamb (s0 : sim F) ts : sim_init nw dt lamb = Ok s0 -> ids_of nw ts (map d_id (filter (fun d => zmem (d_type d) ts) (sm_devs s0))).
  Proof.
    intros H. destruct (init_dev_types _ _ _ _ H) as (So & T1 & T2 & _). split; [apply sorted_filter; auto|]. intros i. split.
    - intros I. apply in_map_iff in I as (d & <- & I). apply filter_In in I as (I & Z1). apply zmem_spec in Z1.
      destruct (T1 d I) as (r & Ir & E1 & E2). exists r, (d_type d). auto.
    - intros (r & t & Ir & Ei & Et & It). destruct (T2 r Ir) as (d & Id & E1 & E2). assert (i = d_id d) by congruence. assert (t = d_type d) by congruence. subst.
      apply in_map, filter_In. split; auto. apply zmem_spec; auto.
  Qed.
  Lemma ids_ex nw dt lamb (s0 : sim F) : sim_init nw dt lamb = Ok s0 ->
    exists devs loads gens dess, ids_of nw ALL devs /\ ids_of nw LOADS loads /\ ids_of nw GENS gens /\ ids_of nw STORS dess.
  Proof. intros H. do 4 eexists. repeat split; try (eapply (ids_of_ex _ _ _ _ _ H)). Qed.
  Lemma filter_in_ext {A} (p q : A -> bool) l : (forall a, In a l -> p a = q a) -> filter p l = filter q l.
  Proof. induction l as [|a l IH]; intros H; cbn; auto. rewrite (H a) by (left; auto). rewrite IH by (intros; apply H; right; auto). auto. Qed.
  Lemma static_types nw dt lamb (s0 s : sim F) : sim_init nw dt lamb = Ok s0 -> strip s = strip s0 ->
    forall d, In d (sm_devs s) -> is_load d = zmem (d_type d) LOADS /\ is_nsgen d = zmem (d_type d) GENS /\ is_stor d = zmem (d_type d) STORS /\ zmem (d_type d) ALL = true.
  Proof.
    intros H S d I. apply strip_devs in S. apply (in_map strip_dev) in I. rewrite S in I. apply in_map_iff in I as (d0 & E & I).
    destruct (init_dev_types _ _ _ _ H) as (_ & _ & _ & T). specialize (T d0 I). apply strip_dev_fields in E as (_ & _ & E3 & E4 & _).
    unfold is_load, is_nsgen, is_gen, is_stor, d_slack in *. rewrite E3, E4 in T. exact T.
  Qed.
  (** the four lists of IDs that the environment uses *)
  Lemma ids_lists nw dt lamb (s0 s : sim F) : sim_init nw dt lamb = Ok s0 -> strip s = strip s0 ->
    (forall l, ids_of nw ALL l -> l = map d_id (sm_devs s)) /\
    (forall l, ids_of nw LOADS l -> l = map d_id (filter is_load (sm_devs s))) /\
    (forall l, ids_of nw GENS l -> l = map d_id (filter is_nsgen (sm_devs s))) /\
    (forall l, ids_of nw STORS l -> l = map d_id (filter is_stor (sm_devs s))).
  Proof.
    intros H S. pose proof (static_types _ _ _ _ _ H S) as T.
    repeat split; intros l Hl; rewrite (ids_of_filter _ _ _ _ _ _ _ H S Hl); f_equal.
    - rewrite (filter_in_ext _ (fun _ => true)) by (intros d I; apply (T d I)). clear. induction (sm_devs s); cbn; f_equal; auto.
    - apply filter_in_ext. intros d I. symmetry. apply (T d I).
    - apply filter_in_ext. intros d I. symmetry. apply (T d I).
    - apply filter_in_ext. intros d I. symmetry. apply (T d I).
  Qed.
  Lemma static_nodup nw dt lamb (s0 s : sim F) : sim_init nw dt lamb = Ok s0 -> strip s = strip s0 -> NoDup (map d_id (sm_devs s)).
  Proof.
    intros H S. rewrite (dev_ids_static s s0 S). apply sorted_lt_nodup. apply (init_dev_types _ _ _ _ H).
  Qed.

  (** ---- a transition only looks at the entries of the known devices ---- *)
  Definition agree (ds : list (device F)) (inp inp' : tr_in F) : Prop := forall d, In d ds ->
    (is_load d = true -> dget Z.eqb (ti_load inp) (d_id d) = dget Z.eqb (ti_load inp') (d_id d)) /\
    (is_nsgen d = true -> dget Z.eqb (ti_pot inp) (d_id d) = dget Z.eqb (ti_pot inp') (d_id d)) /\
    (is_nsgen d = true \/ is_stor d = true -> dget Z.eqb (ti_p inp) (d_id d) = dget Z.eqb (ti_p inp') (d_id d) /\
                                              dget Z.eqb (ti_q inp) (d_id d) = dget Z.eqb (ti_q inp') (d_id d)).
  Lemma devs_transition_agree qp base dt inp inp' ds : agree ds inp inp' ->
    devs_transition qp base dt inp ds = devs_transition qp base dt inp' ds.
  Proof.
    induction ds as [|d ds IH]; intros A; [reflexivity|].
    assert (E : dev_transition qp base dt inp d = dev_transition qp base dt inp' d).
    { destruct (A d (or_introl eq_refl)) as (A1 & A2 & A3). unfold dev_transition, is_load, is_nsgen, is_gen, is_stor in *.
      destruct (d_spec d) as [l|g|t].
      - unfold dgetE. rewrite A1 by auto. reflexivity.
      - destruct (d_slack d); [reflexivity|]. cbn in A2, A3. unfold dgetE. rewrite A2 by auto. destruct A3 as (A3 & A4); [auto|]. rewrite A3, A4. reflexivity.
      - unfold dgetE. destruct A3 as (A3 & A4); [auto|]. rewrite A3, A4. reflexivity. }
    cbn [devs_transition]. rewrite E, IH; [reflexivity|]. intros d' I. apply A. right; auto.
  Qed.
  Lemma transition_agree Or inp inp' (s : sim F) : agree (sm_devs s) inp inp' -> transition Or inp s = transition Or inp' s.
  Proof. intros A. unfold transition. rewrite (devs_transition_agree _ _ _ _ _ _ A). reflexivity. Qed.

  Lemma is_load_not (d : device F) : is_load d = true -> is_nsgen d = false /\ is_stor d = false.
  Proof. unfold is_load, is_nsgen, is_gen, is_stor. destruct (d_spec d); try discriminate; auto. Qed.
  Lemma is_stor_not (d : device F) : is_stor d = true -> is_nsgen d = false.
  Proof. unfold is_nsgen, is_gen, is_stor. destruct (d_spec d); try discriminate; auto. Qed.
  Lemma not_in_filter p (ds : list (device F)) d : NoDup (map d_id ds) -> In d ds -> p d = false -> ~ In (d_id d) (map d_id (filter p ds)).
  Proof.
    intros ND I P J. apply in_map_iff in J as (d' & E & J). apply filter_In in J as (J & P').
    assert (d' = d); [|congruence]. clear P P'. induction ds as [|a ds IH]; [destruct I|]. cbn in ND. inversion ND as [|x y NI ND']; subst.
    destruct I as [->|I], J as [->|J]; auto; exfalso; apply NI; [rewrite <- E|rewrite E]; apply in_map; auto.
  Qed.

  (** the dictionaries built by [step] follow the layout *)
  Lemma step_inputs_layout (e : env F G) vars a : NoDup (map d_id (sm_devs (e_sim e))) ->
    layout (map d_id (filter is_load (sm_devs (e_sim e)))) (map d_id (filter is_nsgen (sm_devs (e_sim e))))
           (map d_id (filter is_stor (sm_devs (e_sim e)))) vars a (step_inputs e vars a).
  Proof.
    intros ND. set (ds := sm_devs (e_sim e)) in *. unfold layout, step_inputs, n_load, n_nsgen. fold ds. rewrite !map_length.
    assert (KL : forall p k i, nth_error (map d_id (filter p ds)) k = Some i -> (k < List.length (filter p ds))%nat).
    { intros p k i E. rewrite <- (map_length d_id). apply nth_error_Some. congruence. }
    cbn [ti_load ti_pot ti_p ti_q]. repeat split; intros; try match goal with H : nth_error _ _ = Some _ |- _ => pose proof (KL _ _ _ H) as L end.
    - rewrite (dget_combine _ _ k); [apply nth_firstn_error; auto|apply NoDup_filter; auto|auto].
    - rewrite (dget_combine _ _ k); [apply nth_slice; auto|apply NoDup_filter; auto|auto].
    - rewrite dget_app, (dget_combine _ _ k); [|apply NoDup_filter; auto|auto]. rewrite nth_firstn_error by auto.
      destruct (nth_error a k) eqn:Ea; auto. apply nth_error_None in Ea.
      apply (@nth_error_In Z) in H as I. rewrite dget_combine_out; auto.
      intros J. apply in_map_iff in I as (d & <- & I). apply filter_In in I as (I & P). revert J. apply not_in_filter; auto.
      destruct (is_stor d) eqn:E; auto. apply is_stor_not in E. congruence.
    - rewrite dget_app, (dget_combine _ _ k); [|apply NoDup_filter; auto|auto]. rewrite nth_slice by auto.
      destruct (nth_error a (List.length (filter is_nsgen ds) + k)) eqn:Ea; auto.
      apply (@nth_error_In Z) in H as I. rewrite dget_combine_out; auto.
      intros J. apply in_map_iff in I as (d & <- & I). apply filter_In in I as (I & P). revert J. apply not_in_filter; auto.
      destruct (is_stor d) eqn:E; auto. apply is_stor_not in E. congruence.
    - rewrite dget_app, dget_combine_out.
      + rewrite (dget_combine _ _ k); [apply nth_slice; auto|apply NoDup_filter; auto|auto].
      + apply (@nth_error_In Z) in H as I. apply in_map_iff in I as (d & <- & I). apply filter_In in I as (I & P).
        apply not_in_filter; auto. apply is_stor_not; auto.
    - rewrite dget_app, dget_combine_out.
      + rewrite (dget_combine _ _ k); [apply nth_skipn_error|apply NoDup_filter; auto|auto].
      + apply (@nth_error_In Z) in H as I. apply in_map_iff in I as (d & <- & I). apply filter_In in I as (I & P).
        apply not_in_filter; auto. apply is_stor_not; auto.
  Qed.
  Lemma layout_agree (ds : list (device F)) vars a inp inp' :
    layout (map d_id (filter is_load ds)) (map d_id (filter is_nsgen ds)) (map d_id (filter is_stor ds)) vars a inp ->
    layout (map d_id (filter is_load ds)) (map d_id (filter is_nsgen ds)) (map d_id (filter is_stor ds)) vars a inp' ->
    agree ds inp inp'.
  Proof.
    intros (L1 & L2 & L3) (M1 & M2 & M3) d I.
    assert (K : forall p, p d = true -> exists k, nth_error (map d_id (filter p ds)) k = Some (d_id d)).
    { intros p P. apply In_nth_error. apply in_map, filter_In. auto. }
    repeat split.
    - intros P. destruct (K _ P) as (k & E). rewrite (L1 _ _ E), (M1 _ _ E). auto.
    - intros P. destruct (K _ P) as (k & E). destruct (L2 _ _ E) as (-> & _). destruct (M2 _ _ E) as (-> & _). auto.
    - destruct H as [P|P]; destruct (K _ P) as (k & E).
      + destruct (L2 _ _ E) as (_ & -> & _). destruct (M2 _ _ E) as (_ & -> & _). auto.
      + destruct (L3 _ _ E) as (-> & _). destruct (M3 _ _ E) as (-> & _). auto.
    - destruct H as [P|P]; destruct (K _ P) as (k & E).
      + destruct (L2 _ _ E) as (_ & _ & ->). destruct (M2 _ _ E) as (_ & _ & ->). auto.
      + destruct (L3 _ _ E) as (_ & ->). destruct (M3 _ _ E) as (_ & ->). auto.
  Qed.
End Env.
