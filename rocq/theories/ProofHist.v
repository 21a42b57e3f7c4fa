(** Erasure of history and Markov property of the simulator: C33, C34. *)
From Coq Require Import Permutation Sorted.
From Verif Require Import Base Num Devices BusBranch CheckNetwork LoadFlow Simulator LibBase LibSim
  SpecNet ProofNet LibInit SpecSim ProofSim ProofSoc.
Local Open Scope string_scope.
Local Open Scope list_scope.
Local Open Scope num_scope.

Section Hist.
  Context {F : Type} {N : Num F}.

  Lemma reset_inputs_dep (ds ds' : list (device F)) idx gidx P Q Pm inp :
    map strip_dev ds = map strip_dev ds' ->
    reset_inputs ds idx gidx P Q Pm inp = reset_inputs ds' idx gidx P Q Pm inp.
  Proof.
    revert ds' idx gidx inp; induction ds as [|d ds IH]; intros [|d' ds'] idx gidx inp H; try discriminate; auto.
    cbn [map] in H. apply cons_inj in H as [H1 H2].
    pose proof (strip_spec _ _ H1) as (Es & Ei & Et & _).
    cbn [reset_inputs]. unfold is_load, is_gen, d_slack. rewrite Es, Ei, Et.
    repeat match goal with |- context [match ?x with _ => _ end] =>
      lazymatch x with nth_res _ _ => destruct x; cbn [bind]; auto | d_spec _ => destruct x | Z.eqb _ _ => destruct x end end;
    try (destruct (nth_res P idx); cbn [bind]; auto); try (destruct (nth_res Q idx); cbn [bind]; auto);
    try (destruct (nth_res Pm gidx); cbn [bind]; auto).
  Qed.

  Lemma pre_soc_dep inp (ds ds' : list (device F)) : map strip_dev ds = map strip_dev ds' ->
    match mapM (dev_pre_soc inp) ds, mapM (dev_pre_soc inp) ds' with
    | Ok a, Ok b => map strip_dev a = map strip_dev ds /\ map strip_dev b = map strip_dev ds /\ map d_soc a = map d_soc b
    | Err e, Err e' => e = e'
    | _, _ => False
    end.
  Proof.
    revert ds'; induction ds as [|d ds IH]; intros [|d' ds'] H; try discriminate; [cbn; auto|].
    cbn [map] in H. apply cons_inj in H as [H1 H2]. specialize (IH _ H2).
    cbn [mapM].
    assert (K : match dev_pre_soc inp d, dev_pre_soc inp d' with
                | Ok a, Ok b => strip_dev a = strip_dev d /\ strip_dev b = strip_dev d /\ d_soc a = d_soc b
                | Err e, Err e' => e = e' | _, _ => False end).
    { destruct (dev_pre_soc inp d) as [a|e] eqn:Ea, (dev_pre_soc inp d') as [b|e'] eqn:Eb;
        try (pose proof (strip_pre_soc _ _ _ Ea)); try (pose proof (strip_pre_soc _ _ _ Eb));
        pose proof (strip_dev_fields _ _ H1) as (Ei & _ & _ & Es & _ & K);
        unfold dev_pre_soc in Ea, Eb; rewrite <- Es, <- Ei in Eb;
        unfold is_stor in K;
        destruct (d_spec d); try destruct (dgetE Z.eqb (ti_p inp) (d_id d)); cbn [bind] in *;
        inversion Ea; inversion Eb; subst; try congruence; repeat split; auto; congruence. }
    destruct (dev_pre_soc inp d) as [a|e], (dev_pre_soc inp d') as [b|e']; cbn [bind]; try tauto.
    destruct (mapM (dev_pre_soc inp) ds) as [la|], (mapM (dev_pre_soc inp) ds') as [lb|]; cbn [bind]; try tauto.
    destruct K as (? & ? & ?), IH as (? & ? & ?). cbn [map]. repeat split; congruence.
  Qed.

  Lemma strip_counts (s s' : sim F) : strip s = strip s' -> n_device s = n_device s' /\ n_des s = n_des s' /\ n_nsgen s = n_nsgen s'.
  Proof.
    intros H. apply strip_devs in H. unfold n_device, n_des, n_nsgen. repeat split.
    - apply (f_equal (@List.length _)) in H. rewrite !map_length in H. auto.
    - apply (strip_dev_filter is_stor) in H; [|reflexivity]. apply (f_equal (@List.length _)) in H. rewrite !map_length in H. auto.
    - apply (strip_dev_filter is_nsgen) in H; [|reflexivity]. apply (f_equal (@List.length _)) in H. rewrite !map_length in H. auto.
  Qed.

  Lemma reset_dep Or init (s s' : sim F) : strip s = strip s' ->
    snd (sim_reset Or init s) = snd (sim_reset Or init s') /\
    (is_ok (snd (sim_reset Or init s)) = true -> fst (sim_reset Or init s) = fst (sim_reset Or init s')) /\
    sm_state (fst (sim_reset Or init s)) = sm_state (fst (sim_reset Or init s')).
  Proof.
    intros H. destruct (strip_counts _ _ H) as (E1 & E2 & E3).
    pose proof (strip_devs _ _ H) as Hd. pose proof (strip_base _ _ H) as Hb.
    unfold sim_reset. rewrite <- E1, <- E2, <- E3, <- Hb.
    rewrite <- (reset_inputs_dep _ _ _ _ _ _ _ _ Hd).
    destruct (reset_inputs _ _ _ _ _ _ _) as [inp|e]; [|cbn; repeat split; auto; discriminate].
    pose proof (pre_soc_dep inp _ _ Hd) as K.
    destruct (mapM (dev_pre_soc inp) (sm_devs s)) as [a|e], (mapM (dev_pre_soc inp) (sm_devs s')) as [b|e']; try tauto;
      [|subst; cbn; repeat split; auto; discriminate].
    destruct K as (K1 & K2 & K3).
    destruct (transition_dep Or inp (sim_set_devs (sim_set_state s None) a) (sim_set_devs (sim_set_state s' None) b)) as (T1 & T2 & T3).
    { unfold strip in *. cbn in *. injection H as ? ? ? ? ? ? ?. congruence. }
    { exact K3. }
    specialize (T3 eq_refl).
    destruct (transition Or inp (sim_set_devs (sim_set_state s None) a)) as [s1 [[[[[st r] e] pen] conv]|e]],
             (transition Or inp (sim_set_devs (sim_set_state s' None) b)) as [s1' [[[[[st' r'] e'] pen'] conv']|e']];
      cbn [fst snd is_ok] in *; try discriminate.
    - specialize (T2 eq_refl). subst s1'. inversion T1; subst.
      destruct (set_socs (sm_base s) _ (sm_devs s1)) as [ds2 [u|x]]; auto.
    - inversion T1; subst. repeat split; auto; discriminate.
  Qed.

  Lemma C33_lemma nw dt lamb (s0 : sim F) cs cs' Or init :
    sim_init nw dt lamb = Ok s0 ->
    snd (sim_reset Or init (run s0 cs)) = snd (sim_reset Or init (run s0 cs')) /\
    (is_ok (snd (sim_reset Or init (run s0 cs))) = true ->
     fst (sim_reset Or init (run s0 cs)) = fst (sim_reset Or init (run s0 cs'))) /\
    (forall key unit_ i, obs (fst (sim_reset Or init (run s0 cs))) key unit_ i =
                         obs (fst (sim_reset Or init (run s0 cs'))) key unit_ i).
  Proof.
    intros _. destruct (reset_dep Or init (run s0 cs) (run s0 cs')) as (A & B & C); [rewrite !strip_run; auto|].
    repeat split; auto. intros. unfold obs. rewrite C. auto.
  Qed.

  (** After a call that returned, the reported state is the one of the devices, and every
      storage unit has a state of charge. *)
  Definition fresh (s : sim F) : Prop :=
    sm_state s = Some (gather_state s) /\
    forall d, In d (sm_devs s) -> is_stor d = true -> d_soc d <> None.

  Lemma trans_fresh Or inp (s s' : sim F) conv ds v i : trans_ok Or inp s s' conv ds v i -> fresh s'.
  Proof.
    intros T. split; [apply T|]. intros d I Ist.
    destruct (trans_dev _ _ _ _ _ _ _ _ T _ I) as (d0 & d1 & I0 & Es & Et & Eu).
    apply strip_spec in Es. destruct Es as (Es & _).
    unfold is_stor in Ist. destruct (d_spec d) as [| |t]; try discriminate.
    destruct (dev_transition_stor _ _ _ _ _ _ _ Es Et) as (soc & p & q & rows & _ & _ & _ & _ & _ & K).
    apply slack_update_soc in Eu. destruct Eu as [Eu _]. congruence.
  Qed.
  Lemma call_fresh (s : sim F) c : returned s c -> fresh (run_call s c).
  Proof.
    destruct c as [Or init|Or inp]; cbn; intros R.
    - unfold sim_reset in *.
      destruct (reset_inputs _ _ _ _ _ _ _) as [inp|e]; [|discriminate].
      destruct (mapM (dev_pre_soc inp) (sm_devs s)) as [ds|e]; [|discriminate].
      destruct (transition Or inp _) as [s1 [[[[[st r] e] pen] conv]|e]] eqn:Et; [|discriminate].
      destruct (set_socs (sm_base s) _ (sm_devs s1)) as [ds2 [u|x]] eqn:Es; [|discriminate].
      apply transition_ok in Et. destruct Et as (_ & _ & ds' & v & i & T). apply trans_fresh in T. destruct T as [_ T].
      cbn [fst]. split; [reflexivity|]. cbn [sm_devs sim_set_devs sim_set_state].
      intros d I Ist. pose proof (set_socs_each (sm_base s) (slice (2 * n_device s) (n_des s) init) (sm_devs s1) d) as K.
      rewrite Es in K. cbn [fst] in K. destruct (K I) as [J|(c & d' & J1 & J2 & J3)]; auto. subst; cbn; discriminate.
    - destruct (transition_cases Or inp s) as [(ds & v & i & c & T & _)|((E & _) & e & E')].
      + eapply trans_fresh; eauto.
      + rewrite E' in R. discriminate.
  Qed.

  Lemma read_soc_some (s : sim F) d : NoDup (map d_id (sm_devs s)) -> In d (sm_devs s) -> is_stor d = true ->
    read (gather_state s) "des_soc" "pu" (EId (d_id d)) = Some (soc_of d).
  Proof.
    intros ND I E. unfold read, gather_state. cbn [dget String.eqb Ascii.eqb Bool.eqb].
    apply (dget_objs (fun d => EId (d_id d)) soc_of).
    - rewrite <- (map_map d_id EId). apply FinFun.Injective_map_NoDup; [intros x y; congruence|].
      apply NoDup_filter; auto.
    - apply filter_In; auto.
  Qed.

  Lemma C34_lemma nw dt lamb (s0 : sim F) cs c cs' c' Or inp :
    sim_init nw dt lamb = Ok s0 ->
    returned (run s0 cs) c -> returned (run s0 cs') c' ->
    let s := run s0 (cs ++ [c]) in let s' := run s0 (cs' ++ [c']) in
    (forall i, obs s "des_soc" "pu" i = obs s' "des_soc" "pu" i) ->
    snd (transition Or inp s) = snd (transition Or inp s') /\
    (is_ok (snd (transition Or inp s)) = true -> fst (transition Or inp s) = fst (transition Or inp s')).
  Proof.
    intros H R R' s s' K.
    assert (S : strip s = strip s0) by apply strip_run. assert (S' : strip s' = strip s0) by apply strip_run.
    assert (Fr : fresh s) by (unfold s, run; rewrite fold_left_app; apply call_fresh; exact R).
    assert (Fr' : fresh s') by (unfold s', run; rewrite fold_left_app; apply call_fresh; exact R').
    pose proof (static_nodup _ _ _ _ _ H S) as ND. pose proof (static_nodup _ _ _ _ _ H S') as ND'.
    destruct (transition_dep Or inp s s') as (A & B & _); [congruence| |auto].
    assert (St : map strip_dev (sm_devs s) = map strip_dev (sm_devs s')) by (apply strip_devs; congruence).
    destruct Fr as [Fs Fn], Fr' as [Fs' Fn'].
    apply map_eq_Forall2. apply map_eq_Forall2 in St.
    assert (G : forall d d', In d (sm_devs s) -> In d' (sm_devs s') -> strip_dev d = strip_dev d' -> d_soc d = d_soc d').
    { intros d d' I I' E. pose proof (strip_dev_fields _ _ E) as (Ei & _ & _ & Es & _ & Hs).
      destruct (is_stor d) eqn:Ed; [|auto].
      assert (Ed' : is_stor d' = true) by (unfold is_stor in *; rewrite <- Es; auto).
      specialize (K (EId (d_id d))). unfold obs in K. rewrite Fs, Fs' in K.
      rewrite read_soc_some in K by auto. rewrite Ei, read_soc_some in K by auto.
      unfold soc_of in K. pose proof (Fn d I Ed). pose proof (Fn' d' I' Ed').
      destruct (d_soc d), (d_soc d'); congruence. }
    clear -St G. induction St; constructor.
    - apply G; cbn; auto.
    - apply IHSt. intros; apply G; cbn; auto.
  Qed.
End Hist.
