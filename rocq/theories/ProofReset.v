(** Shape of a successful reset; the SoC it reports (C02). *)
From Verif Require Import Base Num Devices BusBranch CheckNetwork LoadFlow Simulator LibBase LibNum LibSim
  SpecNet ProofNet LibInit SpecSim ProofSim ProofSoc ProofObs.
Local Open Scope string_scope.
Local Open Scope list_scope.
Local Open Scope num_scope.

Section Reset.
  Context {F : Type} {N : Num F}.

  Lemma sim_reset_ok Or init (s s' : sim F) conv : sim_reset Or init s = (s', Ok conv) ->
    exists inp ds s1 st r e pen ds2,
      reset_inputs (sm_devs s) 0 0 (firstn (n_device s) init) (slice (n_device s) (n_device s) init)
        (slice (2 * n_device s + n_des s) (n_nsgen s) init) (mkIn [] [] [] []) = Ok inp /\
      mapM (dev_pre_soc inp) (sm_devs s) = Ok ds /\
      transition Or inp (sim_set_devs (sim_set_state s None) ds) = (s1, Ok (st, r, e, pen, conv)) /\
      set_socs (sm_base s) (slice (2 * n_device s) (n_des s) init) (sm_devs s1) = (ds2, Ok tt) /\
      s' = sim_set_state (sim_set_devs s1 ds2) (Some (gather_state (sim_set_devs s1 ds2))).
  Proof.
    unfold sim_reset. intros H.
    destruct (reset_inputs _ _ _ _ _ _ _) as [inp|x]; [|discriminate].
    destruct (mapM (dev_pre_soc inp) (sm_devs s)) as [ds|x] eqn:Em; [|discriminate].
    destruct (transition Or inp _) as [s1 [[[[[st r] e] pen] c]|x]] eqn:Et; [|discriminate].
    destruct (set_socs _ _ (sm_devs s1)) as [ds2 [[]|x]] eqn:Es; [|discriminate].
    injection H as <- <-. exists inp, ds, s1, st, r, e, pen, ds2. auto 10.
  Qed.
  Lemma reset_static (s : sim F) Or init s' c : sim_reset Or init s = (s', c) -> strip s' = strip s.
  Proof. intros H. pose proof (strip_run_call s (CReset Or init)) as E. cbn [run_call] in E. rewrite H in E. exact E. Qed.

  Lemma reset_soc nw dt lamb s0 cs Or init s' conv k i :
    sim_init nw dt lamb = Ok s0 -> sim_reset Or init (run s0 cs) = (s', Ok conv) ->
    nth_error (storage_ids s0) k = Some i ->
    exists c, nth_error init (2 * n_device s0 + k) = Some c /\ obs s' "des_soc" "pu" i = Some (c / nw_base nw).
  Proof.
    intros H R K. pose proof (reset_static _ _ _ _ _ R) as S'. rewrite strip_run in S'.
    pose proof (strip_run s0 cs) as S.
    destruct (sim_reset_ok _ _ _ _ _ R) as (inp & ds & s1 & st & r & e & pen & ds2 & _ & _ & _ & Es & ->).
    rewrite storage_ids_eq in K.
    assert (M : map (fun d => EId (d_id d)) (filter is_stor (sm_devs s0)) = map (fun d => EId (d_id d)) (filter is_stor ds2)).
    { apply strip_devs in S'. cbn in S'. apply (map_strip strip_dev); [reflexivity|].
      symmetry. apply strip_dev_filter; [reflexivity|auto]. }
    rewrite M in K. rewrite nth_error_map in K. destruct (nth_error (filter is_stor ds2) k) as [d|] eqn:Ek; [|discriminate].
    cbn in K. inversion K; subst i. clear K M.
    destruct (set_socs_ok _ _ _ _ _ Es _ _ Ek) as (c & Ec & Ed). apply slice_nth in Ec. exists c. split.
    { replace (n_device s0) with (n_device (run s0 cs)); auto. unfold n_device.
      apply dev_ids_static in S. apply (f_equal (@List.length _)) in S. rewrite !map_length in S. auto. }
    apply nth_error_In in Ek. apply filter_In in Ek. destruct Ek as [I Is].
    unfold obs. cbn [sm_state sim_set_state].
    rewrite (read_dev (sim_set_devs s1 ds2) "des_soc" "pu" is_stor soc_of d); auto.
    - unfold soc_of. rewrite Ed. f_equal. f_equal. rewrite (strip_base _ _ S). eapply init_base; eauto.
    - cbn; auto 10.
    - apply (static_nodup _ _ _ _ _ H S').
  Qed.
End Reset.
