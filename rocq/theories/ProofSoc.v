(** State of charge over any history: C01, C02; erasure of history: C33, C34. *)
From Coq Require Import Permutation Sorted.
From Verif Require Import Base Num Devices BusBranch CheckNetwork LoadFlow Simulator LibBase LibNum LibSim
  SpecNet ProofNet LibInit SpecSim ProofSim.
Local Open Scope string_scope.
Local Open Scope list_scope.
Local Open Scope num_scope.

Section Gather.
  Context {F : Type} {N : Num F}.

  Definition soc_of (d : device F) : F := match d_soc d with Some v => v | None => n0 end.

  Lemma read_soc (s : sim F) i v : read (gather_state s) "des_soc" "pu" i = Some v ->
    exists d, In d (filter is_stor (sm_devs s)) /\ i = EId (d_id d) /\ v = soc_of d.
  Proof.
    unfold read, gather_state. cbn [dget String.eqb Ascii.eqb Bool.eqb].
    intros H. apply (dget_objs_inv (fun d => EId (d_id d)) soc_of) in H.
    destruct H as (d & I & E & V). eauto.
  Qed.
  Lemma bound_soc (s : sim F) d t : NoDup (map d_id (sm_devs s)) -> In d (sm_devs s) -> d_spec d = SStor t ->
    bound s "des_soc" "pu" (EId (d_id d)) = Some (s_socmin t, s_socmax t).
  Proof.
    intros ND I E. unfold bound, get_state_space. cbn [dget String.eqb Ascii.eqb Bool.eqb].
    rewrite (dget_objs (fun d => EId (d_id d))
       (fun d => match d_spec d with
         | SStor t => [("MWh", (s_socmin t * sm_base s, s_socmax t * sm_base s));
                       ("pu", (s_socmin t, s_socmax t))]
         | _ => []
         end)).
    - rewrite E. reflexivity.
    - rewrite <- (map_map d_id EId). apply FinFun.Injective_map_NoDup; [intros x y; congruence|].
      apply NoDup_filter; auto.
    - apply filter_In. unfold is_stor. rewrite E. auto.
  Qed.
  Lemma storage_ids_eq (s : sim F) : storage_ids s = map (fun d => EId (d_id d)) (filter is_stor (sm_devs s)).
  Proof. unfold storage_ids. cbn. rewrite map_map. reflexivity. Qed.

  (** simulator.py 284-288 *)
  Lemma set_socs_ok base soc (ds ds' : list (device F)) u : set_socs base soc ds = (ds', Ok u) ->
    forall k d', nth_error (filter is_stor ds') k = Some d' ->
    exists c, nth_error soc k = Some c /\ d_soc d' = Some (c / base).
  Proof.
    revert soc ds'; induction ds as [|d ds IH]; intros soc ds' H k d' K; cbn in H.
    - inversion H; subst. destruct k; discriminate.
    - destruct (is_stor d) eqn:E.
      + destruct soc as [|c soc]; [discriminate|].
        destruct (set_socs base soc ds) as [ds1 r] eqn:E1. cbn in H. inversion H; subst.
        assert (E2 : is_stor (d_set_soc d (c / base)) = true) by exact E.
        cbn [filter] in K. rewrite E2 in K. destruct k; cbn in K.
        * inversion K; subst. exists c; auto.
        * destruct (IH _ _ E1 _ _ K) as (c' & ? & ?). exists c'; auto.
      + destruct (set_socs base soc ds) as [ds1 r] eqn:E1. cbn in H. inversion H; subst.
        cbn [filter] in K. rewrite E in K. eauto.
  Qed.
  (** each entry: new or untouched *)
  Lemma set_socs_each base soc (ds : list (device F)) d' : In d' (fst (set_socs base soc ds)) ->
    In d' ds \/ (exists c d, In d ds /\ is_stor d = true /\ d' = d_set_soc d c).
  Proof.
    revert soc; induction ds as [|d ds IH]; intros soc I; cbn in I; [tauto|].
    destruct (is_stor d) eqn:E.
    - destruct soc as [|c soc]; [auto|]. destruct I as [<-|I].
      + right. exists (c / base), d. cbn; auto.
      + destruct (IH _ I) as [J|(c' & d1 & J1 & J2 & J3)]; [left; cbn; auto|right; exists c', d1; cbn; auto].
    - destruct I as [<-|I]; [left; cbn; auto|].
      destruct (IH _ I) as [J|(c' & d1 & J1 & J2 & J3)]; [left; cbn; auto|right; exists c', d1; cbn; auto].
  Qed.

  Lemma slice_nth {A} a n (l : list A) k x : nth_error (slice a n l) k = Some x -> nth_error l (a + k) = Some x.
  Proof.
    unfold slice. intros H.
    assert (K : nth_error (skipn a l) k = Some x).
    { rewrite <- (firstn_skipn n (skipn a l)). rewrite nth_error_app1; auto. apply nth_error_Some. congruence. }
    rewrite <- (firstn_skipn a l). destruct (le_lt_dec a (List.length l)) as [L|L].
    - rewrite nth_error_app2; rewrite firstn_length; [|lia]. replace (a + k - Nat.min a (List.length l))%nat with k by lia. auto.
    - rewrite skipn_all2 in K by lia. destruct k; discriminate.
  Qed.

  Lemma stor_check_range r base (t : stor_spec F) : stor_check r base = Ok t -> (s_socmax t <? s_socmin t) = false.
  Proof. unfold stor_check. intros H. dm; cbn; auto. Qed.
  Lemma mk_dev_stor base ids r (d : device F) t : mk_dev base ids r = Ok d -> d_spec d = SStor t ->
    stor_check r base = Ok t.
  Proof. unfold mk_dev, dev_init. intros H E. dm; cbn in E; inversion E; subst; auto. Qed.
  Lemma mk_dev_gen base ids r (d : device F) g : mk_dev base ids r = Ok d -> d_spec d = SGen g ->
    gen_check r (d_slack d) base = Ok g.
  Proof. unfold mk_dev, dev_init. intros H E. dm; cbn in E; inversion E; subst; auto. Qed.
  Lemma mk_dev_load base ids r (d : device F) l : mk_dev base ids r = Ok d -> d_spec d = SLoad l ->
    load_check r (d_type d) base = Ok l.
  Proof. unfold mk_dev, dev_init. intros H E. dm; cbn in E; inversion E; subst; auto. Qed.

  (** devices of a reachable simulator come from the file *)
  Lemma static_dev (s s' : sim F) d' : strip s' = strip s -> In d' (sm_devs s') ->
    exists d, In d (sm_devs s) /\ strip_dev d = strip_dev d'.
  Proof.
    intros H I. apply strip_devs in H. apply (in_map strip_dev) in I. rewrite H in I.
    apply in_map_iff in I. destruct I as (d & E & I). eauto.
  Qed.
  Lemma static_dev_row nw dt lamb (s0 s : sim F) d : sim_init nw dt lamb = Ok s0 -> strip s = strip s0 ->
    In d (sm_devs s) -> exists r d0, In r (nw_dev nw) /\ mk_dev (nw_base nw) (map b_id (sm_buses s0)) r = Ok d0 /\
      strip_dev d0 = strip_dev d /\ In d0 (sm_devs s0).
  Proof.
    intros H S I. destruct (sim_init_built _ _ _ _ H) as (bs & ds & B).
    destruct (static_dev _ _ _ S I) as (d0 & I0 & E0).
    destruct (bt_dev_row B _ I0) as (r & Ir & Er). exists r, d0. auto.
  Qed.
  Lemma init_nodup nw dt lamb (s0 : sim F) : sim_init nw dt lamb = Ok s0 -> NoDup (map d_id (sm_devs s0)).
  Proof.
    intros H. destruct (sim_init_built _ _ _ _ H) as (bs & ds & B). apply sorted_lt_nodup, (bt_dev_sorted B).
  Qed.
  Lemma static_nodup nw dt lamb (s0 s : sim F) : sim_init nw dt lamb = Ok s0 -> strip s = strip s0 ->
    NoDup (map d_id (sm_devs s)).
  Proof. intros H S. rewrite (dev_ids_static _ _ S). eapply init_nodup; eauto. Qed.

  Lemma strip_spec (d d' : device F) : strip_dev d = strip_dev d' -> d_spec d = d_spec d' /\ d_id d = d_id d' /\ d_type d = d_type d' /\ d_bus d = d_bus d'.
  Proof. intros H. apply strip_dev_fields in H. tauto. Qed.
End Gather.

Section Soc.
  Context {F : Type} {N : Num F} {NO : NumOrd F}.

  Lemma np_clip_any (x lo hi : F) : (hi <? lo) = false ->
    nisnan (np_clip x lo hi) = true \/ within (np_clip x lo hi) lo hi.
  Proof.
    intros H. destruct (nisnan x) eqn:Ex; [left; rewrite np_clip_nan; auto|].
    destruct (nisnan lo) eqn:El.
    { left. unfold np_clip, np_max. rewrite Ex, leb_nan_l by auto. cbn. unfold np_min. rewrite El, orb_true_r. auto. }
    destruct (nisnan hi) eqn:Eh.
    { left. unfold np_clip. destruct (np_max_ge x lo Ex El) as (_ & _ & M). unfold np_min. rewrite M, leb_nan_r by auto. auto. }
    right. apply np_clip_in; auto. apply ltb_false_leb; auto.
  Qed.

  Section Hist.
    Context (nw : network F) (dt lamb : F) (s0 : sim F) (H0 : sim_init nw dt lamb = Ok s0).

    Definition soc_ok (i : eid) (v : F) : Prop :=
      exists lo hi, bound s0 "des_soc" "pu" i = Some (lo, hi) /\ (nisnan v = true \/ within v lo hi).
    Definition inv (s : sim F) : Prop :=
      strip s = strip s0 /\ forall i v, obs s "des_soc" "pu" i = Some v -> soc_ok i v.

    Lemma soc_ok_dev (s : sim F) d t v : strip s = strip s0 -> In d (sm_devs s) -> d_spec d = SStor t ->
      nisnan v = true \/ within v (s_socmin t) (s_socmax t) -> soc_ok (EId (d_id d)) v.
    Proof.
      intros S I E W. exists (s_socmin t), (s_socmax t). split; auto.
      rewrite <- (bound_static _ _ _ _ _ S). apply bound_soc; auto. eapply static_nodup; eauto.
    Qed.
    Lemma stor_range (s : sim F) d t : strip s = strip s0 -> In d (sm_devs s) -> d_spec d = SStor t ->
      (s_socmax t <? s_socmin t) = false.
    Proof.
      intros S I E. destruct (static_dev_row _ _ _ _ _ _ H0 S I) as (r & d0 & _ & Er & Es & _).
      apply strip_spec in Es. destruct Es as (Es & _). rewrite E in Es.
      eapply stor_check_range, mk_dev_stor; eauto.
    Qed.

    Lemma trans_soc Or inp s s' conv ds v i : trans_ok Or inp s s' conv ds v i -> strip s = strip s0 ->
      forall d t, In d (sm_devs s') -> d_spec d = SStor t ->
      nisnan (soc_of d) = true \/ within (soc_of d) (s_socmin t) (s_socmax t).
    Proof.
      intros T S d t I E.
      assert (S' : strip s' = strip s0) by (rewrite <- S; apply T).
      destruct (trans_dev _ _ _ _ _ _ _ _ T _ I) as (d0 & d1 & I0 & Es & Et & Eu).
      apply strip_spec in Es. destruct Es as (Es & _). rewrite E in Es.
      destruct (dev_transition_stor _ _ _ _ _ _ _ Es Et) as (soc & p & q & rows & _ & _ & _ & _ & _ & K).
      apply slack_update_soc in Eu. destruct Eu as [Eu _]. unfold soc_of. rewrite Eu, K.
      apply np_clip_any. eapply stor_range; eauto.
    Qed.

    Lemma inv_trans Or inp s : inv s -> inv (fst (transition Or inp s)).
    Proof.
      intros [S K]. split; [rewrite strip_transition; auto|].
      destruct (transition_cases Or inp s) as [(ds & v & i & c & T & _)|((E & _) & _)].
      - intros j x. unfold obs. rewrite (tk_state _ _ _ _ _ _ _ _ T). intros R. apply read_soc in R.
        destruct R as (d & I & -> & ->). apply filter_In in I. destruct I as [I Ist].
        unfold is_stor in Ist. destruct (d_spec d) as [| |t] eqn:Ed; try discriminate.
        eapply (soc_ok_dev (fst (transition Or inp s)) d t); auto.
        + rewrite strip_transition; auto.
        + eapply trans_soc; eauto.
      - unfold obs. rewrite E. exact K.
    Qed.

    Lemma inv_none s : strip s = strip s0 -> sm_state s = None -> inv s.
    Proof. intros S E. split; auto. unfold obs; rewrite E. discriminate. Qed.

    Lemma inv_reset Or init s : inv s -> soc_entries_ok s0 init -> inv (fst (sim_reset Or init s)).
    Proof.
      intros [S K] C. unfold sim_reset.
      destruct (reset_inputs _ _ _ _ _ _ _) as [inp|e]; [|apply inv_none; auto].
      destruct (mapM (dev_pre_soc inp) (sm_devs s)) as [ds|e] eqn:Ep; [|apply inv_none; auto].
      set (s1 := sim_set_devs (sim_set_state s None) ds).
      assert (S1 : strip s1 = strip s0).
      { rewrite <- S. unfold s1. apply (strip_set_devs (sim_set_state s None)). cbn.
        eapply (mapM_proj _ strip_dev strip_dev); [|eauto]. intros; eapply strip_pre_soc; eauto. }
      assert (I1 : inv s1) by (apply inv_none; auto).
      pose proof (inv_trans Or inp _ I1) as I2.
      destruct (transition Or inp s1) as [s2 [[[[[st r] e] pen] conv]|e]] eqn:Et; cbn [fst] in *; [|auto].
      destruct (set_socs (sm_base s) _ (sm_devs s2)) as [ds2 [u|e']] eqn:Eso; cbn [fst].
      - assert (S2 : strip (sim_set_devs s2 ds2) = strip s0).
        { rewrite <- (proj1 I2). apply strip_set_devs. pose proof (strip_set_socs (sm_base s) (slice (2 * n_device s) (n_des s) init) (sm_devs s2)) as Q; rewrite Eso in Q; exact Q. }
        split.
        + rewrite <- S2. reflexivity.
        + unfold obs. cbn [sm_state sim_set_state]. intros i v R. apply read_soc in R.
          destruct R as (d & I & -> & ->).
          assert (I' := I). apply filter_In in I'. destruct I' as [I' Ist].
          apply In_nth_error in I. destruct I as (k & Ik).
          destruct (set_socs_ok _ _ _ _ _ Eso _ _ Ik) as (c & Ec & Ed).
          unfold is_stor in Ist. destruct (d_spec d) as [| |t] eqn:Esp; try discriminate.
          unfold soc_of. rewrite Ed. apply slice_nth in Ec.
          eapply (soc_ok_dev _ d t _ S2); eauto. right.
          replace (sm_base s) with (sm_base s0) by (symmetry; apply strip_base; auto).
          eapply (C k (EId (d_id d))).
          * rewrite storage_ids_eq.
            assert (M : map (fun d => EId (d_id d)) (filter is_stor (sm_devs s0)) = map (fun d => EId (d_id d)) (filter is_stor ds2)).
            { apply strip_devs in S2. cbn in S2. apply (map_strip strip_dev); [reflexivity|].
              symmetry. apply strip_dev_filter; [reflexivity|auto]. }
            rewrite M. erewrite map_nth_error; eauto.
          * rewrite <- (bound_static _ _ _ _ _ S2). apply bound_soc; auto. eapply static_nodup; eauto.
          * replace (n_device s0) with (n_device s); auto. unfold n_device.
            apply dev_ids_static in S. apply (f_equal (@List.length _)) in S. rewrite !map_length in S. auto.
      - split.
        + rewrite <- (proj1 I2). apply strip_set_devs. pose proof (strip_set_socs (sm_base s) (slice (2 * n_device s) (n_des s) init) (sm_devs s2)) as Q; rewrite Eso in Q; exact Q.
        + exact (proj2 I2).
    Qed.

    Lemma C01_inv cs : Forall (call_soc_ok s0) cs -> inv (run s0 cs).
    Proof.
      assert (I0 : inv s0).
      { apply inv_none; auto. destruct (sim_init_built _ _ _ _ H0) as (bs & ds & B). apply B. }
      assert (G : forall s, inv s -> Forall (call_soc_ok s0) cs -> inv (run s cs)); [|auto].
      unfold run. induction cs as [|c cs IH]; intros s Is H; cbn; auto.
      inversion H as [|c' cs' Hc Hcs]; subst.
      apply IH; auto. destruct c; cbn in *; auto using inv_reset, inv_trans.
    Qed.
  End Hist.
End Soc.

Lemma C01_soc (F : Type) (N : Num F) (NO : NumOrd F) nw dt lamb s0 cs :
  sim_init nw dt lamb = Ok s0 -> Forall (call_soc_ok s0) cs ->
  forall i v, obs (run s0 cs) "des_soc" "pu" i = Some v ->
  exists lo hi, bound s0 "des_soc" "pu" i = Some (lo, hi) /\ (nisnan v = true \/ within v lo hi).
Proof. intros H C. exact (proj2 (C01_inv nw dt lamb s0 H cs C)). Qed.
