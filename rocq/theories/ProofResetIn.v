(** What [reset] passes to the transition it runs, and what it reports afterwards (C71). *)
From Coq Require Import Reals Lra.
From Verif Require Import Base Num NumXR Devices BusBranch CheckNetwork LoadFlow Simulator LibBase LibNum LibSim LibXR
  SpecNet ProofNet LibInit SpecSim ProofSim ProofSoc ProofHist ProofObs ProofReset SpecDev ProofDev ProofUnits ProofVals SpecQp LibQp ProofSet ProofDevs SpecEnv ProofEnv.
Local Open Scope string_scope.
Local Open Scope list_scope.
Local Open Scope num_scope.
Set Bullet Behavior "Strict Subproofs".

Lemma nodup_at {A B} (f : A -> B) l a c : NoDup (map f l) -> In a l -> In c l -> f a = f c -> a = c.
Proof.
  induction l as [|x l IH]; cbn; [tauto|]. intros ND [->|I] [->|J] E; inversion ND; subst; auto; exfalso; [rewrite E in *|rewrite <- E in *]; auto using in_map.
Qed.
Section Gen.
  Context {F : Type} {N : Num F}.

  Lemma dget_last (m : list (Z * F)) i x : dget Z.eqb m i = None -> dget Z.eqb (m ++ [(i, x)]) i = Some x.
  Proof. intros H. rewrite dget_app, H. cbn. rewrite Z.eqb_refl. reflexivity. Qed.
  Lemma dget_other (m : list (Z * F)) i j x : i <> j -> dget Z.eqb (m ++ [(j, x)]) i = dget Z.eqb m i.
  Proof. intros H. rewrite dget_app. cbn. apply Z.eqb_neq in H. rewrite H. destruct (dget Z.eqb m i); reflexivity. Qed.

  (** keys added only for the devices in [ds] *)
  Lemma ri_other ds Pl Ql Pm : forall idx gidx (inp inp' : tr_in F) i, reset_inputs ds idx gidx Pl Ql Pm inp = Ok inp' -> ~ In i (map d_id ds) ->
    dget Z.eqb (ti_load inp') i = dget Z.eqb (ti_load inp) i /\ dget Z.eqb (ti_pot inp') i = dget Z.eqb (ti_pot inp) i /\
    dget Z.eqb (ti_p inp') i = dget Z.eqb (ti_p inp) i /\ dget Z.eqb (ti_q inp') i = dget Z.eqb (ti_q inp) i.
  Proof.
    induction ds as [|d ds IH]; intros idx gidx inp inp' i H NI; cbn [reset_inputs] in H; [injection H as <-; auto|].
    cbn [map In] in NI. assert (Nd : i <> d_id d) by (intros E; apply NI; auto). assert (Ni : ~ In i (map d_id ds)) by tauto.
    destruct (is_load d).
    - apply bind_ok in H as (p & _ & H). destruct (IH _ _ _ _ _ H Ni) as (A & B & C & D). cbn in A, B, C, D. rewrite dget_other in A by auto. auto.
    - destruct (d_slack d); [eapply IH; eauto|].
      apply bind_ok in H as (p & _ & H). apply bind_ok in H as (q & _ & H). cbv zeta in H. destruct (is_gen d).
      + apply bind_ok in H as (pm & _ & H). destruct (IH _ _ _ _ _ H Ni) as (A & B & C & D). cbn in A, B, C, D. rewrite !dget_other in * by auto. auto.
      + destruct (IH _ _ _ _ _ H Ni) as (A & B & C & D). cbn in A, B, C, D. rewrite !dget_other in * by auto. auto.
  Qed.
  Definition unkeyed (inp : tr_in F) (i : Z) : Prop :=
    dget Z.eqb (ti_load inp) i = None /\ dget Z.eqb (ti_pot inp) i = None /\ dget Z.eqb (ti_p inp) i = None /\ dget Z.eqb (ti_q inp) i = None.
  Lemma ri_read ds Pl Ql Pm : NoDup (map d_id ds) -> forall idx gidx (inp inp' : tr_in F), reset_inputs ds idx gidx Pl Ql Pm inp = Ok inp' ->
    (forall d, In d ds -> unkeyed inp (d_id d)) ->
    (forall k d, nth_error ds k = Some d ->
      (is_load d = true -> exists x, nth_error Pl (idx + k) = Some x /\ dget Z.eqb (ti_load inp') (d_id d) = Some x) /\
      (is_load d = false -> d_slack d = false -> exists p q, nth_error Pl (idx + k) = Some p /\ nth_error Ql (idx + k) = Some q /\
         dget Z.eqb (ti_p inp') (d_id d) = Some p /\ dget Z.eqb (ti_q inp') (d_id d) = Some q)) /\
    (forall k d, nth_error (filter is_nsgen ds) k = Some d -> exists x, nth_error Pm (gidx + k) = Some x /\ dget Z.eqb (ti_pot inp') (d_id d) = Some x).
  Proof.
    induction ds as [|d ds IH]; intros ND idx gidx inp inp' H U.
    { split; intros k x K; destruct k; discriminate K. }
    cbn [map] in ND. apply NoDup_cons_iff in ND as (Nd & ND). specialize (IH ND).
    assert (U0 : unkeyed inp (d_id d)) by (apply U; cbn; auto).
    assert (Ne : forall d', In d' ds -> d_id d' <> d_id d). { intros d' I E. apply Nd. rewrite <- E. apply in_map. auto. }
    assert (U1 : forall d', In d' ds -> unkeyed inp (d_id d')) by (intros d' I; apply U; cbn; auto).
    destruct U0 as (U2 & U3 & U4 & U5).
    cbn [reset_inputs] in H. cbn [filter]. destruct (is_load d) eqn:Ld.
    - assert (Ns : is_nsgen d = false) by (unfold is_nsgen, is_gen; unfold is_load in Ld; destruct (d_spec d); auto; discriminate).
      rewrite Ns. apply bind_ok in H as (p & Hp & H). apply nth_res_ok in Hp.
      destruct (ri_other _ _ _ _ _ _ _ _ (d_id d) H Nd) as (O1 & O2 & O3 & O4). cbn in O1.
      destruct (IH _ _ _ _ H) as (A & B).
      { intros d' I. destruct (U1 d' I) as (V1 & V2 & V3 & V4). repeat split; cbn; auto. rewrite dget_other by auto. auto. }
      split; [|exact B]. intros [|k] d' K; cbn in K.
      + injection K as <-. rewrite Nat.add_0_r. split; [|congruence]. intros _. exists p. split; auto. rewrite O1. apply dget_last; auto.
      + rewrite Nat.add_succ_r. apply (A k d' K).
    - destruct (d_slack d) eqn:Sl.
      + assert (Ns : is_nsgen d = false) by (unfold is_nsgen; rewrite Sl, andb_false_r; auto). rewrite Ns.
        destruct (IH _ _ _ _ H U1) as (A & B). split; [|exact B]. intros [|k] d' K; cbn in K.
        * injection K as <-. split; congruence.
        * rewrite Nat.add_succ_r. apply (A k d' K).
      + apply bind_ok in H as (p & Hp & H). apply bind_ok in H as (q & Hq & H). apply nth_res_ok in Hp, Hq. cbv zeta in H. destruct (is_gen d) eqn:Gd.
        * assert (Ns : is_nsgen d = true) by (unfold is_nsgen; rewrite Gd, Sl; auto). rewrite Ns.
          apply bind_ok in H as (pm & Hm & H). apply nth_res_ok in Hm.
          destruct (ri_other _ _ _ _ _ _ _ _ (d_id d) H Nd) as (O1 & O2 & O3 & O4). cbn in O2, O3, O4.
          destruct (IH _ _ _ _ H) as (A & B).
          { intros d' I. destruct (U1 d' I) as (V1 & V2 & V3 & V4). repeat split; cbn; rewrite ?dget_other by auto; auto. }
          split; [intros [|k] d' K; cbn in K|intros [|k] d' K; cbn in K].
          -- injection K as <-. rewrite Nat.add_0_r. split; [congruence|]. intros _ _. exists p, q. split; auto. split; auto. rewrite O3, O4. split; apply dget_last; auto.
          -- rewrite Nat.add_succ_r. apply (A k d' K).
          -- injection K as <-. rewrite Nat.add_0_r. exists pm. split; auto. rewrite O2. apply dget_last; auto.
          -- rewrite Nat.add_succ_r. apply (B k d' K).
        * assert (Ns : is_nsgen d = false) by (unfold is_nsgen; rewrite Gd; auto). rewrite Ns.
          destruct (ri_other _ _ _ _ _ _ _ _ (d_id d) H Nd) as (O1 & O2 & O3 & O4). cbn in O2, O3, O4.
          destruct (IH _ _ _ _ H) as (A & B).
          { intros d' I. destruct (U1 d' I) as (V1 & V2 & V3 & V4). repeat split; cbn; rewrite ?dget_other by auto; auto. }
          split; [|exact B]. intros [|k] d' K; cbn in K.
          -- injection K as <-. rewrite Nat.add_0_r. split; [congruence|]. intros _ _. exists p, q. split; auto. split; auto. rewrite O3, O4. split; apply dget_last; auto.
          -- rewrite Nat.add_succ_r. apply (A k d' K).
  Qed.

  Lemma set_socs_filter {B} (p : device F -> bool) (f : device F -> B) base : (forall d c, p (d_set_soc d c) = p d) -> (forall d c, f (d_set_soc d c) = f d) ->
    forall ds soc, map f (filter p (fst (set_socs base soc ds))) = map f (filter p ds).
  Proof.
    intros Hp Hf. induction ds as [|d ds IH]; intros soc; cbn [set_socs]; auto. destruct (is_stor d).
    - destruct soc as [|c soc]; auto. cbn [fst filter]. rewrite Hp. destruct (p d); cbn [map]; rewrite ?Hf, IH; auto.
    - cbn [fst filter]. destruct (p d); cbn [map]; rewrite IH; auto.
  Qed.
  Lemma gather_same (s : sim F) ds2 base soc key u i : fst (set_socs base soc (sm_devs s)) = ds2 -> key <> "des_soc" ->
    read (gather_state (sim_set_devs s ds2)) key u i = read (gather_state s) key u i.
  Proof.
    intros <- Hk. unfold gather_state. cbn [sm_base sm_buses sm_branches sm_devs sim_set_devs].
    rewrite !(set_socs_filter (fun _ => true)) by reflexivity. rewrite !(set_socs_filter is_nsgen) by reflexivity.
    unfold read. cbn [dget]. destruct (String.eqb key "des_soc") eqn:E; [apply String.eqb_eq in E; contradiction|]. reflexivity.
  Qed.

  Context (nw : network F) (dt lamb : F) (s0 : sim F) (H0 : sim_init nw dt lamb = Ok s0).
  Context (all gens stors : list Z) (Ha : ids_of nw ALL all) (Hg : ids_of nw GENS gens) (Hs : ids_of nw STORS stors).

  Record reset_as (Or : oracles F) (init : list F) (inp : tr_in F) (z s1 s' : sim F) : Prop := mkRA {
    ra_strip : strip z = strip s0;
    ra_load : forall k i r, nth_error all k = Some i -> In r (nw_dev nw) -> dr_id r = Some i -> dr_type r = Some (-1)%Z ->
      nth_error init k = dget Z.eqb (ti_load inp) i /\ dget Z.eqb (ti_load inp) i <> None;
    ra_pq : forall k i r, nth_error all k = Some i -> In r (nw_dev nw) -> dr_id r = Some i -> dr_type r = Some 1%Z \/ dr_type r = Some 2%Z \/ dr_type r = Some 3%Z ->
      nth_error init k = dget Z.eqb (ti_p inp) i /\ nth_error init (List.length all + k) = dget Z.eqb (ti_q inp) i /\
      dget Z.eqb (ti_p inp) i <> None /\ dget Z.eqb (ti_q inp) i <> None;
    ra_pot : forall k i, nth_error gens k = Some i -> nth_error init (2 * List.length all + List.length stors + k) = dget Z.eqb (ti_pot inp) i /\
      dget Z.eqb (ti_pot inp) i <> None;
    ra_soc : forall d, In d (sm_devs z) -> is_stor d = true -> exists p t, dget Z.eqb (ti_p inp) (d_id d) = Some p /\ d_spec d = SStor t /\
      d_soc d = Some (if p <=? n0 then s_socmin t else s_socmax t);
    ra_obs : forall key u i, key <> "des_soc" -> obs s' key u i = obs s1 key u i }.

  Lemma reset_is_transition Or init s s' conv : strip s = strip s0 -> sim_reset Or init s = (s', Ok conv) ->
    exists inp z s1 out, transition Or inp z = (s1, Ok out) /\ reset_as Or init inp z s1 s'.
  Proof.
    intros S R. destruct (sim_reset_ok _ _ _ _ _ R) as (inp & ds & s1 & st & rw & e & pen & ds2 & Ri & Mp & T & Es & ->).
    set (z := sim_set_devs (sim_set_state s None) ds) in *.
    assert (Pre : forall d, In d ds -> exists d0, In d0 (sm_devs s) /\ dev_pre_soc inp d0 = Ok d). { intros d I. apply mapM_ok in Mp. apply (Forall2_in_r _ _ _ _ Mp I). }
    assert (Sd : map strip_dev ds = map strip_dev (sm_devs s)).
    { apply mapM_ok in Mp. clear -Mp. induction Mp as [|a b l m E M IH]; auto. cbn [map]. f_equal; auto. unfold dev_pre_soc in E. destruct (d_spec a) eqn:Sp; try (injection E as <-; auto).
      apply bind_ok in E as (p & _ & E). injection E as <-. apply strip_set_soc. unfold is_stor. rewrite Sp. auto. }
    assert (Sz : strip z = strip s0). { rewrite <- S. unfold z, strip. cbn [sm_devs sm_base sm_dt sm_lamb sm_buses sm_branches sm_Y sim_set_devs sim_set_state]. rewrite Sd. reflexivity. }
    destruct (ids_lists _ _ _ _ _ H0 S) as (La & _ & Lg & Ls). specialize (La _ Ha). specialize (Lg _ Hg). specialize (Ls _ Hs).
    assert (Nd : n_device s = List.length all) by (rewrite La, map_length; reflexivity).
    assert (Nst : n_des s = List.length stors) by (rewrite Ls, map_length; reflexivity).
    pose proof (static_nodup _ _ _ _ _ H0 S) as ND.
    destruct (ri_read _ _ _ _ ND _ _ _ _ Ri) as (A & B). { intros d _. repeat split. }
    assert (At : forall k i r, nth_error all k = Some i -> In r (nw_dev nw) -> dr_id r = Some i -> exists d, nth_error (sm_devs s) k = Some d /\ d_id d = i /\ dr_type r = Some (d_type d) /\
      is_load d = zmem (d_type d) [-1]%Z /\ d_slack d = Z.eqb (d_type d) 0).
    { intros k i r K Ir Ei. rewrite La, nth_error_map in K. destruct (nth_error (sm_devs s) k) as [d|] eqn:Ek; [|discriminate]. injection K as Ed. exists d. split; auto. split; auto.
      apply nth_error_In in Ek. destruct (static_dev _ _ _ S Ek) as (d0 & I0 & E0).
      destruct (sim_init_built _ _ _ _ H0) as (bs & ds' & Bt). destruct (bt_dev_row_inv Bt _ Ir) as (d1 & I1 & M).
      pose proof (mk_dev_fields _ _ _ _ M) as (M1 & _ & M2 & _). rewrite Ei in M1. injection M1 as M1.
      apply strip_spec in E0 as (E2 & E1 & E3 & _).
      assert (d1 = d0). { eapply (nodup_at d_id (sm_devs s0)); auto; [eapply init_nodup; eauto|congruence]. } subst d1.
      rewrite <- E3. split; [auto|]. split; [|unfold d_slack; rewrite E3; reflexivity].
      pose proof (proj1 (mk_dev_kind _ _ _ _ M)) as MK. unfold is_load in *. rewrite E2 in MK. exact MK. }
    exists inp, z, s1, (st, rw, e, pen, conv). split; [exact T|]. split.
    - exact Sz.
    - intros k i r K Ir Ei Ty. destruct (At k i r K Ir Ei) as (d & D1 & D2 & D3 & D4 & _). rewrite D3 in Ty. injection Ty as Ty. rewrite Ty in D4.
      destruct (proj1 (A k d D1) D4) as (x & X1 & X2). cbn [Nat.add] in X1. rewrite D2 in X2. rewrite X2. split; [|discriminate].
      rewrite <- X1. symmetry. apply nth_firstn_error. unfold n_device. apply nth_error_Some. congruence.
    - intros k i r K Ir Ei Ty. destruct (At k i r K Ir Ei) as (d & D1 & D2 & D3 & D4 & D5). 
      assert (Ld : is_load d = false /\ d_slack d = false) by (rewrite D4, D5; rewrite D3 in Ty; destruct Ty as [Ty|[Ty|Ty]]; injection Ty as ->; split; reflexivity).
      destruct (proj2 (A k d D1) (proj1 Ld) (proj2 Ld)) as (p & q & X1 & X2 & X3 & X4). cbn [Nat.add] in X1, X2. rewrite D2 in X3, X4. rewrite X3, X4. apply slice_nth in X2. rewrite Nd in X2.
      split; [|split; [auto|split; discriminate]]. rewrite <- X1. symmetry. apply nth_firstn_error. unfold n_device. apply nth_error_Some. congruence.
    - intros k i K. rewrite Lg, nth_error_map in K. destruct (nth_error (filter is_nsgen (sm_devs s)) k) as [d|] eqn:Ek; [|discriminate]. injection K as <-.
      destruct (B k d Ek) as (x & X1 & X2). cbn [Nat.add] in X1. rewrite X2. apply slice_nth in X1. rewrite Nd, Nst in X1. split; [auto|discriminate].
    - intros d I Sd'. cbn [z sm_devs sim_set_devs] in I. destruct (Pre d I) as (d0 & I0 & E). unfold dev_pre_soc in E. destruct (d_spec d0) as [| |t] eqn:Sp.
      1, 2: injection E as <-; unfold is_stor in Sd'; rewrite Sp in Sd'; discriminate.
      apply bind_ok in E as (p & Ep & E). injection E as <-. exists p, t. cbn. split; [|auto]. unfold dgetE in Ep. destruct (dget _ _ _); [injection Ep as ->; auto|discriminate].
    - intros key u i Hk. unfold obs. cbn [sm_state sim_set_state]. apply transition_ok in T as (_ & _ & ds3 & v & j & T). rewrite (tk_state _ _ _ _ _ _ _ _ T).
      apply (gather_same s1 ds2 (sm_base s) (slice (2 * n_device s) (n_des s) init)); [rewrite Es; reflexivity|auto].
  Qed.
End Gen.
