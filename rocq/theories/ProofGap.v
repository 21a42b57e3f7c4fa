(** The slack voltage, and networks whose bus IDs are not 0..N-1. *)
From Coq Require Import Reals Lra Lia Permutation.
From Coquelicot Require Import Complex.
From Verif Require Import Base Num NumXR LibXR LibC Devices BusBranch CheckNetwork LoadFlow Simulator LibBase LibNum LibSim SpecNet LibInit SpecDev SpecSim
  SpecPf SpecNr ProofSim ProofObs ProofBr ProofY ProofNr ProofPf ProofBal.
Local Open Scope string_scope.
Local Open Scope list_scope.

Section Len.
  Context {F : Type} {N : Num F}.
  Lemma vec_sub_len (a b c : list F) : vec_sub a b = Ok c -> List.length c = List.length a.
  Proof.
    unfold vec_sub. destruct (Nat.eqb_spec (List.length a) (List.length b)); [|discriminate]. intros H. injection H as <-.
    rewrite zip_with_length. lia.
  Qed.
  Lemma nr_steps_len lin p q Y (tol : F) g n g' : nr_steps lin p q Y tol g n g' -> List.length g' = List.length g.
  Proof. induction 1; auto. apply vec_sub_len in H3. congruence. Qed.
  Lemma flat_len n : List.length (@flat F N n) = 2 * (n - 1).
  Proof. unfold flat. rewrite app_length, !repeat_length. lia. Qed.
  Lemma construct_len (g : list F) n : List.length g = 2 * n -> List.length (construct_v g) = S n.
  Proof.
    intros H. unfold construct_v. cbn [List.length]. rewrite zip_with_length, firstn_length, skipn_length, H.
    replace (2 * n / 2) with n by (rewrite Nat.mul_comm, Nat.div_mul; lia). lia.
  Qed.
  Lemma solve_len lin n p q Y (tol : F) v i st : solve_pfe lin n p q Y tol = Ok (v, i, st) -> 0 < n -> List.length Y = n.
  Proof.
    intros H Hn. destruct (solve_inv _ _ _ _ _ _ _ _ _ H) as (k & g & Fv & d & _ & St & [R _] & _).
    apply pfe_shape in R as (R & _). rewrite R. apply nr_steps_len in St. rewrite flat_len in St. rewrite (construct_len g (n - 1)) by auto. lia.
  Qed.
End Len.

Section Gap.
  Context (nw : network XR) (dt lamb : XR) (s0 : sim XR) (H0 : sim_init nw dt lamb = Ok s0) (b : R) (Eb : nw_base nw = Fin b)
          (Hr : Forall branch_row_fin (nw_br nw)).
  Lemma gap_lemma cs Or inp : (forall k, In (Some k) (map br_id (nw_bus nw)) -> (0 <= k)%Z) ->
    (exists k, In (Some k) (map br_id (nw_bus nw)) /\ (Z.of_nat (List.length (nw_bus nw)) <= k)%Z) ->
    is_ok (snd (transition Or inp (run s0 cs))) = false.
  Proof.
    intros Hid (k & Ik & Hk). destruct (Y_tab nw dt lamb s0 H0 b Eb Hr Hid) as (n & M & EY & R1 & _).
    pose proof (R1 _ Ik) as Kn. assert (Ln : List.length (sm_Y s0) = n) by (rewrite EY; apply tab_length).
    destruct (transition_cases Or inp (run s0 cs)) as [(ds & v & i & c & T & R)|(_ & e & ->)]; [|reflexivity]. exfalso.
    pose proof (tk_pfe _ _ _ _ _ _ _ _ T) as P. cbv zeta in P.
    pose proof (strip_run s0 cs) as Ss.
    assert (EN : n_bus (run s0 cs) = List.length (nw_bus nw)).
    { destruct (sim_init_built _ _ _ _ H0) as (bs & ds0 & B).
      pose proof (f_equal (fun s => List.length (sm_buses s)) Ss) as L. cbn in L. rewrite !map_length in L. unfold n_bus. rewrite L.
      rewrite (bt_sbuses _ _ _ _ _ _ B), map_length, (Permutation_length (sort_by_perm b_id bs)).
      pose proof (bt_buses _ _ _ _ _ _ B) as E. apply mapM_ok in E. clear -E. induction E; cbn; auto. }
    assert (EY' : sm_Y (run s0 cs) = sm_Y s0) by exact (f_equal (fun s => sm_Y s) Ss).
    apply solve_len in P; [|rewrite EN; destruct (nw_bus nw); [destruct Ik|cbn; lia]].
    rewrite EY', EN in P. lia.
  Qed.

  Context (Hn : numbered nw).
  Section State.
    Context (s s1 : sim XR) (V : Z -> C) (Es : sm_state s = Some (gather_state s1)) (S1 : strip s1 = strip s0) (PS : pf_state nw b s1 V).
    Lemma st_slack_v : obs s "bus_v_magn" "pu" (EId 0) = Some (Fin 1) /\ obs s "bus_v_ang" "rad" (EId 0) = Some (Fin 0).
    Proof.
      assert (I : In 0%Z (bus_ids nw)).
      { unfold bus_ids. destruct (sim_init_built _ _ _ _ H0) as (bs & ds & B). destruct (bt_wf _ _ _ _ _ _ B) as (_ & W1 & _).
        destruct W1 as (l1 & a & l2 & -> & _). rewrite app_length. cbn [List.length]. rewrite Nat.add_succ_r. left; auto. }
      destruct (bus_at nw dt lamb s0 H0 Hn s1 0%Z S1 I) as (bb & Ib & Ek & _). destruct (ps_bus _ _ _ _ PS bb Ib) as [Ev _].
      assert (ND : NoDup (map b_id (sm_buses s1))) by (eapply static_bus_nodup; eauto).
      unfold obs. rewrite Es, <- Ek.
      rewrite (read_bus s1 "bus_v_magn" "pu" (fun x => cabs (b_v x))); auto; [|cbn; tauto].
      rewrite (read_bus s1 "bus_v_ang" "rad" (fun x => cangle (b_v x))); auto; [|cbn; tauto].
      rewrite Ev, up_abs, up_angle, Ek, (ps_V0 _ _ _ _ PS).
      rewrite Cmod_1. split; auto. cbn [RtoC fst snd]. unfold ratan2. destruct (Rlt_dec 0 1) as [_|K]; [|lra].
      replace (0 / 1)%R with 0%R by lra. rewrite atan_0. reflexivity.
    Qed.
  End State.
  Lemma slack_bound r vm : In r (nw_bus nw) -> br_type r = Some 0%Z -> br_vmax r = Some vm -> bound s0 "bus_v_magn" "pu" (EId 0) = Some (vm, vm).
  Proof.
    intros I Ty Ev. destruct (sim_init_built _ _ _ _ H0) as (bs & ds & B). destruct (bt_bus_row_inv B _ I) as (b0 & E & Ib).
    pose proof (bus_init_id _ _ E) as Ei. pose proof (bus_init_type _ _ E) as Et.
    assert (Z0 : b_id (bus_with_bounds (sm_devs s0) b0) = 0%Z). { cbn. pose proof (proj2 Hn _ I Ty). congruence. }
    rewrite <- Z0. erewrite (bound_bus s0 "bus_v_magn" "pu"); [|reflexivity|eapply init_bus_nodup; eauto|exact Ib].
    cbv beta. replace (b_slack (bus_with_bounds (sm_devs s0) b0)) with true.
    2:{ unfold b_slack. cbn. rewrite Ty in Et. injection Et as <-. reflexivity. }
    cbn [dget String.eqb]. cbn. f_equal. assert (K : b_vmax b0 = vm); [|rewrite K; auto].
    unfold bus_init in E. inv_ok. rewrite Ev in *. dm; auto.
  Qed.
End Gap.
