(** Plans of the MPC agents over the reals. *)
From Coq Require Import Reals Lra Sorted.
From Coquelicot Require Import Complex.
From Verif Require Import Base Num NumXR Devices BusBranch CheckNetwork LoadFlow Simulator EnvArgs Env Mpc LibBase LibNum LibSim LibXR SpecNet ProofNet LibInit SpecSim ProofSim ProofObs SpecDev ProofDev ProofSoc ProofVals
  SpecQp SpecPf LibC ProofBr ProofY SpecEnv ProofEnv SpecMpc ProofMpc.
Local Open Scope string_scope.
Local Open Scope list_scope.
Local Open Scope R_scope.
Set Bullet Behavior "Strict Subproofs".

(** ---- lists ---- *)
Lemma zip_nth {A B C} (f : A -> B -> C) a b j x y : nth_error a j = Some x -> nth_error b j = Some y -> nth_error (zip_with f a b) j = Some (f x y).
Proof. revert a b; induction j as [|j IH]; intros [|u a] [|v b] Ha Hb; cbn in *; try discriminate; [congruence|auto]. Qed.
Lemma les_nth a b j x y : Forall sat (zip_with CLe a b) -> nth_error a j = Some x -> nth_error b j = Some y -> xle x y.
Proof. intros H Ha Hb. pose proof (zip_nth CLe a b j x y Ha Hb) as E. apply nth_error_In in E. rewrite Forall_forall in H. exact (H _ E). Qed.
Lemma eqs_nth a b j x y : Forall sat (zip_with CEq a b) -> nth_error a j = Some x -> nth_error b j = Some y -> xeqb x y = true.
Proof. intros H Ha Hb. pose proof (zip_nth CEq a b j x y Ha Hb) as E. apply nth_error_In in E. rewrite Forall_forall in H. exact (H _ E). Qed.
Lemma ix_fin l i : (i < List.length l)%nat -> ix (map Fin l) i = Fin (nth i l 0).
Proof. intros H. unfold ix. rewrite (nth_indep _ n0 (Fin 0)) by (rewrite map_length; auto). apply map_nth. Qed.
Lemma xeqb_Fin a b : xeqb (Fin a) (Fin b) = true -> a = b.
Proof. cbn. apply Reqb_spec. Qed.

(** ---- the constraints of one stage ---- *)
Record stage_ok (m : mpc XR) (pl pg soc : list XR) (st : stage XR) : Prop := mkStageOk {
  so_balance : Forall sat (eqs (map (p_dc m st) (m_buses m)) (map (p_bus m st) (seq 0 (m_nbus m))));
  so_loads : Forall sat (eqs (map (fun d => ix (sg_p st) (dpos m d)) (m_loads m)) pl);
  so_gmin : Forall sat (les (m_gmin m) (map (fun d => ix (sg_p st) (dpos m d)) (m_nsgens m)));
  so_gmax : Forall sat (les (map (fun d => ix (sg_p st) (dpos m d)) (m_nsgens m)) (m_gmax m));
  so_dmin : Forall sat (les (m_dmin m) (map (fun d => ix (sg_p st) (dpos m d)) (m_dess m)));
  so_dmax : Forall sat (les (map (fun d => ix (sg_p st) (dpos m d)) (m_dess m)) (m_dmax m));
  so_pot : Forall sat (les (map (fun d => ix (sg_p st) (dpos m d)) (m_nsgens m)) pg);
  so_pc : forall j, (j < List.length (m_dess m))%nat -> xle (Fin 0) (ix (sg_pc st) j);
  so_pd : forall j, (j < List.length (m_dess m))%nat -> xle (Fin 0) (ix (sg_pd st) j);
  so_net : forall j i, nth_error (m_dess m) j = Some i -> xeqb (ix (sg_p st) (dpos m i)) (xsub (ix (sg_pd st) j) (ix (sg_pc st) j)) = true;
  so_socmin : Forall sat (les (m_socmin m) (new_socs m soc st)); so_socmax : Forall sat (les (new_socs m soc st) (m_socmax m));
  so_angmin : Forall sat (les (repeat (xopp npi) (m_nbus m)) (sg_ang st)); so_angmax : Forall sat (les (sg_ang st) (repeat npi (m_nbus m)));
  so_slack : xeqb (ix (sg_ang st) (dpos m (m_slackdev m))) (Fin 0) = true }.
Lemma enum_iff {A} (l : list A) a j x : In (j, x) (enum_from a l) <-> (a <= j)%nat /\ nth_error l (j - a) = Some x.
Proof.
  revert a; induction l as [|y l IH]; intros a; cbn [enum_from In]; [split; [intros []|intros (_ & E); destruct (j - a)%nat; discriminate]|].
  rewrite IH. split.
  - intros [E|(L & E)]; [injection E as -> ->; rewrite Nat.sub_diag; auto|]. split; [lia|]. replace (j - a)%nat with (S (j - S a)) by lia. exact E.
  - intros (L & E). destruct (Nat.eq_dec a j) as [->|Ne]; [left; rewrite Nat.sub_diag in E; injection E as ->; reflexivity|]. right. split; [lia|].
    replace (j - a)%nat with (S (j - S a)) in E by lia. exact E.
Qed.
Lemma stage_constraints_ok m pl pg soc st : Forall sat (stage_constraints m pl pg soc st) <-> stage_ok m pl pg soc st.
Proof.
  unfold stage_constraints. cbv zeta. rewrite !Forall_app. split.
  - intros (A1 & A2 & A3 & A4 & A5 & A6 & A7 & A8 & A9 & A10 & A11 & A12 & A13 & A14 & A15). constructor; auto.
    + intros j Hj. rewrite Forall_map, Forall_forall in A8. apply (A8 j). apply in_seq. lia.
    + intros j Hj. rewrite Forall_map, Forall_forall in A9. apply (A9 j). apply in_seq. lia.
    + intros j i E. rewrite Forall_map, Forall_forall in A10. apply (A10 (j, i)). apply enum_iff. split; [lia|]. rewrite Nat.sub_0_r. auto.
    + inversion A15. auto.
  - intros [A1 A2 A3 A4 A5 A6 A7 A8 A9 A10 A11 A12 A13 A14 A15]. do 7 (split; [assumption|]).
    split. { rewrite Forall_map. apply Forall_forall. intros j Ij. apply in_seq in Ij. apply A8. lia. }
    split. { rewrite Forall_map. apply Forall_forall. intros j Ij. apply in_seq in Ij. apply A9. lia. }
    split. { rewrite Forall_map. apply Forall_forall. intros (j, i) I. apply enum_iff in I as (_ & I). rewrite Nat.sub_0_r in I. exact (A10 _ _ I). }
    do 4 (split; [assumption|]). constructor; [exact A15|constructor].
Qed.

(** ---- all the stages ---- *)
Definition socs_after (m : mpc XR) (soc : list XR) (sts : list rstage) : list XR := fold_left (fun c st => new_socs m c (lift st)) sts soc.
Lemma plan_stage m PL PG sts : forall i soc, Forall sat (plan_constraints m PL PG i soc (map lift sts)) <->
  forall n st, nth_error sts n = Some st -> stage_ok m (column PL (i + n)) (column PG (i + n)) (socs_after m soc (firstn n sts)) (lift st).
Proof.
  induction sts as [|s sts IH]; intros i soc; cbn [map plan_constraints].
  - split; [intros _ n st E; destruct n; discriminate|constructor].
  - rewrite Forall_app, IH, stage_constraints_ok. split.
    + intros (A & B) [|n] st E; cbn in E.
      * injection E as <-. rewrite Nat.add_0_r. exact A.
      * specialize (B n st E). rewrite Nat.add_succ_r. exact B.
    + intros H. split; [specialize (H 0%nat s eq_refl); rewrite Nat.add_0_r in H; exact H|].
      intros n st E. specialize (H (S n) st E). rewrite Nat.add_succ_r in H. exact H.
Qed.

(** ---- the state of charge ---- *)
Lemma new_socs_nth m soc st j c e d : (j < List.length (m_dess m))%nat -> shaped m st -> nth_error soc j = Some (Fin c) -> nth_error (m_eff m) j = Some (Fin e) -> m_dt m = Fin d -> e <> 0 ->
  nth_error (new_socs m soc (lift st)) j = Some (Fin (c + d * e * nth j (rs_pc st) 0 - d * nth j (rs_pd st) 0 / e)).
Proof.
  intros Hj (_ & _ & L1 & L2) Hc He Hd Ne. unfold new_socs. rewrite nth_error_map, (nth_error_nth' _ 0%nat) by (rewrite seq_length; auto). rewrite seq_nth by auto. cbn [Nat.add option_map].
  cbn [lift sg_pc sg_pd]. rewrite !ix_fin by lia. unfold ix. rewrite (nth_error_nth _ _ _ Hc), (nth_error_nth _ _ _ He), Hd. cbn [nadd nmul ndiv nopp XRnum xopp xmul xadd].
  rewrite xdiv_Fin by auto. cbn [xadd]. do 2 f_equal. field. auto.
Qed.
Definition pcd (j : nat) (st : rstage) : R * R := (nth j (rs_pc st) 0, nth j (rs_pd st) 0).
Lemma socs_after_nth m j e d : (j < List.length (m_dess m))%nat -> nth_error (m_eff m) j = Some (Fin e) -> m_dt m = Fin d -> e <> 0 ->
  forall sts soc c, Forall (shaped m) sts -> nth_error soc j = Some (Fin c) -> nth_error (socs_after m soc sts) j = Some (Fin (planned_soc e d c (map (pcd j) sts))).
Proof.
  intros Hj He Hd Ne. induction sts as [|st sts IH]; intros soc c Sh Hc; [exact Hc|]. inversion_clear Sh. unfold socs_after, planned_soc. cbn [fold_left map pcd fst snd].
  apply IH; auto. apply new_socs_nth; auto.
Qed.
Lemma socs_after_snoc m soc sts st : socs_after m soc (sts ++ [st]) = new_socs m (socs_after m soc sts) (lift st).
Proof. unfold socs_after. rewrite fold_left_app. reflexivity. Qed.
Lemma planned_snoc e d c l x : planned_soc e d c (l ++ [x]) = planned_soc e d c l + d * e * fst x - d * snd x / e.
Proof. unfold planned_soc. rewrite fold_left_app. reflexivity. Qed.
Lemma simulated_snoc lo hi e d c l p : simulated_soc lo hi e d c (l ++ [p]) = Rmax lo (Rmin hi (soc_after e d (simulated_soc lo hi e d c l) p)).
Proof. unfold simulated_soc. rewrite fold_left_app. reflexivity. Qed.
Lemma firstn_S {A} (l : list A) n x : nth_error l n = Some x -> firstn (S n) l = firstn n l ++ [x].
Proof. revert n; induction l as [|y l IH]; intros [|n] E; cbn in *; try discriminate; [congruence|]. f_equal. auto. Qed.

(** charging and discharging at once wastes energy *)
Lemma waste e d c pc pd : 0 < e -> e <= 1 -> 0 < d -> 0 <= pc -> 0 <= pd -> c + d * e * pc - d * pd / e <= soc_after e d c (pd - pc).
Proof.
  intros He He1 Hd Hc Hp. assert (I : e <= / e). { apply (Rmult_le_reg_l e); [auto|]. rewrite Rinv_r by lra. nra. }
  unfold soc_after. unfold Rdiv. destruct (Rle_dec (pd - pc) 0).
  - assert (d * pd * e <= d * pd * / e) by (apply Rmult_le_compat_l; [nra|auto]). nra.
  - assert (d * pc * e <= d * pc * / e) by (apply Rmult_le_compat_l; [nra|auto]). nra.
Qed.
Lemma no_waste e d c pc pd : 0 < e -> 0 <= pc -> 0 <= pd -> pc = 0 \/ pd = 0 -> soc_after e d c (pd - pc) = c + d * e * pc - d * pd / e.
Proof.
  intros He Hc Hp [->| ->]; unfold soc_after, Rdiv; destruct (Rle_dec _ 0).
  - assert (pd = 0) by lra. subst. ring.
  - ring.
  - ring.
  - lra.
Qed.
Lemma soc_after_mono e d c c' p : c <= c' -> soc_after e d c p <= soc_after e d c' p.
Proof. intros H. unfold soc_after. destruct (Rle_dec p 0); lra. Qed.

(** ---- the storage units of an agent ---- *)
Lemma stor_check_eff (r : dev_row XR) base t e : stor_check r base = Ok t -> EFF r = Fin e -> 0 <= e <= 1.
Proof.
  unfold stor_check, EFF. intros H E. destruct (dr_eff r) as [v|]; cbn [or_else] in E; [subst v|injection E as <-; lra].
  apply bind_ok in H as (? & _ & H). apply bind_ok in H as (? & _ & H). cbv zeta in H. do 10 (apply bind_ok in H; destruct H as (? & _ & H)).
  apply bind_ok in H as (? & _ & H). apply bind_ok in H as (? & _ & H). apply bind_ok in H as (? & _ & H). apply bind_ok in H as (? & H & _).
  cbn in H. destruct (Rltb e 0) eqn:L1; [discriminate|]. destruct (Rltb 1 e) eqn:L2; [discriminate|]. apply Rltb_false in L1, L2. lra.
Qed.
Section AgentXR.
  Context (nw : network XR) (dt lamb : XR) (s0 : sim XR) (H0 : sim_init nw dt lamb = Ok s0).
  Context (s : sim XR) (Hs : strip s = strip s0) (asp : box XR) (gam mg : XR) (k : nat) (m : mpc XR) (M : mpc_init s asp gam mg k = Ok m).

  Lemma agent_fields : m_dess m = map d_id (filter is_stor (sm_devs s0)) /\
    m_eff m = map (fun d => match d_spec d with SStor t => s_eff t | _ => n0 end) (filter is_stor (sm_devs s0)) /\
    m_socmin m = map (fun d => match d_spec d with SStor t => s_socmin t | _ => n0 end) (filter is_stor (sm_devs s0)) /\
    m_socmax m = map (fun d => match d_spec d with SStor t => s_socmax t | _ => n0 end) (filter is_stor (sm_devs s0)) /\
    m_devs m = map d_id (sm_devs s0) /\ m_ndev m = List.length (sm_devs s0) /\ m_devbus m = map (fun d => (d_id d, d_bus d)) (sm_devs s0) /\
    m_buses m = map b_id (sm_buses s0) /\ m_nbus m = List.length (sm_buses s0) /\ m_brs m = map (fun b => (ln_f b, ln_t b)) (sm_branches s0) /\
    m_nsgens m = map d_id (filter is_nsgen (sm_devs s0)) /\ m_loads m = map d_id (filter is_load (sm_devs s0)) /\
    m_gmin m = map d_pmin (filter is_nsgen (sm_devs s0)) /\ m_gmax m = map d_pmax (filter is_nsgen (sm_devs s0)) /\
    m_dmin m = map d_pmin (filter is_stor (sm_devs s0)) /\ m_dmax m = map d_pmax (filter is_stor (sm_devs s0)) /\
    m_rate m = map ln_rate (sm_branches s0) /\ m_dt m = dt /\
    m_B m = map (fun row => map im (firstn (m_nbus m) row)) (firstn (m_nbus m) (sm_Y s0)) /\ (m_nbus m <= List.length (sm_Y s0))%nat /\
    exists l, m_slackdev m :: l = filter (fun i => negb (zmem i (m_dess m)) && negb (zmem i (m_nsgens m)) && negb (zmem i (m_loads m))) (map d_id (sm_devs s0)).
  Proof.
    rewrite (mpc_init_static _ _ asp gam mg k Hs) in M. unfold mpc_init in M. cbv zeta in M.
    destruct (filter (fun i : Z => _) (map d_id (sm_devs s0))) as [|sl l] eqn:El; [discriminate|]. cbn [bind] in M.
    destruct (Nat.ltb_spec (List.length (sm_Y s0)) (n_bus s0)); [discriminate|]. cbn [raise_if bind] in M. injection M as <-.
    cbn [m_dess m_eff m_socmin m_socmax m_devs m_ndev m_devbus m_buses m_nbus m_brs m_nsgens m_loads m_gmin m_gmax m_dmin m_dmax m_rate m_dt m_B m_slackdev].
    destruct (sim_init_built _ _ _ _ H0) as (bs & ds & B). rewrite (bt_dt _ _ _ _ _ _ B). repeat (split; [reflexivity||assumption|]). exists l. rewrite El. reflexivity.
  Qed.
  Lemma agent_stor b r i e : nw_base nw = Fin b -> In r (nw_dev nw) -> dr_id r = Some i -> dr_type r = Some 3%Z -> EFF r = Fin e ->
    0 <= e <= 1 /\ exists j lo hi, nth_error (m_dess m) j = Some i /\ nth_error (m_eff m) j = Some (Fin e) /\ nth_error (m_socmin m) j = Some lo /\ nth_error (m_socmax m) j = Some hi /\
      bound s0 "des_soc" "pu" (EId i) = Some (lo, hi).
  Proof.
    intros Eb Ir Ei Ty Ee. destruct (init_dev_of_row nw dt lamb s0 H0 b Eb r Ir) as (d & Id & Em & E1 & E2). assert (i = d_id d) by congruence. subst i.
    assert (E3 : d_type d = 3%Z) by congruence. pose proof (spec_of_row s0 b r d Em) as Sp. rewrite E3 in Sp. destruct (d_spec d) as [l|g|t] eqn:Es; [destruct Sp; discriminate|destruct Sp as ([?|[?|[?|[]]]] & _); discriminate|].
    destruct Sp as (_ & Sc). pose proof (stor_check_eff _ _ _ _ Sc Ee) as Er.
    assert (Hb : 0 < b). { destruct (sim_init_built _ _ _ _ H0) as (bs & ds & B). destruct (bt_wf _ _ _ _ _ _ B) as (W & _). unfold rule_base in W. rewrite Eb in W. apply Rleb_false in W. exact W. }
    split; [auto|]. assert (If : In d (filter is_stor (sm_devs s0))) by (apply filter_In; split; auto; unfold is_stor; rewrite Es; auto).
    apply In_nth_error in If as (j & Ej). destruct agent_fields as (F1 & F2 & F3 & F4 & _).
    exists j, (s_socmin t), (s_socmax t). rewrite F1, F2, F3, F4, !nth_error_map, Ej. cbn [option_map]. rewrite Es.
    rewrite (sv_eff _ _ _ (stor_check_vals b Hb r t Sc)), Ee. repeat (split; [reflexivity|]).
    apply bound_soc; auto. eapply init_nodup; eauto.
  Qed.
End AgentXR.

(** ---- sums ---- *)
Lemma sumR_app l l' : sumR (l ++ l') = sumR l + sumR l'.
Proof. unfold sumR. induction l as [|x l IH]; cbn; [lra|]. rewrite IH. lra. Qed.
Lemma sumR_zero {A} (l : list A) : sumR (map (fun _ => 0) l) = 0.
Proof. unfold sumR. induction l; cbn; lra. Qed.
Lemma sumR_plus {A} (f g : A -> R) l : sumR (map (fun x => f x + g x) l) = sumR (map f l) + sumR (map g l).
Proof. unfold sumR. induction l; cbn; lra. Qed.
Lemma sumR_swap {A B} (g : A -> B -> R) la lb : sumR (map (fun a => sumR (map (g a) lb)) la) = sumR (map (fun b => sumR (map (fun a => g a b) la)) lb).
Proof.
  induction la as [|a la IH]; cbn [map].
  - change (sumR (@nil R)) with 0. exact (eq_sym (sumR_zero lb)).
  - change (sumR (sumR (map (g a) lb) :: map (fun a0 => sumR (map (g a0) lb)) la)) with (sumR (map (g a) lb) + sumR (map (fun a0 => sumR (map (g a0) lb)) la)).
    rewrite IH, <- sumR_plus. f_equal.
Qed.
Lemma sumR_cons x l : sumR (x :: l) = x + sumR l.
Proof. reflexivity. Qed.
Lemma sumR_pick {A} (eqb : A -> A -> bool) (Heq : forall x y, eqb x y = true <-> x = y) (l : list A) a v : NoDup l -> In a l ->
  sumR (map (fun x => if eqb a x then v else 0) l) = v.
Proof.
  induction l as [|x l IH]; intros ND I; [destruct I|]. inversion_clear ND as [|? ? Nx ND']. cbn [map]. rewrite sumR_cons.
  destruct I as [->|I].
  - rewrite (proj2 (Heq a a) eq_refl).
    assert (E : map (fun x => if eqb a x then v else 0) l = map (fun _ => 0) l). { apply map_ext_in. intros y Iy. destruct (eqb a y) eqn:E; auto. apply Heq in E. subst. tauto. }
    rewrite E, sumR_zero. lra.
  - rewrite IH by auto. destruct (eqb a x) eqn:E; [apply Heq in E; subst; tauto|lra].
Qed.
Lemma fold_cond_fin {A} (c : A -> bool) (f : A -> XR) (f' : A -> R) l : (forall x, In x l -> c x = true -> f x = Fin (f' x)) ->
  forall a, fold_left (fun acc x => if c x then xadd acc (f x) else acc) l (Fin a) = Fin (a + sumR (map (fun x => if c x then f' x else 0) l)).
Proof.
  induction l as [|x l IH]; intros H a; [cbn; f_equal; lra|]. cbn [fold_left map]. change (sumR (?u :: ?v)) with (u + sumR v). destruct (c x) eqn:E.
  - rewrite (H x) by (cbn; auto). cbn [xadd]. rewrite IH by (intros; apply H; cbn; auto). f_equal. lra.
  - rewrite IH by (intros; apply H; cbn; auto). f_equal. lra.
Qed.
Lemma map_pos_nth (l : list Z) (p : list R) : NoDup l -> List.length l = List.length p -> map (fun i => nth (pos_of l i) p 0) l = p.
Proof.
  revert p; induction l as [|a l IH]; intros [|x p] ND L; cbn in L; try discriminate; [reflexivity|]. inversion_clear ND as [|? ? Na ND']. cbn [map pos_of]. rewrite Z.eqb_refl. cbn [nth]. f_equal.
  transitivity (map (fun i => nth (pos_of l i) p 0) l); [|apply IH; auto; lia]. apply map_ext_in. intros i I. destruct (Z.eqb_spec i a); [subst; tauto|reflexivity].
Qed.

(** ---- off-diagonal entries of the admittance matrix ---- *)
Local Open Scope C_scope.
Definition yterm (r : branch_row XR) (k j : Z) : C :=
  (if end_of (lr_f r) k && end_of (lr_t r) j then - / (row_z r * Cconj (row_t r)) else RtoC 0) +
  (if end_of (lr_t r) k && end_of (lr_f r) j then - / (row_z r * row_t r) else RtoC 0).
Lemma sumC_snd l : snd (sumC l) = sumR (map snd l).
Proof. induction l as [|x l IH]; [reflexivity|]. rewrite sumC_cons. cbn [map Cplus snd]. change (sumR (?u :: ?v)) with (u + sumR v)%R. rewrite <- IH. reflexivity. Qed.
Lemma end_of_eq o k : end_of o k = true <-> o = Some k.
Proof. unfold end_of, optz_eqb. destruct o as [z|]; [rewrite Z.eqb_eq|]; split; congruence. Qed.
Lemma outflow_unit r k j : k <> j -> row_z r <> RtoC 0 -> row_t r <> RtoC 0 ->
  let V := fun x => if Z.eqb x j then RtoC 1 else RtoC 0 in
  (if end_of (lr_f r) k then pi_from r (vat V (lr_f r)) (vat V (lr_t r)) else RtoC 0) + (if end_of (lr_t r) k then pi_to r (vat V (lr_f r)) (vat V (lr_t r)) else RtoC 0) = yterm r k j.
Proof.
  intros Hkj Hz Ht V. pose proof (Cconj_neq0 _ Ht) as Ht'. unfold yterm.
  assert (Vk : V k = RtoC 0) by (unfold V; destruct (Z.eqb_spec k j); [contradiction|reflexivity]).
  assert (Ve : forall o, vat V o = if end_of o j then RtoC 1 else RtoC 0). { intros [z|]; reflexivity. }
  f_equal.
  - destruct (end_of (lr_f r) k) eqn:E; [|reflexivity]. apply end_of_eq in E. rewrite (Ve (lr_t r)), E. cbn [vat andb]. rewrite Vk. unfold pi_from, pi_inner. cbv zeta.
    destruct (end_of (lr_t r) j); field; auto.
  - destruct (end_of (lr_t r) k) eqn:E; [|reflexivity]. apply end_of_eq in E. rewrite (Ve (lr_f r)), E. cbn [vat andb]. rewrite Vk. unfold pi_to.
    destruct (end_of (lr_f r) j); field; auto.
Qed.
Lemma inv_im (z t : C) : z <> RtoC 0 -> t <> RtoC 0 -> (fst z = 0 \/ snd t = 0)%R -> snd (- / (z * Cconj t)) = snd (- / (z * t)).
Proof.
  intros Hz Ht H. pose proof (C_norm_pos _ Hz) as P1. pose proof (C_norm_pos _ Ht) as P2.
  assert (E : forall u : C, u <> RtoC 0 -> / u = (fst u / (fst u * fst u + snd u * snd u), - snd u / (fst u * fst u + snd u * snd u))%R).
  { intros u Hu. unfold Cinv. cbn [pow]. rewrite !Rmult_1_r. reflexivity. }
  assert (N1 : z * Cconj t <> RtoC 0) by (apply Cmult_neq_0; auto; apply Cconj_neq0; auto). assert (N2 : z * t <> RtoC 0) by (apply Cmult_neq_0; auto).
  pose proof (C_norm_pos _ N1) as P3. pose proof (C_norm_pos _ N2) as P4. rewrite !E by auto.
  destruct z as (z1 & z2), t as (t1 & t2). unfold Cmult, Cconj, Copp in *. cbn [fst snd] in *.
  destruct H as [-> | ->]; field_simplify_eq; try lra; nra.
Qed.
Lemma yterm_sym r k j : row_z r <> RtoC 0 -> row_t r <> RtoC 0 -> lossless_or_unshifted r -> snd (yterm r k j) = snd (yterm r j k).
Proof.
  intros Hz Ht H. assert (Q : (fst (row_z r) = 0 \/ snd (row_t r) = 0)%R).
  { destruct H as [H|H]; [left; exact H|right]. unfold row_t. cbv zeta. cbn [snd]. destruct H as [-> | ->]; cbn [val_or]; unfold Rdiv; rewrite !Rmult_0_l, sin_0; ring. }
  pose proof (inv_im _ _ Hz Ht Q) as I. unfold yterm. cbn [Cplus snd]. rewrite (andb_comm (end_of (lr_f r) j)), (andb_comm (end_of (lr_t r) j)).
  destruct (end_of (lr_f r) k && end_of (lr_t r) j), (end_of (lr_t r) k && end_of (lr_f r) j); cbn [RtoC snd]; rewrite ?I; lra.
Qed.

Local Open Scope R_scope.
Section Balance.
  Context (nw : network XR) (dt lamb : XR) (s0 : sim XR) (H0 : sim_init nw dt lamb = Ok s0).
  Context (s : sim XR) (Hs : strip s = strip s0) (asp : box XR) (gam mg : XR) (k : nat) (m : mpc XR) (M : mpc_init s asp gam mg k = Ok m).
  Context (b : R) (Eb : nw_base nw = Fin b) (Hr : Forall branch_row_fin (nw_br nw)) (Hid : forall k, In (Some k) (map br_id (nw_bus nw)) -> (0 <= k)%Z).

  Lemma agent_B : exists Y : nat -> nat -> C, (forall i j, (i < m_nbus m)%nat -> (j < m_nbus m)%nat -> Bix m i j = Fin (snd (Y i j))) /\
    forall i j, (i < m_nbus m)%nat -> (j < m_nbus m)%nat -> i <> j -> Y i j = sumC (map (fun r => yterm r (Z.of_nat i) (Z.of_nat j)) (nw_br nw)).
  Proof.
    destruct (Y_tab nw dt lamb s0 H0 b Eb Hr Hid) as (n & Y & EY & _ & _ & K). destruct (agent_fields nw dt lamb s0 H0 s Hs asp gam mg k m M) as (_ & _ & _ & _ & _ & _ & _ & _ & _ & _ & _ & _ & _ & _ & _ & _ & _ & _ & EB & Ln & _).
    rewrite EY, tab_length in Ln. exists Y. split.
    - intros i j Hi Hj. unfold Bix, ix. rewrite EB, EY. set (nb := m_nbus m) in *.
      assert (E : forall (f : nat -> list (cplx XR)), firstn nb (map f (seq 0 n)) = map f (seq 0 nb)). { intros f. rewrite firstn_map. f_equal. clear -Ln. replace n with (nb + (n - nb))%nat by lia. rewrite seq_app, firstn_app, seq_length, Nat.sub_diag. cbn [firstn]. rewrite app_nil_r, firstn_all2; auto. rewrite seq_length. lia. }
      unfold tab. rewrite E, map_map. rewrite (nth_indep _ [] (map im (firstn nb (map (fun k0 => up (Y 0%nat k0)) (seq 0 n))))) by (rewrite map_length, seq_length; auto).
      rewrite (map_nth (fun x => map im (firstn nb (map (fun k0 => up (Y x k0)) (seq 0 n))))), seq_nth by auto. cbn [Nat.add].
      rewrite firstn_map. assert (E2 : firstn nb (seq 0 n) = seq 0 nb). { clear -Ln. replace n with (nb + (n - nb))%nat by lia. rewrite seq_app, firstn_app, seq_length, Nat.sub_diag. cbn [firstn]. rewrite app_nil_r, firstn_all2; auto. rewrite seq_length. lia. }
      rewrite E2, map_map. cbn [up im]. rewrite (nth_indep _ _ (Fin (snd (Y i 0%nat)))) by (rewrite map_length, seq_length; auto).
      rewrite (map_nth (fun x => Fin (snd (Y i x)))), seq_nth by auto. reflexivity.
    - intros i j Hi Hj Ne. specialize (K (fun x => if Z.eqb x (Z.of_nat j) then RtoC 1 else RtoC 0) i ltac:(lia)).
      assert (E : sumn n (fun j0 => (Y i j0 * (if (Z.of_nat j0 =? Z.of_nat j)%Z then RtoC 1 else RtoC 0))%C) = Y i j).
      { rewrite (sumn_ext n _ (fun j0 => if Nat.eqb j0 j then Y i j else RtoC 0)).
        - rewrite (sumn_upd n (fun _ => RtoC 0) j) by lia. unfold sumn. rewrite sumC_zero. ring.
        - intros x _. destruct (Nat.eqb_spec x j), (Z.eqb_spec (Z.of_nat x) (Z.of_nat j)); subst; try lia; ring. }
      cbv beta in K. rewrite E in K. rewrite K. unfold current_out, outflow. f_equal. apply map_ext_in. intros r Ir.
      destruct (sim_init_built _ _ _ _ H0) as (bs & ds & B). pose proof (base_pos' nw dt lamb s0 H0 b Eb) as Hb. pose proof (bt_brs _ _ _ _ _ _ B) as Er. rewrite Eb in Er. apply mapM_ok in Er.
      assert (Ob : exists br, br_of r b br). { clear -Er Hr Hb Ir. induction Er as [|x y l l' E Er IH]; [destruct Ir|]. inversion_clear Hr. destruct Ir as [->|Ir]; [exists y; eapply branch_init_of; eauto|auto]. }
      destruct Ob as (br & Ob). apply outflow_unit; [lia|apply (bo_z _ _ _ Ob)|apply (bo_t0 _ _ _ Ob)].
  Qed.
  Lemma rows_nonzero r : In r (nw_br nw) -> row_z r <> RtoC 0 /\ row_t r <> RtoC 0.
  Proof.
    intros Ir. destruct (sim_init_built _ _ _ _ H0) as (bs & ds & B). pose proof (base_pos' nw dt lamb s0 H0 b Eb) as Hb. pose proof (bt_brs _ _ _ _ _ _ B) as Er. rewrite Eb in Er. apply mapM_ok in Er.
    assert (Ob : exists br, br_of r b br). { clear -Er Hr Hb Ir. induction Er as [|x y l l' E Er IH]; [destruct Ir|]. inversion_clear Hr. destruct Ir as [->|Ir]; [exists y; eapply branch_init_of; eauto|auto]. }
    destruct Ob as (br & Ob). split; [apply (bo_z _ _ _ Ob)|apply (bo_t0 _ _ _ Ob)].
  Qed.
  (** positions of buses *)
  Lemma bus_pos i : In i (m_buses m) -> (bpos m i < m_nbus m)%nat.
  Proof.
    destruct (agent_fields nw dt lamb s0 H0 s Hs asp gam mg k m M) as (_ & _ & _ & _ & _ & _ & _ & E1 & E2 & _). intros I. unfold bpos. rewrite E2, <- (map_length b_id), <- E1. apply pos_of_in. auto.
  Qed.
  Lemma bus_nodup : NoDup (m_buses m).
  Proof.
    destruct (agent_fields nw dt lamb s0 H0 s Hs asp gam mg k m M) as (_ & _ & _ & _ & _ & _ & _ & E1 & _). rewrite E1. destruct (sim_init_built _ _ _ _ H0) as (bs & ds & B). apply sorted_lt_nodup, (bt_bus_sorted B).
  Qed.
  Lemma bpos_inj i j : In i (m_buses m) -> In j (m_buses m) -> bpos m i = bpos m j -> i = j.
  Proof. intros Ii Ij E. apply pos_of_in in Ii as (_ & Ii). apply pos_of_in in Ij as (_ & Ij). unfold bpos in E. congruence. Qed.
  Lemma ends f t : In (f, t) (m_brs m) -> In f (m_buses m) /\ In t (m_buses m) /\ f <> t.
  Proof.
    destruct (agent_fields nw dt lamb s0 H0 s Hs asp gam mg k m M) as (_ & _ & _ & _ & _ & _ & _ & E1 & _ & E2 & _). rewrite E1, E2. intros I.
    destruct (sim_init_built _ _ _ _ H0) as (bs & ds & B). apply in_map_iff in I as (br & E & I). injection E as <- <-.
    pose proof (bt_brs _ _ _ _ _ _ B) as Er. apply mapM_ok in Er. destruct (bt_wf _ _ _ _ _ _ B) as (_ & _ & _ & _ & _ & _ & [WL1 _] & _).
    rewrite (bt_bus_ids B). clear -Er WL1 I. induction Er as [|x y l l' E Er IH]; [destruct I|]. inversion_clear WL1 as [|? ? W1 W2]. destruct I as [->|I]; [|auto].
    apply branch_init_ends in E as (E1 & E2 & E3 & E4). split; [auto|]. split; [auto|]. intros Q. apply W1. congruence.
  Qed.

  Context (st : rstage) (Sh : shaped m st).
  Let th (i : Z) : R := nth (bpos m i) (rs_ang st) 0.
  Lemma th_fin i : In i (m_buses m) -> ix (sg_ang (lift st)) (bpos m i) = Fin (th i).
  Proof. intros I. cbn [lift sg_ang]. apply ix_fin. destruct Sh as (-> & _). apply bus_pos; auto. Qed.
  Lemma p_dc_fin (Y : nat -> nat -> C) i : (forall i j, (i < m_nbus m)%nat -> (j < m_nbus m)%nat -> Bix m i j = Fin (snd (Y i j))) ->
    p_dc m (lift st) i = Fin (sumR (map (fun ft => (if Z.eqb (fst ft) i then snd (Y (bpos m (fst ft)) (bpos m (snd ft))) * (th (fst ft) - th (snd ft)) else 0) +
      (if Z.eqb (snd ft) i then snd (Y (bpos m (snd ft)) (bpos m (fst ft))) * (th (snd ft) - th (fst ft)) else 0)) (m_brs m))).
  Proof.
    intros HB. unfold p_dc. cbv zeta. cbn [n0 nadd nmul nsub XRnum].
    assert (G : forall l, incl l (m_brs m) -> forall a, fold_left (fun acc jk => if Z.eqb (fst jk) i then xadd acc (xmul (Bix m (bpos m (fst jk)) (bpos m (snd jk))) (xsub (ix (sg_ang (lift st)) (bpos m (fst jk))) (ix (sg_ang (lift st)) (bpos m (snd jk)))))
      else if Z.eqb (snd jk) i then xadd acc (xmul (Bix m (bpos m (snd jk)) (bpos m (fst jk))) (xsub (ix (sg_ang (lift st)) (bpos m (snd jk))) (ix (sg_ang (lift st)) (bpos m (fst jk))))) else acc) l (Fin a) =
      Fin (a + sumR (map (fun ft => (if Z.eqb (fst ft) i then snd (Y (bpos m (fst ft)) (bpos m (snd ft))) * (th (fst ft) - th (snd ft)) else 0) +
      (if Z.eqb (snd ft) i then snd (Y (bpos m (snd ft)) (bpos m (fst ft))) * (th (snd ft) - th (fst ft)) else 0)) l))).
    { induction l as [|(f, t) l IH]; intros Il a; [cbn; f_equal; lra|]. cbn [fold_left map fst snd]. rewrite sumR_cons.
      destruct (ends f t (Il _ (or_introl eq_refl))) as (If & It & Ne). assert (Il' : incl l (m_brs m)) by (intros x I; apply Il; right; auto).
      rewrite !th_fin by auto. rewrite !HB by (apply bus_pos; auto). cbn [xsub xmul xadd].
      destruct (Z.eqb_spec f i), (Z.eqb_spec t i); try congruence; cbn [xadd]; rewrite IH by auto; f_equal; lra. }
    rewrite (G (m_brs m) (incl_refl _) 0). f_equal. lra.
  Qed.
  Lemma p_bus_fin q : p_bus m (lift st) q = Fin (sumR (map (fun db => if Nat.eqb (bpos m (snd db)) q then nth (dpos m (fst db)) (rs_p st) 0 else 0) (m_devbus m))).
  Proof.
    unfold p_bus. cbn [n0 nadd XRnum]. rewrite (fold_cond_fin (fun db => Nat.eqb (bpos m (snd db)) q) _ (fun db => nth (dpos m (fst db)) (rs_p st) 0)); [f_equal; lra|].
    intros (d, bb) I _. cbn [fst]. cbn [lift sg_p]. apply ix_fin. destruct Sh as (_ & -> & _).
    destruct (agent_fields nw dt lamb s0 H0 s Hs asp gam mg k m M) as (_ & _ & _ & _ & E1 & E2 & E3 & _). rewrite E3 in I. apply in_map_iff in I as (x & E & I). injection E as <- <-.
    unfold dpos. rewrite E1, E2, <- (map_length d_id). apply pos_of_in, in_map; auto.
  Qed.
  Lemma stage_balance (Y : nat -> nat -> C) pl pg soc : (forall i j, (i < m_nbus m)%nat -> (j < m_nbus m)%nat -> Bix m i j = Fin (snd (Y i j))) -> stage_ok m pl pg soc (lift st) ->
    sumR (rs_p st) = sumR (map (fun ft => (snd (Y (bpos m (fst ft)) (bpos m (snd ft))) - snd (Y (bpos m (snd ft)) (bpos m (fst ft)))) * (th (fst ft) - th (snd ft))) (m_brs m)).
  Proof.
    intros HB Ok. destruct (agent_fields nw dt lamb s0 H0 s Hs asp gam mg k m M) as (_ & _ & _ & _ & E1 & E2 & E3 & E4 & E5 & _).
    set (dc := fun i => sumR (map (fun ft => (if Z.eqb (fst ft) i then snd (Y (bpos m (fst ft)) (bpos m (snd ft))) * (th (fst ft) - th (snd ft)) else 0) +
      (if Z.eqb (snd ft) i then snd (Y (bpos m (snd ft)) (bpos m (fst ft))) * (th (snd ft) - th (fst ft)) else 0)) (m_brs m))).
    set (pb := fun q => sumR (map (fun db => if Nat.eqb (bpos m (snd db)) q then nth (dpos m (fst db)) (rs_p st) 0 else 0) (m_devbus m))).
    assert (Eq : map dc (m_buses m) = map pb (seq 0 (m_nbus m))).
    { pose proof (so_balance _ _ _ _ _ Ok) as Bl. rewrite (map_ext _ (fun i => Fin (dc i))) in Bl by (intros i; apply p_dc_fin; auto). rewrite (map_ext (p_bus m (lift st)) (fun q => Fin (pb q))) in Bl by (intros q; apply p_bus_fin).
      assert (L : List.length (m_buses m) = List.length (seq 0 (m_nbus m))) by (rewrite seq_length, E4, E5, map_length; auto). revert Bl L. clear. generalize (m_buses m) as l, (seq 0 (m_nbus m)) as l'.
      induction l as [|x l IH]; intros [|y l'] Bl L; try discriminate L; [reflexivity|]. cbn [map zip_with eqs] in *. inversion_clear Bl as [|? ? B1 B2]. f_equal; [apply xeqb_Fin, B1|apply IH; [exact B2|cbn in L; lia]]. }
    apply (f_equal sumR) in Eq. unfold dc, pb in Eq. rewrite (sumR_swap _ (m_buses m) (m_brs m)), (sumR_swap _ (seq 0 (m_nbus m)) (m_devbus m)) in Eq.
    assert (R1 : map (fun db => sumR (map (fun a => if Nat.eqb (bpos m (snd db)) a then nth (dpos m (fst db)) (rs_p st) 0 else 0) (seq 0 (m_nbus m)))) (m_devbus m) = rs_p st).
    { transitivity (map (fun db => nth (dpos m (fst db)) (rs_p st) 0) (m_devbus m)).
      - apply map_ext_in. intros (d, bb) I. cbn [fst snd]. apply (sumR_pick Nat.eqb Nat.eqb_eq); [apply seq_NoDup|]. apply in_seq. split; [lia|]. apply bus_pos. rewrite E3 in I. apply in_map_iff in I as (x & E & I). injection E as <- <-.
        destruct (sim_init_built _ _ _ _ H0) as (bs & ds & B). destruct (bt_dev_row B _ I) as (r & _ & Er). apply mk_dev_fields in Er as (_ & _ & _ & Er & _). rewrite E4. auto.
      - unfold dpos. rewrite E1, E3, map_map. cbn [fst]. rewrite <- (map_map d_id (fun i => nth (pos_of (map d_id (sm_devs s0)) i) (rs_p st) 0)). apply map_pos_nth; [eapply init_nodup; eauto|].
        rewrite map_length. destruct Sh as (_ & -> & _). auto. }
    rewrite R1 in Eq. rewrite <- Eq. f_equal. apply map_ext_in. intros (f, t) I. cbn [fst snd]. destruct (ends f t I) as (If & It & Ne). rewrite sumR_plus.
    pose proof bus_nodup as ND. rewrite (sumR_pick Z.eqb Z.eqb_eq) by auto. rewrite (sumR_pick Z.eqb Z.eqb_eq) by auto. ring.
  Qed.
End Balance.
