(** The simulator never raises on networks it can handle: the load flow phase, the reward, transitions and resets. *)
From Coq Require Import Reals Lra Lia Permutation Sorted.
From Coquelicot Require Import Complex.
From Verif Require Import Base Num NumXR LibXR LibC Devices BusBranch CheckNetwork LoadFlow Simulator LibBase LibNum LibSim SpecNet LibInit SpecDev SpecSim SpecQp
  SpecPf SpecNr SpecTotal ProofSim ProofDev ProofSoc ProofObs ProofBr ProofY ProofNr ProofPf ProofGap ProofJac ProofHist ProofUnits ProofVals LibQp ProofSet ProofDevs ProofEnergy ProofBusP.
Local Open Scope string_scope.
Local Open Scope list_scope.
Set Bullet Behavior "Strict Subproofs".

Section Len.
  Context {F : Type} {N : Num F}.
  Lemma norm_inf_total (l : list F) : l <> [] -> exists d, norm_inf l = Ok d.
  Proof. destruct l; [congruence|]. intros _. unfold norm_inf. cbn [map]. eauto. Qed.
  Lemma f_pfe_total (g p q : list F) Y n : List.length g = 2 * n -> List.length p = n -> List.length q = n -> List.length Y = S n ->
    exists Fv, f_pfe g p q Y = Ok Fv /\ List.length Fv = 2 * n.
  Proof.
    intros Lg Lp Lq Ly. unfold f_pfe, construct_vE. replace (Nat.even (List.length g)) with true by (symmetry; apply Nat.even_spec; exists n; lia). cbn [bind].
    unfold mat_vecE. rewrite (construct_len g n Lg), Ly, Nat.eqb_refl. cbn [bind]. rewrite Lp, Lq, !Nat.eqb_refl. cbn [andb negb raise_if bind].
    eexists. split; [reflexivity|]. unfold re_im. rewrite app_length, !map_length. unfold mismatch.
    assert (L : forall (T : Type) (l : list T), List.length (tl l) = List.length l - 1) by (intros T [|? l]; cbn; lia).
    rewrite !zip_with_length, L, zip_with_length. unfold mat_vec. rewrite map_length, (construct_len g n Lg). lia.
  Qed.
  Lemma jac_mat_length e (Y : list (list (cplx F))) v iv n :
    List.length Y = S n -> List.length v = S n -> List.length iv = S n -> List.length (jac_mat e Y v iv) = n.
  Proof.
    intros A B C. unfold jac_mat. assert (L : forall (T : Type) (l : list T), List.length l = S n -> List.length (tl l) = n) by (intros T [|? l]; cbn; lia).
    apply L. rewrite map_length. unfold enumerate. rewrite enum_from_length, !combine_length. lia.
  Qed.
  Lemma jac_len (g : list F) Y n : List.length g = 2 * n -> List.length Y = S n -> List.length (jacobian g Y) = 2 * n.
  Proof.
    intros Lg Ly. unfold jacobian. rewrite app_length, !zip_with_length.
    rewrite !(jac_mat_length _ _ _ _ n); [lia|..]; auto; try (apply construct_len; auto); unfold mat_vec; rewrite map_length; auto.
  Qed.
  Lemma nr_total lin Y (p q : list F) tol n fuel : lin_total lin -> (0 < n)%nat -> List.length p = n -> List.length q = n -> List.length Y = S n ->
    forall k g Fv d, List.length g = 2 * n -> List.length Fv = 2 * n -> exists g' k' d', nr_loop lin Y p q tol fuel k g Fv d = Ok (g', k', d') /\ List.length g' = 2 * n.
  Proof.
    intros Hl Hn Lp Lq Ly. induction fuel as [|fuel IH]; intros k g Fv d Lg Lf; cbn [nr_loop]; [eauto|].
    destruct (nltb tol d); [|eauto]. destruct (Hl (jacobian g Y) Fv) as (dx & -> & Ld); [rewrite Lf; apply jac_len; auto|]. cbn [bind].
    unfold vec_sub. rewrite Lg, Ld, Lf, Nat.eqb_refl. cbn [bind].
    assert (L' : List.length (zip_with nsub g dx) = 2 * n) by (rewrite zip_with_length; lia).
    destruct (f_pfe_total _ p q Y n L' Lp Lq Ly) as (F' & -> & LF). cbn [bind].
    destruct (norm_inf_total F') as (d' & ->); [intros ->; cbn in LF; lia|]. cbn [bind]. apply IH; auto.
  Qed.
  Lemma solve_total lin (p q : list F) Y tol n : lin_total lin -> (0 < n)%nat -> List.length p = n -> List.length q = n -> List.length Y = S n ->
    exists v i st, solve_pfe lin (S n) p q Y tol = Ok (v, i, st) /\ List.length v = S n /\ List.length i = S n.
  Proof.
    intros Hl Hn Lp Lq Ly. unfold solve_pfe. set (g0 := repeat n0 (S n - 1) ++ repeat n1 (S n - 1)).
    assert (L0 : List.length g0 = 2 * n) by (unfold g0; rewrite app_length, !repeat_length; lia).
    unfold newton_raphson. destruct (f_pfe_total g0 p q Y n L0 Lp Lq Ly) as (F0 & -> & LF). cbn [bind].
    destruct (norm_inf_total F0) as (d0 & ->); [intros ->; cbn in LF; lia|]. cbn [bind].
    destruct (nr_total lin Y p q tol n 100 Hl Hn Lp Lq Ly 0 g0 F0 d0 L0 LF) as (g & k & d & -> & Lg). cbn [bind].
    unfold construct_vE. replace (Nat.even (List.length g)) with true by (symmetry; apply Nat.even_spec; exists n; lia). cbn [bind].
    unfold mat_vecE. rewrite (construct_len g n Lg), Ly, Nat.eqb_refl. cbn [bind]. do 3 eexists. split; [reflexivity|]. split; [apply construct_len; auto|unfold mat_vec; rewrite map_length; auto].
  Qed.

  Lemma mapM_total {A B} (f : A -> res B) l : (forall a, In a l -> exists b, f a = Ok b) -> exists l', mapM f l = Ok l'.
  Proof.
    induction l as [|a l IH]; intros H; cbn [mapM]; [eauto|]. destruct (H a (or_introl eq_refl)) as (b & ->). cbn [bind].
    destruct IH as (l' & ->); [intros; apply H; right; auto|]. cbn [bind]. eauto.
  Qed.
  Lemma find_bus_total (bs : list (bus F)) k : In k (map b_id bs) -> exists x, find_bus bs k = Some x.
  Proof.
    intros I. unfold find_bus. destruct (find _ bs) as [x|] eqn:E; [eauto|]. apply in_map_iff in I as (x & Ex & I).
    pose proof (find_none _ _ E x I) as Q. cbn in Q. rewrite Ex in Q. apply Z.eqb_neq in Q. congruence.
  Qed.

  (** the buses other than the slack *)
  Lemma pq_len (bs : list (bus F)) : map b_id bs = map Z.of_nat (seq 0 (List.length bs)) -> List.length (pq_vectors bs) = List.length (filter (fun x => negb (b_slack x)) bs).
  Proof.
    intros E. assert (Fd : forall k x, nth_error bs k = Some x -> find_bus bs (Z.of_nat k) = Some x).
    { intros k x Ek. assert (Ex : b_id x = Z.of_nat k).
      { pose proof (map_nth_error b_id _ _ Ek) as Q. rewrite E in Q. erewrite map_nth_error in Q; [|apply nth_error_nth' with (d := 0%nat); rewrite seq_length; apply nth_error_Some; congruence].
        rewrite seq_nth in Q by (apply nth_error_Some; congruence). injection Q; auto. }
      assert (ND : NoDup (map b_id bs)).
      { rewrite E. apply FinFun.Injective_map_NoDup; [intros a b; lia|apply seq_NoDup]. }
      destruct (find_bus_total bs (Z.of_nat k)) as (y & Ey); [rewrite <- Ex; apply in_map; eapply nth_error_In; eauto|]. rewrite Ey. f_equal.
      unfold find_bus in Ey. apply find_some in Ey as (Iy & Qy). apply Z.eqb_eq in Qy. apply nth_error_In in Ek.
      clear -ND Iy Qy Ek Ex. induction bs as [|a l IH]; [destruct Ek|]. cbn in ND. inversion ND; subst. destruct Iy as [->|Iy], Ek as [->|Ek]; auto.
      - exfalso. apply H1. apply in_map_iff. exists x. split; [congruence|auto].
      - exfalso. apply H1. apply in_map_iff. exists y. split; [congruence|auto]. }
    unfold pq_vectors. clear E. 
    assert (G : forall pre l, bs = pre ++ l -> List.length (flat_map (fun i => match find_bus bs (Z.of_nat i) with Some b => if b_slack b then [] else [(b_p b, b_q b)] | None => [(n0, n0)] end) (seq (List.length pre) (List.length l)))
       = List.length (filter (fun x => negb (b_slack x)) l)).
    { intros pre l; revert pre. induction l as [|x l IH]; intros pre El; [reflexivity|]. cbn [List.length seq flat_map filter].
      rewrite (Fd (List.length pre) x) by (rewrite El, nth_error_app2, Nat.sub_diag by lia; reflexivity). rewrite app_length.
      specialize (IH (pre ++ [x])). rewrite <- app_assoc, app_length in IH. cbn [List.length app] in IH. rewrite Nat.add_1_r in IH. rewrite (IH El).
      destruct (b_slack x); reflexivity. }
    apply (G [] bs eq_refl).
  Qed.
End Len.

(** ---- the load flow and the reward of a constructed simulator ---- *)
Section Flow.
  Context {F : Type} {N : Num F}.
  Context (nw : network F) (dt lamb : F) (s0 : sim F) (H0 : sim_init nw dt lamb = Ok s0) (Sv : solvable_network nw).
  Notation N' := (List.length (nw_bus nw)).

  Lemma sv_ids s : strip s = strip s0 -> map b_id (sm_buses s) = map Z.of_nat (seq 0 N') /\ List.length (sm_buses s) = N'.
  Proof.
    intros S. destruct (sim_init_built _ _ _ _ H0) as (bs & ds & B).
    pose proof (mapM_keys _ br_id b_id _ _ bus_init_id (bt_buses _ _ _ _ _ _ B)) as Ids.
    assert (E : map b_id (sm_buses s) = map b_id (sm_buses s0)).
    { apply strip_buses in S. apply (map_strip strip_bus b_id _ _ (fun _ => eq_refl) S). }
    assert (L : List.length (sm_buses s0) = N').
    { rewrite (bt_sbuses _ _ _ _ _ _ B), map_length. rewrite (Permutation_length (sort_by_perm b_id bs)).
      pose proof (bt_buses _ _ _ _ _ _ B) as M. apply mapM_ok in M. symmetry. clear -M. induction M; cbn; congruence. }
    split.
    - rewrite E. apply sorted_ext; [apply (bt_bus_sorted B)|apply sorted_seq|].
      intros k. rewrite in_ids. rewrite <- (proj1 Sv k), Ids. rewrite (bt_bus_ids B).
      rewrite (in_map_iff (@Some Z)). split.
      + intros I. exists k. split; auto. apply in_map_iff in I as (x & <- & I). apply in_map. apply (Permutation_in _ (sort_by_perm b_id bs)); auto.
      + intros (k' & X & I). injection X as ->. apply in_map_iff in I as (x & <- & I). apply in_map.
        apply (Permutation_in _ (Permutation_sym (sort_by_perm b_id bs))); auto.
    - rewrite <- L. rewrite <- (map_length b_id (sm_buses s)), <- (map_length b_id (sm_buses s0)). congruence.
  Qed.

  Lemma one_filter {A} (P : A -> Prop) (f : A -> bool) l : (forall a, f a = false <-> P a) -> exactly_one P l -> S (List.length (filter f l)) = List.length l.
  Proof.
    intros Hf (l1 & a & l2 & -> & Pa & Fa).
    assert (G : forall l, Forall (fun x => ~ P x) l -> filter f l = l).
    { induction l as [|x l IH]; intros X; [reflexivity|]. inversion X; subst. cbn. destruct (f x) eqn:E; [f_equal; auto|]. apply Hf in E. contradiction. }
    apply Forall_app in Fa as [F1 F2]. rewrite filter_app. cbn [filter]. rewrite (proj2 (Hf a) Pa), !G by auto. rewrite !app_length. cbn. lia.
  Qed.
  Lemma sv_slack s : strip s = strip s0 -> S (List.length (filter (fun x => negb (b_slack x)) (sm_buses s))) = N'.
  Proof.
    intros S. destruct (sim_init_built _ _ _ _ H0) as (bs & ds & B).
    assert (E : map b_type (sm_buses s) = map b_type (sort_by b_id bs)).
    { apply strip_buses in S. rewrite (map_strip strip_bus b_type _ _ (fun _ => eq_refl) S), (bt_sbuses _ _ _ _ _ _ B), map_map. reflexivity. }
    assert (L : forall l : list (bus F), List.length (filter (fun x => negb (b_slack x)) l) = List.length (filter (fun t => negb (Z.eqb t 0)) (map b_type l))).
    { induction l as [|x l IH]; [reflexivity|]. cbn [filter map]. unfold b_slack at 1. destruct (Z.eqb (b_type x) 0); cbn [negb List.length]; congruence. }
    rewrite L, E, <- L.
    assert (L2 : List.length (filter (fun x => negb (b_slack x)) (sort_by b_id bs)) = List.length (filter (fun x => negb (b_slack x)) bs)).
    { pose proof (sort_by_perm b_id bs) as P. clear -P. induction P; cbn [filter]; auto; try congruence.
      - destruct (negb (b_slack x)); cbn; congruence.
      - destruct (negb (b_slack x)), (negb (b_slack y)); reflexivity. }
    rewrite L2.
    destruct (bt_wf _ _ _ _ _ _ B) as (_ & W & _). apply (one_filter slack_bus_row (fun r => negb (optz_eqb (br_type r) (Some 0%Z)))) in W.
    - rewrite <- W. f_equal. pose proof (bt_buses _ _ _ _ _ _ B) as M. apply mapM_ok in M. clear -M.
      induction M as [|r x rs xs E M IH]; auto. cbn [filter]. apply bus_init_type in E. rewrite E. unfold b_slack at 1, optz_eqb at 1.
      destruct (Z.eqb (b_type x) 0); cbn [negb List.length]; congruence.
    - intros r. unfold slack_bus_row. rewrite Bool.negb_false_iff. destruct (br_type r) as [t|]; cbn; [|split; discriminate].
      rewrite Z.eqb_eq. split; congruence.
  Qed.

  Lemma mset_len (Y : list (list (cplx F))) i j f Y' : mset Y i j f = Ok Y' -> List.length Y' = List.length Y.
  Proof.
    unfold mset. destruct (py_index _ i); [|discriminate]. destruct (py_index _ j); [|discriminate]. destruct (nth_error Y n); [|discriminate].
    match goal with |- context [nth_error l ?k] => destruct (nth_error l k) end; [|discriminate]. intros E. injection E as <-. apply list_set_length.
  Qed.
  Lemma y_fold_len brs (Y Y' : list (list (cplx F))) : foldM y_add_branch brs Y = Ok Y' -> List.length Y' = List.length Y.
  Proof.
    revert Y; induction brs as [|x brs IH]; intros Y; cbn [foldM]; [congruence|]. intros E. apply bind_ok in E as (Y1 & E1 & E). apply IH in E. rewrite E.
    unfold y_add_branch in E1. apply bind_ok in E1 as (Y2 & A1 & E1). apply bind_ok in E1 as (Y3 & A2 & E1). apply bind_ok in E1 as (Y4 & A3 & A4).
    apply mset_len in A1, A2, A3, A4. congruence.
  Qed.
  Lemma sv_Y : List.length (sm_Y s0) = N'.
  Proof.
    destruct (sim_init_built _ _ _ _ H0) as (bs & ds & B). pose proof (bt_Y _ _ _ _ _ _ B) as E. unfold build_Y in E.
    rewrite <- (bt_bus_ids B), (proj1 (sv_ids s0 eq_refl)) in E. destruct N' as [|n] eqn:En; [cbn in E; discriminate|].
    cbn [seq map] in E. destruct (Z.ltb _ 0); [discriminate|]. apply y_fold_len in E. rewrite repeat_length in E. rewrite E.
    assert (G : forall m k a, fold_left Z.max (map Z.of_nat (seq k m)) a = Z.max a (if Nat.eqb m 0 then a else Z.of_nat (k + m - 1))).
    { induction m as [|m IH]; intros k a; cbn [seq map fold_left]; [cbn; lia|]. rewrite IH. destruct m; cbn [Nat.eqb]; lia. }
    rewrite G. destruct n; cbn [Nat.eqb]; lia.
  Qed.

  Lemma enum_in {A} (l : list A) k x : In (k, x) (enumerate l) -> (k < List.length l)%nat.
  Proof.
    intros I. unfold enumerate in I. apply In_nth_error in I as (j & E).
    assert (j < List.length l)%nat by (rewrite <- (enum_from_length 0 l); apply nth_error_Some; congruence).
    rewrite enum_from_nth in E. destruct (nth_error l j); cbn in E; [|discriminate]. injection E as <- _. lia.
  Qed.

  Lemma flow_total Or inp s : strip s = strip s0 -> lin_total (o_lin Or) ->
    snd (devs_transition (o_qp Or) (sm_base s) (sm_dt s) inp (sm_devs s)) = Ok tt -> is_ok (snd (transition Or inp s)) = true.
  Proof.
    intros S Hl Dv. unfold transition.
    pose proof (strip_devs_transition (o_qp Or) (sm_base s) (sm_dt s) inp (sm_devs s)) as SD.
    destruct (devs_transition (o_qp Or) (sm_base s) (sm_dt s) inp (sm_devs s)) as [ds [u|x]]; [|discriminate]. cbn [fst] in SD. clear Dv u.
    destruct (sv_ids s S) as [Ids Len]. destruct (sim_init_built _ _ _ _ H0) as (bs0 & ds0 & B).
    destruct Sv as (_ & Sv2 & Sv3). assert (Sn : exists n, N' = Datatypes.S n /\ (0 < n)%nat) by (exists (N' - 1); lia).
    destruct Sn as (n & En & Hn).
    set (bs := map (bus_injection ds) (sm_buses s)).
    set (s2 := sim_set_buses (sim_set_devs s ds) _). change (sm_buses (sim_set_devs s ds)) with (sm_buses s) in s2. fold bs in s2.
    assert (S2 : strip s2 = strip s0).
    { rewrite <- S. unfold strip, s2. cbn. unfold bs. rewrite strip_inj_bus, SD. reflexivity. }
    assert (Lbs : List.length bs = N') by (unfold bs; rewrite map_length; auto).
    assert (Ibs : map b_id bs = map Z.of_nat (seq 0 N')) by (unfold bs; rewrite map_map; cbn; auto).
    unfold solve_load_flow. change (sm_buses s2) with bs. replace (n_bus s2) with N' by (unfold n_bus; cbn; auto).
    change (sm_Y s2) with (sm_Y s). replace (sm_Y s) with (sm_Y s0) by (apply (f_equal sm_Y) in S; cbn in S; auto).
    assert (Lpq : List.length (pq_vectors bs) = n).
    { rewrite pq_len by (rewrite Lbs; auto). pose proof (sv_slack s2 S2) as Q. change (sm_buses s2) with bs in Q. lia. }
    destruct (solve_total (o_lin Or) (map fst (pq_vectors bs)) (map snd (pq_vectors bs)) (sm_Y s0) xtol_pfe n Hl Hn) as (v & i & st & Es & Lv & Li);
      try (rewrite map_length; auto); [rewrite sv_Y; auto|].
    rewrite En, Es. cbn [bind].
    destruct (mapM_total (bus_update v i) (enumerate bs)) as (bs' & Eb).
    { intros [k x] I. apply enum_in in I. unfold bus_update. cbn [fst snd].
      destruct v as [|v0 v]; [discriminate|]. destruct i as [|i0 i]; [discriminate|].
      destruct (nth_res (v0 :: v) k) as [vk|] eqn:Ev; [|apply nth_res_ok in Ev || (rewrite (nth_res_nth _ _ v0) in Ev by lia; discriminate)]. cbn [bind].
      destruct (nth_res (i0 :: i) k) as [ik|] eqn:Ei; [|rewrite (nth_res_nth _ _ i0) in Ei by lia; discriminate]. cbn [bind].
      destruct (b_slack _); cbn; eauto. }
    rewrite Eb. cbn [bind].
    assert (Sbs : map strip_bus bs' = map strip_bus bs).
    { rewrite (mapM_proj _ (fun ib => strip_bus (snd ib)) strip_bus _ _ (strip_bus_update v i) Eb).
      rewrite <- (map_map snd strip_bus). unfold enumerate. rewrite enum_from_map_snd; auto. }
    assert (Ibs' : map b_id bs' = map b_id bs) by (apply (map_strip strip_bus b_id _ _ (fun _ => eq_refl) Sbs)).
    assert (Kb : forall k, In k (map b_id (sm_buses s0)) -> exists x, find_bus bs' k = Some x).
    { intros k I. apply find_bus_total. rewrite Ibs', Ibs. rewrite (proj1 (sv_ids s0 eq_refl)) in I. exact I. }
    destruct (mapM_total (dev_slack_update bs') (sm_devs s2)) as (ds' & Edv).
    { intros dv I. unfold dev_slack_update. destruct (d_slack dv); [|eauto].
      destruct (static_dev _ _ _ S2 I) as (d0 & I0 & E0). destruct (bt_dev_row B _ I0) as (r & Ir & Mr). apply mk_dev_fields in Mr as (_ & _ & _ & Ib & _).
      apply strip_dev_fields in E0 as (_ & E0 & _). rewrite E0 in Ib. destruct (Kb _ Ib) as (x & ->). eauto. }
    rewrite Edv. cbn [bind].
    destruct (mapM_total (branch_flow bs') (sm_branches s2)) as (brs' & Ebr).
    { intros br I. destruct (static_br _ _ _ S2 I) as (b0 & I0 & E0). destruct (bt_br_row B _ I0) as (r & Ir & Mr). apply branch_init_ends in Mr as (_ & _ & If & It).
      unfold strip_br in E0. injection E0 as Ef Et _. rewrite Ef in If. rewrite Et in It. unfold branch_flow.
      destruct (Kb _ If) as (xf & ->). destruct (Kb _ It) as (xt & ->). eauto. }
    rewrite Ebr. cbn [bind].
    unfold compute_reward, penalty_of. cbn [sm_buses sim_set_state sim_set_conv sim_set_branches sim_set_devs sim_set_buses].
    assert (V : Forall (fun x => b_vmin x <> None) bs').
    { apply Forall_forall. intros x I. apply (in_map strip_bus) in I. rewrite Sbs in I. apply in_map_iff in I as (y & Ey & I).
      change bs with (sm_buses s2) in I. destruct (static_bus _ _ _ S2 I) as (b0 & I0 & E0). destruct (bt_bus_row B _ I0) as (r & b1 & Ir & Mr & ->).
      apply strip_bus_fields in Ey as (_ & _ & _ & _ & Ey & _). apply strip_bus_fields in E0 as (_ & _ & _ & _ & E0 & _). rewrite <- Ey, <- E0. cbn [bus_with_bounds b_vmin].
      pose proof (bus_init_type _ _ Mr) as Ty. unfold bus_init in Mr. clear -Mr Ty Ir Sv3.
      inv_ok. cbn [b_vmin b_type] in *.
      destruct (br_vmin r) as [vm|] eqn:Ev; [discriminate|]. exfalso. destruct (br_type r) as [t|] eqn:Et; [|discriminate].
      match goal with H : raise_if (negb (Z.eqb ?z 0)) BusSpecError = Ok _ |- _ => destruct (Z.eqb z 0) eqn:Ez; [|discriminate] end.
      apply Z.eqb_eq in Ez. apply (Sv3 r Ir); [unfold slack_bus_row; congruence|auto]. }
    assert (P : forall l a, Forall (fun x => b_vmin x <> None) l -> exists y, foldM bus_penalty l a = Ok y).
    { induction l as [|x l IH]; intros a Fa; cbn [foldM]; [eauto|]. inversion Fa; subst. unfold bus_penalty at 1. destruct (b_vmin x); [|congruence]. cbn [bind]. apply IH; auto. }
    destruct (P bs' n0 V) as (y & ->). reflexivity.
  Qed.
End Flow.

(** ---- which errors the device phase can raise ---- *)
Section Errs.
  Context {F : Type} {N : Num F}.

  Definition soc_set (ds : list (device F)) : Prop := forall d, In d ds -> is_stor d = true -> d_soc d <> None.

  Lemma dev_soc_set qp base dt inp (d : device F) : (is_stor d = true -> d_soc d <> None) ->
    is_stor (fst (dev_transition qp base dt inp d)) = true -> d_soc (fst (dev_transition qp base dt inp d)) <> None.
  Proof.
    intros H. pose proof (strip_dev_transition qp base dt inp d) as S. apply strip_dev_fields in S as (_ & _ & _ & S & _).
    unfold is_stor at 1. rewrite S. intros I. specialize (H I). unfold dev_transition. unfold is_stor in I. destruct (d_spec d) as [l|g|t]; try discriminate.
    match goal with |- context [match ?m with Ok _ => _ | Err _ => _ end] => destruct m as [[pq c]|e] end; cbn; congruence.
  Qed.
  Lemma devs_soc_set qp base dt inp (ds : list (device F)) : soc_set ds -> soc_set (fst (devs_transition qp base dt inp ds)).
  Proof.
    induction ds as [|x ds IH]; intros H; cbn [devs_transition]; [auto|].
    pose proof (dev_soc_set qp base dt inp x (H x (or_introl eq_refl))) as Q.
    assert (H' : soc_set ds) by (intros d I; apply H; right; auto). specialize (IH H').
    destruct (dev_transition qp base dt inp x) as [x' [u|e]]; cbn [fst] in *; intros d [<-|I]; auto.
    all: apply IH || apply H'; auto.
  Qed.
  Lemma slack_soc_set (bs : list (bus F)) ds ds' : mapM (dev_slack_update bs) ds = Ok ds' -> soc_set ds -> soc_set ds'.
  Proof.
    intros E H d I. apply mapM_ok in E. destruct (Forall2_in_r _ _ _ _ E I) as (x & Ix & Ex). unfold dev_slack_update in Ex.
    destruct (d_slack x); [destruct (find_bus bs (d_bus x)); inv_ok|inv_ok]; cbn; apply (H _ Ix).
  Qed.
  Lemma trans_soc_set Or inp (s : sim F) : soc_set (sm_devs s) -> soc_set (sm_devs (fst (transition Or inp s))).
  Proof.
    intros H. unfold transition. pose proof (devs_soc_set (o_qp Or) (sm_base s) (sm_dt s) inp (sm_devs s) H) as Q.
    destruct (devs_transition (o_qp Or) (sm_base s) (sm_dt s) inp (sm_devs s)) as [ds [u|x]]; [|exact Q]. cbn [fst] in Q.
    unfold solve_load_flow.
    match goal with |- context [match (bind ?m ?k) with _ => _ end] => destruct (bind m k) as [[[[bs ds2] brs] c]|x] eqn:E end; [|exact Q].
    apply bind_ok in E as ([[v i] c'] & E1 & E). apply bind_ok in E as (bs' & E2 & E).
    apply bind_ok in E as (ds2' & E3 & E). apply bind_ok in E as (brs' & E4 & E). inversion E; subst; clear E.
    apply slack_soc_set in E3; [|exact Q].
    match goal with |- context [compute_reward ?z] => destruct (compute_reward z) as [[[r' e'] p']|x] end; exact E3.
  Qed.
  Lemma pre_soc_set inp (ds ds' : list (device F)) : mapM (dev_pre_soc inp) ds = Ok ds' -> soc_set ds'.
  Proof.
    intros E d I. apply mapM_ok in E. destruct (Forall2_in_r _ _ _ _ E I) as (x & Ix & Ex). unfold dev_pre_soc in Ex.
    destruct (d_spec x) eqn:Sp; inv_ok; unfold is_stor; [rewrite Sp; discriminate|rewrite Sp; discriminate|]. cbn. discriminate.
  Qed.
  Lemma set_socs_set base soc (ds : list (device F)) : soc_set ds -> soc_set (fst (set_socs base soc ds)).
  Proof.
    revert soc; induction ds as [|x ds IH]; intros soc H; cbn [set_socs]; [auto|].
    assert (H' : soc_set ds) by (intros d I; apply H; right; auto).
    destruct (is_stor x) eqn:Sx.
    - destruct soc as [|c soc]; [exact H|]. cbn [fst]. intros d [<-|I]; [cbn; discriminate|]. apply (IH soc H'); auto.
    - cbn [fst]. intros d [<-|I]; [congruence|]. apply (IH soc H'); auto.
  Qed.
  Lemma reset_soc_set Or init (s : sim F) : soc_set (sm_devs s) \/ is_ok (snd (sim_reset Or init s)) = true -> soc_set (sm_devs (fst (sim_reset Or init s))).
  Proof.
    intros H. unfold sim_reset in *. destruct (reset_inputs _ _ _ _ _ _ _) as [inp|e]; [|destruct H; [exact H|discriminate]].
    destruct (mapM (dev_pre_soc inp) (sm_devs s)) as [ds|e] eqn:E; [|destruct H; [exact H|discriminate]].
    apply pre_soc_set in E. pose proof (trans_soc_set Or inp (sim_set_devs (sim_set_state s None) ds) E) as Q.
    destruct (transition Or inp _) as [s1 [[[[[st r] e] pen] conv]|e]]; [|exact Q]. cbn [fst] in Q.
    pose proof (set_socs_set (sm_base s) (slice (2 * n_device s) (n_des s) init) _ Q) as Q'.
    destruct (set_socs _ _ (sm_devs s1)) as [ds2 [u|x]]; exact Q'.
  Qed.
  Lemma run_soc_set (s : sim F) cs : soc_set (sm_devs s) -> soc_set (sm_devs (run s cs)).
  Proof.
    unfold run. revert s; induction cs as [|c cs IH]; intros s H; [exact H|]. cbn [fold_left]. apply IH. destruct c; cbn.
    - apply reset_soc_set; auto.
    - apply trans_soc_set; auto.
  Qed.

  Context (nw : network F) (dt lamb : F) (s0 : sim F) (H0 : sim_init nw dt lamb = Ok s0).
  Lemma stor_eff r base (t : stor_spec F) : stor_check r base = Ok t -> s_eff t = match dr_eff r with Some e => e | None => n1 end.
  Proof.
    unfold stor_check. intros H. apply bind_ok in H as (pmax & _ & H). apply bind_ok in H as (pmin & _ & H). cbv zeta in H.
    do 10 (apply bind_ok in H; destruct H as (? & _ & H)).
    apply bind_ok in H as (socmin & _ & H). apply bind_ok in H as (socmax & _ & H).
    apply bind_ok in H as (? & _ & H). apply bind_ok in H as (eff & H3 & H). injection H as <-. cbn.
    destruct (dr_eff r) as [v|]; [destruct (_ || _)|]; inv_ok; auto.
  Qed.
  Lemma dev_fails Or inp s d e : strip s = strip s0 -> In d (sm_devs s) -> (is_stor d = true -> d_soc d <> None) ->
    snd (dev_transition (o_qp Or) (sm_base s) (sm_dt s) inp d) = Err e -> fails nw dt Or inp e.
  Proof.
    intros S I Sc. destruct (sim_init_built _ _ _ _ H0) as (bs & ds0 & B).
    destruct (static_dev _ _ _ S I) as (d0 & I0 & E0). destruct (bt_dev_row B _ I0) as (r & Ir & Mr).
    pose proof (mk_dev_fields _ _ _ _ Mr) as (M1 & _ & M3 & _). pose proof (mk_dev_kind _ _ _ _ Mr) as (K1 & K2 & K3 & _).
    pose proof (fun t => mk_dev_stor _ _ _ _ t Mr) as Ms.
    apply strip_dev_fields in E0. destruct E0 as (D1 & D2 & D3 & D4 & _).
    assert (Edt : sm_dt s = dt). { apply (f_equal sm_dt) in S. cbn in S. rewrite S. apply B. }
    rewrite Edt. unfold is_load, is_nsgen, is_gen, is_stor, d_slack in *. rewrite D3, D4 in *. rewrite D1 in M1.
    assert (Ms' : forall m : list (Z * F), dgetE Z.eqb m (d_id d) = Err e -> (all_named nw inp -> named m (d_id d)) -> fails nw dt Or inp e).
    { intros m E Nm. unfold dgetE in E. destruct (dget Z.eqb m (d_id d)) eqn:Em; [discriminate|]. injection E as <-.
      apply f_missing. intros A. apply Nm in A. unfold named in A. congruence. }
    unfold dev_transition. destruct (d_spec d) as [l|g|t] eqn:Sp.
    - destruct (dgetE Z.eqb (ti_load inp) (d_id d)) eqn:E; [discriminate|]. cbn [snd]. intros X; injection X as ->. apply (Ms' _ E).
      intros A. apply (proj1 (A r _ Ir M1)). rewrite M3. symmetry in K1. apply zmem_spec in K1 as [K1|[]]. congruence.
    - unfold d_slack. destruct (Z.eqb (d_type d) 0) eqn:Sl; [discriminate|].
      assert (Ty : dr_type r = Some 1%Z \/ dr_type r = Some 2%Z).
      { rewrite M3. cbn in K2. destruct (Z.eqb_spec (d_type d) 1) as [->|]; auto. destruct (Z.eqb_spec (d_type d) 2) as [->|]; auto. discriminate. }
      destruct (dgetE Z.eqb (ti_pot inp) (d_id d)) eqn:E; [|cbn [snd]; intros X; injection X as ->; apply (Ms' _ E); intros A; apply (proj1 (proj2 (A r _ Ir M1)) Ty)].
      destruct (dgetE Z.eqb (ti_p inp) (d_id d)) eqn:Ep; [|cbn; intros X; injection X as ->; apply (Ms' _ Ep); intros A; apply (proj1 (proj2 (A r _ Ir M1)) Ty)].
      destruct (dgetE Z.eqb (ti_q inp) (d_id d)) eqn:Eq; [|cbn; intros X; injection X as ->; apply (Ms' _ Eq); intros A; apply (proj1 (proj2 (A r _ Ir M1)) Ty)].
      cbn [bind]. match goal with |- context [gen_map_pq ?q ?g ?a ?u ?v] => destruct (gen_map_pq q g a u v) eqn:G end; [discriminate|].
      cbn [snd]. intros X; injection X as ->. unfold gen_map_pq in G. eapply f_solver; eauto.
    - assert (Ty : dr_type r = Some 3%Z) by (rewrite M3; symmetry in K3; apply zmem_spec in K3 as [K3|[]]; congruence).
      specialize (Sc eq_refl). destruct (d_soc d) as [c|]; [|congruence].
      destruct (dgetE Z.eqb (ti_p inp) (d_id d)) eqn:Ep; [|cbn; intros X; injection X as ->; apply (Ms' _ Ep); intros A; apply (proj2 (proj2 (A r _ Ir M1)) Ty)].
      destruct (dgetE Z.eqb (ti_q inp) (d_id d)) eqn:Eq; [|cbn; intros X; injection X as ->; apply (Ms' _ Eq); intros A; apply (proj2 (proj2 (A r _ Ir M1)) Ty)].
      cbn [bind stor_map_pq]. pose proof (stor_eff _ _ _ (Ms t eq_refl)) as Ef. unfold stor_rows, pydiv. rewrite Ef.
      destruct (neqb (nmul dt _) n0) eqn:Z1; [cbn; intros X; injection X as <-; eapply f_zero; eauto|]. cbn [bind].
      destruct (neqb dt n0) eqn:Z2; [cbn; intros X; injection X as <-; eapply f_zero; eauto|]. cbn [bind].
      match goal with |- context [o_qp Or ?a ?u] => destruct (o_qp Or a u) eqn:G end; [discriminate|].
      cbn. intros X; injection X as ->. eapply f_solver; eauto.
  Qed.
  Lemma devs_fails Or inp s : strip s = strip s0 -> forall ds e, incl ds (sm_devs s) -> soc_set ds ->
    snd (devs_transition (o_qp Or) (sm_base s) (sm_dt s) inp ds) = Err e -> fails nw dt Or inp e.
  Proof.
    intros S. induction ds as [|x ds IH]; intros e I Sc; [discriminate|]. cbn [devs_transition].
    pose proof (fun e => dev_fails Or inp s x e S (I x (or_introl eq_refl)) (Sc x (or_introl eq_refl))) as Q.
    destruct (dev_transition _ _ _ _ x) as [x' [u|e']]; cbn [snd] in *; [|intros X; injection X as ->; auto].
    apply IH; [intros y Hy; apply I; right; auto|intros y Hy; apply Sc; right; auto].
  Qed.
  Lemma trans_fails Or inp s e : solvable_network nw -> lin_total (o_lin Or) -> strip s = strip s0 -> soc_set (sm_devs s) ->
    snd (transition Or inp s) = Err e -> fails nw dt Or inp e.
  Proof.
    intros Sv Hl S Sc E. destruct (snd (devs_transition (o_qp Or) (sm_base s) (sm_dt s) inp (sm_devs s))) as [[]|x] eqn:Ed.
    - pose proof (flow_total nw dt lamb s0 H0 Sv Or inp s S Hl Ed) as Q. rewrite E in Q. discriminate.
    - pose proof (devs_fails Or inp s S (sm_devs s) x (incl_refl _) Sc Ed) as Q. replace e with x; auto.
      unfold transition in E. destruct (devs_transition _ _ _ _ _) as [ds [u|y]]; cbn [snd] in Ed; [discriminate|]. cbn in E. congruence.
  Qed.
End Errs.

(** ---- reset: the inputs are read from the vector ---- *)
Section Reset.
  Context {F : Type} {N : Num F}.
  Lemma dget_app_some (m : list (Z * F)) i x y : dget Z.eqb m i = Some y -> dget Z.eqb (m ++ x) i = Some y.
  Proof. induction m as [|[k v] m IH]; cbn; [discriminate|]. destruct (Z.eqb _ _); auto. Qed.
  Lemma named_app (m : list (Z * F)) i x : named m i -> named (m ++ x) i.
  Proof. unfold named. destruct (dget Z.eqb m i) as [y|] eqn:E; [|congruence]. intros _. rewrite (dget_app_some _ _ _ _ E). discriminate. Qed.
  Lemma named_last (m : list (Z * F)) i p : named (m ++ [(i, p)]) i.
  Proof.
    unfold named. induction m as [|[k v] m IH]; cbn; [rewrite Z.eqb_refl; discriminate|]. destruct (Z.eqb _ _); [discriminate|auto].
  Qed.
  Lemma dget_all (P : F -> Prop) (m : list (Z * F)) i x : Forall (fun kv => P (snd kv)) m -> dget Z.eqb m i = Some x -> P x.
  Proof. induction 1 as [|[k v] m A _ IH]; cbn; [discriminate|]. destruct (Z.eqb _ _); [intros E; injection E as <-; auto|auto]. Qed.

  Definition reads_ok (inp : tr_in F) (d : device F) : Prop :=
    if is_load d then named (ti_load inp) (d_id d) else if d_slack d then True
    else named (ti_p inp) (d_id d) /\ named (ti_q inp) (d_id d) /\ (is_gen d = true -> named (ti_pot inp) (d_id d)).
  Definition vals_ok (P : F -> Prop) (inp : tr_in F) : Prop :=
    Forall (fun kv => P (snd kv)) (ti_load inp) /\ Forall (fun kv => P (snd kv)) (ti_pot inp) /\
    Forall (fun kv => P (snd kv)) (ti_p inp) /\ Forall (fun kv => P (snd kv)) (ti_q inp).
  Definition inp_le (a b : tr_in F) : Prop := forall i,
    (named (ti_load a) i -> named (ti_load b) i) /\ (named (ti_pot a) i -> named (ti_pot b) i) /\
    (named (ti_p a) i -> named (ti_p b) i) /\ (named (ti_q a) i -> named (ti_q b) i).

  Lemma nth_res_total {A} (P : A -> Prop) (l : list A) i : Forall P l -> (i < List.length l)%nat -> exists x, nth_res l i = Ok x /\ P x.
  Proof.
    intros H L. destruct (nth_error l i) as [x|] eqn:E; [|apply nth_error_None in E; lia].
    exists x. split; [apply nth_res_ok; auto|]. rewrite Forall_forall in H. apply H. eapply nth_error_In; eauto.
  Qed.
  Lemma reads_le a b d : inp_le a b -> reads_ok a d -> reads_ok b d.
  Proof.
    intros H. destruct (H (d_id d)) as (A1 & A2 & A3 & A4). unfold reads_ok. destruct (is_load d); auto. destruct (d_slack d); auto. intros (B1 & B2 & B3); auto.
  Qed.
  Lemma le_trans a b c : inp_le a b -> inp_le b c -> inp_le a c.
  Proof. intros A B i. destruct (A i) as (? & ? & ? & ?), (B i) as (? & ? & ? & ?). auto 10. Qed.

  Lemma reset_reads (P : F -> Prop) Pl Ql Pm ds : Forall P Pl -> Forall P Ql -> Forall P Pm -> forall idx gidx inp, vals_ok P inp ->
    (idx + List.length ds <= List.length Pl)%nat -> (idx + List.length ds <= List.length Ql)%nat ->
    (gidx + List.length (filter is_nsgen ds) <= List.length Pm)%nat ->
    exists inp', reset_inputs ds idx gidx Pl Ql Pm inp = Ok inp' /\ vals_ok P inp' /\ inp_le inp inp' /\ forall d, In d ds -> reads_ok inp' d.
  Proof.
    intros HP HQ HM. induction ds as [|d ds IH]; intros idx gidx inp V L1 L2 L3; cbn [reset_inputs].
    { exists inp. repeat split; auto; apply V || (intros d []). }
    cbn [List.length filter] in L1, L2, L3. destruct V as (V1 & V2 & V3 & V4).
    assert (Sn : forall (m : list (Z * F)) p, Forall (fun kv => P (snd kv)) m -> P p -> Forall (fun kv => P (snd kv)) (m ++ [(d_id d, p)])).
    { intros m p A B. apply Forall_app. split; auto. }
    assert (Fin : forall inp1 idx' gidx', vals_ok P inp1 -> inp_le inp inp1 -> reads_ok inp1 d ->
       (idx' + List.length ds <= List.length Pl)%nat -> (idx' + List.length ds <= List.length Ql)%nat -> (gidx' + List.length (filter is_nsgen ds) <= List.length Pm)%nat ->
       exists inp', reset_inputs ds idx' gidx' Pl Ql Pm inp1 = Ok inp' /\ vals_ok P inp' /\ inp_le inp inp' /\ forall d', In d' (d :: ds) -> reads_ok inp' d').
    { intros inp1 idx' gidx' A B C D1 D2 D3. destruct (IH idx' gidx' inp1 A D1 D2 D3) as (inp' & E1 & E2 & E3 & E4). exists inp'. repeat split; auto; try apply E2.
      - apply (le_trans _ _ _ B E3).
      - apply (le_trans _ _ _ B E3).
      - apply (le_trans _ _ _ B E3).
      - apply (le_trans _ _ _ B E3).
      - intros d' [<-|I]; auto. eapply reads_le; eauto. }
    destruct (is_load d) eqn:Ld.
    - destruct (nth_res_total P Pl idx HP ltac:(lia)) as (p & -> & Pp). cbn [bind]. apply Fin.
      + repeat split; cbn; auto.
      + intros i. cbn. repeat split; auto. apply named_app.
      + unfold reads_ok. rewrite Ld. cbn. apply named_last.
      + lia.
      + lia.
      + destruct (is_nsgen d); cbn in L3; lia.
    - destruct (d_slack d) eqn:Sl.
      + apply Fin; [repeat split; auto|intros i; auto|unfold reads_ok; rewrite Ld, Sl; auto|lia|lia|destruct (is_nsgen d); cbn in L3; lia].
      + destruct (nth_res_total P Pl idx HP ltac:(lia)) as (p & -> & Pp). cbn [bind].
        destruct (nth_res_total P Ql idx HQ ltac:(lia)) as (q & -> & Pq). cbn [bind].
        destruct (is_gen d) eqn:Gd.
        * unfold is_nsgen in L3. rewrite Gd, Sl in L3. cbn in L3.
          destruct (nth_res_total P Pm gidx HM ltac:(lia)) as (pm & -> & Ppm). cbn [bind ti_load ti_pot ti_p ti_q]. apply Fin.
          -- repeat split; cbn; auto.
          -- intros i. cbn. repeat split; auto; apply named_app.
          -- unfold reads_ok. rewrite Ld, Sl. cbn. repeat split; intros; apply named_last.
          -- lia.
          -- lia.
          -- unfold is_nsgen. lia.
        * apply Fin.
          -- repeat split; cbn; auto.
          -- intros i. cbn. repeat split; auto; apply named_app.
          -- unfold reads_ok. rewrite Ld, Sl. cbn. repeat split; try apply named_last. congruence.
          -- lia.
          -- lia.
          -- destruct (is_nsgen d); cbn in L3; lia.
  Qed.

  Context (nw : network F) (dt lamb : F) (s0 : sim F) (H0 : sim_init nw dt lamb = Ok s0).
  Lemma count_rows (p : device F -> bool) types s : (forall base ids r d, mk_dev base ids r = Ok d -> p d = zmem (d_type d) types) ->
    (forall d, p (strip_dev d) = p d) -> strip s = strip s0 -> List.length (filter p (sm_devs s)) = rows_of types nw.
  Proof.
    intros K Ps S. destruct (sim_init_built _ _ _ _ H0) as (bs & ds0 & B).
    pose proof (strip_dev_filter p _ _ Ps (strip_devs _ _ S)) as L. apply (f_equal (@List.length _)) in L. rewrite !map_length in L. rewrite L.
    rewrite (bt_sdevs _ _ _ _ _ _ B). pose proof (sort_by_perm d_id ds0) as Pm.
    transitivity (List.length (filter p ds0)).
    { clear -Pm. induction Pm; cbn [filter]; auto; try congruence.
      - destruct (p x); cbn; congruence.
      - destruct (p x), (p y); reflexivity. }
    pose proof (bt_devs _ _ _ _ _ _ B) as M. apply mapM_ok in M. unfold rows_of. clear -M K.
    induction M as [|r d rs ds E M IH]; auto. cbn [filter]. rewrite (K _ _ _ _ E). apply mk_dev_fields in E as (_ & _ & E & _). rewrite E.
    destruct (zmem (d_type d) types); cbn [List.length]; congruence.
  Qed.
  Lemma counts s : strip s = strip s0 -> n_device s = List.length (nw_dev nw) /\ n_des s = rows_of [3%Z] nw /\ n_nsgen s = rows_of [1%Z; 2%Z] nw.
  Proof.
    intros S. split; [|split].
    - destruct (sim_init_built _ _ _ _ H0) as (bs & ds0 & B). unfold n_device. pose proof (strip_devs _ _ S) as L. apply (f_equal (@List.length _)) in L. rewrite !map_length in L. rewrite L.
      rewrite (bt_sdevs _ _ _ _ _ _ B), (Permutation_length (sort_by_perm d_id ds0)). pose proof (bt_devs _ _ _ _ _ _ B) as M. apply mapM_length in M. auto.
    - apply count_rows; auto. intros base ids r d E. apply (mk_dev_kind _ _ _ _ E).
    - apply count_rows; auto. intros base ids r d E. apply (mk_dev_kind _ _ _ _ E).
  Qed.

  (** The inputs that [reset] passes on and the devices it starts from. *)
  Lemma reset_start (P : F -> Prop) init s : strip s = strip s0 -> Forall P init -> (reset_size nw <= List.length init)%nat ->
    exists inp ds, reset_inputs (sm_devs s) 0 0 (firstn (n_device s) init) (slice (n_device s) (n_device s) init)
        (slice (2 * n_device s + n_des s) (n_nsgen s) init) (mkIn [] [] [] []) = Ok inp /\
      mapM (dev_pre_soc inp) (sm_devs s) = Ok ds /\ map strip_dev ds = map strip_dev (sm_devs s) /\
      vals_ok P inp /\ all_named nw inp.
  Proof.
    intros S Fa L. destruct (counts s S) as (C1 & C2 & C3). unfold reset_size in L.
    assert (Fs : forall a n, Forall P (slice a n init)).
    { intros a n. apply Forall_forall. intros x I. rewrite Forall_forall in Fa. apply Fa. unfold slice in I.
      apply (In_nth_error) in I as (k & E). assert (k < n)%nat. { apply (Nat.lt_le_trans _ (List.length (firstn n (skipn a init)))); [apply nth_error_Some; congruence|apply firstn_le_length]. }
      eapply nth_error_In. eapply slice_nth. unfold slice. exact E. }
    assert (Ls : forall a n, (a + n <= List.length init)%nat -> List.length (slice a n init) = n).
    { intros a n Q. unfold slice. rewrite firstn_length, skipn_length. lia. }
    destruct (reset_reads P (firstn (n_device s) init) (slice (n_device s) (n_device s) init) (slice (2 * n_device s + n_des s) (n_nsgen s) init) (sm_devs s)
       (Fs 0 (n_device s)) (Fs _ _) (Fs _ _) 0 0 (mkIn [] [] [] [])) as (inp & E1 & E2 & _ & E3).
    - repeat split; constructor.
    - change (firstn (n_device s) init) with (slice 0 (n_device s) init). rewrite Ls by lia. unfold n_device. lia.
    - rewrite Ls by lia. unfold n_device. lia.
    - rewrite Ls by lia. unfold n_nsgen. lia.
    - destruct (mapM_total (dev_pre_soc inp) (sm_devs s)) as (ds & Ed).
      { intros d I. unfold dev_pre_soc. specialize (E3 d I). unfold reads_ok, is_load in E3. destruct (d_spec d) eqn:Sp; eauto.
        destruct (sim_init_built _ _ _ _ H0) as (bs & ds0 & B). destruct (static_dev _ _ _ S I) as (d0 & I0 & E0). destruct (bt_dev_row B _ I0) as (r & Ir & Mr).
        pose proof (mk_dev_kind _ _ _ _ Mr) as (_ & _ & K3 & _ & _ & _). apply strip_dev_fields in E0. destruct E0 as (D1 & D2 & D3 & D4 & _).
        unfold is_stor in K3. rewrite D4, Sp, D3 in K3. symmetry in K3. apply zmem_spec in K3 as [K3|[]]. unfold d_slack in E3. rewrite <- K3 in E3. cbn in E3.
        destruct E3 as (E3 & _). unfold named in E3. unfold dgetE. destruct (dget Z.eqb (ti_p inp) (d_id d)); [cbn; eauto|congruence]. }
      exists inp, ds. split; auto. split; auto. split; [eapply mapM_proj; eauto using strip_pre_soc|]. split; auto.
      intros r i Ir Ei. destruct (sim_init_built _ _ _ _ H0) as (bs & ds0 & B). destruct (bt_dev_row_inv B r Ir) as (d0 & I0 & Mr).

      assert (X : exists d, In d (sm_devs s) /\ strip_dev d = strip_dev d0).
      { pose proof (strip_devs _ _ S) as Q. apply (in_map strip_dev) in I0. rewrite <- Q in I0. apply in_map_iff in I0 as (d & A & A'). eauto. }
      destruct X as (d & I & E0). specialize (E3 d I).
      pose proof (mk_dev_fields _ _ _ _ Mr) as (M1 & _ & M3 & _). pose proof (mk_dev_kind _ _ _ _ Mr) as (K1 & K2 & K3 & _ & K4 & _).
      apply strip_dev_fields in E0. destruct E0 as (D1 & D2 & D3 & D4 & _). assert (Eid : d_id d = i) by congruence. clear Mr I0 I.
      unfold reads_ok, is_load, is_nsgen, is_stor, is_gen, d_slack in *. rewrite Eid in E3. rewrite D4 in *. rewrite D3 in *. rewrite M3.
      split; [|split].
      + intros T. injection T as T. rewrite T in *. cbn in K1. destruct (d_spec d0); try discriminate. exact E3.
      + intros T. assert (T' : zmem (d_type d0) [1%Z; 2%Z] = true) by (destruct T as [T|T]; injection T as ->; reflexivity). rewrite T' in K2.
        destruct (d_spec d0); try discriminate. cbn in K2. destruct (Z.eqb (d_type d0) 0); [discriminate|]. destruct E3 as (A & A' & A''); auto.
      + intros T. injection T as T. rewrite T in *. cbn in K3. destruct (d_spec d0); try discriminate. cbn in E3. destruct E3 as (A & A' & _). auto.
  Qed.

  Lemma set_socs_total base soc (ds : list (device F)) : (List.length (filter is_stor ds) <= List.length soc)%nat -> snd (set_socs base soc ds) = Ok tt.
  Proof.
    revert soc; induction ds as [|d ds IH]; intros soc L; cbn [set_socs]; [reflexivity|]. cbn [filter] in L. destruct (is_stor d).
    - destruct soc as [|c soc]; cbn in L; [lia|]. cbn [snd]. apply IH. lia.
    - cbn [snd]. apply IH; auto.
  Qed.
  Lemma reset_result Or init s : strip s = strip s0 -> (reset_size nw <= List.length init)%nat ->
    exists inp ds, mapM (dev_pre_soc inp) (sm_devs s) = Ok ds /\ map strip_dev ds = map strip_dev (sm_devs s) /\ all_named nw inp /\
      (forall P : F -> Prop, Forall P init -> vals_ok P inp) /\
      (is_ok (snd (sim_reset Or init s)) = is_ok (snd (transition Or inp (sim_set_devs (sim_set_state s None) ds)))) /\
      (forall e, snd (sim_reset Or init s) = Err e -> snd (transition Or inp (sim_set_devs (sim_set_state s None) ds)) = Err e).
  Proof.
    intros S L. destruct (reset_start (fun _ => True) init s S) as (inp & ds & E1 & E2 & E3 & E4 & E5); auto; [apply Forall_forall; auto|].
    exists inp, ds. split; auto. split; auto. split; auto. split.
    { intros P HP. destruct (reset_start P init s S HP L) as (inp' & ds' & X1 & X2 & X3 & X4 & X5). rewrite E1 in X1. injection X1 as <-. auto. }
    unfold sim_reset. rewrite E1, E2.
    pose proof (strip_transition Or inp (sim_set_devs (sim_set_state s None) ds)) as St. rewrite strip_set_devs in St by (rewrite E3; reflexivity).
    change (strip (sim_set_state s None)) with (strip s) in St. rewrite S in St.
    destruct (transition Or inp _) as [s1 [[[[[st r] e] pen] conv]|e]]; cbn [fst snd] in *; [|split; [reflexivity|intros ? X; injection X as ->; reflexivity]].
    pose proof (set_socs_total (sm_base s) (slice (2 * n_device s) (n_des s) init) (sm_devs s1)) as Q.
    destruct (counts s S) as (C1 & C2 & C3). destruct (counts s1 St) as (C1' & C2' & C3'). unfold reset_size in L.
    destruct (set_socs _ _ (sm_devs s1)) as [ds2 [u|x]]; [split; [reflexivity|discriminate]|]. exfalso. cbn [snd] in Q.
    enough (Err x = Ok tt) by discriminate. apply Q. unfold slice. rewrite firstn_length, skipn_length. unfold n_des in C2' at 1. lia.
  Qed.
End Reset.

(** ---- exact arithmetic: nothing raises ---- *)
Local Open Scope R_scope.
Section Exact.
  Context (nw : network XR) (dt lamb : XR) (s0 : sim XR) (H0 : sim_init nw dt lamb = Ok s0) (b : R) (Eb : nw_base nw = Fin b).
  Context (d : R) (Ed : dt = Fin d) (Hd : 0 < d) (Mp : Forall mappable (nw_dev nw)) (Sv : solvable_network nw).

  Definition soc_in (ds : list (device XR)) : Prop := forall dv t, In dv ds -> d_spec dv = SStor t ->
    exists c, d_soc dv = Some (Fin c) /\ xle (s_socmin t) (Fin c) /\ xle (Fin c) (s_socmax t).

  Lemma dev_ok Or inp s : strip s = strip s0 -> good_oracles Or -> usable_inputs nw inp -> soc_in (sm_devs s) ->
    forall dv, In dv (sm_devs s) -> snd (dev_transition (o_qp Or) (sm_base s) (sm_dt s) inp dv) = Ok tt.
  Proof.
    intros St (Q & C & _) U Soc dv I. pose proof (base_pos nw dt lamb s0 H0 b Eb) as Hb.
    rewrite (strip_base _ _ St), (strip_dt _ _ St), (init_base _ _ _ _ H0), (init_dt _ _ _ _ H0), Eb, Ed.
    destruct (sim_init_built _ _ _ _ H0) as (bs & ds0 & B).
    destruct (static_dev _ _ _ St I) as (d0 & I0 & E0). destruct (bt_dev_row B _ I0) as (r & Ir & Mr).
    rewrite Eb in Mr. pose proof (spec_of_row s0 b r d0 Mr) as SP.
    pose proof (mk_dev_fields _ _ _ _ Mr) as (M1 & M2 & M3 & _). apply strip_dev_fields in E0. destruct E0 as (D1 & D2 & D3 & D4 & _).
    rewrite Forall_forall in Mp. destruct (Mp r Ir) as (Hf & Lg & Ls).
    destruct (U r (d_id d0) Ir M1) as (U1 & U2 & U3). unfold has_num in *. rewrite D1 in *. rewrite D3, D4 in SP. rewrite D3 in M3. rewrite M3 in *.
    unfold dev_transition. destruct (d_spec dv) as [l|g|t] eqn:Sp.
    - destruct SP as [T _]. rewrite T in *. destruct (U1 eq_refl) as (x & X). unfold dgetE. rewrite X. reflexivity.
    - destruct SP as [T G]. destruct (d_slack dv) eqn:Sl; [reflexivity|]. unfold d_slack in Sl. rewrite Sl in G. apply Z.eqb_neq in Sl.
      assert (T' : Some (d_type dv) = Some 1%Z \/ Some (d_type dv) = Some 2%Z) by (destruct T as [T|[T|[T|[]]]]; rewrite <- T in *; auto; congruence).
      destruct (U2 T') as ((x & X) & (u & Xu) & (v & Xv)). unfold dgetE. rewrite X, Xu, Xv. cbn [bind].
      cbn [ndiv XRnum]. rewrite !xdiv_Fin by lra. cbn [d_set_ppot d_ppot].
      set (pot := gen_clip_ppot g _).
      assert (Lp : xle (g_pmin g) pot).
      { destruct (gen_is_valid b Hb r Hf g G) as (_ & V1 & V2 & _). assert (V := xle_trans _ _ _ V1 V2). apply (xle_pu b Hb) in V.
        destruct (gen_check_vals b Hb r false g G) as [G1 G2 _ _ _ _ _ _ _ _ _]. cbn [PMIN] in V. cbn in G1. rewrite <- G1, <- G2 in V.
        unfold pot, gen_clip_ppot. destruct (np_clip_in (Fin (x / b)) (g_pmin g) (g_pmax g)) as [A1 A2]; auto; [apply xisnan_false; discriminate|].
        rewrite np_clip_id; auto. }
      destruct (C06_gen_lemma b Hb r Hf g pot (o_qp Or) (u / b) (v / b) G (Lg T') Lp Q C) as (_ & p & q & E). rewrite E. reflexivity.
    - destruct SP as [T G]. rewrite T in *. destruct (U3 eq_refl) as ((u & Xu) & (v & Xv)). unfold dgetE. rewrite Xu, Xv. cbn [bind].
      cbn [ndiv XRnum]. rewrite !xdiv_Fin by lra.
      destruct (Ls eq_refl) as [Ls1 Ls2]. destruct (fin_pos_eff r Hf Ls2) as (e & Ee & He).
      destruct (Soc dv t I Sp) as (c & Sc & W1 & W2). rewrite Sc.
      destruct (C06_stor_lemma b Hb r Hf t c d e (o_qp Or) (u / b) (v / b) G Ls1 Ee He Hd W1 W2 Q C) as (rows & _ & _ & p & q & E). rewrite E. reflexivity.
  Qed.
  Lemma trans_ok_exact Or inp s : strip s = strip s0 -> good_oracles Or -> usable_inputs nw inp -> soc_in (sm_devs s) ->
    is_ok (snd (transition Or inp s)) = true.
  Proof.
    intros S G U Soc. eapply flow_total; eauto; [apply G|]. apply devs_transition_all. intros dv I. eapply dev_ok; eauto.
  Qed.

  (** the limits of a storage unit are numbers *)
  Lemma stor_lims s dv t : strip s = strip s0 -> In dv (sm_devs s) -> d_spec dv = SStor t ->
    exists lo hi e, s_socmin t = Fin lo /\ s_socmax t = Fin hi /\ lo <= hi /\ s_eff t = Fin e /\ 0 < e.
  Proof.
    intros St I Sp. pose proof (base_pos nw dt lamb s0 H0 b Eb) as Hb. destruct (sim_init_built _ _ _ _ H0) as (bs & ds0 & B).
    destruct (static_dev _ _ _ St I) as (d0 & I0 & E0). destruct (bt_dev_row B _ I0) as (r & Ir & Mr).
    rewrite Eb in Mr. pose proof (spec_of_row s0 b r d0 Mr) as SP.
    pose proof (mk_dev_fields _ _ _ _ Mr) as (M1 & M2 & M3 & _). apply strip_dev_fields in E0. destruct E0 as (D1 & D2 & D3 & D4 & _).
    rewrite D4, Sp in SP. destruct SP as [T G]. rewrite Forall_forall in Mp. destruct (Mp r Ir) as (Hf & _ & Ls). rewrite M3, T in Ls.
    destruct (Ls eq_refl) as [Ls1 Ls2]. destruct (fin_pos_eff r Hf Ls2) as (e & Ee & He).
    pose proof (stor_check_vals b Hb r t G) as SV. destruct (sv_socmax _ _ _ SV) as (vm & Evm & Em).
    destruct (cells r Hf) as (_ & _ & _ & _ & _ & _ & _ & _ & C1 & C2 & _).
    destruct (pu_fin b Hb vm (C1 _ Evm)) as [hi Ehi].
    destruct (else_fin (dr_socmin r) (Fin 0) C2 (or_intror (fin_Fin 0))) as [lo0 El0]. fold (SOCMIN r) in El0.
    pose proof (sv_socmin _ _ _ SV) as Es. rewrite El0 in Es. cbn [ndiv XRnum] in Es. rewrite xdiv_Fin in Es by lra.
    exists (lo0 / b), hi, e. split; auto. split; [congruence|]. split; [|split; [rewrite (sv_eff _ _ _ SV); auto|auto]].
    destruct (stor_is_valid b Hb r Hf t G) as (_ & _ & _ & _ & _ & _ & _ & _ & (v & Ev & V) & _). assert (v = vm) by congruence. subst v.
    rewrite El0 in V. apply (xle_pu b Hb) in V. rewrite xdiv_Fin in V by lra. rewrite Ehi in V. apply xle_Fin in V. auto.
  Qed.
  Lemma trans_keeps Or inp s : strip s = strip s0 -> qp_exact (o_qp Or) -> usable_inputs nw inp -> soc_in (sm_devs s) ->
    is_ok (snd (transition Or inp s)) = true -> soc_in (sm_devs (fst (transition Or inp s))).
  Proof.
    intros St Q U Soc Ok. destruct (transition_cases Or inp s) as [(ds & v & i & conv & T & _)|(_ & e & E)]; [|rewrite E in Ok; discriminate].
    pose proof (base_pos nw dt lamb s0 H0 b Eb) as Hb.
    intros dv t I Sp. destruct (trans_dev _ _ _ _ _ _ _ _ T dv I) as (x & x1 & Ix & Es & Et & Eu).
    apply strip_dev_fields in Es as (S1 & S2 & S3 & S4 & _). rewrite Sp in S4.
    destruct (Soc x t Ix S4) as (c & Ec & W1 & W2). destruct (stor_lims s x t St Ix S4) as (lo & hi & e & El & Eh & Lh & Ee & He).
    assert (Esoc : d_soc dv = d_soc x1). { unfold dev_slack_update in Eu. destruct (d_slack x1); [destruct (find_bus _ _); inv_ok|inv_ok]; reflexivity. }
    rewrite Esoc. unfold dev_transition in Et. rewrite S4, Ec in Et.
    rewrite (strip_dt _ _ St), (init_dt _ _ _ _ H0), Ed, (strip_base _ _ St), (init_base _ _ _ _ H0), Eb in Et.
    destruct (dgetE Z.eqb (ti_p inp) (d_id x)) as [pp|] eqn:Ep; [|discriminate]. destruct (dgetE Z.eqb (ti_q inp) (d_id x)) as [qq|] eqn:Eq; [|discriminate].
    cbn [bind] in Et. unfold stor_map_pq in Et. destruct (stor_rows t (Fin c) (Fin d)) as [rows|]; [|discriminate]. cbn [bind] in Et.
    assert (Fp : exists u, pp = Fin u /\ exists w, qq = Fin w).
    { destruct (sim_init_built _ _ _ _ H0) as (bs & ds0 & B). destruct (static_dev _ _ _ St Ix) as (d0 & I0 & E0). destruct (bt_dev_row B _ I0) as (r & Ir & Mr).
      rewrite Eb in Mr. pose proof (spec_of_row s0 b r d0 Mr) as SP.
      pose proof (mk_dev_fields _ _ _ _ Mr) as (M1 & M2 & M3 & _). apply strip_dev_fields in E0. destruct E0 as (D1 & D2 & D3 & D4 & _).
      rewrite D4, S4 in SP. destruct SP as [Ty _]. rewrite Ty in M3. destruct (proj2 (proj2 (U r _ Ir M1)) M3) as ((u & Xu) & (w & Xw)).
      unfold dgetE in *. rewrite D1 in *. rewrite Xu in Ep. rewrite Xw in Eq. inv_ok. eauto. }
    destruct Fp as (u & -> & w & ->). cbn [ndiv XRnum] in Et. rewrite !xdiv_Fin in Et by lra.
    destruct (o_qp Or rows (Fin (u / b), Fin (w / b))) as [[a a']|] eqn:Eo; [|discriminate]. cbn [bind fst snd] in Et.
    destruct (Q _ _ _ _ _ Eo) as (p & q & -> & -> & _). injection Et as <-. cbn [d_set_soc d_soc].
    set (y := stor_update_soc t (Fin c) (Fin p) (Fin d)).
    assert (Y : exists z, y = np_clip (Fin z) (Fin lo) (Fin hi)).
    { unfold y, stor_update_soc. rewrite El, Eh, Ee. cbn [nleb nmul nsub ndiv n0 XRnum xleb xmul xsub]. destruct (Rleb p 0); eauto.
      rewrite xdiv_Fin by lra. cbn [xsub]. eauto. }
    destruct Y as (z & Ey). destruct (np_clip_in (Fin z) (Fin lo) (Fin hi)) as [A1 A2]; [apply xisnan_false; discriminate|apply xle_Fin; auto|].
    assert (Fy : exists k, y = Fin k) by (rewrite Ey; destruct (np_clip_cases (Fin z) (Fin lo) (Fin hi)) as [->|[->| ->]]; eauto).
    destruct Fy as (k & Ek). exists k. rewrite <- Ek. split; auto. rewrite El, Eh, Ey. auto.
  Qed.

  Lemma fresh_soc_in s : strip s = strip s0 -> fresh s -> soc_reported_ok s0 s -> soc_in (sm_devs s).
  Proof.
    intros St Fr Soc dv t I Sp. assert (Ist : is_stor dv = true) by (unfold is_stor; rewrite Sp; auto).
    destruct (d_soc dv) as [vs|] eqn:Sc; [|exfalso; apply (proj2 Fr dv I Ist Sc)].
    assert (ND : NoDup (map d_id (sm_devs s))) by (eapply static_nodup; eauto).
    assert (O : obs s "des_soc" "pu" (EId (d_id dv)) = Some vs).
    { unfold obs. rewrite (proj1 Fr). rewrite (read_dev s "des_soc" "pu" is_stor soc_of dv); auto; [unfold soc_of; rewrite Sc; auto|cbn; auto 10]. }
    destruct (Soc _ _ O) as (c & -> & Rg).
    destruct (static_dev _ _ _ St I) as (d0 & I0 & E0). apply strip_dev_fields in E0. destruct E0 as (D1 & D2 & D3 & D4 & _).
    assert (Bd : bound s0 "des_soc" "pu" (EId (d_id dv)) = Some (s_socmin t, s_socmax t)).
    { rewrite <- D1. apply bound_soc; [eapply init_nodup; eauto|auto|congruence]. }
    destruct (Rg _ _ Bd) as [W1 W2]. eauto.
  Qed.
  Lemma fresh_reported s : strip s = strip s0 -> fresh s -> soc_in (sm_devs s) -> soc_reported_ok s0 s.
  Proof.
    intros St Fr Soc i v O.
    assert (ND : NoDup (map d_id (sm_devs s))) by (eapply static_nodup; eauto).
    unfold obs in O. rewrite (proj1 Fr) in O.
    assert (X : exists dv, In dv (sm_devs s) /\ is_stor dv = true /\ d_id dv = i).
    { rewrite (read_dev_eq s "des_soc" "pu" is_stor soc_of) in O by (cbn; auto 10). apply (dget_in _ eid_eqb_iff) in O. apply in_map_iff in O as (dv & E & I). apply filter_In in I as [I I']. injection E as E _. eauto. }
    destruct X as (dv & I & Ist & <-). rewrite (read_dev s "des_soc" "pu" is_stor soc_of dv) in O; auto; [|cbn; auto 10]. injection O as <-.
    unfold is_stor in Ist. destruct (d_spec dv) as [| |t] eqn:Sp; try discriminate. destruct (Soc dv t I Sp) as (c & Ec & W1 & W2).
    exists c. split; [unfold soc_of; rewrite Ec; auto|]. intros lo hi Bd.
    destruct (static_dev _ _ _ St I) as (d0 & I0 & E0). apply strip_dev_fields in E0. destruct E0 as (D1 & D2 & D3 & D4 & _).
    assert (Bd' : bound s0 "des_soc" "pu" (EId (d_id dv)) = Some (s_socmin t, s_socmax t)).
    { rewrite <- D1. apply bound_soc; [eapply init_nodup; eauto|auto|congruence]. }
    rewrite Bd' in Bd. injection Bd as <- <-. split; auto.
  Qed.

  Lemma run_ok cs cl ts : returned (run s0 cs) cl -> soc_reported_ok s0 (run s0 (cs ++ [cl])) -> Forall (good_transition nw) ts ->
    fresh (run s0 (cs ++ cl :: ts)) /\ soc_in (sm_devs (run s0 (cs ++ cl :: ts))) /\
    forall ts1 t ts2, ts = ts1 ++ t :: ts2 -> returned (run s0 (cs ++ cl :: ts1)) t.
  Proof.
    intros R Soc. induction ts as [|t ts IH] using rev_ind; intros G.
    - assert (Fr : fresh (run s0 (cs ++ [cl]))). { unfold run. rewrite fold_left_app. cbn [fold_left]. apply call_fresh. exact R. }
      split; auto. split; [apply fresh_soc_in; auto; apply strip_run|]. intros [|? ?]; discriminate.
    - apply Forall_app in G as [G1 G2]. apply Forall_inv in G2. destruct (IH G1) as (Fr & Si & Rt). clear IH.
      assert (Rl : returned (run s0 (cs ++ cl :: ts)) t).
      { destruct t as [|Or inp]; [destruct G2|]. destruct G2 as [Go U]. cbn. apply trans_ok_exact; auto. apply strip_run. }
      assert (Er : run s0 (cs ++ cl :: ts ++ [t]) = run_call (run s0 (cs ++ cl :: ts)) t).
      { unfold run. change (cs ++ cl :: ts ++ [t]) with (cs ++ (cl :: ts) ++ [t]). rewrite app_assoc, fold_left_app. reflexivity. }
      rewrite Er. split; [apply call_fresh; auto|]. split.
      + destruct t as [|Or inp]; [destruct G2|]. destruct G2 as [Go U]. cbn in Rl |- *. apply trans_keeps; auto; [apply strip_run|apply Go].
      + intros ts1 t' ts2 E. destruct ts2 as [|z ts2] using rev_ind.
        * apply app_inj_tail in E as [<- <-]. auto.
        * clear IHts2. rewrite app_comm_cons, app_assoc in E. apply app_inj_tail in E as [E _]. eapply Rt; eauto.
  Qed.

  Lemma all_usable inp : all_named nw inp -> vals_ok fin inp -> usable_inputs nw inp.
  Proof.
    intros An Vp r i Ir Ei. destruct (An r i Ir Ei) as (A1 & A2 & A3). destruct Vp as (V1 & V2 & V3 & V4).
    assert (H : forall m, Forall (fun kv : Z * XR => fin (snd kv)) m -> named m i -> has_num m i).
    { intros m Fm Nm. unfold named in Nm. unfold has_num. destruct (dget Z.eqb m i) as [x|] eqn:E; [|congruence]. apply (dget_all fin _ _ _ Fm) in E as (y & ->). eauto. }
    split; [intros T; apply H; auto|]. split.
    - intros T. destruct (A2 T) as (B1 & B2 & B3). auto.
    - intros T. destruct (A3 T) as (B1 & B2). auto.
  Qed.
  Lemma pre_soc_in inp s ds : strip s = strip s0 -> mapM (dev_pre_soc inp) (sm_devs s) = Ok ds -> map strip_dev ds = map strip_dev (sm_devs s) -> soc_in ds.
  Proof.
    intros St Em Es dv t I Sp. assert (St' : strip (sim_set_devs (sim_set_state s None) ds) = strip s0) by (rewrite strip_set_devs; auto).
    destruct (stor_lims _ dv t St' I Sp) as (lo & hi & e & El & Eh & Lh & _).
    apply mapM_ok in Em. destruct (Forall2_in_r _ _ _ _ Em I) as (x & Ix & Ex). unfold dev_pre_soc in Ex.
    destruct (d_spec x) as [l|g|t'] eqn:Sx; inv_ok; try congruence. cbn in Sp. rewrite Sx in Sp. injection Sp as ->.
    cbn [d_set_soc d_soc]. rewrite El, Eh. match goal with |- context [if ?c then _ else _] => destruct c end.
    - exists lo. split; auto. split; apply xle_Fin; lra.
    - exists hi. split; auto. split; apply xle_Fin; lra.
  Qed.
  Lemma reset_ok_exact Or init s : strip s = strip s0 -> good_oracles Or -> (reset_size nw <= List.length init)%nat -> Forall fin init ->
    is_ok (snd (sim_reset Or init s)) = true.
  Proof.
    intros St G L Fi. destruct (reset_result nw dt lamb s0 H0 Or init s St L) as (inp & ds & Em & Es & An & Vp & -> & _). specialize (Vp _ Fi).
    assert (St' : strip (sim_set_devs (sim_set_state s None) ds) = strip s0) by (rewrite strip_set_devs; auto).
    apply trans_ok_exact; auto; [apply all_usable; auto|]. exact (pre_soc_in inp s ds St Em Es).
  Qed.
End Exact.
