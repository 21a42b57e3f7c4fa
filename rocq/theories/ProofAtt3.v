(** The optimal power flow attains its least cost: boundedness of the plans, and the conclusion. *)
From Coq Require Import Reals Lra Sorted.
From Coquelicot Require Import Coquelicot.
From Verif Require Import Base Num NumXR Devices BusBranch CheckNetwork LoadFlow Simulator EnvArgs Env Mpc LibBase LibXR SpecNet SpecSim SpecDev
  SpecQp SpecPf SpecEnv SpecMpc ProofSim ProofPlan SpecOpf ProofOpf ProofAtt ProofAtt2.
Local Open Scope string_scope.
Local Open Scope list_scope.
Local Open Scope R_scope.
Set Bullet Behavior "Strict Subproofs".

Lemma entry_at (l : list Z) (p : list R) i : NoDup l -> List.length p = List.length l -> (i < List.length l)%nat -> exists x, nth_error l i = Some x /\ nth i p 0 = entry 0 l p x.
Proof.
  intros ND L Hi. destruct (nth_error l i) as [x|] eqn:E; [|apply nth_error_None in E; lia]. exists x. split; [auto|].
  rewrite <- (entry_map 0 l p ND L) at 1. rewrite (nth_indep _ 0 (entry 0 l p 0%Z)) by (rewrite map_length; auto). rewrite map_nth. rewrite (nth_error_nth l i 0%Z E). reflexivity.
Qed.
Lemma entry_out (l : list Z) (p : list R) i : ~ In i l -> entry 0 l p i = 0.
Proof.
  revert p. induction l as [|a l IH]; intros [|x p] N; try reflexivity. unfold entry. cbn [combine dget]. destruct (Z.eqb_spec i a) as [->|]; [exfalso; apply N; left; auto|].
  apply IH. intros Q. apply N. right. auto.
Qed.

Section Bounds.
  Context (nw : network XR) (s0 : sim XR) (I : index) (d : R) (eff c0 : Z -> R) (sb i0 : Z) (PL PG : list (list R)) (k : nat).
  Context (HI : index_of nw I) (Hd : 0 < d).
  Context (Hlim : forall i, In i (ix_gens I) \/ In i (ix_dess I) -> exists lo hi, bound s0 "dev_p" "pu" (EId i) = Some (Fin lo, Fin hi)).
  Context (Hsl : forall i, In i (ix_dess I) -> exists lo hi, bound s0 "des_soc" "pu" (EId i) = Some (Fin lo, Fin hi)).
  Context (He : forall i, In i (ix_dess I) -> 0 < eff i < 1).
  Context (Hs : exists r, In r (nw_dev nw) /\ dr_id r = Some i0 /\ dr_bus r = Some sb) (Hsb : In sb (ix_buses I)).
  Context (Hu : forall r i, In r (nw_dev nw) -> dr_type r = Some 0%Z -> dr_id r = Some i -> i = i0).
  Let P := opf_plan nw s0 I d eff c0 sb PL PG k.

  Lemma p_shape sts : P sts -> shape_plan I k sts.
  Proof. intros (A & B & _). split; auto. Qed.
  Lemma p_stage sts n : P sts -> (n < k)%nat -> well_shaped I (nth n sts st0) /\ opf_stage nw s0 I d eff c0 sb PL PG sts n (nth n sts st0).
  Proof. intros H L. destruct (plan_nth I k sts n (p_shape sts H) L) as (W & E). split; [auto|]. apply H. exact E. Qed.
  Lemma in_bounds_fin key i lo hi x : bound s0 key "pu" (EId i) = Some (Fin lo, Fin hi) -> (in_bounds s0 key i x <-> lo <= x <= hi).
  Proof.
    intros E. split.
    - intros (l & h & E' & A & B). rewrite E in E'. injection E' as <- <-. split; apply xle_Fin_iff; auto.
    - intros (A & B). exists (Fin lo), (Fin hi). split; [auto|]. split; apply xle_Fin_iff; auto.
  Qed.
  Lemma b_angle n i : (n < k)%nat -> exists M, forall sts, P sts -> Rabs (angle I (nth n sts st0) i) <= M.
  Proof.
    intros L. exists PI. intros sts H. destruct (p_stage sts n H L) as (W & S). destruct (in_dec Z.eq_dec i (ix_buses I)) as [B|B].
    - apply Rabs_le_between. apply (os_angles _ _ _ _ _ _ _ _ _ _ _ _ S i B).
    - unfold angle. rewrite entry_out by auto. rewrite Rabs_R0. pose proof PI_RGT_0. lra.
  Qed.
  Lemma b_between (f : list rstage -> R) lo hi : (forall sts, P sts -> lo <= f sts <= hi) -> exists M, forall sts, P sts -> Rabs (f sts) <= M.
  Proof. intros H. exists (Rmax (Rabs lo) (Rabs hi)). intros sts Hp. specialize (H sts Hp). pose proof (Rmax_l (Rabs lo) (Rabs hi)). pose proof (Rmax_r (Rabs lo) (Rabs hi)).
    revert H0 H1. generalize (Rmax (Rabs lo) (Rabs hi)). intros M. unfold Rabs. repeat destruct (Rcase_abs _); lra. Qed.
  Lemma b_stor n i : (n < k)%nat -> In i (ix_dess I) -> exists M, forall sts, P sts -> Rabs (inject I (nth n sts st0) i) <= M.
  Proof.
    intros L B. destruct (Hlim i (or_intror B)) as (lo & hi & E). apply (b_between _ lo hi). intros sts H. destruct (p_stage sts n H L) as (_ & S).
    destruct (os_stors _ _ _ _ _ _ _ _ _ _ _ _ S i B) as (A & _). apply (in_bounds_fin _ _ _ _ _ E) in A. exact A.
  Qed.
  (* every device but the slack one *)
  Lemma b_other n i : (n < k)%nat -> i <> i0 -> exists M, forall sts, P sts -> Rabs (inject I (nth n sts st0) i) <= M.
  Proof.
    intros L Ne. destruct (in_dec Z.eq_dec i (ix_all I)) as [B|B].
    2:{ exists 0. intros sts _. unfold inject. rewrite entry_out by auto. rewrite Rabs_R0. lra. }
    destruct HI as ((_ & A) & (_ & Al) & (_ & Ag) & (_ & Ad) & _). apply A in B as (r & t & Ir & Ei & Et & It).
    cbn in It. destruct It as [<-|[<-|[<-|[<-|[<-|[]]]]]].
    - assert (Q : In i (ix_loads I)) by (apply Al; exists r, (-1)%Z; cbn; auto 10). exists (Rabs (forecast (ix_loads I) PL n i)). intros sts H. destruct (p_stage sts n H L) as (_ & S).
      rewrite (os_loads _ _ _ _ _ _ _ _ _ _ _ _ S i Q). lra.
    - exfalso. apply Ne. eapply Hu; eauto.
    - assert (Q : In i (ix_gens I)) by (apply Ag; exists r, 1%Z; cbn; auto 10). destruct (Hlim i (or_introl Q)) as (lo & hi & E). apply (b_between _ lo hi). intros sts H. destruct (p_stage sts n H L) as (_ & S).
      destruct (os_gens _ _ _ _ _ _ _ _ _ _ _ _ S i Q) as (B & _). apply (in_bounds_fin _ _ _ _ _ E) in B. exact B.
    - assert (Q : In i (ix_gens I)) by (apply Ag; exists r, 2%Z; cbn; auto 10). destruct (Hlim i (or_introl Q)) as (lo & hi & E). apply (b_between _ lo hi). intros sts H. destruct (p_stage sts n H L) as (_ & S).
      destruct (os_gens _ _ _ _ _ _ _ _ _ _ _ _ S i Q) as (B & _). apply (in_bounds_fin _ _ _ _ _ E) in B. exact B.
    - apply b_stor; auto. apply Ad. exists r, 3%Z. cbn. auto 10.
  Qed.
  Lemma b_sum {A} (f : A -> list rstage -> R) l : (forall a, In a l -> exists M, forall sts, P sts -> Rabs (f a sts) <= M) -> exists M, forall sts, P sts -> Rabs (sumR (map (fun a => f a sts) l)) <= M.
  Proof.
    induction l as [|a l IH]; intros H; [exists 0; intros; cbn; rewrite Rabs_R0; lra|]. destruct (H a (or_introl eq_refl)) as (M1 & H1). destruct IH as (M2 & H2); [intros; apply H; right; auto|].
    exists (M1 + M2). intros sts Hp. cbn [map sumR fold_right]. eapply Rle_trans; [apply Rabs_triang|]. specialize (H1 sts Hp). specialize (H2 sts Hp). unfold sumR in H2. lra.
  Qed.
  Lemma b_dc_out n i : (n < k)%nat -> exists M, forall sts, P sts -> Rabs (dc_out nw (angle I (nth n sts st0)) i) <= M.
  Proof.
    intros L. unfold dc_out. apply (b_sum (fun r sts => (if end_of (lr_f r) i then dc_sus r * (ang_at (angle I (nth n sts st0)) (lr_f r) - ang_at (angle I (nth n sts st0)) (lr_t r)) else 0)
      + (if end_of (lr_t r) i then dc_sus r * (ang_at (angle I (nth n sts st0)) (lr_t r) - ang_at (angle I (nth n sts st0)) (lr_f r)) else 0))). intros r _.
    assert (A : forall o, exists M, forall sts, P sts -> Rabs (ang_at (angle I (nth n sts st0)) o) <= M).
    { intros [j|]; cbn; [apply b_angle; auto|exists 0; intros; rewrite Rabs_R0; lra]. }
    destruct (A (lr_f r)) as (M1 & H1). destruct (A (lr_t r)) as (M2 & H2). exists (2 * (Rabs (dc_sus r) * (M1 + M2))). intros sts Hp. specialize (H1 sts Hp). specialize (H2 sts Hp).
    set (a := ang_at _ (lr_f r)) in *. set (b := ang_at _ (lr_t r)) in *. pose proof (Rabs_pos a). pose proof (Rabs_pos b). pose proof (Rabs_pos (dc_sus r)).
    assert (D : forall x y, Rabs x <= M1 + M2 - Rabs y -> Rabs (dc_sus r * (x - y)) <= Rabs (dc_sus r) * (M1 + M2)).
    { intros x y Hxy. rewrite Rabs_mult. apply Rmult_le_compat_l; [auto|]. unfold Rminus. eapply Rle_trans; [apply Rabs_triang|]. rewrite Rabs_Ropp. lra. }
    eapply Rle_trans; [apply Rabs_triang|]. assert (0 <= Rabs (dc_sus r) * (M1 + M2)) by (apply Rmult_le_pos; lra).
    destruct (end_of (lr_f r) i), (end_of (lr_t r) i); rewrite ?Rabs_R0.
    - pose proof (D a b ltac:(lra)). pose proof (D b a ltac:(lra)). lra.
    - pose proof (D a b ltac:(lra)). lra.
    - pose proof (D b a ltac:(lra)). lra.
    - lra.
  Qed.
  Lemma b_slack n : (n < k)%nat -> exists M, forall sts, P sts -> Rabs (inject I (nth n sts st0) i0) <= M.
  Proof.
    intros L.
    assert (G : forall l : list (dev_row XR), exists c M, (forall sts, P sts -> Rabs (sumR (map (fun r => match dr_id r with Some i => inject I (nth n sts st0) i | None => 0 end) l) - INR c * inject I (nth n sts st0) i0) <= M) /\
      ((exists r, In r l /\ dr_id r = Some i0) -> (1 <= c)%nat)).
    { induction l as [|r l (c & M & IH1 & IH2)].
      - exists 0%nat, 0. split; [intros sts _; cbn; rewrite Rmult_0_l, Rminus_0_r, Rabs_R0; lra|intros (r & [] & _)].
      - destruct (dr_id r) as [i|] eqn:Ei.
        + destruct (Z.eq_dec i i0) as [->|Ne].
          * exists (S c), M. split; [|intros _; lia]. intros sts Hp. cbn [map sumR fold_right]. rewrite Ei, S_INR. specialize (IH1 sts Hp). unfold sumR in IH1.
            match goal with |- Rabs ?x <= _ => match type of IH1 with Rabs ?y <= _ => replace x with y by ring end end. exact IH1.
          * destruct (b_other n i L Ne) as (M' & H'). exists c, (M' + M). split.
            -- intros sts Hp. cbn [map sumR fold_right]. rewrite Ei. specialize (IH1 sts Hp). specialize (H' sts Hp). unfold sumR in IH1. unfold Rminus. rewrite Rplus_assoc. eapply Rle_trans; [apply Rabs_triang|]. unfold Rminus in IH1. lra.
            -- intros (r' & [<-|B] & E); [congruence|]. apply IH2. eauto.
        + exists c, M. split.
          * intros sts Hp. cbn [map sumR fold_right]. rewrite Ei. specialize (IH1 sts Hp). unfold sumR in IH1. rewrite Rplus_0_l. exact IH1.
          * intros (r' & [<-|B] & E); [congruence|]. apply IH2. eauto. }
    destruct (G (rows_at nw sb)) as (c & M & G1 & G2). destruct (b_dc_out n sb L) as (M' & H').
    assert (Hc : (1 <= c)%nat).
    { apply G2. destruct Hs as (r & A & B & C). exists r. split; [|auto]. unfold rows_at. apply filter_In. split; [auto|]. rewrite C. cbn. apply Z.eqb_refl. }
    exists (M + M'). intros sts Hp. specialize (G1 sts Hp). specialize (H' sts Hp). destruct (p_stage sts n Hp L) as (_ & S).
    rewrite <- (os_flow _ _ _ _ _ _ _ _ _ _ _ _ S sb Hsb) in H'. unfold planned_at in H'. unfold inject in G1 at 1.
    set (x := inject I (nth n sts st0) i0) in *. set (sm := sumR _) in *. apply le_INR in Hc. cbn [INR] in Hc.
    assert (A : Rabs (INR c * x) <= M + M'). { replace (INR c * x) with (sm - (sm - INR c * x)) by ring. unfold Rminus at 1. eapply Rle_trans; [apply Rabs_triang|]. rewrite Rabs_Ropp. lra. }
    rewrite Rabs_mult, (Rabs_right (INR c)) in A by lra. eapply Rle_trans; [|exact A]. rewrite <- (Rmult_1_l (Rabs x)) at 1. apply Rmult_le_compat_r; [apply Rabs_pos|auto].
  Qed.
  Lemma b_inject n i : (n < k)%nat -> exists M, forall sts, P sts -> Rabs (inject I (nth n sts st0) i) <= M.
  Proof. intros L. destruct (Z.eq_dec i i0) as [->|Ne]; [apply b_slack; auto|apply b_other; auto]. Qed.
  Let soc sts n i := planned_soc (eff i) d (c0 i) (map (fun x => (charge I x i, discharge I x i)) (firstn n sts)).
  Lemma b_soc n i : (n <= k)%nat -> In i (ix_dess I) -> exists M, forall sts, P sts -> Rabs (soc sts n i) <= M.
  Proof.
    intros L B. destruct n as [|n]; [exists (Rabs (c0 i)); intros; unfold soc, planned_soc; cbn; lra|]. destruct (Hsl i B) as (lo & hi & E). apply (b_between _ lo hi). intros sts H.
    destruct (p_stage sts n H L) as (_ & S). destruct (os_stors _ _ _ _ _ _ _ _ _ _ _ _ S i B) as (_ & _ & _ & _ & A). apply (in_bounds_fin _ _ _ _ _ E) in A. exact A.
  Qed.
  Lemma b_charge n i : (n < k)%nat -> In i (ix_dess I) -> exists M, forall sts, P sts -> Rabs (charge I (nth n sts st0) i) <= M /\ Rabs (discharge I (nth n sts st0) i) <= M.
  Proof.
    intros L B. destruct (b_soc n i (Nat.lt_le_incl _ _ L) B) as (M1 & H1). destruct (b_soc (S n) i L B) as (M2 & H2). destruct (b_inject n i L) as (M3 & H3).
    destruct (He i B) as (E1 & E2). set (e := eff i) in *. set (K := / d * (M1 + M2) + M3 * / e). assert (Q : 0 < / e - e). { assert (1 < / e) by (rewrite <- Rinv_1; apply Rinv_lt_contravar; lra). lra. }
    exists (K / (/ e - e) + M3). intros sts H. specialize (H1 sts H). specialize (H2 sts H). specialize (H3 sts H). destruct (p_stage sts n H L) as (_ & S).
    destruct (os_stors _ _ _ _ _ _ _ _ _ _ _ _ S i B) as (_ & C1 & C2 & C3 & _). set (pc := charge I (nth n sts st0) i) in *. set (pd := discharge I (nth n sts st0) i) in *.
    assert (St : soc sts (Datatypes.S n) i = soc sts n i + d * e * pc - d * pd / e).
    { unfold soc. assert (Ls : List.length sts = k) by apply H. rewrite !(firstn_nth sts) by lia. rewrite seq_S, !map_app. unfold planned_soc. rewrite fold_left_app. reflexivity. }
    set (p := inject I (nth n sts st0) i) in *. assert (Ep : pd = pc + p) by lra.
    assert (D : d * (pd / e - e * pc) <= M1 + M2). { replace (d * (pd / e - e * pc)) with (soc sts n i - soc sts (Datatypes.S n) i) by (rewrite St; unfold Rdiv; ring). pose proof (Rle_abs (soc sts n i)). pose proof (Rle_abs (- soc sts (Datatypes.S n) i)) as A. rewrite Rabs_Ropp in A. lra. }
    assert (D' : pd / e - e * pc <= / d * (M1 + M2)). { apply (Rmult_le_reg_l d); [auto|]. rewrite <- Rmult_assoc, Rinv_r, Rmult_1_l by lra. exact D. }
    rewrite Ep in D'. assert (Pe : - (M3 * / e) <= p * / e). { pose proof (Rle_abs (- p)) as A. rewrite Rabs_Ropp in A. rewrite Ropp_mult_distr_l. apply Rmult_le_compat_r; [apply Rlt_le, Rinv_0_lt_compat; auto|lra]. }
    assert (F : pc * (/ e - e) <= K). { unfold K. replace (pc * (/ e - e)) with ((pc + p) / e - e * pc - p * / e) by (unfold Rdiv; ring). lra. }
    assert (F' : pc <= K / (/ e - e)). { apply (Rmult_le_reg_r (/ e - e)); [auto|]. unfold Rdiv. rewrite Rmult_assoc, Rinv_l, Rmult_1_r by lra. exact F. }
    pose proof (Rle_abs p) as Ap. pose proof (Rabs_pos p) as Ap'. rewrite (Rabs_right pc), (Rabs_right pd) by lra. lra.
  Qed.
  Lemma b_coord c : In c (coords I k) -> exists M, forall sts, P sts -> Rabs (getc c sts) <= M.
  Proof.
    destruct c as ((n, f), j). rewrite in_coords. intros (Ln & Lf & Lj).
    assert (ND : NoDup (ix_buses I) /\ NoDup (ix_all I) /\ NoDup (ix_dess I)).
    { destruct HI as ((A & _) & _ & _ & (D & _) & _ & B & _). repeat split; apply sorted_lt_nodup; auto. }
    destruct ND as (N0 & N1 & N2).
    destruct f as [|[|[|[|f]]]]; try lia; cbn [width] in Lj; cbn [getc field].
    - destruct (nth_error (ix_buses I) j) as [x|] eqn:E; [|apply nth_error_None in E; lia]. destruct (b_angle n x Ln) as (M & HM). exists M. intros sts H.
      destruct (p_stage sts n H Ln) as ((W & _) & _). destruct (entry_at _ _ j N0 W Lj) as (x' & E' & ->). assert (x' = x) by congruence. subst. apply HM. auto.
    - destruct (nth_error (ix_all I) j) as [x|] eqn:E; [|apply nth_error_None in E; lia]. destruct (b_inject n x Ln) as (M & HM). exists M. intros sts H.
      destruct (p_stage sts n H Ln) as ((_ & W & _) & _). destruct (entry_at _ _ j N1 W Lj) as (x' & E' & ->). assert (x' = x) by congruence. subst. apply HM. auto.
    - destruct (nth_error (ix_dess I) j) as [x|] eqn:E; [|apply nth_error_None in E; lia]. destruct (b_charge n x Ln (nth_error_In _ _ E)) as (M & HM). exists M. intros sts H.
      destruct (p_stage sts n H Ln) as ((_ & _ & W & _) & _). destruct (entry_at _ _ j N2 W Lj) as (x' & E' & ->). assert (x' = x) by congruence. subst. apply HM. auto.
    - destruct (nth_error (ix_dess I) j) as [x|] eqn:E; [|apply nth_error_None in E; lia]. destruct (b_charge n x Ln (nth_error_In _ _ E)) as (M & HM). exists M. intros sts H.
      destruct (p_stage sts n H Ln) as ((_ & _ & _ & W) & _). destruct (entry_at _ _ j N2 W Lj) as (x' & E' & ->). assert (x' = x) by congruence. subst. apply HM. auto.
  Qed.
  Lemma p_closed u v : (forall q, P (u q)) -> conv I k u v -> P v.
  Proof.
    intros H C. destruct C as (C1 & (C2 & C2') & C3) eqn:EC. split; [exact C2|]. split; [exact C2'|]. intros n st E.
    assert (L : (n < k)%nat) by (rewrite <- C2; apply nth_error_Some; congruence).
    assert (Es : st = nth n v st0) by (symmetry; apply nth_error_nth; auto). subst st. clear E.
    assert (S : forall q, opf_stage nw s0 I d eff c0 sb PL PG (u q) n (nth n (u q) st0)) by (intros q; apply (p_stage (u q) n (H q) L)).
    constructor.
    - intros i Ii. apply (lim_eq I k (fun x => planned_at nw (ix_all I) (rs_p (nth n x st0)) i) (fun x => dc_out nw (angle I (nth n x st0)) i) u v); [apply cont_planned|apply cont_dc_out|exact C|].
      intros q. apply (os_flow _ _ _ _ _ _ _ _ _ _ _ _ (S q) i Ii).
    - intros i Ii. split.
      + apply (lim_le I k (fun _ => - PI) (fun x => angle I (nth n x st0) i) u v); [apply cont_const|apply cont_angle|exact C|]. intros q. apply (os_angles _ _ _ _ _ _ _ _ _ _ _ _ (S q) i Ii).
      + apply (lim_le I k (fun x => angle I (nth n x st0) i) (fun _ => PI) u v); [apply cont_angle|apply cont_const|exact C|]. intros q. apply (os_angles _ _ _ _ _ _ _ _ _ _ _ _ (S q) i Ii).
    - apply (lim_eq I k (fun x => angle I (nth n x st0) sb) (fun _ => 0) u v); [apply cont_angle|apply cont_const|exact C|]. intros q. apply (os_slack _ _ _ _ _ _ _ _ _ _ _ _ (S q)).
    - intros i Ii. apply (lim_eq I k (fun x => inject I (nth n x st0) i) (fun _ => forecast (ix_loads I) PL n i) u v); [apply cont_inject|apply cont_const|exact C|]. intros q. apply (os_loads _ _ _ _ _ _ _ _ _ _ _ _ (S q) i Ii).
    - intros i Ii. destruct (Hlim i (or_introl Ii)) as (lo & hi & E). rewrite (in_bounds_fin _ _ _ _ _ E).
      assert (A : forall q, (lo <= inject I (nth n (u q) st0) i <= hi) /\ inject I (nth n (u q) st0) i <= forecast (ix_gens I) PG n i).
      { intros q. destruct (os_gens _ _ _ _ _ _ _ _ _ _ _ _ (S q) i Ii) as (A & B). apply (in_bounds_fin _ _ _ _ _ E) in A. auto. }
      split; [split|].
      + apply (lim_le I k (fun _ => lo) (fun x => inject I (nth n x st0) i) u v); [apply cont_const|apply cont_inject|exact C|]. intros q. apply A.
      + apply (lim_le I k (fun x => inject I (nth n x st0) i) (fun _ => hi) u v); [apply cont_inject|apply cont_const|exact C|]. intros q. apply A.
      + apply (lim_le I k (fun x => inject I (nth n x st0) i) (fun _ => forecast (ix_gens I) PG n i) u v); [apply cont_inject|apply cont_const|exact C|]. intros q. apply A.
    - intros i Ii. destruct (Hlim i (or_intror Ii)) as (lo & hi & E). destruct (Hsl i Ii) as (slo & shi & E'). rewrite (in_bounds_fin _ _ _ _ _ E), (in_bounds_fin _ _ _ _ _ E').
      assert (A : forall q, let st := nth n (u q) st0 in (lo <= inject I st i <= hi) /\ 0 <= charge I st i /\ 0 <= discharge I st i /\ inject I st i = discharge I st i - charge I st i /\ (slo <= soc (u q) (Datatypes.S n) i <= shi)).
      { intros q st. destruct (os_stors _ _ _ _ _ _ _ _ _ _ _ _ (S q) i Ii) as (A1 & A2 & A3 & A4 & A5). apply (in_bounds_fin _ _ _ _ _ E) in A1. apply (in_bounds_fin _ _ _ _ _ E') in A5. auto. }
      cbv zeta in A. split; [split|split; [|split; [|split; [|split]]]].
      + apply (lim_le I k (fun _ => lo) (fun x => inject I (nth n x st0) i) u v); [apply cont_const|apply cont_inject|exact C|]. intros q. apply A.
      + apply (lim_le I k (fun x => inject I (nth n x st0) i) (fun _ => hi) u v); [apply cont_inject|apply cont_const|exact C|]. intros q. apply A.
      + apply (lim_le I k (fun _ => 0) (fun x => charge I (nth n x st0) i) u v); [apply cont_const|apply cont_charge|exact C|]. intros q. apply A.
      + apply (lim_le I k (fun _ => 0) (fun x => discharge I (nth n x st0) i) u v); [apply cont_const|apply cont_discharge|exact C|]. intros q. apply A.
      + apply (lim_eq I k (fun x => inject I (nth n x st0) i) (fun x => discharge I (nth n x st0) i - charge I (nth n x st0) i) u v); [apply cont_inject|apply cont_minus; [apply cont_discharge|apply cont_charge]|exact C|]. intros q. apply A.
      + apply (lim_le I k (fun _ => slo) (fun x => soc x (Datatypes.S n) i) u v); [apply cont_const|apply cont_soc; lia|exact C|]. intros q. apply A.
      + apply (lim_le I k (fun x => soc x (Datatypes.S n) i) (fun _ => shi) u v); [apply cont_soc; lia|apply cont_const|exact C|]. intros q. apply A.
  Qed.
  Lemma opf_attained base margin lamb gam : (exists sts, P sts) -> exists sts, P sts /\ forall sts', P sts' -> opf_cost nw I base margin lamb gam sts <= opf_cost nw I base margin lamb gam sts'.
  Proof.
    intros H. apply (attain getc (coords I k) P (opf_cost nw I base margin lamb gam)); [apply b_coord| |exact H].
    intros u Hu' L. destruct (conv_limit I k u (fun q => p_shape _ (Hu' q)) L) as (v & C). exists v. split; [eapply p_closed; eauto|]. exact (cont_cost I k nw base margin lamb gam u v C).
  Qed.
End Bounds.
