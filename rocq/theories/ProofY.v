(** The nodal admittance matrix: C15. *)
From Coq Require Import Reals Lra.
From Coquelicot Require Import Complex.
From Verif Require Import Base Num NumXR LibBase LibNum LibXR LibEval Devices BusBranch CheckNetwork LoadFlow Simulator SpecNet ProofNet LibInit SpecDev SpecSim
  ProofDev SpecPf LibC ProofBr.
Local Open Scope C_scope.

Definition sumn (n : nat) (f : nat -> C) : C := sumC (map f (seq 0 n)).
Definition tab (n : nat) (M : nat -> nat -> C) : list (list (cplx XR)) :=
  map (fun i => map (fun k => up (M i k)) (seq 0 n)) (seq 0 n).
Definition upd (M : nat -> nat -> C) (a b : nat) (c : C) : nat -> nat -> C :=
  fun i k => if Nat.eqb i a && Nat.eqb k b then c else M i k.

Lemma sumC_cons a l : sumC (a :: l) = a + sumC l.
Proof. reflexivity. Qed.
Lemma sumC_nil : sumC [] = RtoC 0.
Proof. reflexivity. Qed.
Lemma sumC_app l l' : sumC (l ++ l') = sumC l + sumC l'.
Proof. induction l; cbn [app]; [rewrite sumC_nil; ring|]. rewrite !sumC_cons, IHl. ring. Qed.
Lemma sumC_zero {A} (l : list A) : sumC (map (fun _ => RtoC 0) l) = RtoC 0.
Proof. induction l; cbn [map]; auto. rewrite sumC_cons, IHl. ring. Qed.
Lemma csum_up (l : list C) : csum (map up l) = up (sumC l).
Proof.
  unfold csum. rewrite up_0. assert (G : forall a, fold_left cadd (map up l) (up a) = up (a + sumC l)).
  { induction l as [|x l IH]; intros a; cbn [map fold_left]; [rewrite sumC_nil; f_equal; ring|]. rewrite up_add, IH, sumC_cons. f_equal. ring. }
  rewrite G. f_equal. ring.
Qed.
Lemma dotc_up (f g : nat -> C) l : dotc (map (fun k => up (f k)) l) (map (fun k => up (g k)) l) = up (sumC (map (fun k => f k * g k) l)).
Proof.
  unfold dotc. rewrite <- csum_up. f_equal. induction l; cbn [map zip_with]; auto. rewrite IHl. reflexivity.
Qed.
Lemma sumn_ext n f g : (forall k, (k < n)%nat -> f k = g k) -> sumn n f = sumn n g.
Proof. intros H. unfold sumn. f_equal. apply map_ext_in. intros k I. apply in_seq in I. apply H. lia. Qed.
Lemma sumC_upd_out l f a x : ~ In a l -> sumC (map (fun k => if Nat.eqb k a then x else f k) l) = sumC (map f l).
Proof.
  induction l as [|b l IH]; cbn [map In]; auto. intros H. rewrite !sumC_cons, IH by tauto. destruct (Nat.eqb_spec b a); [subst; tauto|reflexivity].
Qed.
Lemma sumC_upd l f a x : NoDup l -> In a l -> sumC (map (fun k => if Nat.eqb k a then x else f k) l) = sumC (map f l) + (x - f a).
Proof.
  induction l as [|b l IH]; cbn [map In]; [tauto|]. intros ND [->|I]; inversion ND; subst; rewrite !sumC_cons.
  - rewrite Nat.eqb_refl, sumC_upd_out by auto. ring.
  - destruct (Nat.eqb_spec b a); [subst; tauto|]. rewrite IH by auto. ring.
Qed.
Lemma sumn_upd n f a x : (a < n)%nat -> sumn n (fun k => if Nat.eqb k a then x else f k) = sumn n f + (x - f a).
Proof. intros H. apply sumC_upd; [apply seq_NoDup|apply in_seq; lia]. Qed.
Lemma row_upd n M a b c v i : (b < n)%nat ->
  sumn n (fun k => upd M a b c i k * v k) = sumn n (fun k => M i k * v k) + (if Nat.eqb i a then (c - M a b) * v b else RtoC 0).
Proof.
  intros H. unfold upd. destruct (Nat.eqb_spec i a) as [->|E]; cbn [andb].
  - rewrite (sumn_ext n _ (fun k => if Nat.eqb k b then c * v b else M a k * v k)).
    + rewrite sumn_upd by auto. ring.
    + intros k _. destruct (Nat.eqb_spec k b); subst; auto.
  - ring.
Qed.

(** element assignment *)
Lemma list_set_seq {A} (f : nat -> A) n a v s : list_set (map f (seq s n)) a v = map (fun i => if Nat.eqb i (s + a) then v else f i) (seq s n).
Proof.
  revert a s; induction n as [|n IH]; intros a s; cbn; auto. destruct a as [|a].
  - rewrite Nat.add_0_r, Nat.eqb_refl. f_equal. apply map_ext_in. intros k I. apply in_seq in I.
    destruct (Nat.eqb_spec k s); [lia|auto].
  - rewrite IH. destruct (Nat.eqb_spec s (s + S a)); [lia|]. f_equal. apply map_ext. intros k. replace (S s + a)%nat with (s + S a)%nat by lia. reflexivity.
Qed.
Lemma nth_error_seq {A} (f : nat -> A) n a : (a < n)%nat -> nth_error (map f (seq 0 n)) a = Some (f a).
Proof.
  intros H. rewrite nth_error_map, (nth_error_nth' _ 0%nat) by (rewrite seq_length; auto). rewrite seq_nth by auto. reflexivity.
Qed.
Lemma tab_length n M : List.length (tab n M) = n.
Proof. unfold tab. rewrite map_length, seq_length. reflexivity. Qed.
Lemma mset_tab n M a b (f : cplx XR -> cplx XR) c : (a < n)%nat -> (b < n)%nat -> f (up (M a b)) = up c ->
  mset (tab n M) (Z.of_nat a) (Z.of_nat b) f = Ok (tab n (upd M a b c)).
Proof.
  intros Ha Hb Hf. unfold mset. rewrite tab_length, !py_index_nat by auto. unfold tab at 1. rewrite nth_error_seq by auto. rewrite nth_error_seq by auto.
  rewrite Hf. f_equal. unfold tab. rewrite list_set_seq. apply map_ext_in. intros i Ii. cbn [Nat.add]. rewrite list_set_seq.
  unfold upd. destruct (Nat.eqb_spec i a) as [->|E]; cbn [andb Nat.add]; [|reflexivity].
  apply map_ext. intros k. destruct (Nat.eqb k b); reflexivity.
Qed.

Lemma add_branch_tab n M r b br f t V : br_of r b br -> ln_f br = Z.of_nat f -> ln_t br = Z.of_nat t -> (f < n)%nat -> (t < n)%nat -> f <> t ->
  M f t = RtoC 0 -> M t f = RtoC 0 ->
  exists M', y_add_branch (tab n M) br = Ok (tab n M') /\
    (forall k, sumn n (fun j => M' k j * V j) = sumn n (fun j => M k j * V j) +
        ((if Nat.eqb k f then pi_from r (V f) (V t) else RtoC 0) + (if Nat.eqb k t then pi_to r (V f) (V t) else RtoC 0))) /\
    (forall i k, i <> k -> (i, k) <> (f, t) -> (i, k) <> (t, f) -> M' i k = M i k).
Proof.
  intros Ob Ef Et Hf Ht Hft M1 M2.
  set (z := row_z r). set (y := / z). set (tp := row_t r). set (sh := (0, row_b r / 2)%R : C).
  pose proof (bo_t0 _ _ _ Ob) as T0. fold tp in T0. pose proof (Cconj_neq0 _ T0) as T0'. pose proof (bo_z _ _ _ Ob) as Z0. fold z in Z0.
  set (ft := - y / Cconj tp). set (tf := - y / tp). set (ff := (y + sh) / (tp * Cconj tp)). set (tt' := y + sh).
  exists (upd (upd (upd (upd M f t ft) t f tf) f f (M f f + ff)) t t (M t t + tt')).
  assert (NE : Nat.eqb t f = false) by (apply Nat.eqb_neq; auto).
  assert (NE' : Nat.eqb f t = false) by (apply Nat.eqb_neq; auto).
  split; [|split].
  - unfold y_add_branch. rewrite Ef, Et.
    rewrite (mset_tab n M f t _ ft) by (auto; rewrite (bo_series _ _ _ Ob), (bo_tap _ _ _ Ob), up_opp, up_conj, up_div by auto; reflexivity). cbn [bind].
    rewrite (mset_tab n _ t f _ tf) by (auto; rewrite (bo_series _ _ _ Ob), (bo_tap _ _ _ Ob), up_opp, up_div by auto; reflexivity). cbn [bind].
    rewrite (mset_tab n _ f f _ (M f f + ff)); auto.
    + cbn [bind]. apply mset_tab; auto. rewrite (bo_series _ _ _ Ob), (bo_shunt _ _ _ Ob), !up_add. unfold upd. rewrite ?Nat.eqb_refl, ?NE, ?NE'; cbn [andb]. rewrite ?NE, ?NE'. reflexivity.
    + rewrite (bo_series _ _ _ Ob), (bo_shunt _ _ _ Ob), (tap2_val r b br Ob), up_add.
      rewrite up_divr by (pose proof (C_norm_pos _ T0) as P; unfold tp in P; lra). rewrite up_add. unfold upd. rewrite ?Nat.eqb_refl, ?NE, ?NE'; cbn [andb]. rewrite ?NE, ?NE'. cbn [andb].
      unfold ff. rewrite (Cmod2 tp). reflexivity.
  - intros k. rewrite !row_upd by auto. unfold upd. rewrite !Nat.eqb_refl, NE, NE'; cbn [andb]; rewrite ?NE, ?NE'; cbn [andb].
    rewrite M1, M2. destruct (Nat.eqb_spec k f) as [->|E1]; [|destruct (Nat.eqb_spec k t) as [->|E2]].
    + rewrite NE'. unfold pi_from, pi_inner, ft, ff, y. fold z tp sh. cbv zeta. field. auto.
    + unfold pi_to, tf, tt', y. fold z tp sh. field. auto.
    + ring.
  - intros i k N1 N2 N3. unfold upd.
    repeat match goal with |- context [Nat.eqb ?x ?y] => destruct (Nat.eqb_spec x y); subst; cbn [andb] end; congruence.
Qed.

Lemma fold_tab n rows brs b (ids : list Z) V : Forall2 (fun r br => br_of r b br) rows brs ->
  Forall (fun br => (0 <= ln_f br < Z.of_nat n)%Z /\ (0 <= ln_t br < Z.of_nat n)%Z) brs ->
  Forall (fun r : branch_row XR => lr_f r <> lr_t r) rows -> ForallOrdPairs (fun r r' => ~ same_link r r') rows ->
  forall M, Forall (fun br => M (Z.to_nat (ln_f br)) (Z.to_nat (ln_t br)) = RtoC 0 /\ M (Z.to_nat (ln_t br)) (Z.to_nat (ln_f br)) = RtoC 0) brs ->
  exists M', foldM y_add_branch brs (tab n M) = Ok (tab n M') /\
    (forall k, sumn n (fun j => M' k j * V (Z.of_nat j)) = sumn n (fun j => M k j * V (Z.of_nat j)) +
      sumC (map (fun r => (if end_of (lr_f r) (Z.of_nat k) then pi_from r (vat V (lr_f r)) (vat V (lr_t r)) else RtoC 0) +
                      (if end_of (lr_t r) (Z.of_nat k) then pi_to r (vat V (lr_f r)) (vat V (lr_t r)) else RtoC 0)) rows)).
Proof.
  intros H. induction H as [|r br rows brs Ob H IH]; intros Rg Hne Hp M HM.
  - exists M. split; auto. intros k. cbn [map]. rewrite sumC_nil. ring.
  - inversion Rg as [|? ? [R1 R2] Rg']; subst. inversion Hne as [|? ? Hn Hne']; subst. inversion Hp as [|? ? Hp1 Hp2]; subst. inversion HM as [|? ? [M1 M2] HM']; subst.
    destruct (add_branch_tab n M r b br (Z.to_nat (ln_f br)) (Z.to_nat (ln_t br)) (fun j => V (Z.of_nat j)) Ob) as (M' & E & S & K); auto; try (rewrite Z2Nat.id; lia); try lia.
    { intros Eq. apply Hn. rewrite (bo_f _ _ _ Ob), (bo_t _ _ _ Ob). f_equal. lia. }
    destruct (IH Rg' Hne' Hp2 M') as (M'' & E2 & S2).
    { clear -H Hp1 HM' K Ob Rg' R1 R2 Hne'. revert Hp1 HM' Rg' Hne'. induction H as [|r' br' rows brs Ob' H IH]; intros Hp1 HM' Rg' Hne'; constructor.
      - inversion Hp1 as [|? ? Q _]; subst. inversion HM' as [|? ? [Q1 Q2] _]; subst. inversion Rg' as [|? ? [Q3 Q4] _]; subst. inversion Hne' as [|? ? Q5 _]; subst.
        rewrite (bo_f _ _ _ Ob'), (bo_t _ _ _ Ob') in Q5.
        assert (Q6 : Z.to_nat (ln_f br') <> Z.to_nat (ln_t br')) by (intros X; apply Q5; f_equal; lia).
        unfold same_link in Q. rewrite (bo_f _ _ _ Ob'), (bo_t _ _ _ Ob'), (bo_f _ _ _ Ob), (bo_t _ _ _ Ob) in Q.
        split; rewrite K; auto; intros X; injection X as X1 X2; apply Q.
        + left. split; f_equal; lia.
        + right. split; f_equal; lia.
        + right. split; f_equal; lia.
        + left. split; f_equal; lia.
      - inversion Hp1; subst. inversion HM'; subst. inversion Rg'; subst. inversion Hne'; subst. apply IH; auto. }
    exists M''. split; [cbn [foldM]; rewrite E; cbn [bind]; exact E2|].
    intros k. rewrite S2, S. cbn [map]. rewrite sumC_cons.
    rewrite <- Cplus_assoc. f_equal. f_equal.
    rewrite (bo_f _ _ _ Ob), (bo_t _ _ _ Ob). unfold end_of, vat, optz_eqb. rewrite !Z2Nat.id by lia.
    assert (X : forall z, (0 <= z)%Z -> Nat.eqb k (Z.to_nat z) = Z.eqb z (Z.of_nat k)).
    { intros z Hz. destruct (Nat.eqb_spec k (Z.to_nat z)), (Z.eqb_spec z (Z.of_nat k)); auto; lia. }
    rewrite !X by lia. reflexivity.
Qed.

Lemma repeat_map {A B} (v : B) (l : list A) : map (fun _ => v) l = repeat v (List.length l).
Proof. induction l; cbn; congruence. Qed.
Lemma repeat_tab n : repeat (repeat c0 n) n = tab n (fun _ _ => RtoC 0).
Proof. unfold tab. rewrite !repeat_map, !seq_length. rewrite <- up_0. reflexivity. Qed.

Lemma fold_max l i : (i <= fold_left Z.max l i)%Z /\ forall k, In k l -> (k <= fold_left Z.max l i)%Z.
Proof.
  revert i; induction l as [|a l IH]; intros i; cbn; [split; [lia|tauto]|]. destruct (IH (Z.max i a)) as [A B]. split; [lia|].
  intros k [<-|I]; [lia|auto].
Qed.
Lemma fold_max_in l i : In (fold_left Z.max l i) (i :: l).
Proof.
  revert i; induction l as [|a l IH]; intros i; cbn [fold_left]; [left; auto|]. destruct (IH (Z.max i a)) as [E|E]; [|right; right; auto].
  destruct (Z.max_spec i a) as [[_ Q]|[_ Q]]; [right; left|left]; congruence.
Qed.

Section KCL.
  Context (nw : network XR) (dt lamb : XR) (s0 : sim XR) (H0 : sim_init nw dt lamb = Ok s0) (b : R) (Eb : nw_base nw = Fin b).
  Context (Hr : Forall branch_row_fin (nw_br nw)) (Hid : forall k, In (Some k) (map br_id (nw_bus nw)) -> (0 <= k)%Z).

  Lemma base_pos' : (0 < b)%R.
  Proof.
    destruct (sim_init_built _ _ _ _ H0) as (bs & ds & B). destruct (bt_wf _ _ _ _ _ _ B) as (W & _). unfold rule_base in W. rewrite Eb in W.
    apply Rleb_false in W. exact W.
  Qed.
  Lemma Y_tab : exists n M, sm_Y s0 = tab n M /\
    (forall k, In (Some k) (map br_id (nw_bus nw)) -> (0 <= k < Z.of_nat n)%Z) /\
    (exists k, In (Some k) (map br_id (nw_bus nw)) /\ (k + 1 = Z.of_nat n)%Z) /\
    forall V k, (k < n)%nat -> sumn n (fun j => M k j * V (Z.of_nat j)) = current_out nw V (Z.of_nat k).
  Proof.
    destruct (sim_init_built _ _ _ _ H0) as (bs & ds & B).
    pose proof (bt_Y _ _ _ _ _ _ B) as EY. pose proof (bt_brs _ _ _ _ _ _ B) as Er. apply mapM_ok in Er.
    pose proof (mapM_keys _ br_id b_id _ _ bus_init_id (bt_buses _ _ _ _ _ _ B)) as Ids.
    unfold build_Y in EY.
    set (ids := map b_id (sort_by b_id bs)) in *.
    assert (Iff : forall k, In k ids <-> In (Some k) (map br_id (nw_bus nw))).
    { intros k. rewrite Ids. unfold ids. rewrite !in_map_iff. split.
      - intros (x & <- & I). exists (b_id x). split; auto. apply in_map. apply (Permutation.Permutation_in _ (sort_by_perm b_id bs)); auto.
      - intros (y & E & I). assert (y = k) by congruence. subst y. apply in_map_iff in I. destruct I as (x' & E' & I'). exists x'. split; auto.
        apply (Permutation.Permutation_in _ (Permutation.Permutation_sym (sort_by_perm b_id bs))); auto. }
    destruct ids as [|i l] eqn:Q; [discriminate|].
    destruct (fold_max l i) as [Mx1 Mx2]. pose proof (fold_max_in l i) as Mx3.
    set (m := fold_left Z.max l i) in *.
    assert (Hm : (0 <= m)%Z) by (apply Hid, Iff; auto).
    destruct (Z.ltb_spec (m + 1) 0); [lia|].
    rewrite repeat_tab in EY. set (n := Z.to_nat (m + 1)) in *.
    assert (Rg : forall k, In k (i :: l) -> (0 <= k < Z.of_nat n)%Z).
    { intros k I. unfold n. rewrite Z2Nat.id by lia. split; [apply Hid, Iff; auto|]. destruct I as [<-|I]; [lia|]. specialize (Mx2 k I). lia. }
    destruct (bt_wf _ _ _ _ _ _ B) as (_ & _ & _ & _ & _ & _ & [WL1 WL2] & _).
    rewrite Eb in Er. pose proof base_pos' as Hb.
    assert (F2 : Forall2 (fun r br => br_of r b br) (nw_br nw) (sm_branches s0)).
    { clear -Er Hr Hb. revert Hr. induction Er; intros Hr; constructor; inversion Hr; subst; auto. eapply branch_init_of; eauto. }
    assert (Rg2 : Forall (fun br : branch XR => (0 <= ln_f br < Z.of_nat n)%Z /\ (0 <= ln_t br < Z.of_nat n)%Z) (sm_branches s0)).
    { clear -Er Rg. induction Er as [|r br rs brs E Er IH]; constructor; auto. apply branch_init_ends in E. destruct E as (_ & _ & I1 & I2). auto. }
    assert (E0 : exists M, sm_Y s0 = tab n M).
    { destruct (fold_tab n _ _ b [] (fun _ => RtoC 0) F2 Rg2 WL1 WL2 (fun _ _ => RtoC 0)) as (M' & E & _).
      - apply Forall_forall. auto.
      - rewrite E in EY. exists M'. injection EY; auto. }
    destruct E0 as [M EM]. exists n, M. split; auto. split; [intros k I; apply Rg, Iff; auto|]. split.
    { exists m. split; [apply Iff; auto|unfold n; lia]. }
    intros V k L.
    destruct (fold_tab n _ _ b [] V F2 Rg2 WL1 WL2 (fun _ _ => RtoC 0)) as (M' & E & S).
    - apply Forall_forall. auto.
    - rewrite E in EY. injection EY as EY. rewrite EM in EY.
      unfold current_out, outflow. specialize (S k).
      assert (Z0 : sumn n (fun j => 0%R * V (Z.of_nat j)) = RtoC 0).
      { rewrite (sumn_ext n _ (fun _ => RtoC 0)) by (intros; ring). apply sumC_zero. }
      rewrite Z0, Cplus_0_l in S. rewrite <- S.
      apply sumn_ext. intros j Hj. f_equal.
      assert (X : nth_error (tab n M') k = nth_error (tab n M) k) by congruence.
      unfold tab in X. rewrite !nth_error_seq in X by auto. injection X as X.
      assert (X2 : nth_error (map (fun k0 => up (M' k k0)) (seq 0 n)) j = nth_error (map (fun k0 => up (M k k0)) (seq 0 n)) j) by congruence.
      rewrite !nth_error_seq in X2 by auto. injection X2 as X2. apply C_eq; auto.
  Qed.
  Lemma C15_lemma V k : (k < List.length (sm_Y s0))%nat ->
    nth_error (mat_vec (sm_Y s0) (map (fun j => up (V (Z.of_nat j))) (seq 0 (List.length (sm_Y s0))))) k = Some (up (current_out nw V (Z.of_nat k))).
  Proof.
    destruct Y_tab as (n & M & E & _ & _ & K). rewrite E, tab_length. intros L. unfold mat_vec, tab. rewrite map_map, nth_error_seq by auto.
    rewrite dotc_up. f_equal. f_equal. apply K. auto.
  Qed.
End KCL.
