(** The optimal power flow attains its least cost: the plans of a network. *)
From Coq Require Import Reals Lra Sorted.
From Coquelicot Require Import Coquelicot.
From Verif Require Import Base Num NumXR Devices BusBranch CheckNetwork LoadFlow Simulator EnvArgs Env Mpc LibBase LibXR SpecNet SpecSim SpecDev
  SpecQp SpecPf SpecEnv SpecMpc ProofPlan SpecOpf ProofOpf ProofAtt.
Local Open Scope string_scope.
Local Open Scope list_scope.
Local Open Scope R_scope.
Set Bullet Behavior "Strict Subproofs".

Lemma entry_nth (l : list Z) (p : list R) i : (List.length p <= List.length l)%nat -> entry 0 l p i = nth (pos_of l i) p 0.
Proof.
  revert p. induction l as [|a l IH]; intros [|x p] L; cbn in L; try lia; cbn [pos_of].
  - reflexivity.
  - unfold entry. cbn. destruct (Z.eqb i a); [reflexivity|]. destruct (pos_of l i); reflexivity.
  - unfold entry. cbn [combine dget]. destruct (Z.eqb i a); [reflexivity|]. cbn [nth]. rewrite <- IH by lia. reflexivity.
Qed.

Definition st0 : rstage := mkRstage [] [] [] [].
Definition coord := (nat * nat * nat)%type.
(** coordinate (stage, field, position) of a plan *)
Definition field (f : nat) (st : rstage) : list R := match f with 0%nat => rs_ang st | 1%nat => rs_p st | 2%nat => rs_pc st | _ => rs_pd st end.
Definition getc (c : coord) (sts : list rstage) : R := let '(n, f, i) := c in nth i (field f (nth n sts st0)) 0.

Section Plans.
  Context (I : index) (k : nat).
  Definition width (f : nat) : nat :=
    match f with 0%nat => List.length (ix_buses I) | 1%nat => List.length (ix_all I) | 2%nat => List.length (ix_dess I) | _ => List.length (ix_dess I) end.
  Definition coords : list coord :=
    flat_map (fun n => flat_map (fun f => map (fun i => (n, f, i)) (seq 0 (width f))) (seq 0 4)) (seq 0 k).
  Lemma in_coords n f i : In (n, f, i) coords <-> (n < k)%nat /\ (f < 4)%nat /\ (i < width f)%nat.
  Proof.
    unfold coords. rewrite in_flat_map. split.
    - intros (n' & Hn & H). apply in_flat_map in H as (f' & Hf & H). apply in_map_iff in H as (i' & E & Hi). injection E as -> -> ->. apply in_seq in Hn, Hf, Hi. lia.
    - intros (H1 & H2 & H3). exists n. split; [apply in_seq; lia|]. apply in_flat_map. exists f. split; [apply in_seq; lia|]. apply in_map_iff. exists i. split; [auto|apply in_seq; lia].
  Qed.
  Definition shape_plan (sts : list rstage) : Prop := List.length sts = k /\ Forall (well_shaped I) sts.
  Lemma plan_nth sts n : shape_plan sts -> (n < k)%nat -> well_shaped I (nth n sts st0) /\ nth_error sts n = Some (nth n sts st0).
  Proof.
    intros (L & W) Hn. rewrite Forall_forall in W. assert (E : nth_error sts n = Some (nth n sts st0)) by (apply nth_error_nth'; lia).
    split; [apply W; eapply nth_error_In; eauto|auto].
  Qed.
  Lemma plan_field sts n f : shape_plan sts -> (List.length (field f (nth n sts st0)) <= width f)%nat.
  Proof.
    intros S. destruct (Nat.lt_ge_cases n k) as [L|L].
    - destruct (plan_nth sts n S L) as ((A & B & C & D) & _). destruct f as [|[|[|f]]]; cbn [field width]; lia.
    - rewrite nth_overflow by (rewrite (proj1 S); lia). destruct f as [|[|[|f]]]; cbn; lia.
  Qed.

  (** convergence of plans *)
  Definition conv (u : nat -> list rstage) (v : list rstage) : Prop :=
    (forall q, shape_plan (u q)) /\ shape_plan v /\ forall c, is_lim_seq (fun q => getc c (u q)) (getc c v).
  Definition cont (f : list rstage -> R) : Prop := forall u v, conv u v -> is_lim_seq (fun q => f (u q)) (f v).
  Lemma cont_const a : cont (fun _ => a).
  Proof. intros u v _. apply is_lim_seq_const. Qed.
  Lemma cont_plus f g : cont f -> cont g -> cont (fun x => f x + g x).
  Proof. intros A B u v H. apply is_lim_seq_plus'; auto. Qed.
  Lemma cont_minus f g : cont f -> cont g -> cont (fun x => f x - g x).
  Proof. intros A B u v H. apply is_lim_seq_minus'; auto. Qed.
  Lemma cont_mult f g : cont f -> cont g -> cont (fun x => f x * g x).
  Proof. intros A B u v H. apply is_lim_seq_mult'; auto. Qed.
  Lemma cont_abs f : cont f -> cont (fun x => Rabs (f x)).
  Proof. intros A u v H. apply (is_lim_seq_abs _ (f v)). auto. Qed.
  Lemma cont_ext f g : (forall x, shape_plan x -> f x = g x) -> cont f -> cont g.
  Proof. intros E A u v H. rewrite <- E by apply H. eapply is_lim_seq_ext; [|apply A, H]. intros n. apply E, H. Qed.
  Lemma cont_max f : cont f -> cont (fun x => Rmax 0 (f x)).
  Proof.
    intros A. apply (cont_ext (fun x => (f x + Rabs (f x)) * / 2)).
    - intros x _. unfold Rmax, Rabs. destruct (Rle_dec _ _), (Rcase_abs _); lra.
    - apply cont_mult; [apply cont_plus; [auto|apply cont_abs; auto]|apply cont_const].
  Qed.
  Lemma cont_sum {A} (f : A -> list rstage -> R) l : (forall a, In a l -> cont (f a)) -> cont (fun x => sumR (map (fun a => f a x) l)).
  Proof. induction l as [|a l IH]; intros H; cbn; [apply cont_const|]. apply cont_plus; [apply H; left; auto|apply IH; intros; apply H; right; auto]. Qed.
  Lemma cont_get c : cont (getc c).
  Proof. intros u v H. apply H. Qed.
  Lemma cont_angle n i : cont (fun x => angle I (nth n x st0) i).
  Proof. apply (cont_ext (getc (n, 0%nat, pos_of (ix_buses I) i))); [|apply cont_get]. intros x S. symmetry. apply entry_nth. apply (plan_field x n 0 S). Qed.
  Lemma cont_inject n i : cont (fun x => inject I (nth n x st0) i).
  Proof. apply (cont_ext (getc (n, 1%nat, pos_of (ix_all I) i))); [|apply cont_get]. intros x S. symmetry. apply entry_nth. apply (plan_field x n 1 S). Qed.
  Lemma cont_charge n i : cont (fun x => charge I (nth n x st0) i).
  Proof. apply (cont_ext (getc (n, 2%nat, pos_of (ix_dess I) i))); [|apply cont_get]. intros x S. symmetry. apply entry_nth. apply (plan_field x n 2 S). Qed.
  Lemma cont_discharge n i : cont (fun x => discharge I (nth n x st0) i).
  Proof. apply (cont_ext (getc (n, 3%nat, pos_of (ix_dess I) i))); [|apply cont_get]. intros x S. symmetry. apply entry_nth. apply (plan_field x n 3 S). Qed.
  Lemma cont_ang_at n o : cont (fun x => ang_at (angle I (nth n x st0)) o).
  Proof. destruct o; cbn; [apply cont_angle|apply cont_const]. Qed.
  Lemma cont_dc_out nw n i : cont (fun x => dc_out nw (angle I (nth n x st0)) i).
  Proof.
    unfold dc_out. apply cont_sum. intros r _. apply cont_plus.
    - destruct (end_of _ _); [|apply cont_const]. apply cont_mult; [apply cont_const|]. apply cont_minus; apply cont_ang_at.
    - destruct (end_of _ _); [|apply cont_const]. apply cont_mult; [apply cont_const|]. apply cont_minus; apply cont_ang_at.
  Qed.
  Lemma cont_planned nw n i : cont (fun x => planned_at nw (ix_all I) (rs_p (nth n x st0)) i).
  Proof. unfold planned_at. apply cont_sum. intros r _. destruct (dr_id r) as [j|]; [apply cont_inject|apply cont_const]. Qed.
  Lemma firstn_nth (sts : list rstage) n : (n <= List.length sts)%nat -> firstn n sts = map (fun j => nth j sts st0) (seq 0 n).
  Proof.
    revert n. induction sts as [|s sts IH]; intros [|n] L; cbn in L; try lia; try reflexivity. cbn [firstn seq map]. f_equal. rewrite <- seq_shift, map_map. apply IH. lia.
  Qed.
  Lemma cont_soc e d c0 i n : (n <= k)%nat -> cont (fun x => planned_soc e d c0 (map (fun st => (charge I st i, discharge I st i)) (firstn n x))).
  Proof.
    intros L. apply (cont_ext (fun x => planned_soc e d c0 (map (fun j => (charge I (nth j x st0) i, discharge I (nth j x st0) i)) (seq 0 n)))).
    - intros x (Lx & _). rewrite firstn_nth by lia. rewrite map_map. reflexivity.
    - clear L. induction n as [|n IH]; [exact (cont_const c0)|]. unfold planned_soc in *.
      apply (cont_ext (fun x => fold_left (fun c y => c + d * e * fst y - d * snd y / e) (map (fun j => (charge I (nth j x st0) i, discharge I (nth j x st0) i)) (seq 0 n)) c0
                                + d * e * charge I (nth n x st0) i - d * discharge I (nth n x st0) i * / e)).
      + intros x _. rewrite seq_S, map_app, fold_left_app. cbn [map fold_left fst snd Nat.add]. reflexivity.
      + apply cont_minus; [apply cont_plus; [exact IH|]|].
        * apply cont_mult; [apply cont_const|apply cont_charge].
        * apply cont_mult; [apply cont_mult; [apply cont_const|apply cont_discharge]|apply cont_const].
  Qed.
  Lemma cont_cost1 nw base margin lamb n : cont (fun x => opf_cost1 nw I base margin lamb (nth n x st0)).
  Proof.
    unfold opf_cost1. apply cont_plus; [apply (cont_sum (fun a x => inject I (nth n x st0) a)); intros; apply cont_inject|].
    apply cont_mult; [apply cont_const|]. apply (cont_sum (fun r x => excess base margin r (dc_flow r (angle I (nth n x st0))))). intros r _. unfold excess.
    destruct (lr_rate r) as [x|]; [destruct x|]; try apply cont_const. apply cont_max. apply cont_minus; [|apply cont_const]. apply cont_abs.
    unfold dc_flow. apply cont_mult; [apply cont_const|]. apply cont_minus; apply cont_ang_at.
  Qed.
  Lemma cost_sum nw base margin lamb gam sts : opf_cost nw I base margin lamb gam sts =
    sumR (map (fun n => gam ^ n * opf_cost1 nw I base margin lamb (nth n sts st0)) (seq 0 (List.length sts))).
  Proof.
    induction sts as [|st sts IH]; [reflexivity|]. cbn [opf_cost List.length seq map sumR fold_right nth pow]. rewrite Rmult_1_l. f_equal. rewrite IH. rewrite <- seq_shift, map_map. clear IH.
    generalize (seq 0 (List.length sts)). intros l. induction l as [|n l IH]; cbn [map fold_right sumR]; [cbn; lra|].
    rewrite Rmult_plus_distr_l. change (fold_right Rplus 0) with sumR in *. rewrite IH. cbn [nth pow]. lra.
  Qed.
  Lemma cont_cost nw base margin lamb gam : cont (opf_cost nw I base margin lamb gam).
  Proof.
    apply (cont_ext (fun x => sumR (map (fun n => gam ^ n * opf_cost1 nw I base margin lamb (nth n x st0)) (seq 0 k)))).
    - intros x (L & _). rewrite cost_sum, L. reflexivity.
    - apply (cont_sum (fun n x => gam ^ n * opf_cost1 nw I base margin lamb (nth n x st0))). intros n _. apply cont_mult; [apply cont_const|apply cont_cost1].
  Qed.

  (** the limit of a sequence of plans whose coordinates converge *)
  Lemma conv_limit (u : nat -> list rstage) : (forall q, shape_plan (u q)) -> (forall c, In c coords -> exists l : R, is_lim_seq (fun q => getc c (u q)) l) -> exists v, conv u v.
  Proof.
    intros S L. set (lim := fun c => real (Lim_seq (fun q => getc c (u q)))).
    set (fl := fun n f => map (fun i => lim (n, f, i)) (seq 0 (width f))).
    set (v := map (fun n => mkRstage (fl n 0%nat) (fl n 1%nat) (fl n 2%nat) (fl n 3%nat)) (seq 0 k)).
    assert (Sv : shape_plan v).
    { split; [unfold v; rewrite map_length, seq_length; auto|]. apply Forall_forall. intros st Hs. apply in_map_iff in Hs as (n & <- & _).
      unfold well_shaped, fl. cbn. rewrite !map_length, !seq_length. auto. }
    exists v. split; [exact S|]. split; [exact Sv|]. intros ((n, f), i).
    assert (C4 : forall f, exists f', (f' < 4)%nat /\ field f = field f' /\ width f = width f').
    { intros [|[|[|f']]]; [exists 0%nat|exists 1%nat|exists 2%nat|exists 3%nat]; repeat split; lia. }
    destruct (C4 f) as (f' & Hf & Ef & Ew).
    destruct (Nat.lt_ge_cases n k) as [Ln|Ln].
    - destruct (Nat.lt_ge_cases i (width f')) as [Li|Li].
      + destruct (L (n, f', i)) as (l & Hl); [apply in_coords; auto|].
        assert (E : getc (n, f, i) v = l).
        { unfold getc. rewrite Ef. unfold v. rewrite (nth_indep _ st0 (mkRstage (fl 0%nat 0%nat) (fl 0%nat 1%nat) (fl 0%nat 2%nat) (fl 0%nat 3%nat))) by (rewrite map_length, seq_length; lia).
          rewrite (map_nth (fun n => mkRstage (fl n 0%nat) (fl n 1%nat) (fl n 2%nat) (fl n 3%nat)) _ 0%nat), seq_nth by lia. cbn [Nat.add].
          replace (field f' _) with (fl n f') by (destruct f' as [|[|[|[|f']]]]; try lia; reflexivity).
          unfold fl. rewrite (nth_indep _ 0 (lim (n, f', 0%nat))) by (rewrite map_length, seq_length; auto).
          rewrite (map_nth (fun i => lim (n, f', i)) _ 0%nat), seq_nth by auto. cbn [Nat.add]. unfold lim. rewrite (is_lim_seq_unique _ _ Hl). reflexivity. }
        rewrite E. eapply is_lim_seq_ext; [|exact Hl]. intros q. unfold getc. rewrite Ef. reflexivity.
      + assert (Z : forall x, shape_plan x -> getc (n, f, i) x = 0). { intros x Sx. unfold getc. rewrite nth_overflow; [reflexivity|]. pose proof (plan_field x n f Sx). lia. }
        rewrite Z by auto. eapply is_lim_seq_ext; [|apply is_lim_seq_const]. intros q. symmetry. apply Z. apply S.
    - assert (Z : forall x, shape_plan x -> getc (n, f, i) x = 0).
      { intros x Sx. unfold getc. rewrite (nth_overflow x) by (rewrite (proj1 Sx); lia). destruct f as [|[|[|f]]]; destruct i; reflexivity. }
      rewrite Z by auto. eapply is_lim_seq_ext; [|apply is_lim_seq_const]. intros q. symmetry. apply Z. apply S.
  Qed.
  (** closed conditions *)
  Lemma lim_eq (f g : list rstage -> R) u v : cont f -> cont g -> conv u v -> (forall q, f (u q) = g (u q)) -> f v = g v.
  Proof.
    intros Cf Cg H E. pose proof (Cf u v H) as A. pose proof (Cg u v H) as B. apply (is_lim_seq_ext _ _ _ E) in A. apply is_lim_seq_unique in A. apply is_lim_seq_unique in B. rewrite A in B. injection B as B. exact B.
  Qed.
  Lemma lim_le (f g : list rstage -> R) u v : cont f -> cont g -> conv u v -> (forall q, f (u q) <= g (u q)) -> f v <= g v.
  Proof. intros Cf Cg H E. assert (Rbar_le (f v) (g v)); [|auto]. apply (is_lim_seq_le (fun q => f (u q)) (fun q => g (u q))); auto. Qed.
End Plans.
