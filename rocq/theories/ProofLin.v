(** Linear algebra behind C80: a square system with trivial kernel has a solution; an exact solver exists. *)
From Coq Require Import Reals Lra Lia Classical ClassicalEpsilon.
From Coquelicot Require Import Complex.
From Verif Require Import Base Num NumXR LibBase LoadFlow Exec SpecPf LibC ProofY ProofBal ProofLight ProofLight2 SpecLight SpecTotal PropTotal.
Local Open Scope list_scope.
Local Open Scope R_scope.
Set Bullet Behavior "Strict Subproofs".

Definition LS (row x : nat -> C) (cols : list nat) : C := sumC (map (fun j => (row j * x j)%C) cols).
Lemma LS_ext r x r' x' cols : (forall j, In j cols -> r j = r' j /\ x j = x' j) -> LS r x cols = LS r' x' cols.
Proof. intros H. unfold LS. apply sumC_ext_in. intros j I. destruct (H j I) as (-> & ->). reflexivity. Qed.
Lemma LS_split r x l1 c l2 : LS r x (l1 ++ c :: l2) = (r c * x c + LS r x (l1 ++ l2))%C.
Proof. unfold LS. rewrite !map_app, !sumC_app. cbn [map]. rewrite sumC_cons. ring. Qed.
Lemma LS_scale r x a cols : LS r (fun j => (a * x j)%C) cols = (a * LS r x cols)%C.
Proof. unfold LS. induction cols; cbn [map]; [rewrite !sumC_nil; ring|]. rewrite !sumC_cons, IHcols. ring. Qed.
Lemma LS_comb r q a x cols : LS (fun j => (r j - a * q j)%C) x cols = (LS r x cols - a * LS q x cols)%C.
Proof. unfold LS. induction cols; cbn [map]; [rewrite !sumC_nil; ring|]. rewrite !sumC_cons, IHcols. ring. Qed.

(** fewer equations than unknowns *)
Lemma kernel : forall (rows : list (nat -> C)) cols, NoDup cols -> (List.length rows < List.length cols)%nat ->
  exists x, (exists j, In j cols /\ x j <> RtoC 0) /\ Forall (fun row => LS row x cols = RtoC 0) rows.
Proof.
  intros rows. remember (List.length rows) as m eqn:Em. revert rows Em. induction m as [|m IH]; intros rows Em cols ND L.
  - destruct rows; [|discriminate Em]. destruct cols as [|c cols]; [cbn in L; lia|]. exists (fun _ => RtoC 1). split; [|constructor]. exists c. split; [left; auto|]. intros E. injection E as E. lra.
  - destruct rows as [|row rows]; [discriminate Em|]. cbn in Em. injection Em as Em.
    destruct (classic (exists c, In c cols /\ row c <> RtoC 0)) as [(c & Ic & Nc)|No].
    + apply in_split in Ic as (l1 & l2 & ->). set (cols' := l1 ++ l2).
      assert (ND' : NoDup cols') by (apply NoDup_remove_1 in ND; auto). assert (Nin : ~ In c cols') by (apply NoDup_remove_2 in ND; auto).
      destruct (IH (map (fun r j => (r j - (r c / row c) * row j)%C) rows) ltac:(rewrite map_length; auto) cols' ND') as (x & (j & Ij & Nj) & F).
      { unfold cols'. rewrite app_length in *. cbn [List.length] in L. lia. }
      set (x' := fun j => if Nat.eqb j c then (- LS row x cols' / row c)%C else x j).
      assert (X : forall r, LS r x' cols' = LS r x cols'). { intros r. apply LS_ext. intros i I. split; auto. unfold x'. destruct (Nat.eqb_spec i c); auto. subst. contradiction. }
      assert (Xc : x' c = (- LS row x cols' / row c)%C) by (unfold x'; rewrite Nat.eqb_refl; auto).
      exists x'. split.
      * exists j. split. { unfold cols' in Ij. apply in_app_iff in Ij as [I|I]; apply in_app_iff; [left|right; right]; auto. } unfold x'. destruct (Nat.eqb_spec j c); auto. subst. contradiction.
      * constructor.
        -- rewrite LS_split, X, Xc. fold cols'. field. auto.
        -- rewrite Forall_map in F. eapply Forall_impl; [|exact F]. cbv beta. intros r Hr. rewrite LS_comb in Hr. rewrite LS_split, X, Xc. fold cols'.
           replace (LS r x cols') with (r c / row c * LS row x cols')%C; [field; auto|]. symmetry. replace (LS r x cols') with (LS r x cols' - r c / row c * LS row x cols' + r c / row c * LS row x cols')%C by ring. rewrite Hr. ring.
    + destruct (IH rows Em cols ND ltac:(lia)) as (x & Hx & F). exists x. split; auto. constructor; auto.
      unfold LS. rewrite (sumC_ext_in _ _ (fun _ => RtoC 0)); [apply sumC_zero|]. intros j Ij. destruct (classic (row j = RtoC 0)) as [->|N]; [ring|]. exfalso. apply No. eauto.
Qed.
Definition trivial_kernel (rows : list (nat -> C)) (n : nat) : Prop := forall x, Forall (fun row => LS row x (seq 0 n) = RtoC 0) rows -> forall j, (j < n)%nat -> x j = RtoC 0.
Lemma surjective (rows : list (nat -> C)) (b : list C) n : List.length rows = n -> List.length b = n -> trivial_kernel rows n ->
  exists x, Forall2 (fun row v => LS row x (seq 0 n) = v) rows b.
Proof.
  intros L1 L2 K. set (rows' := zip_with (fun row v j => if Nat.eqb j n then (- v)%C else row j) rows b).
  assert (ND : NoDup (seq 0 (S n))) by apply seq_NoDup.
  destruct (kernel rows' (seq 0 (S n)) ND) as (x & (j & Ij & Nj) & F). { unfold rows'. rewrite zip_with_length, seq_length. lia. }
  rewrite seq_S in F. cbn [Nat.add] in F.
  assert (S : forall row v, LS (fun j => if Nat.eqb j n then (- v)%C else row j) x (seq 0 n ++ [n]) = (LS row x (seq 0 n) - v * x n)%C).
  { intros row v. rewrite LS_split, app_nil_r, Nat.eqb_refl. rewrite (LS_ext _ x row x); [ring|]. intros i I. apply in_seq in I. split; auto. destruct (Nat.eqb_spec i n); auto. lia. }
  assert (F2 : Forall2 (fun row v => LS row x (seq 0 n) = (v * x n)%C) rows b).
  { assert (L : List.length rows = List.length b) by congruence. unfold rows' in F. clear -F S L. revert b F L. induction rows as [|row rows IH]; intros [|v b] F L; try discriminate L; constructor.
    - cbn in F. inversion F as [|? ? E _]. rewrite S in E. replace (LS row x (seq 0 n)) with (LS row x (seq 0 n) - v * x n + v * x n)%C by ring. rewrite E. ring.
    - apply IH; [|cbn in L; congruence]. cbn in F. inversion F; auto. }
  assert (T : x n <> RtoC 0).
  { intros E. apply Nj. apply in_seq in Ij. destruct (Nat.eq_dec j n) as [->|N]; auto. apply (K x); [|lia]. clear -F2 E. induction F2 as [|row v rows b H F2 IH]; constructor; auto. rewrite H, E. ring. }
  exists (fun j => (/ x n * x j)%C). clear -F2 T. induction F2 as [|row v rows b H F2 IH]; constructor; auto. rewrite LS_scale, H. field. auto.
Qed.

(** ---- an exact solver for real systems ---- *)
Lemma nth_map_seq (x : nat -> R) n i : (i < n)%nat -> nth i (map x (seq 0 n)) 0 = x i.
Proof. intros H. rewrite (nth_indep _ 0 (x 0%nat)) by (rewrite map_length, seq_length; auto). rewrite map_nth, seq_nth by auto. reflexivity. Qed.
Lemma dot_seq row x n : List.length row = n -> dotR row (map x (seq 0 n)) = sumR (map (fun j => nth j row 0 * x j) (seq 0 n)).
Proof.
  intros L. rewrite <- (zip_map Rmult (fun j => nth j row 0) x). unfold dotR. do 2 f_equal. rewrite (list_seq row n L) at 1. rewrite map_seq_S. apply map_ext. intros k. f_equal. lia.
Qed.
Lemma solve_real A b : List.length b = List.length A -> Forall (fun row => List.length row = List.length A) A -> nonsingular A ->
  exists x, List.length x = List.length A /\ Forall2 (fun row v => dotR row x = v) A b.
Proof.
  intros Lb Sq NS. remember (List.length A) as n eqn:En. set (fr := fun (row : list R) (j : nat) => RtoC (nth j row 0)).
  assert (RE : forall row x, fst (LS (fr row) x (seq 0 n)) = sumR (map (fun j => nth j row 0 * fst (x j)) (seq 0 n))).
  { intros row x. unfold LS. rewrite ProofLight2.sumC_fst. f_equal. apply map_ext. intros j. unfold fr. cbn. ring. }
  assert (IM : forall row x, snd (LS (fr row) x (seq 0 n)) = sumR (map (fun j => nth j row 0 * snd (x j)) (seq 0 n))).
  { intros row x. unfold LS. rewrite ProofLight2.sumC_snd. f_equal. apply map_ext. intros j. unfold fr. cbn. ring. }
  destruct (surjective (map fr A) (map RtoC b) n) as (x & F).
  - rewrite map_length. auto.
  - rewrite map_length. exact Lb.
  - intros x F j Hj. rewrite Forall_map in F.
    assert (Z : forall p : C -> R, (forall row, p (LS (fr row) x (seq 0 n)) = sumR (map (fun j => nth j row 0 * p (x j)) (seq 0 n))) -> p (RtoC 0) = 0 -> p (x j) = 0).
    { intros p Hp P0. pose proof (NS (map (fun j => p (x j)) (seq 0 n))) as K. rewrite map_length, seq_length in K. specialize (K En).
      assert (G : Forall (fun row => dotR row (map (fun j => p (x j)) (seq 0 n)) = 0) A).
      { rewrite Forall_forall in Sq, F |- *. intros row I. rewrite dot_seq by (apply Sq; auto). rewrite <- Hp, (F row I). exact P0. }
      specialize (K G). rewrite Forall_map, Forall_forall in K. apply K. apply in_seq. lia. }
    apply C_eq; [apply (Z fst)|apply (Z snd)]; auto.
  - exists (map (fun j => fst (x j)) (seq 0 n)). split; [rewrite map_length, seq_length; reflexivity|].
    clear -F RE Sq. revert b F. induction Sq as [|row A Hrow Sq IH]; intros [|v b] F; cbn in F; inversion F as [|? ? ? ? E F' Ea Eb]; subst; constructor; auto.
    rewrite dot_seq by auto. rewrite <- RE, E. reflexivity.
Qed.

(** The solver that looks for a solution in exact arithmetic and otherwise answers like Gaussian elimination. *)
Definition is_answer (A : list (list XR)) (b : list XR) (x : list R) : Prop :=
  exists A' b', A = map (map Fin) A' /\ b = map Fin b' /\ List.length x = List.length A' /\ Forall2 (fun row v => dotR row x = v) A' b'.
Definition exact_solver : lin_solver XR := fun A b =>
  match excluded_middle_informative (exists x, is_answer A b x) with
  | left H => Ok (map Fin (proj1_sig (constructive_indefinite_description _ H)))
  | right _ => gauss_solve A b
  end.
Lemma mapFin_inj l m : map Fin l = map Fin m -> l = m.
Proof. revert m; induction l; intros [|b m] H; try discriminate H; auto. cbn in H. injection H as -> H. f_equal. auto. Qed.
Lemma mapmapFin_inj l m : map (map Fin) l = map (map Fin) m -> l = m.
Proof. revert m; induction l; intros [|b m] H; try discriminate H; auto. cbn [map] in H. injection H as H1 H. f_equal; auto. apply mapFin_inj; auto. Qed.
Lemma exact_solver_exact : exact_lin exact_solver.
Proof.
  intros A b Lb Sq NS. unfold exact_solver. destruct (excluded_middle_informative _) as [H|H].
  - destruct (constructive_indefinite_description _ H) as (x & A' & b' & EA & Eb & L & F). cbn [proj1_sig]. apply mapmapFin_inj in EA. apply mapFin_inj in Eb. subst A' b'. exists x. auto.
  - exfalso. apply H. destruct (solve_real A b Lb Sq NS) as (x & L & F). exists x, A, b. auto.
Qed.
Lemma exact_solver_total : lin_total exact_solver.
Proof.
  intros A b L. unfold exact_solver. destruct (excluded_middle_informative _) as [H|H].
  - destruct (constructive_indefinite_description _ H) as (x & A' & b' & EA & Eb & Lx & F). cbn [proj1_sig]. subst. exists (map Fin x). split; auto. rewrite !map_length in *. congruence.
  - apply C68_linear_solver_exists. exact L.
Qed.
