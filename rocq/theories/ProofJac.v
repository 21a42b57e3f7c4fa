(** Derivatives of the power-flow mismatch over the reals. *)
From Coq Require Import Reals Lra Lia.
From Verif Require Import Base Num NumXR NumR LibBase LoadFlow.
Local Open Scope R_scope.

(** derivative of a complex-valued function of a real variable *)
Definition cder (f : R -> cplx R) (x : R) (d : cplx R) : Prop :=
  derivable_pt_lim (fun t => re (f t)) x (re d) /\ derivable_pt_lim (fun t => im (f t)) x (im d).

Lemma dpl_ext f g x d : (forall t, f t = g t) -> derivable_pt_lim f x d -> derivable_pt_lim g x d.
Proof. intros H D e He. destruct (D e He) as (dl & K). exists dl. intros h Hh0 Hh. rewrite <- !H. auto. Qed.
Lemma dpl_val f x d d' : d = d' -> derivable_pt_lim f x d -> derivable_pt_lim f x d'.
Proof. intros <-. auto. Qed.

Lemma cplx_eq (a b : cplx R) : re a = re b -> im a = im b -> a = b.
Proof. destruct a, b; cbn; congruence. Qed.
Ltac cxr := apply cplx_eq; unfold csub, cadd, cmul, cconj, copp, cscale, cdivr, c0, c1; cbn [re im nadd nsub nmul ndiv nopp n0 n1 Rnum].

Lemma cder_ext f g x d : (forall t, f t = g t) -> cder f x d -> cder g x d.
Proof. intros H (A & B). split; eapply dpl_ext; eauto; intros t; cbn; rewrite H; auto. Qed.
Lemma cder_val f x d d' : d = d' -> cder f x d -> cder f x d'.
Proof. intros <-. auto. Qed.
Lemma cder_const c x : cder (fun _ => c) x c0.
Proof. split; apply derivable_pt_lim_const. Qed.
Lemma cder_add f g x df dg : cder f x df -> cder g x dg -> cder (fun t => cadd (f t) (g t)) x (cadd df dg).
Proof. intros (A & B) (C & D). split; apply derivable_pt_lim_plus with (f1 := fun t => _ (f t)) (f2 := fun t => _ (g t)); auto. Qed.
Lemma cder_sub_const f c x df : cder f x df -> cder (fun t => csub (f t) c) x df.
Proof.
  intros (A & B). split.
  - apply (dpl_ext (fun t => re (f t) - (fun _ => re c) t)); [reflexivity|]. eapply dpl_val; [|apply derivable_pt_lim_minus with (f1 := fun t => re (f t)) (f2 := fun _ => re c); [exact A|apply derivable_pt_lim_const]]. ring.
  - apply (dpl_ext (fun t => im (f t) - (fun _ => im c) t)); [reflexivity|]. eapply dpl_val; [|apply derivable_pt_lim_minus with (f1 := fun t => im (f t)) (f2 := fun _ => im c); [exact B|apply derivable_pt_lim_const]]. ring.
Qed.
Lemma cder_conj f x df : cder f x df -> cder (fun t => cconj (f t)) x (cconj df).
Proof. intros (A & B). split; [exact A|]. apply (derivable_pt_lim_opp (fun t => im (f t))). exact B. Qed.
Lemma cder_mul f g x df dg : cder f x df -> cder g x dg ->
  cder (fun t => cmul (f t) (g t)) x (cadd (cmul df (g x)) (cmul (f x) dg)).
Proof.
  intros (A & B) (C & D). split.
  - eapply dpl_val; [|apply (derivable_pt_lim_minus (fun t => re (f t) * re (g t)) (fun t => im (f t) * im (g t)));
      [apply (derivable_pt_lim_mult (fun t => re (f t)) (fun t => re (g t))); eauto
      |apply (derivable_pt_lim_mult (fun t => im (f t)) (fun t => im (g t))); eauto]].
    cbn; ring.
  - eapply dpl_val; [|apply (derivable_pt_lim_plus (fun t => re (f t) * im (g t)) (fun t => im (f t) * re (g t)));
      [apply (derivable_pt_lim_mult (fun t => re (f t)) (fun t => im (g t))); eauto
      |apply (derivable_pt_lim_mult (fun t => im (f t)) (fun t => re (g t))); eauto]].
    cbn; ring.
Qed.
Lemma cder_angle m th : cder (fun t => cscale m (cexpi t)) th (cmul (mkC n0 n1) (cscale m (cexpi th))).
Proof.
  split.
  - eapply dpl_val; [|apply (derivable_pt_lim_scal cos m th (- sin th)); apply derivable_pt_lim_cos]. cbn. ring.
  - eapply dpl_val; [|apply (derivable_pt_lim_scal sin m th (cos th)); apply derivable_pt_lim_sin]. cbn. ring.
Qed.
Lemma cder_magn th m : cder (fun t => cscale t (cexpi th)) m (cexpi th).
Proof.
  split.
  - apply (dpl_ext (fun t => id t * (fun _ => cos th) t)); [reflexivity|].
    eapply dpl_val; [|apply derivable_pt_lim_mult; [apply derivable_pt_lim_id|apply derivable_pt_lim_const]]. cbn. ring.
  - apply (dpl_ext (fun t => id t * (fun _ => sin th) t)); [reflexivity|].
    eapply dpl_val; [|apply derivable_pt_lim_mult; [apply derivable_pt_lim_id|apply derivable_pt_lim_const]]. cbn. ring.
Qed.

(** sums *)
Lemma fold_cadd l : forall a : cplx R, fold_left cadd l a = cadd a (fold_left cadd l c0).
Proof.
  induction l as [|b l IH]; intros a; cbn [fold_left]; [cxr; ring|]. rewrite IH, (IH (cadd c0 b)). cxr; ring.
Qed.
Lemma csum_cons (a : cplx R) l : csum (a :: l) = cadd a (csum l).
Proof. unfold csum. cbn [fold_left]. rewrite fold_cadd. f_equal. cxr; ring. Qed.
Lemma dotc_cons (a b : cplx R) r v : dotc (a :: r) (b :: v) = cadd (cmul a b) (dotc r v).
Proof. unfold dotc. cbn [zip_with]. apply csum_cons. Qed.
Lemma dotc_nil_r (r : list (cplx R)) : dotc r [] = c0.
Proof. destruct r; reflexivity. Qed.

Lemma cder_dotc x : forall (row : list (cplx R)) fl dl, Forall2 (fun f d => cder f x d) fl dl ->
  cder (fun t => dotc row (map (fun f => f t) fl)) x (dotc row dl).
Proof.
  induction row as [|y row IH]; intros fl dl H; [apply (cder_const c0)|].
  destruct H as [|f d fl dl Hf H]; cbn [map]; [apply (cder_const c0)|].
  eapply cder_ext; [intros t; symmetry; apply dotc_cons|]. rewrite dotc_cons. apply cder_add; [|auto].
  eapply cder_val; [|apply (cder_mul (fun _ => y) f x c0 d); [apply cder_const|exact Hf]]. cxr; ring.
Qed.
Lemma dotc_zero (row : list (cplx R)) n : dotc row (repeat c0 n) = c0.
Proof.
  revert row; induction n as [|n IH]; intros [|a row]; try reflexivity. cbn [repeat]. rewrite dotc_cons, IH. cxr; ring.
Qed.
Lemma dotc_single d : forall k (row : list (cplx R)) n y, (k < n)%nat -> nth_error row k = Some y ->
  dotc row (list_set (repeat c0 n) k d) = cmul y d.
Proof.
  induction k as [|k IH]; intros row n y Hn E; destruct row as [|a row]; try discriminate; destruct n as [|n]; try lia; cbn [repeat list_set]; rewrite dotc_cons.
  - injection E as <-. rewrite dotc_zero. cxr; ring.
  - rewrite (IH row n y); [|lia|exact E]. cxr; ring.
Qed.

(** the voltage vector as a list indexed by buses *)
Definition volt (n : nat) (g : list R) (k : nat) : cplx R :=
  match k with O => c1 | S k' => cscale (nth (n + k') g 0) (cexpi (nth k' g 0)) end.
Lemma zip_with_seq {B} (f : R -> R -> B) (l m : list R) : List.length l = List.length m ->
  zip_with f l m = map (fun k => f (nth k l 0) (nth k m 0)) (seq 0 (List.length l)).
Proof.
  revert m; induction l as [|a l IH]; intros [|b m] E; try discriminate; [reflexivity|].
  cbn [zip_with List.length seq map nth]. f_equal. rewrite IH by (cbn in E; lia). rewrite <- seq_shift, map_map. reflexivity.
Qed.
Lemma nth_firstn' (l : list R) n k : (k < n)%nat -> nth k (firstn n l) 0 = nth k l 0.
Proof. revert l k; induction n as [|n IH]; intros [|a l] [|k] H; try lia; cbn; auto. apply IH. lia. Qed.
Lemma nth_skipn' (l : list R) n k : nth k (skipn n l) 0 = nth (n + k) l 0.
Proof. revert l; induction n as [|n IH]; intros [|a l]; cbn; auto. destruct k; auto. Qed.
Lemma construct_volt n g : List.length g = (2 * n)%nat -> construct_v g = map (volt n g) (seq 0 (S n)).
Proof.
  intros L. unfold construct_v. rewrite L. replace (2 * n)%nat with (n * 2)%nat by lia. rewrite Nat.div_mul by lia.
  cbn [seq map]. f_equal. rewrite zip_with_seq by (rewrite firstn_length, skipn_length; lia).
  rewrite firstn_length, L, Nat.min_l by lia. rewrite <- seq_shift, map_map. apply map_ext_in. intros k Hk. apply in_seq in Hk.
  cbn [volt]. rewrite nth_firstn', nth_skipn' by lia. reflexivity.
Qed.
Lemma nth_list_set (l : list R) i v k : (i < List.length l)%nat -> nth k (list_set l i v) 0 = if Nat.eqb k i then v else nth k l 0.
Proof.
  revert i k; induction l as [|a l IH]; intros [|i] [|k] H; cbn in *; try lia; auto. apply IH. lia.
Qed.

(** moving one unknown moves one bus voltage *)
Definition dvolt (n : nat) (g : list R) (j : nat) : cplx R :=
  if Nat.ltb j n then cmul (mkC n0 n1) (volt n g (S j)) else cexpi (nth (j - n) g 0).
Definition bus_of (n j : nat) : nat := if Nat.ltb j n then S j else S (j - n).
Lemma cder_volt n g j : List.length g = (2 * n)%nat -> (j < 2 * n)%nat -> forall k, (k < S n)%nat ->
  cder (fun t => volt n (list_set g j t) k) (nth j g 0) (if Nat.eqb k (bus_of n j) then dvolt n g j else c0).
Proof.
  intros L Hj [|k] Hk.
  - replace (Nat.eqb 0 (bus_of n j)) with false by (unfold bus_of; destruct (Nat.ltb j n); reflexivity). apply (cder_const c1).
  - unfold bus_of, dvolt, volt. destruct (Nat.ltb_spec j n) as [Hn|Hn].
    + eapply cder_ext; [intros t; rewrite !nth_list_set by lia; reflexivity|].
      replace (Nat.eqb (n + k) j) with false by (symmetry; apply Nat.eqb_neq; lia). cbn [Nat.eqb].
      destruct (Nat.eqb_spec k j) as [->|Hne]; [apply cder_angle|apply cder_const].
    + eapply cder_ext; [intros t; rewrite !nth_list_set by lia; reflexivity|].
      replace (Nat.eqb k j) with false by (symmetry; apply Nat.eqb_neq; lia). cbn [Nat.eqb].
      destruct (Nat.eqb_spec k (j - n)) as [->|Hne].
      * replace (Nat.eqb (n + (j - n)) j) with true by (symmetry; apply Nat.eqb_eq; lia). apply cder_magn.
      * replace (Nat.eqb (n + k) j) with false by (symmetry; apply Nat.eqb_neq; lia). apply cder_const.
Qed.

(** the product V_i conj((Y V)_i) *)
Lemma list_set_repeat {A} (z d : A) n a : list_set (repeat z n) a d = map (fun i => if Nat.eqb i a then d else z) (seq 0 n).
Proof.
  revert a; induction n as [|n IH]; intros [|a]; cbn [repeat list_set seq map]; auto; f_equal.
  - rewrite <- seq_shift, map_map. cbn [Nat.eqb]. clear. revert n. assert (G : forall n s, repeat z n = map (fun _ : nat => z) (seq s n)) by (induction n as [|n IH]; intros s; cbn; f_equal; auto). intros n. apply G.
  - rewrite IH, <- seq_shift, map_map. reflexivity.
Qed.
Lemma cder_prod n g (Y : list (list (cplx R))) j i row : List.length g = (2 * n)%nat -> (j < 2 * n)%nat -> (i < S n)%nat ->
  List.length row = S n ->
  forall y, nth_error row (bus_of n j) = Some y ->
  cder (fun t => cmul (volt n (list_set g j t) i) (cconj (dotc row (map (volt n (list_set g j t)) (seq 0 (S n)))))) (nth j g 0)
       (cadd (if Nat.eqb i (bus_of n j) then cmul (dvolt n g j) (cconj (dotc row (map (volt n g) (seq 0 (S n))))) else c0)
             (cmul (volt n g i) (cconj (cmul y (dvolt n g j))))).
Proof.
  intros L Hj Hi Lr y Ey.
  assert (Hb : (bus_of n j < S n)%nat) by (unfold bus_of; destruct (Nat.ltb_spec j n); lia).
  assert (Eg : list_set g j (nth j g 0) = g).
  { clear -Hj L. rewrite <- L in Hj. clear L. revert j Hj. induction g as [|a g IH]; intros [|j] H; cbn in *; try lia; auto. f_equal. apply IH. lia. }
  eapply cder_val; [|apply cder_mul; [apply cder_volt; auto|apply cder_conj;
     eapply cder_ext; [|apply (cder_dotc (nth j g 0) row (map (fun k t => volt n (list_set g j t) k) (seq 0 (S n)))
       (list_set (repeat c0 (S n)) (bus_of n j) (dvolt n g j)))]]].
  - rewrite (dotc_single _ _ row (S n) y Hb Ey), Eg. destruct (Nat.eqb i (bus_of n j)); [reflexivity|]. f_equal. cxr; ring.
  - intros t. cbn beta. rewrite map_map. reflexivity.
  - rewrite list_set_repeat. assert (G : forall l, (forall k, In k l -> (k < S n)%nat) -> Forall2 (fun f d => cder f (nth j g 0) d) (map (fun k t => volt n (list_set g j t) k) l) (map (fun i => if Nat.eqb i (bus_of n j) then dvolt n g j else c0) l)).
    { induction l as [|k l IH]; intros Hl; constructor; [apply cder_volt; auto; apply Hl; left; auto|apply IH; intros; apply Hl; right; auto]. }
    apply G. intros k Hk. apply in_seq in Hk. lia.
Qed.

(** reading the matrices of [_dfdx] *)
Lemma nth_error_tl {A} (l : list A) k : nth_error (tl l) k = nth_error l (S k).
Proof. destruct l; destruct k; reflexivity. Qed.
Lemma nth_error_combine {A B} (l : list A) (m : list B) k a b : nth_error l k = Some a -> nth_error m k = Some b ->
  nth_error (combine l m) k = Some (a, b).
Proof. revert m k; induction l as [|x l IH]; intros [|y m] [|k]; cbn; try discriminate; [congruence|apply IH]. Qed.
Lemma zip_nth_error {A B C} (f : A -> B -> C) l m k a b : nth_error l k = Some a -> nth_error m k = Some b ->
  nth_error (zip_with f l m) k = Some (f a b).
Proof. revert m k; induction l as [|x l IH]; intros [|y m] [|k]; cbn; try discriminate; [congruence|apply IH]. Qed.
Lemma jac_mat_nth (e : cplx R -> cplx R -> cplx R -> cplx R -> bool -> cplx R) Y v iv i vi ii row :
  nth_error v (S i) = Some vi -> nth_error iv (S i) = Some ii -> nth_error Y (S i) = Some row ->
  nth_error (jac_mat e Y v iv) i = Some (jac_row e (S i) vi ii row v).
Proof.
  intros Ev Ei Ey. unfold jac_mat. rewrite nth_error_tl, nth_error_map. unfold enumerate. rewrite enum_from_nth.
  rewrite (nth_error_combine _ _ _ (vi, ii) row); [reflexivity|apply nth_error_combine; auto|auto].
Qed.
Lemma jac_row_nth (e : cplx R -> cplx R -> cplx R -> cplx R -> bool -> cplx R) i vi ii row v k y vk :
  nth_error row (S k) = Some y -> nth_error v (S k) = Some vk ->
  nth_error (jac_row e i vi ii row v) k = Some (e vi vk y ii (Nat.eqb i (S k))).
Proof.
  intros Ey Ev. unfold jac_row. rewrite nth_error_tl, nth_error_map. unfold enumerate. rewrite enum_from_nth.
  rewrite (nth_error_combine _ _ _ y vk); auto.
Qed.
Lemma jac_row_len (e : cplx R -> cplx R -> cplx R -> cplx R -> bool -> cplx R) i vi ii row v n :
  List.length row = S n -> List.length v = S n -> List.length (jac_row e i vi ii row v) = n.
Proof.
  intros A B. unfold jac_row. assert (L : forall (T : Type) (l : list T), List.length l = S n -> List.length (tl l) = n) by (intros T [|? l]; cbn; lia).
  apply L. rewrite map_length. unfold enumerate. rewrite enum_from_length, combine_length. lia.
Qed.
Lemma jac_mat_len (e : cplx R -> cplx R -> cplx R -> cplx R -> bool -> cplx R) Y v iv n :
  List.length Y = S n -> List.length v = S n -> List.length iv = S n -> List.length (jac_mat e Y v iv) = n.
Proof.
  intros A B C. unfold jac_mat. assert (L : forall (T : Type) (l : list T), List.length l = S n -> List.length (tl l) = n) by (intros T [|? l]; cbn; lia).
  apply L. rewrite map_length. unfold enumerate. rewrite enum_from_length, !combine_length. lia.
Qed.

Section Jac.
  Variables (n : nat) (g : list R) (Y : list (list (cplx R))).
  Hypothesis Lg : List.length g = (2 * n)%nat.
  Hypothesis LY : List.length Y = S n.
  Hypothesis LR : Forall (fun row => List.length row = S n) Y.

  Lemma volts_nth k : (k < S n)%nat -> nth_error (construct_v g) k = Some (volt n g k).
  Proof.
    intros H. rewrite (construct_volt n g Lg), nth_error_map, (nth_error_nth' _ 0%nat) by (rewrite seq_length; auto). rewrite seq_nth by auto. reflexivity.
  Qed.
  Lemma row_ex i : (i < S n)%nat -> exists row, nth_error Y i = Some row /\ List.length row = S n.
  Proof.
    intros H. destruct (nth_error Y i) as [row|] eqn:E; [|apply nth_error_None in E; lia]. exists row. split; auto.
    rewrite Forall_forall in LR. apply LR. eapply nth_error_In; eauto.
  Qed.
  (** entry of the complex derivative matrix, column [j] of the 2n columns *)
  Definition centry (i j : nat) : cplx R :=
    match nth_error Y (S i) with
    | Some row => match nth_error row (bus_of n j) with
        | Some y => (if Nat.ltb j n then dS_dVa_entry else dS_dVm_entry) (volt n g (S i)) (volt n g (bus_of n j)) y
                      (dotc row (construct_v g)) (Nat.eqb (S i) (bus_of n j))
        | None => c0 end
    | None => c0 end.
  Lemma jac_rows i : (i < n)%nat -> exists a m,
    nth_error (jac_mat dS_dVa_entry Y (construct_v g) (mat_vec Y (construct_v g))) i = Some a /\
    nth_error (jac_mat dS_dVm_entry Y (construct_v g) (mat_vec Y (construct_v g))) i = Some m /\
    List.length a = n /\ List.length m = n /\ forall j, (j < 2 * n)%nat -> nth_error (a ++ m) j = Some (centry i j).
  Proof.
    intros Hi. destruct (row_ex (S i)) as (row & Er & Lr); [lia|].
    assert (Lv : List.length (construct_v g) = S n) by (rewrite (construct_volt n g Lg), map_length, seq_length; auto).
    assert (Em : nth_error (mat_vec Y (construct_v g)) (S i) = Some (dotc row (construct_v g))) by (unfold mat_vec; rewrite nth_error_map, Er; reflexivity).
    eexists _, _. split; [apply jac_mat_nth; [apply volts_nth; lia|exact Em|exact Er]|].
    split; [apply jac_mat_nth; [apply volts_nth; lia|exact Em|exact Er]|].
    split; [apply jac_row_len; auto|]. split; [apply jac_row_len; auto|]. intros j Hj. unfold centry. rewrite Er.
    assert (Hb : (bus_of n j < S n)%nat) by (unfold bus_of; destruct (Nat.ltb_spec j n); lia).
    destruct (nth_error row (bus_of n j)) as [y|] eqn:Ey; [|apply nth_error_None in Ey; lia].
    unfold bus_of in *. destruct (Nat.ltb_spec j n) as [H|H].
    - rewrite nth_error_app1 by (rewrite (jac_row_len _ _ _ _ _ _ n) by auto; lia). apply jac_row_nth; auto. apply volts_nth; lia.
    - rewrite nth_error_app2 by (rewrite (jac_row_len _ _ _ _ _ _ n) by auto; lia). rewrite (jac_row_len _ _ _ _ _ _ n) by auto.
      apply jac_row_nth; auto. apply volts_nth; lia.
  Qed.
  Lemma jac_nth i j : (i < 2 * n)%nat -> (j < 2 * n)%nat -> exists row, nth_error (jacobian g Y) i = Some row /\ List.length row = (2 * n)%nat /\
    nth_error row j = Some (if Nat.ltb i n then re (centry i j) else im (centry (i - n) j)).
  Proof.
    intros Hi Hj. unfold jacobian.
    assert (Lv : List.length (construct_v g) = S n) by (rewrite (construct_volt n g Lg), map_length, seq_length; auto).
    assert (Lm : List.length (mat_vec Y (construct_v g)) = S n) by (unfold mat_vec; rewrite map_length; auto).
    set (A := jac_mat dS_dVa_entry Y (construct_v g) (mat_vec Y (construct_v g))).
    set (M := jac_mat dS_dVm_entry Y (construct_v g) (mat_vec Y (construct_v g))).
    assert (LA : List.length A = n) by (apply jac_mat_len; auto). assert (LM : List.length M = n) by (apply jac_mat_len; auto).
    destruct (Nat.ltb_spec i n) as [H|H].
    - destruct (jac_rows i H) as (a & m & Ea & Em & La & Lm' & E). eexists.
      rewrite nth_error_app1 by (rewrite zip_with_length; lia). split; [apply zip_nth_error; [exact Ea|exact Em]|].
      split; [rewrite app_length, !map_length; lia|]. rewrite <- map_app, nth_error_map, (E j Hj). reflexivity.
    - destruct (jac_rows (i - n)) as (a & m & Ea & Em & La & Lm' & E); [lia|]. eexists.
      rewrite nth_error_app2 by (rewrite zip_with_length; lia). rewrite zip_with_length, LA, LM, Nat.min_id.
      split; [apply zip_nth_error; [exact Ea|exact Em]|].
      split; [rewrite app_length, !map_length; lia|]. rewrite <- map_app, nth_error_map, (E j Hj). reflexivity.
  Qed.
  Lemma vnorm_volt k : (k < n)%nat -> 0 < nth (n + k) g 0 -> vnorm (volt n g (S k)) = cexpi (nth k g 0).
  Proof.
    intros Hk Hm. unfold vnorm, volt. assert (E : cabs (cscale (nth (n + k) g 0) (cexpi (nth k g 0))) = nth (n + k) g 0).
    { unfold cabs, cnorm2, cscale, cexpi. cbn. replace (_ + _)%R with (nth (n + k) g 0 * nth (n + k) g 0)%R; [apply sqrt_square; lra|].
      pose proof (sin2_cos2 (nth k g 0)) as K. unfold Rsqr in K. replace (_ + _)%R with (nth (n + k) g 0 * nth (n + k) g 0 * (sin (nth k g 0) * sin (nth k g 0) + cos (nth k g 0) * cos (nth k g 0)))%R by ring. rewrite K. ring. }
    rewrite E. unfold cexpi. cxr; field; lra.
  Qed.
  Lemma centry_der i j row y : (i < n)%nat -> (j < 2 * n)%nat -> (forall k, (k < n)%nat -> 0 < nth (n + k) g 0) ->
    nth_error Y (S i) = Some row -> nth_error row (bus_of n j) = Some y ->
    centry i j = cadd (if Nat.eqb (S i) (bus_of n j) then cmul (dvolt n g j) (cconj (dotc row (map (volt n g) (seq 0 (S n))))) else c0)
             (cmul (volt n g (S i)) (cconj (cmul y (dvolt n g j)))).
  Proof.
    intros Hi Hj Hm Er Ey. unfold centry. rewrite Er, Ey, (construct_volt n g Lg). set (I := dotc row _).
    unfold dvolt, bus_of. destruct (Nat.ltb_spec j n) as [H|H].
    - unfold dS_dVa_entry. destruct (Nat.eqb_spec (S i) (S j)) as [E|E]; [injection E as <-|]; cxr; ring.
    - unfold dS_dVm_entry. rewrite (vnorm_volt (j - n)) by (try apply Hm; lia).
      destruct (Nat.eqb_spec (S i) (S (j - n))) as [E|E]; [|reflexivity]. injection E as ->. rewrite vnorm_volt by (try apply Hm; lia). reflexivity.
  Qed.
End Jac.

(** [_f] entry by entry *)
Lemma f_pfe_nth n (g p q : list R) Y : List.length g = (2 * n)%nat -> List.length Y = S n -> Forall (fun row => List.length row = S n) Y ->
  List.length p = n -> List.length q = n -> exists Fv, f_pfe g p q Y = Ok Fv /\ List.length Fv = (2 * n)%nat /\
  forall i row, (i < n)%nat -> nth_error Y (S i) = Some row ->
    let s := csub (cmul (volt n g (S i)) (cconj (dotc row (map (volt n g) (seq 0 (S n)))))) (mkC (nth i p 0) (nth i q 0)) in
    nth i Fv 0 = re s /\ nth (n + i) Fv 0 = im s.
Proof.
  intros L LY LR Lp Lq. unfold f_pfe, construct_vE.
  replace (Nat.even (List.length g)) with true by (rewrite L; symmetry; apply Nat.even_spec; exists n; lia). cbn [bind].
  assert (Lv : List.length (construct_v g) = S n) by (rewrite (construct_volt n g L), map_length, seq_length; auto).
  unfold mat_vecE. rewrite LY, Lv, Nat.eqb_refl. cbn [bind]. rewrite Lp, Lq, !Nat.eqb_refl. cbn [andb negb raise_if bind].
  set (D := mismatch _ _ _ _).
  assert (LD : List.length D = n).
  { unfold D, mismatch. rewrite zip_with_length, zip_with_length, Lp, Lq. unfold mat_vec. replace (List.length (tl _)) with n; [lia|].
    assert (G : forall (T : Type) (l : list T), List.length l = S n -> n = List.length (tl l)) by (intros T [|? l]; cbn; lia). apply G.
    rewrite zip_with_length, map_length. lia. }
  eexists; split; [reflexivity|]. unfold re_im. split; [rewrite app_length, !map_length; lia|].
  intros i row Hi Er.
  set (s := csub (cmul (volt n g (S i)) (cconj (dotc row (map (volt n g) (seq 0 (S n)))))) (mkC (nth i p 0) (nth i q 0))).
  change (nth i (map re D ++ map im D) 0 = re s /\ nth (n + i) (map re D ++ map im D) 0 = im s).
  assert (E : nth_error D i = Some s).
  { unfold D, mismatch, s. apply zip_nth_error.
    - rewrite nth_error_tl. erewrite zip_nth_error; [reflexivity| |].
      + apply (volts_nth n g L); lia.
      + unfold mat_vec. rewrite nth_error_map, Er. cbn [option_map]. rewrite (construct_volt n g L). reflexivity.
    - apply zip_nth_error; apply nth_error_nth'; lia. }
  split; [rewrite app_nth1 by (rewrite map_length; lia)|rewrite app_nth2 by (rewrite map_length; lia)].
  - apply nth_error_nth. rewrite nth_error_map, E. reflexivity.
  - rewrite map_length, LD. replace (n + i - n)%nat with i by lia. apply nth_error_nth. rewrite nth_error_map, E. reflexivity.
Qed.
