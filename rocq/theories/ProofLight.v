(** Newton's method on a lightly loaded network: the estimates behind C80 (complex vectors as functions, sup norms as bounds). *)
From Coq Require Import Reals Lra Lia.
From Coquelicot Require Import Complex.
From Verif Require Import Base Num NumXR LibBase SpecPf LibC ProofY.
Local Open Scope list_scope.
Local Open Scope R_scope.
Set Bullet Behavior "Strict Subproofs".

(** ---- sums ---- *)
Lemma sumC_ext_in (l : list nat) f g : (forall k, In k l -> f k = g k) -> sumC (map f l) = sumC (map g l).
Proof. intros H. f_equal. apply map_ext_in. auto. Qed.
Lemma sumC_plus {A} (l : list A) f g : sumC (map (fun k => (f k + g k)%C) l) = (sumC (map f l) + sumC (map g l))%C.
Proof. induction l; cbn [map]; [rewrite !sumC_nil; ring|]. rewrite !sumC_cons, IHl. ring. Qed.
Lemma sumC_conj {A} (l : list A) f : Cconj (sumC (map f l)) = sumC (map (fun k => Cconj (f k)) l).
Proof. induction l; cbn [map]; [rewrite sumC_nil; apply Cconj_0|]. rewrite !sumC_cons, Cconj_plus, IHl. reflexivity. Qed.
Lemma Cmod_conj' a : Cmod (Cconj a) = Cmod a.
Proof. unfold Cmod, Cconj. cbn [fst snd]. f_equal. ring. Qed.
Lemma sumC_mod {A} (l : list A) f (g : A -> R) r : 0 <= r -> (forall k, In k l -> Cmod (f k) <= g k * r) -> Cmod (sumC (map f l)) <= sumR (map g l) * r.
Proof.
  intros Hr. induction l; intros H; cbn [map sumR fold_right].
  - rewrite sumC_nil, Cmod_0. lra.
  - rewrite sumC_cons. eapply Rle_trans; [apply Cmod_triangle|]. unfold sumR in IHl. specialize (IHl (fun k I => H k (or_intror I))). specialize (H a (or_introl eq_refl)). lra.
Qed.

(** ---- the polar increment ---- *)
Lemma sin_abs x : Rabs (sin x) <= Rabs x.
Proof.
  assert (P : forall t, 0 <= t -> Rabs (sin t) <= t).
  { intros t Ht. destruct (Req_dec t 0) as [->|N0]; [rewrite sin_0, Rabs_R0; lra|]. apply Rabs_le. split.
    - destruct (MVT_cor2 sin cos 0 t) as (c & E & _); [lra|intros; apply derivable_pt_lim_sin|]. rewrite sin_0 in E. pose proof (COS_bound c). nra.
    - left. apply sin_lt_x. lra. }
  destruct (Rle_dec 0 x) as [H|H]; [rewrite (Rabs_pos_eq x) by auto; auto|]. rewrite <- (Rabs_Ropp x), <- (Rabs_Ropp (sin x)), <- sin_neg. rewrite (Rabs_pos_eq (- x)) by lra. apply P. lra.
Qed.
Lemma cos_quad x : 0 <= 1 - cos x <= x * x / 2.
Proof.
  split; [pose proof (COS_bound x); lra|]. replace x with (2 * (x / 2)) at 1 by field. rewrite cos_2a_sin. pose proof (sin_abs (x / 2)) as H.
  assert (sin (x / 2) * sin (x / 2) <= (x / 2) * (x / 2)). { rewrite <- (Rabs_pos_eq (sin (x / 2) * sin (x / 2))), <- (Rabs_pos_eq (x / 2 * (x / 2))), !Rabs_mult by apply Rle_0_sqr. apply Rmult_le_compat; auto using Rabs_pos. }
  lra.
Qed.
Lemma sin_quad x : Rabs x <= 1 -> Rabs (x - sin x) <= x * x / 2.
Proof.
  assert (P : forall t, 0 <= t <= 1 -> Rabs (t - sin t) <= t * t / 2).
  { intros t Ht. destruct (Req_dec t 0) as [->|N0]; [rewrite sin_0, Rminus_0_r, Rabs_R0; lra|].
    destruct (MVT_cor2 sin cos 0 t) as (c & E & Hc); [lra|intros; apply derivable_pt_lim_sin|]. rewrite sin_0 in E. pose proof (cos_quad c) as (K1 & K2). apply Rabs_le. split; nra. }
  intros H. destruct (Rle_dec 0 x) as [Hx|Hx]; [rewrite Rabs_pos_eq in H by auto; apply P; lra|].
  rewrite Rabs_left in H by lra. specialize (P (- x)). rewrite sin_neg in P. rewrite <- Rabs_Ropp. replace (- (x - sin x)) with (- x - - sin x) by ring. replace (x * x / 2) with (- x * - x / 2) by field. apply P. lra.
Qed.
Definition cis (t : R) : C := (cos t, sin t).
Lemma cis_plus a b : cis (a + b) = (cis a * cis b)%C.
Proof. unfold cis. apply C_eq; cbn [fst snd Cmult]; [rewrite cos_plus|rewrite sin_plus]; ring. Qed.
Lemma cis_mod t : Cmod (cis t) = 1.
Proof. unfold Cmod, cis. cbn [fst snd]. replace (cos t ^ 2 + sin t ^ 2) with 1; [apply sqrt_1|]. pose proof (sin2_cos2 t). unfold Rsqr in *. simpl. lra. Qed.
Lemma cis_0 : cis 0 = RtoC 1.
Proof. unfold cis. rewrite cos_0, sin_0. reflexivity. Qed.
Lemma Cmod_le_sum (a : C) : Cmod a <= Rabs (fst a) + Rabs (snd a).
Proof.
  unfold Cmod. rewrite <- (sqrt_Rsqr (Rabs (fst a) + Rabs (snd a))) by (pose proof (Rabs_pos (fst a)); pose proof (Rabs_pos (snd a)); lra). apply sqrt_le_1_alt. unfold Rsqr.
  pose proof (Rabs_pos (fst a)) as K1. pose proof (Rabs_pos (snd a)) as K2. pose proof (pow2_abs (fst a)) as Q1. pose proof (pow2_abs (snd a)) as Q2. rewrite <- Q1, <- Q2. nra.
Qed.
Lemma cis_lin x : Rabs x <= 1 -> Cmod (cis (- x) - RtoC 1 + (0, x)%R)%C <= x * x.
Proof.
  intros H. eapply Rle_trans; [apply Cmod_le_sum|]. unfold cis. cbn [fst snd Cplus Cminus Copp RtoC]. rewrite cos_neg, sin_neg.
  pose proof (cos_quad x) as (K1 & K2). pose proof (sin_quad x H) as K3.
  replace (cos x + - (1) + 0) with (- (1 - cos x)) by ring. replace (- sin x + - 0 + x) with (x - sin x) by ring. rewrite Rabs_Ropp, (Rabs_pos_eq (1 - cos x)) by auto. lra.
Qed.
Lemma cis_one x : Cmod (cis (- x) - RtoC 1)%C <= Rabs x.
Proof.
  (* |e^{-jx} - 1|^2 = 2 (1 - cos x) <= x^2 *)
  unfold Cmod, cis. cbn [fst snd Cplus Cminus Copp RtoC]. rewrite cos_neg, sin_neg. rewrite <- (sqrt_Rsqr (Rabs x)) by apply Rabs_pos. apply sqrt_le_1_alt. unfold Rsqr. rewrite <- Rabs_mult, (Rabs_pos_eq (x * x)) by apply Rle_0_sqr.
  pose proof (cos_quad x) as (K1 & K2). pose proof (sin2_cos2 x) as K3. unfold Rsqr in K3. nra.
Qed.
(** the linear prediction of a polar step is off by at most twice the square of the step *)
Lemma polar_step m th dv dth : 7 / 8 <= m -> let dV := (cis th * (dv, m * dth)%R)%C in Cmod dV <= 1 / 2 ->
  Cmod (RtoC (m - dv) * cis (th - dth) - RtoC m * cis th + dV)%C <= 2 * (Cmod dV * Cmod dV).
Proof.
  intros Hm dV Hd. assert (Em : Cmod dV = Cmod (dv, m * dth)%R) by (unfold dV; rewrite Cmod_mult, cis_mod; ring).
  set (a := Rabs dv). set (b := Rabs (m * dth)). pose proof (Rabs_pos dv : 0 <= a) as Ha. pose proof (Rabs_pos (m * dth) : 0 <= b) as Hb.
  assert (Es : Cmod dV * Cmod dV = a * a + b * b). { rewrite Em, Cmod_sq. cbn [fst snd]. unfold a, b. rewrite <- !Rabs_mult, !Rabs_pos_eq by apply Rle_0_sqr. reflexivity. }
  assert (Eb : b = m * Rabs dth) by (unfold b; rewrite Rabs_mult, (Rabs_pos_eq m) by lra; auto).
  assert (Hx : Rabs dth <= 1). { pose proof (Cmod_ge_0 dV) as G. pose proof (Rabs_pos dth). assert (b * b <= 1 / 4) by nra. assert (b <= 1 / 2) by nra. rewrite Eb in *. nra. }
  replace (RtoC (m - dv) * cis (th - dth) - RtoC m * cis th + dV)%C with (cis th * (RtoC m * (cis (- dth) - RtoC 1 + (0, dth)%R) - RtoC dv * (cis (- dth) - RtoC 1)))%C.
  2:{ unfold Rminus at 2. rewrite cis_plus. unfold dV. apply C_eq; unfold cis; cbn [fst snd Cplus Cminus Cmult Copp RtoC]; ring. }
  rewrite Cmod_mult, cis_mod, Rmult_1_l. eapply Rle_trans; [apply Cmod_triangle|]. rewrite Cmod_opp, !Cmod_mult, !Cmod_R. fold a. rewrite (Rabs_pos_eq m) by lra.
  pose proof (cis_lin dth Hx) as K1. pose proof (cis_one dth) as K2. rewrite Es.
  assert (Q : dth * dth = Rabs dth * Rabs dth) by (rewrite <- Rabs_mult, Rabs_pos_eq; auto; apply Rle_0_sqr). rewrite Q in K1. set (x := Rabs dth) in *.
  assert (0 <= x) by apply Rabs_pos.
  apply Rle_trans with (m * (x * x) + a * x). { apply Rplus_le_compat; apply Rmult_le_compat_l; auto; lra. }
  rewrite Eb. set (u := m * x). assert (U : x <= 8 / 7 * u) by (unfold u; nra). assert (0 <= u) by (unfold u; nra).
  replace (m * (x * x)) with (u * x) by (unfold u; ring). pose proof (Rle_0_sqr (a - u)) as Q2. unfold Rsqr in Q2.
  assert (u * x <= u * (8 / 7 * u)) by (apply Rmult_le_compat_l; auto). assert (a * x <= a * (8 / 7 * u)) by (apply Rmult_le_compat_l; auto). nra.
Qed.

(** ---- the power-flow equations as a quadratic map ---- *)
Section Flow.
  Context (n : nat) (M Zm : nat -> nat -> C) (z y : R) (S : nat -> C).
  Definition cur (V : nat -> C) (k : nat) : C := sumn (Datatypes.S n) (fun j => (M k j * V j)%C).
  Definition on (k : nat) : Prop := (1 <= k <= n)%nat.
  Context (Hn : (1 <= n)%nat) (H1 : forall k, on k -> cur (fun _ => RtoC 1) k = RtoC 0).
  Context (HZ : forall V, V 0%nat = RtoC 0 -> forall i, on i -> sumC (map (fun k => (Zm i k * cur V k)%C) (seq 1 n)) = V i).
  Context (Hz : forall i, on i -> sumR (map (fun k => Cmod (Zm i k)) (seq 1 n)) <= z).
  Context (Hy : forall V r, (forall j, (j <= n)%nat -> Cmod (V j) <= r) -> forall k, on k -> Cmod (cur V k) <= y * r).

  Definition bnd (x : nat -> C) (r : R) : Prop := forall k, on k -> Cmod (x k) <= r.
  Definition Fl (V : nat -> C) (k : nat) : C := (V k * Cconj (cur V k) - S k)%C.
  Definition DF (V h : nat -> C) (k : nat) : C := (h k * Cconj (cur V k) + V k * Cconj (cur h k))%C.
  Definition Bo (x : nat -> C) (i : nat) : C := sumC (map (fun k => (Cconj (Zm i k) * x k)%C) (seq 1 n)).
  Definition dev1 (V : nat -> C) (k : nat) : C := (V k - RtoC 1)%C.

  Lemma on_seq k : In k (seq 1 n) <-> on k.
  Proof. clear. rewrite in_seq. unfold on. lia. Qed.
  Lemma cur_plus V W k : cur (fun j => (V j + W j)%C) k = (cur V k + cur W k)%C.
  Proof. unfold cur, sumn. rewrite <- sumC_plus. apply sumC_ext_in. intros j _. ring. Qed.
  Lemma cur_ext V W k : (forall j, (j <= n)%nat -> V j = W j) -> cur V k = cur W k.
  Proof. intros H. unfold cur. apply sumn_ext. intros j Hj. rewrite H by lia. reflexivity. Qed.
  Lemma cur_opp V k : cur (fun j => (- V j)%C) k = (- cur V k)%C.
  Proof. assert (E : (cur (fun j => (- V j)%C) k + cur V k)%C = RtoC 0). { rewrite <- cur_plus. rewrite (cur_ext _ (fun _ => RtoC 0)) by (intros; ring). unfold cur, sumn. rewrite (sumC_ext_in _ _ (fun _ => RtoC 0)) by (intros; ring). apply sumC_zero. }
    replace (cur (fun j => (- V j)%C) k) with ((cur (fun j => (- V j)%C) k + cur V k) - cur V k)%C by ring. rewrite E. ring. Qed.
  Lemma cur_dev V k : on k -> cur V k = cur (dev1 V) k.
  Proof. intros Hk. rewrite (cur_ext V (fun j => (dev1 V j + RtoC 1)%C)) by (intros; unfold dev1; ring). rewrite cur_plus, (H1 k Hk). ring. Qed.
  Lemma Fl_expand V h k : Fl (fun j => (V j + h j)%C) k = (Fl V k + DF V h k + h k * Cconj (cur h k))%C.
  Proof. unfold Fl, DF. rewrite cur_plus, Cconj_plus. ring. Qed.
  Lemma Bo_plus x w i : Bo (fun k => (x k + w k)%C) i = (Bo x i + Bo w i)%C.
  Proof. unfold Bo. rewrite <- sumC_plus. apply sumC_ext_in. intros. ring. Qed.
  Lemma Bo_ext x w i : (forall k, on k -> x k = w k) -> Bo x i = Bo w i.
  Proof. intros H. unfold Bo. apply sumC_ext_in. intros k I. rewrite H by (apply on_seq; auto). reflexivity. Qed.
  Lemma z_pos : 0 <= z.
  Proof.
    specialize (Hz 1%nat ltac:(unfold on; lia)). eapply Rle_trans; [|exact Hz]. generalize (seq 1 n). intros l. induction l; cbn; [lra|]. pose proof (Cmod_ge_0 (Zm 1 a)). unfold sumR in *. lra.
  Qed.
  Lemma Bo_bnd x r : 0 <= r -> bnd x r -> bnd (Bo x) (z * r).
  Proof.
    intros Hr H i Hi. unfold Bo. eapply Rle_trans; [apply (sumC_mod _ _ (fun k => Cmod (Zm i k)) r Hr)|apply Rmult_le_compat_r; auto].
    intros k I. rewrite Cmod_mult, Cmod_conj'. apply Rmult_le_compat_l; [apply Cmod_ge_0|]. apply H, on_seq; auto.
  Qed.
  Lemma Bo_cur h i : h 0%nat = RtoC 0 -> on i -> Bo (fun k => Cconj (cur h k)) i = Cconj (h i).
  Proof. intros H0 Hi. rewrite <- (HZ h H0 i Hi). unfold Bo. rewrite sumC_conj. apply sumC_ext_in. intros k _. rewrite Cconj_mult. reflexivity. Qed.
  Lemma all_bnd h r : 0 <= r -> h 0%nat = RtoC 0 -> bnd h r -> forall j, (j <= n)%nat -> Cmod (h j) <= r.
  Proof. intros Hr H0 H j Hj. destruct j; [rewrite H0, Cmod_0; auto|]. apply H. unfold on. lia. Qed.
  Lemma kappa_one : 1 <= z * y.
  Proof.
    set (h := fun j => if Nat.eqb j 1 then RtoC 1 else RtoC 0). pose proof (HZ h eq_refl 1%nat ltac:(unfold on; lia)) as E.
    assert (Hb : forall j, (j <= n)%nat -> Cmod (h j) <= 1) by (intros j _; unfold h; destruct (Nat.eqb j 1); rewrite ?Cmod_1, ?Cmod_0; lra).
    assert (Hy0 : 0 <= y * 1). { eapply Rle_trans; [apply Cmod_ge_0|apply (Hy h 1 Hb 1%nat)]. unfold on; lia. }
    assert (K : Cmod (h 1%nat) <= sumR (map (fun k => Cmod (Zm 1 k)) (seq 1 n)) * (y * 1)).
    { rewrite <- E. apply sumC_mod; auto. intros k I. rewrite Cmod_mult. apply Rmult_le_compat_l; [apply Cmod_ge_0|]. apply Hy; auto. apply on_seq; auto. }
    unfold h in K. cbn [Nat.eqb] in K. rewrite Cmod_1 in K. specialize (Hz 1%nat ltac:(unfold on; lia)). nra.
  Qed.
  Lemma y_pos : 0 <= y.
  Proof. pose proof kappa_one. pose proof z_pos. nra. Qed.

  (** the preconditioned derivative is a small perturbation of conjugation *)
  Definition cross (V h : nat -> C) (k : nat) : C := (h k * Cconj (cur (dev1 V) k) + dev1 V k * Cconj (cur h k))%C.
  Lemma Bo_DF V h i : V 0%nat = RtoC 1 -> h 0%nat = RtoC 0 -> on i -> Bo (DF V h) i = (Cconj (h i) + Bo (cross V h) i)%C.
  Proof.
    intros V0 h0 Hi. rewrite <- (Bo_cur h i h0 Hi), <- Bo_plus. apply Bo_ext. intros k Hk. unfold DF, cross. rewrite (cur_dev V k Hk). generalize (cur (dev1 V) k). intros c. unfold dev1. ring.
  Qed.
  Lemma cross_bnd V h eta r : 0 <= eta -> 0 <= r -> V 0%nat = RtoC 1 -> h 0%nat = RtoC 0 -> bnd (dev1 V) eta -> bnd h r -> bnd (cross V h) (2 * y * eta * r).
  Proof.
    intros He Hr V0 h0 B1 B2 k Hk. unfold cross. eapply Rle_trans; [apply Cmod_triangle|]. rewrite !Cmod_mult, !Cmod_conj'.
    assert (W0 : dev1 V 0%nat = RtoC 0) by (unfold dev1; rewrite V0; ring).
    pose proof (Hy _ _ (all_bnd _ _ He W0 B1) k Hk) as K1. pose proof (Hy _ _ (all_bnd _ _ Hr h0 B2) k Hk) as K2. specialize (B1 k Hk). specialize (B2 k Hk).
    pose proof (Cmod_ge_0 (h k)). pose proof (Cmod_ge_0 (dev1 V k)). pose proof (Cmod_ge_0 (cur (dev1 V) k)). pose proof (Cmod_ge_0 (cur h k)).
    assert (Cmod (h k) * Cmod (cur (dev1 V) k) <= r * (y * eta)) by (apply Rmult_le_compat; auto).
    assert (Cmod (dev1 V k) * Cmod (cur h k) <= eta * (y * r)) by (apply Rmult_le_compat; auto). lra.
  Qed.
  Lemma DF_bnd V h eta r : 0 <= eta -> 0 <= r -> V 0%nat = RtoC 1 -> h 0%nat = RtoC 0 -> bnd (dev1 V) eta -> bnd h r -> bnd (Bo (DF V h)) ((1 + 2 * (z * y) * eta) * r).
  Proof.
    intros He Hr V0 h0 B1 B2 i Hi. rewrite Bo_DF by auto. eapply Rle_trans; [apply Cmod_triangle|]. rewrite Cmod_conj'. pose proof (B2 i Hi).
    assert (P : 0 <= 2 * y * eta * r) by (pose proof y_pos; repeat apply Rmult_le_pos; lra).
    pose proof (Bo_bnd _ _ P (cross_bnd V h eta r He Hr V0 h0 B1 B2) i Hi). lra.
  Qed.
  (** largest entry *)
  Lemma sup_ex (h : nat -> C) : exists i, on i /\ bnd h (Cmod (h i)).
  Proof.
    assert (G : forall m, (1 <= m)%nat -> exists i, (1 <= i <= m)%nat /\ forall k, (1 <= k <= m)%nat -> Cmod (h k) <= Cmod (h i)).
    { induction m as [|m IH]; intros Hm; [lia|]. destruct m as [|m].
      - exists 1%nat. split; [lia|]. intros k Hk. replace k with 1%nat by lia. lra.
      - destruct IH as (i & Hi & K); [lia|]. destruct (Rle_dec (Cmod (h i)) (Cmod (h (Datatypes.S (Datatypes.S m))))) as [L|L].
        + exists (Datatypes.S (Datatypes.S m)). split; [lia|]. intros k Hk. destruct (Nat.eq_dec k (Datatypes.S (Datatypes.S m))) as [->|N]; [lra|]. specialize (K k ltac:(lia)). lra.
        + exists i. split; [lia|]. intros k Hk. destruct (Nat.eq_dec k (Datatypes.S (Datatypes.S m))) as [->|N]; [lra|]. apply K. lia. }
    destruct (G n Hn) as (i & Hi & K). exists i. split; auto.
  Qed.
  (** a Newton increment is at most twice the preconditioned residual *)
  Lemma step_bnd V h f eta rho : 0 <= eta -> 4 * (z * y) * eta <= 1 -> V 0%nat = RtoC 1 -> h 0%nat = RtoC 0 -> bnd (dev1 V) eta ->
    (forall k, on k -> DF V h k = f k) -> bnd (Bo f) rho -> bnd h (2 * rho).
  Proof.
    intros He Hk V0 h0 B1 E B2. destruct (sup_ex h) as (i & Hi & B3). set (r := Cmod (h i)) in *. assert (Hr : 0 <= r) by apply Cmod_ge_0.
    assert (P : 0 <= 2 * y * eta * r) by (pose proof y_pos; repeat apply Rmult_le_pos; lra).
    pose proof (Bo_bnd _ _ P (cross_bnd V h eta r He Hr V0 h0 B1 B3) i Hi) as K1. pose proof (B2 i Hi) as K2. rewrite <- (Bo_ext (DF V h) f i E), Bo_DF in K2 by auto.
    assert (K3 : r <= Cmod (Cconj (h i) + Bo (cross V h) i)%C + Cmod (Bo (cross V h) i)).
    { unfold r. rewrite <- (Cmod_conj' (h i)). replace (Cconj (h i)) with ((Cconj (h i) + Bo (cross V h) i) + - Bo (cross V h) i)%C at 1 by ring. eapply Rle_trans; [apply Cmod_triangle|]. rewrite Cmod_opp. lra. }
    intros k Hk'. specialize (B3 k Hk'). nra.
  Qed.
  (** the residual after a step [V + h], [h = e - d], where [d] solves the linear system *)
  Lemma next_bnd V d e eta delta : 0 <= eta -> 4 * (z * y) * eta <= 1 -> V 0%nat = RtoC 1 -> d 0%nat = RtoC 0 -> e 0%nat = RtoC 0 -> bnd (dev1 V) eta ->
    (forall k, on k -> DF V d k = Fl V k) -> 0 <= delta <= 1 / 4 -> bnd d delta -> bnd e (2 * (delta * delta)) ->
    let V' := fun j => (V j + (e j - d j))%C in
    bnd (Bo (Fl V')) (6 * (z * y) * (delta * delta)) /\ bnd (Fl V') (6 * y * (delta * delta)) /\ bnd (dev1 V') (eta + 3 / 2 * delta) /\ V' 0%nat = RtoC 1.
  Proof.
    intros He Hk V0 d0 e0 B1 E Hd B2 B3 V'. set (h := fun j => (e j - d j)%C).
    pose proof kappa_one as Kp. pose proof z_pos as Zp. pose proof y_pos as Yp. assert (D2 : 0 <= delta * delta) by nra.
    assert (h0 : h 0%nat = RtoC 0) by (unfold h; rewrite e0, d0; ring).
    assert (Bh : bnd h (3 / 2 * delta)). { intros k Hk'. unfold h. eapply Rle_trans; [apply Cmod_triangle|]. rewrite Cmod_opp. specialize (B2 k Hk'). specialize (B3 k Hk'). nra. }
    assert (Ef : forall k, on k -> Fl V' k = (DF V e k + h k * Cconj (cur h k))%C).
    { intros k Hk'. change (Fl V' k) with (Fl (fun j => (V j + h j)%C) k). rewrite (Fl_expand V h k). rewrite <- (E k Hk'). unfold DF at 1 2 3. unfold h.
      replace (cur (fun j => (e j - d j)%C) k) with (cur e k - cur d k)%C; [rewrite Cconj_minus; ring|]. unfold Cminus. rewrite cur_plus, cur_opp. reflexivity. }
    assert (Bq : bnd (fun k => (h k * Cconj (cur h k))%C) (9 / 4 * y * (delta * delta))).
    { intros k Hk'. rewrite Cmod_mult, Cmod_conj'. assert (R0 : 0 <= 3 / 2 * delta) by lra. pose proof (Hy _ _ (all_bnd _ _ R0 h0 Bh) k Hk'). specialize (Bh k Hk').
      replace (9 / 4 * y * (delta * delta)) with ((3 / 2 * delta) * (y * (3 / 2 * delta))) by field. apply Rmult_le_compat; auto using Cmod_ge_0. }
    assert (R2 : 0 <= 2 * (delta * delta)) by lra. assert (R3 : 0 <= 9 / 4 * y * (delta * delta)) by (apply Rmult_le_pos; auto; lra).
    assert (Ey : y * eta <= y / 4). { apply Rmult_le_compat_l; auto. nra. }
    split; [|split; [|split]].
    - intros i Hi. rewrite (Bo_ext _ (fun k => (DF V e k + h k * Cconj (cur h k))%C) i Ef), Bo_plus. eapply Rle_trans; [apply Cmod_triangle|].
      pose proof (DF_bnd V e eta _ He R2 V0 e0 B1 B3 i Hi) as K1. pose proof (Bo_bnd _ _ R3 Bq i Hi) as K2.
      assert ((1 + 2 * (z * y) * eta) * (2 * (delta * delta)) <= 3 / 2 * (2 * (delta * delta))) by (apply Rmult_le_compat_r; auto; lra).
      assert (3 * (delta * delta) <= 3 * (z * y) * (delta * delta)) by nra.
      replace (z * (9 / 4 * y * (delta * delta))) with (9 / 4 * (z * y * (delta * delta))) in K2 by ring. assert (0 <= z * y * (delta * delta)) by (apply Rmult_le_pos; auto; lra). lra.
    - intros k Hk'. rewrite (Ef k Hk'). eapply Rle_trans; [apply Cmod_triangle|]. specialize (Bq k Hk').
      assert (K : Cmod (DF V e k) <= 2 * y * eta * (2 * (delta * delta)) + y * (2 * (delta * delta))).
      { replace (DF V e k) with (cross V e k + Cconj (cur e k))%C by (unfold DF, cross; rewrite (cur_dev V k Hk'); generalize (cur (dev1 V) k); intros c; unfold dev1; ring).
        eapply Rle_trans; [apply Cmod_triangle|]. rewrite Cmod_conj'. apply Rplus_le_compat; [apply (cross_bnd V e eta _ He R2 V0 e0 B1 B3 k Hk')|]. apply Hy; auto. apply all_bnd; auto. }
      cbv beta in Bq. assert (y * eta * (delta * delta) <= y / 4 * (delta * delta)) by (apply Rmult_le_compat_r; auto). assert (0 <= y * (delta * delta)) by (apply Rmult_le_pos; auto). lra.
    - intros k Hk'. unfold dev1, V'. replace (V k + (e k - d k) - RtoC 1)%C with (dev1 V k + h k)%C by (unfold dev1, h; ring). eapply Rle_trans; [apply Cmod_triangle|]. specialize (B1 k Hk'). specialize (Bh k Hk'). lra.
    - unfold V'. rewrite V0, e0, d0. ring.
  Qed.
End Flow.
