(** Complex numbers of the model on finite values are Coquelicot's complex numbers. *)
From Coq Require Import Reals Lra.
From Coquelicot Require Import Complex.
From Verif Require Import Base Num NumXR LibBase LibNum LibXR LibEval Devices BusBranch CheckNetwork Simulator SpecDev SpecPf.
Local Open Scope C_scope.

Lemma C_eq (a b : C) : fst a = fst b -> snd a = snd b -> a = b.
Proof. destruct a, b; cbn; congruence. Qed.
Ltac cx := apply C_eq; unfold Cminus, Cplus, Copp, Cmult, Cconj, RtoC; cbn [fst snd].
Lemma Cconj_plus a b : Cconj (a + b) = Cconj a + Cconj b.
Proof. cx; ring. Qed.
Lemma Cconj_opp a : Cconj (- a) = - Cconj a.
Proof. cx; ring. Qed.
Lemma Cconj_minus a b : Cconj (a - b) = Cconj a - Cconj b.
Proof. cx; ring. Qed.
Lemma Cconj_mult a b : Cconj (a * b) = Cconj a * Cconj b.
Proof. cx; ring. Qed.
Lemma Cconj_conj a : Cconj (Cconj a) = a.
Proof. cx; ring. Qed.
Lemma Cconj_0 : Cconj (RtoC 0) = RtoC 0.
Proof. cx; ring. Qed.
Lemma Cconj_R x : Cconj (RtoC x) = RtoC x.
Proof. cx; ring. Qed.
Lemma C_neq0 (a : C) : (fst a <> 0 \/ snd a <> 0)%R -> a <> RtoC 0.
Proof. intros H E. rewrite E in H. cbn in H. lra. Qed.
Lemma C_norm_pos (a : C) : a <> RtoC 0 -> (0 < fst a * fst a + snd a * snd a)%R.
Proof.
  intros H. destruct (Req_EM_T (fst a) 0) as [E1|E1]; [destruct (Req_EM_T (snd a) 0) as [E2|E2]|].
  - exfalso. apply H. apply C_eq; cbn; auto.
  - rewrite E1. assert (0 < snd a * snd a)%R by (apply Rsqr_pos_lt in E2; exact E2). lra.
  - assert (0 < fst a * fst a)%R by (apply Rsqr_pos_lt in E1; exact E1). pose proof (Rle_0_sqr (snd a)) as K. unfold Rsqr in K. lra.
Qed.
Lemma Cconj_neq0 a : a <> RtoC 0 -> Cconj a <> RtoC 0.
Proof. intros H E. apply H. rewrite <- (Cconj_conj a), E. apply Cconj_0. Qed.
Lemma Cconj_inv a : a <> RtoC 0 -> Cconj (/ a) = / Cconj a.
Proof.
  intros H. pose proof (C_norm_pos _ H). apply C_eq; unfold Cconj, Cinv; cbn [fst snd]; field; cbn; nra.
Qed.
Lemma Cconj_div a b : b <> RtoC 0 -> Cconj (a / b) = Cconj a / Cconj b.
Proof. intros H. unfold Cdiv. rewrite Cconj_mult, Cconj_inv; auto. Qed.
Lemma Cmod2 a : a * Cconj a = RtoC (fst a * fst a + snd a * snd a).
Proof. cx; ring. Qed.
Lemma Cmod_sq a : (Cmod a * Cmod a = fst a * fst a + snd a * snd a)%R.
Proof. unfold Cmod. rewrite sqrt_sqrt; [ring|]. pose proof (Rle_0_sqr (fst a)). pose proof (Rle_0_sqr (snd a)). unfold Rsqr in *. lra. Qed.

(** lifting *)
Lemma up_eq a b : fst a = fst b -> snd a = snd b -> up a = up b.
Proof. intros. f_equal. apply C_eq; auto. Qed.
Lemma up_inj a b : up a = up b -> a = b.
Proof. unfold up. intros H. injection H as H1 H2. apply C_eq; auto. Qed.
Ltac upx := unfold up, cadd, csub, cmul, cconj, copp, cscale, cdivr, cnorm2; cbn [re im nadd nsub nmul nopp n0 n1 XRnum xadd xsub xmul xopp].
Lemma up_add a b : cadd (up a) (up b) = up (a + b).
Proof. reflexivity. Qed.
Lemma up_sub a b : csub (up a) (up b) = up (a - b).
Proof. reflexivity. Qed.
Lemma up_opp a : copp (up a) = up (- a).
Proof. reflexivity. Qed.
Lemma up_mul a b : cmul (up a) (up b) = up (a * b).
Proof. reflexivity. Qed.
Lemma up_conj a : cconj (up a) = up (Cconj a).
Proof. reflexivity. Qed.
Lemma up_0 : c0 = up (RtoC 0).
Proof. reflexivity. Qed.
Lemma up_1 : c1 = up (RtoC 1).
Proof. reflexivity. Qed.
Lemma up_norm2 a : cnorm2 (up a) = Fin (fst a * fst a + snd a * snd a).
Proof. reflexivity. Qed.
Lemma up_divr a k : (k <> 0)%R -> cdivr (up a) (Fin k) = up (a / RtoC k).
Proof.
  intros H. unfold cdivr, up. cbn [re im ndiv XRnum]. rewrite !xdiv_Fin by auto. f_equal; f_equal; unfold Cdiv, Cinv, Cmult, RtoC; cbn [fst snd]; field; auto.
Qed.
Lemma up_div a b : b <> RtoC 0 -> cdiv (up a) (up b) = up (a / b).
Proof.
  intros H. pose proof (C_norm_pos _ H). unfold cdiv. rewrite up_conj, up_mul, up_norm2, up_divr by lra. f_equal.
  apply C_eq; unfold Cdiv, Cinv, Cmult, Cconj, RtoC; cbn [fst snd]; field; nra.
Qed.
Lemma up_abs a : cabs (up a) = Fin (Cmod a).
Proof.
  unfold cabs. rewrite up_norm2. cbn [nsqrt XRnum]. rewrite xsqrt_Fin.
  - f_equal. unfold Cmod. f_equal. ring.
  - pose proof (Rle_0_sqr (fst a)). pose proof (Rle_0_sqr (snd a)). unfold Rsqr in *. lra.
Qed.
Lemma up_scale k a : cscale (Fin k) (up a) = up (RtoC k * a).
Proof. unfold cscale, up. cbn [re im nmul XRnum xmul]. f_equal; f_equal; unfold Cmult, RtoC; cbn [fst snd]; ring. Qed.
Lemma up_expi t : cexpi (Fin t) = up (cos t, sin t).
Proof. reflexivity. Qed.
Lemma cplx_fin (z : cplx XR) x y : re z = Fin x -> im z = Fin y -> z = up (x, y).
Proof. destruct z; cbn. intros -> ->. reflexivity. Qed.

(** polar form *)
Lemma ratan2_polar x y : (x = sqrt (x * x + y * y) * cos (ratan2 y x) /\ y = sqrt (x * x + y * y) * sin (ratan2 y x))%R.
Proof.
  assert (CA : forall t, (cos (atan t) = / sqrt (1 + t * t))%R).
  { intros t. rewrite cos_atan. unfold Rsqr. unfold Rdiv. ring. }
  assert (SA : forall t, (sin (atan t) = t / sqrt (1 + t * t))%R) by (intros t; rewrite sin_atan; reflexivity).
  assert (P : forall t, (0 < 1 + t * t)%R) by (intros t; pose proof (Rle_0_sqr t) as K; unfold Rsqr in K; lra).
  assert (SQ : forall t, (0 < sqrt (1 + t * t))%R) by (intros t; apply sqrt_lt_R0; auto).
  unfold ratan2. destruct (Rlt_dec 0 x) as [X|X]; [|destruct (Rlt_dec x 0) as [X'|X']].
  - assert (E : (sqrt (x * x + y * y) = x * sqrt (1 + (y / x) * (y / x)))%R).
    { rewrite <- (sqrt_square x) at 3 by lra. rewrite <- sqrt_mult; [f_equal; field; lra| |]; [pose proof (Rle_0_sqr x) as K; exact K|specialize (P (y/x)%R); lra]. }
    rewrite E, CA, SA. pose proof (SQ (y / x)%R). split; field; lra.
  - assert (E : (sqrt (x * x + y * y) = - x * sqrt (1 + (y / x) * (y / x)))%R).
    { rewrite <- (sqrt_square (- x)) at 1 by lra. rewrite <- sqrt_mult; [f_equal; field; lra| |]; [pose proof (Rle_0_sqr (-x)%R) as K; exact K|specialize (P (y/x)%R); lra]. }
    pose proof (SQ (y / x)%R). destruct (Rle_dec 0 y).
    + rewrite neg_cos, neg_sin, E, CA, SA. split; field; lra.
    + replace (atan (y / x) - PI)%R with (- (PI - atan (y / x)))%R by ring. rewrite cos_neg, sin_neg.
      replace (PI - atan (y / x))%R with (- atan (y / x) + PI)%R by ring. rewrite neg_cos, neg_sin, cos_neg, sin_neg, E, CA, SA. split; field; lra.
  - assert (x = 0)%R by lra. subst x. replace (0 * 0 + y * y)%R with (y * y)%R by ring.
    destruct (Rlt_dec 0 y); [|destruct (Rlt_dec y 0)].
    + rewrite cos_PI2, sin_PI2, sqrt_square by lra. lra.
    + rewrite cos_neg, sin_neg, cos_PI2, sin_PI2. replace (y * y)%R with ((- y) * (- y))%R by ring. rewrite sqrt_square by lra. lra.
    + assert (y = 0)%R by lra. subst y. rewrite cos_0, sin_0. replace (0 * 0)%R with 0%R by ring. rewrite sqrt_0. lra.
Qed.
Lemma up_angle a : cangle (up a) = Fin (ratan2 (snd a) (fst a)).
Proof. reflexivity. Qed.
Lemma polar a : a = (Cmod a * cos (ratan2 (snd a) (fst a)), Cmod a * sin (ratan2 (snd a) (fst a)))%R.
Proof.
  destruct (ratan2_polar (fst a) (snd a)) as [A B]. unfold Cmod.
  replace (fst a ^ 2 + snd a ^ 2)%R with (fst a * fst a + snd a * snd a)%R by ring. apply C_eq; cbn [fst snd]; auto.
Qed.

(** a branch row and its object *)
Lemma val_or_cell c d : cell_fin c -> match c with Some v => v | None => Fin d end = Fin (val_or c d).
Proof. intros H. destruct c as [v|]; cbn; auto. destruct (H v eq_refl) as [x ->]. reflexivity. Qed.
