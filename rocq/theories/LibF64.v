(** The meaning of binary64 operations: exact operations on the values, rounded to nearest.  The values of binary64 numbers are extended reals (signed zeros are identified). *)
From Coq Require Import ZArith Reals Lra Lia Floats SpecFloat.
From Flocq Require Import Core.Core IEEE754.BinarySingleNaN IEEE754.PrimFloat Plus_error.
From Verif Require Import Base Num NumXR NumFloat.
Local Open Scope R_scope.
Set Bullet Behavior "Strict Subproofs".

Notation fexp64 := (SpecFloat.fexp prec emax).
Definition rnd64 (r : R) : R := round radix2 fexp64 ZnearestE r.
(** rounding to nearest, to an infinity from 2^1024 on *)
Definition frnd (r : R) : XR := if Rlt_bool (Rabs (rnd64 r)) (bpow radix2 emax) then Fin (rnd64 r) else if Rlt_dec 0 (rnd64 r) then PInf else NInf.
Definition xrnd (a : XR) : XR := match a with Fin r => frnd r | _ => a end.
(** the value of a binary64 number *)
Definition bval (b : binary_float prec emax) : XR :=
  match b with B754_nan => NaN | B754_infinity s => if s then NInf else PInf | _ => Fin (B2R b) end.
Definition fval (x : PrimFloat.float) : XR := bval (Prim2B x).

#[local] Instance Hp : Prec_gt_0 prec := eq_refl.
#[local] Instance He : Prec_lt_emax prec emax := eq_refl.
Lemma vexp : Valid_exp fexp64. Proof. apply (fexp_correct prec emax). exact eq_refl. Qed.
#[local] Existing Instance vexp.

Lemma bval_fin b : is_finite b = true -> bval b = Fin (B2R b).
Proof. destruct b; cbn; auto; discriminate. Qed.
Lemma bval_inf b s : B2SF b = S754_infinity s -> bval b = if s then NInf else PInf.
Proof. destruct b; cbn; try discriminate. intros Q. injection Q as ->. reflexivity. Qed.
Lemma sign_nonneg (b : binary_float prec emax) : is_finite b = true -> (Bsign b = false -> 0 <= B2R b) /\ (Bsign b = true -> B2R b <= 0).
Proof.
  destruct b as [s|s| |s m e H]; cbn; intros Q; try discriminate Q; [lra|]. split; intros ->; cbn.
  - apply F2R_ge_0. cbn. lia.
  - apply F2R_le_0. cbn. lia.
Qed.
Lemma overflow_NE s : binary_overflow prec emax mode_NE s = S754_infinity s.
Proof. reflexivity. Qed.

Lemma rnd_0 : rnd64 0 = 0. Proof. apply round_0. typeclasses eauto. Qed.
Lemma rnd_mono r s : r <= s -> rnd64 r <= rnd64 s.
Proof. apply round_le; typeclasses eauto. Qed.
Lemma frnd_big r : ~ Rabs (rnd64 r) < bpow radix2 emax -> (0 <= r -> frnd r = PInf) /\ (r <= 0 -> frnd r = NInf).
Proof.
  intros H. unfold frnd. rewrite Rlt_bool_false by lra. pose proof (bpow_gt_0 radix2 emax) as B.
  assert (N : rnd64 r <> 0) by (intros E; rewrite E, Rabs_R0 in H; lra). split; intros S; apply rnd_mono in S; rewrite rnd_0 in S; destruct (Rlt_dec 0 (rnd64 r)); auto; lra.
Qed.
Lemma bval_plus x y : bval (Bplus mode_NE x y) = xrnd (xadd (bval x) (bval y)).
Proof.
  destruct (is_finite x) eqn:Fx, (is_finite y) eqn:Fy.
  - pose proof (Bplus_correct prec emax _ _ mode_NE x y Fx Fy) as H. rewrite (bval_fin x Fx), (bval_fin y Fy). cbn [xadd xrnd].
    change (round radix2 fexp64 (round_mode mode_NE) (B2R x + B2R y)) with (rnd64 (B2R x + B2R y)) in H. destruct (Rlt_bool_spec (Rabs (rnd64 (B2R x + B2R y))) (bpow radix2 emax)) as [L|L].
    + destruct H as (H1 & H2 & _). rewrite (bval_fin _ H2), H1. unfold frnd. rewrite Rlt_bool_true by exact L. reflexivity.
    + destruct H as (H1 & H2). rewrite overflow_NE in H1. rewrite (bval_inf _ _ H1). destruct (frnd_big (B2R x + B2R y)) as (A & B); [lra|].
      destruct (sign_nonneg x Fx) as (X1 & X2). destruct (sign_nonneg y Fy) as (Y1 & Y2). destruct (Bsign x); symmetry; [apply B|apply A]; [specialize (X2 eq_refl); symmetry in H2; specialize (Y2 H2)|specialize (X1 eq_refl); symmetry in H2; specialize (Y1 H2)]; lra.
  - destruct x as [s|s| |s m e Hx]; try discriminate Fx; destruct y as [t|t| |t m' e' Hy]; try discriminate Fy; cbn; try destruct t; reflexivity.
  - destruct x as [s|s| |s m e Hx]; try discriminate Fx; destruct y as [t|t| |t m' e' Hy]; try discriminate Fy; cbn; try destruct s; reflexivity.
  - destruct x as [s|s| |s m e Hx]; try discriminate Fx; destruct y as [t|t| |t m' e' Hy]; try discriminate Fy; cbn; try destruct s; try destruct t; reflexivity.
Qed.
Lemma bval_opp x : bval (Bopp x) = xopp (bval x).
Proof.
  destruct (is_finite x) eqn:F; [|destruct x as [s|s| |s m e H]; try discriminate F; cbn; try destruct s; reflexivity].
  rewrite (bval_fin x F), bval_fin by (rewrite is_finite_Bopp; exact F). rewrite B2R_Bopp. reflexivity.
Qed.
Lemma bval_abs x : bval (Babs x) = xabs (bval x).
Proof.
  destruct (is_finite x) eqn:F; [|destruct x as [s|s| |s m e H]; try discriminate F; cbn; try destruct s; reflexivity].
  rewrite (bval_fin x F), bval_fin by (rewrite is_finite_Babs; exact F). rewrite B2R_Babs. reflexivity.
Qed.
Lemma xsub_opp a b : xsub a b = xadd a (xopp b).
Proof. destruct a, b; reflexivity. Qed.
Lemma bval_minus x y : bval (Bminus mode_NE x y) = xrnd (xsub (bval x) (bval y)).
Proof.
  rewrite xsub_opp, <- bval_opp, <- bval_plus. f_equal. destruct x as [s|s| |s m e H], y as [t|t| |t m' e' H']; cbn; reflexivity.
Qed.
Lemma inf_sgn_0 : inf_sgn 0 = NaN.
Proof. unfold inf_sgn. destruct (Rlt_dec 0 0); [lra|]. reflexivity. Qed.
Lemma fin_sign s m e H : (s = false -> 0 < B2R (B754_finite s m e H : binary_float prec emax)) /\ (s = true -> B2R (B754_finite s m e H : binary_float prec emax) < 0).
Proof. split; intros ->; cbn; [apply F2R_gt_0|apply F2R_lt_0]; cbn; lia. Qed.
Lemma bval_mult x y : bval (Bmult mode_NE x y) = xrnd (xmul (bval x) (bval y)).
Proof.
  destruct (is_finite x) eqn:Fx, (is_finite y) eqn:Fy.
  - pose proof (Bmult_correct prec emax _ _ mode_NE x y) as H. rewrite (bval_fin x Fx), (bval_fin y Fy). cbn [xmul xrnd].
    change (round radix2 fexp64 (round_mode mode_NE) (B2R x * B2R y)) with (rnd64 (B2R x * B2R y)) in H. destruct (Rlt_bool_spec (Rabs (rnd64 (B2R x * B2R y))) (bpow radix2 emax)) as [L|L].
    + destruct H as (H1 & H2 & _). rewrite Fx, Fy in H2. rewrite (bval_fin _ H2), H1. unfold frnd. rewrite Rlt_bool_true by exact L. reflexivity.
    + rewrite overflow_NE in H. rewrite (bval_inf _ _ H). destruct (frnd_big (B2R x * B2R y)) as (A & B); [lra|].
      destruct (sign_nonneg x Fx) as (X1 & X2). destruct (sign_nonneg y Fy) as (Y1 & Y2). destruct (Bsign x), (Bsign y); cbn [xorb]; symmetry; first [apply A|apply B];
        try specialize (X1 eq_refl); try specialize (X2 eq_refl); try specialize (Y1 eq_refl); try specialize (Y2 eq_refl); nra.
  - destruct x as [s|s| |s m e Hx]; try discriminate Fx; destruct y as [t|t| |t m' e' Hy]; try discriminate Fy; try (destruct s, t; cbn; rewrite ?Ropp_0, ?inf_sgn_0; reflexivity); try (cbn; reflexivity).
    destruct (fin_sign s m e Hx) as (A & B). destruct s, t; cbn [Bmult bval xorb xmul xrnd]; unfold inf_sgn; repeat match goal with |- context [Rlt_dec ?a ?b] => destruct (Rlt_dec a b) end; try reflexivity; exfalso; try specialize (A eq_refl); try specialize (B eq_refl); lra.
  - destruct x as [s|s| |s m e Hx]; try discriminate Fx; destruct y as [t|t| |t m' e' Hy]; try discriminate Fy; try (destruct s, t; cbn; rewrite ?Ropp_0, ?inf_sgn_0; reflexivity); try (cbn; reflexivity).
    destruct (fin_sign t m' e' Hy) as (A & B). destruct s, t; cbn [Bmult bval xorb xmul xrnd]; unfold inf_sgn; repeat match goal with |- context [Rlt_dec ?a ?b] => destruct (Rlt_dec a b) end; try reflexivity; exfalso; try specialize (A eq_refl); try specialize (B eq_refl); lra.
  - destruct x as [s|s| |s m e Hx]; try discriminate Fx; destruct y as [t|t| |t m' e' Hy]; try discriminate Fy; cbn; try destruct s; try destruct t; reflexivity.
Qed.
Lemma bval_compare x y : Bcompare x y = match bval x, bval y with
  | NaN, _ | _, NaN => None
  | PInf, PInf | NInf, NInf => Some Eq
  | PInf, _ | _, NInf => Some Gt
  | NInf, _ | _, PInf => Some Lt
  | Fin a, Fin b => Some (Rcompare a b) end.
Proof.
  destruct (is_finite x) eqn:Fx, (is_finite y) eqn:Fy.
  - rewrite (bval_fin x Fx), (bval_fin y Fy). apply Bcompare_correct; assumption.
  - destruct x as [s|s| |s m e Hx]; try discriminate Fx; destruct y as [t|t| |t m' e' Hy]; try discriminate Fy; try destruct s; try destruct t; reflexivity.
  - destruct x as [s|s| |s m e Hx]; try discriminate Fx; destruct y as [t|t| |t m' e' Hy]; try discriminate Fy; try destruct s; try destruct t; reflexivity.
  - destruct x as [s|s| |s m e Hx]; try discriminate Fx; destruct y as [t|t| |t m' e' Hy]; try discriminate Fy; try destruct s; try destruct t; reflexivity.
Qed.

Lemma fval_add x y : fval (PrimFloat.add x y) = xrnd (xadd (fval x) (fval y)).
Proof. unfold fval. rewrite add_equiv. apply bval_plus. Qed.
Lemma fval_sub x y : fval (PrimFloat.sub x y) = xrnd (xsub (fval x) (fval y)).
Proof. unfold fval. rewrite sub_equiv. apply bval_minus. Qed.
Lemma fval_mul x y : fval (PrimFloat.mul x y) = xrnd (xmul (fval x) (fval y)).
Proof. unfold fval. rewrite mul_equiv. apply bval_mult. Qed.
Lemma fval_opp x : fval (PrimFloat.opp x) = xopp (fval x).
Proof. unfold fval. rewrite opp_equiv. apply bval_opp. Qed.
Lemma fval_abs x : fval (PrimFloat.abs x) = xabs (fval x).
Proof. unfold fval. rewrite abs_equiv. apply bval_abs. Qed.
Lemma fval_leb x y : PrimFloat.leb x y = xleb (fval x) (fval y).
Proof.
  rewrite leb_equiv. unfold fval, Bleb, SFleb. change (SFcompare (B2SF (Prim2B x)) (B2SF (Prim2B y))) with (Bcompare (Prim2B x) (Prim2B y)). rewrite bval_compare.
  destruct (bval (Prim2B x)) as [a| | |], (bval (Prim2B y)) as [b| | |]; try reflexivity. cbn.
  unfold Rleb. destruct (Rcompare_spec a b); destruct (Rle_dec a b); try reflexivity; lra.
Qed.
Lemma fval_ltb x y : PrimFloat.ltb x y = xltb (fval x) (fval y).
Proof.
  rewrite ltb_equiv. unfold fval, Bltb, SFltb. change (SFcompare (B2SF (Prim2B x)) (B2SF (Prim2B y))) with (Bcompare (Prim2B x) (Prim2B y)). rewrite bval_compare.
  destruct (bval (Prim2B x)) as [a| | |], (bval (Prim2B y)) as [b| | |]; try reflexivity. cbn.
  unfold Rltb. destruct (Rcompare_spec a b); destruct (Rlt_dec a b); try reflexivity; lra.
Qed.
Lemma fval_eqb x y : PrimFloat.eqb x y = xeqb (fval x) (fval y).
Proof.
  rewrite eqb_equiv. unfold fval, Beqb, SFeqb. change (SFcompare (B2SF (Prim2B x)) (B2SF (Prim2B y))) with (Bcompare (Prim2B x) (Prim2B y)). rewrite bval_compare.
  destruct (bval (Prim2B x)) as [a| | |], (bval (Prim2B y)) as [b| | |]; try reflexivity. cbn.
  unfold Reqb. destruct (Rcompare_spec a b); destruct (Req_EM_T a b); try reflexivity; lra.
Qed.
Lemma fval_0 : fval 0%float = Fin 0. Proof. reflexivity. Qed.

(** rounding *)
Lemma frnd_spec r : (Rabs (rnd64 r) < bpow radix2 emax /\ frnd r = Fin (rnd64 r)) \/ (bpow radix2 emax <= rnd64 r /\ frnd r = PInf) \/ (rnd64 r <= - bpow radix2 emax /\ frnd r = NInf).
Proof.
  unfold frnd. pose proof (bpow_gt_0 radix2 emax) as B. destruct (Rlt_bool_spec (Rabs (rnd64 r)) (bpow radix2 emax)) as [L|L]; [auto|].
  destruct (Rlt_dec 0 (rnd64 r)) as [P|P]; [rewrite Rabs_pos_eq in L by lra|rewrite Rabs_left1 in L by lra]; [right; left|right; right]; split; auto; lra.
Qed.
Lemma frnd_mono r s : r <= s -> xleb (frnd r) (frnd s) = true.
Proof.
  intros H. apply rnd_mono in H. pose proof (bpow_gt_0 radix2 emax) as B.
  destruct (frnd_spec r) as [(R1 & ->)|[(R1 & ->)|(R1 & ->)]], (frnd_spec s) as [(S1 & ->)|[(S1 & ->)|(S1 & ->)]]; try reflexivity; try apply Rabs_lt_inv in R1; try apply Rabs_lt_inv in S1; try lra.
  cbn. unfold Rleb. destruct (Rle_dec (rnd64 r) (rnd64 s)); auto.
Qed.
Lemma bval_format b r : bval b = Fin r -> generic_format radix2 fexp64 r /\ Rabs r < bpow radix2 emax.
Proof.
  intros H. assert (Q : B2R b = r) by (destruct b; cbn in *; try discriminate; try (destruct s; discriminate); congruence). rewrite <- Q. split.
  - apply generic_format_B2R.
  - apply abs_B2R_lt_emax.
Qed.
Lemma frnd_fix x r : fval x = Fin r -> frnd r = Fin r.
Proof.
  intros H. apply bval_format in H. destruct H as (G & L). assert (Q : rnd64 r = r) by (apply round_generic; [typeclasses eauto|exact G]).
  unfold frnd. rewrite Q, Rlt_bool_true by exact L. reflexivity.
Qed.
Lemma frnd_0 : frnd 0 = Fin 0. Proof. apply (frnd_fix 0%float). reflexivity. Qed.
(** by gradual underflow the difference of two different numbers does not round to 0 *)
Lemma frnd_sub_pos x y a b : fval x = Fin a -> fval y = Fin b -> a < b -> xltb (Fin 0) (frnd (b - a)) = true.
Proof.
  intros X Y L. destruct (bval_format _ _ X) as (Gx & _). destruct (bval_format _ _ Y) as (Gy & _).
  assert (N : rnd64 (b - a) <> 0). { unfold rnd64, Rminus. apply round_plus_neq_0; try typeclasses eauto; auto; [apply generic_format_opp; exact Gx|lra]. }
  assert (P : 0 <= rnd64 (b - a)) by (rewrite <- rnd_0; apply rnd_mono; lra). pose proof (bpow_gt_0 radix2 emax) as B.
  destruct (frnd_spec (b - a)) as [(S1 & ->)|[(S1 & ->)|(S1 & ->)]]; try reflexivity; [|lra]. cbn. unfold Rltb. destruct (Rlt_dec 0 (rnd64 (b - a))); auto; lra.
Qed.

Lemma bval_div x y s : bval y = Fin s -> s <> 0 -> bval (Bdiv mode_NE x y) = xrnd (xdiv (bval x) (bval y)).
Proof.
  intros Ey Hs. assert (Fy : is_finite y = true) by (destruct y as [t|t| |t m e H]; cbn in Ey; try discriminate; auto; destruct t; discriminate Ey).
  assert (Ry : B2R y = s) by (rewrite (bval_fin y Fy) in Ey; congruence). destruct (is_finite x) eqn:Fx.
  - pose proof (Bdiv_correct prec emax _ _ mode_NE x y) as H. rewrite Ry in H. specialize (H Hs). rewrite Ey, (bval_fin x Fx). cbn [xdiv]. destruct (Req_EM_T s 0) as [Z|_]; [contradiction|]. cbn [xrnd].
    change (round radix2 fexp64 (round_mode mode_NE) (B2R x / s)) with (rnd64 (B2R x / s)) in H. destruct (Rlt_bool_spec (Rabs (rnd64 (B2R x / s))) (bpow radix2 emax)) as [L|L].
    + destruct H as (H1 & H2 & _). rewrite Fx in H2. rewrite (bval_fin _ H2), H1. unfold frnd. rewrite Rlt_bool_true by exact L. reflexivity.
    + rewrite overflow_NE in H. rewrite (bval_inf _ _ H). destruct (frnd_big (B2R x / s)) as (A & B); [lra|].
      destruct (sign_nonneg x Fx) as (X1 & X2). destruct (sign_nonneg y Fy) as (Y1 & Y2). rewrite Ry in Y1, Y2.
      destruct (Bsign x), (Bsign y); cbn [xorb]; symmetry; first [apply A|apply B];
        try specialize (X1 eq_refl); try specialize (X2 eq_refl); try specialize (Y1 eq_refl); try specialize (Y2 eq_refl); unfold Rdiv;
        [assert (I : / s < 0) by (apply Rinv_lt_0_compat; lra)|assert (I : 0 < / s) by (apply Rinv_0_lt_compat; lra)|assert (I : / s < 0) by (apply Rinv_lt_0_compat; lra)|assert (I : 0 < / s) by (apply Rinv_0_lt_compat; lra)]; nra.
  - destruct y as [t|t| |t m e Hy]; try discriminate Fy; [cbn in Ry; congruence|]. destruct (fin_sign t m e Hy) as (P & Q). rewrite Ey. rewrite Ry in P, Q.
    destruct x as [u|u| |u m' e' Hx]; try discriminate Fx; try reflexivity. destruct u, t; cbn [Bdiv bval xorb xdiv xrnd]; destruct (Rlt_dec s 0); try reflexivity; exfalso; try specialize (P eq_refl); try specialize (Q eq_refl); lra.
Qed.
Lemma fval_div x y s : fval y = Fin s -> s <> 0 -> fval (PrimFloat.div x y) = xrnd (xdiv (fval x) (fval y)).
Proof. unfold fval. rewrite div_equiv. apply bval_div. Qed.
