(** Branches: pi-model (C15), passivity (C16), apparent power (C24), current (C25). *)
From Coq Require Import Reals Lra.
From Coquelicot Require Import Complex.
From Verif Require Import Base Num NumXR LibBase LibNum LibXR LibEval Devices BusBranch CheckNetwork Simulator LibInit SpecDev SpecSim
  ProofDev SpecPf LibC.
Local Open Scope C_scope.

(** An object built from a finite row. *)
Record br_of (r : branch_row XR) (b : R) (br : branch XR) : Prop := mkBrOf {
  bo_f : lr_f r = Some (ln_f br); bo_t : lr_t r = Some (ln_t br);
  bo_series : ln_series br = up (/ row_z r); bo_shunt : ln_shunt br = up (0, row_b r / 2)%R; bo_tap : ln_tap br = up (row_t r);
  bo_z : row_z r <> RtoC 0; bo_t0 : row_t r <> RtoC 0; bo_r : (0 <= row_r r)%R; bo_x : (0 <= row_x r)%R;
  bo_rate : ln_rate br = match lr_rate r with Some (Fin x) => Fin (x / b) | _ => PInf end;
  bo_rate0 : xle (Fin 0) (ln_rate br) }.

Lemma raise_cell (c : option XR) (d v : XR) e (f : XR -> bool) :
  match c with None => Ok d | Some x => if f x then Err e else Ok x end = Ok v -> v = or_else c d.
Proof. destruct c as [x|]; cbn; [destruct (f x); congruence|congruence]. Qed.

Lemma branch_init_of (r : branch_row XR) b ids br : (0 < b)%R -> branch_row_fin r -> branch_init r (Fin b) ids = Ok br -> br_of r b br.
Proof.
  intros Hb HF E. pose proof (proj1 (branch_init_iff b Hb r ids HF) (ex_intro _ br E)) as V.
  destruct V as (_ & _ & Vr & Vx & Vz & Vb & Vrate & Vt & _).
  pose proof (branch_init_ends _ _ _ _ E) as (Ef & Et & _).
  unfold branch_row_fin in HF. cells HF.
  unfold branch_init in E.
  apply bind_ok in E as (f & _ & E). apply bind_ok in E as (t & _ & E).
  apply bind_ok in E as (rr & E1 & E). apply bind_ok in E as (xx & E2 & E). apply bind_ok in E as (u & _ & E).
  apply bind_ok in E as (bb & E3 & E). apply bind_ok in E as (rate & E4 & E). apply bind_ok in E as (tapm & E5 & E).
  apply bind_ok in E as (shift & E6 & E). injection E as <-.
  apply raise_cell in E1. apply raise_cell in E2. apply raise_cell in E3. apply raise_cell in E5.
  assert (K : forall c d, cell_fin c -> or_else c (Fin d) = Fin (val_or c d)).
  { intros c d H. destruct c as [v|]; cbn; auto. destruct (H v eq_refl) as [x ->]. reflexivity. }
  cbn [n0 n1 XRnum] in *. rewrite K in E1, E2, E3, E5, Vr, Vx, Vt, Vz, Vb by auto. rewrite (K _ 0%R) in Vz by auto.
  apply (xle_Fin 0) in Vr. apply (xle_Fin 0) in Vx. apply (xlt_Fin 0) in Vt. fold (row_r r) in *. fold (row_x r) in *. fold (row_b r) in *. subst rr xx bb tapm.
  assert (Z0 : row_z r <> RtoC 0).
  { apply C_neq0. cbn [row_z fst snd]. destruct (Req_EM_T (row_r r) 0) as [Q1|]; auto. destruct (Req_EM_T (row_x r) 0) as [Q2|]; auto.
    exfalso. apply Vz. unfold row_r, row_x in *. rewrite Q1, Q2. auto. }
  set (th := (val_or (lr_shift r) 0 * PI / 180)%R).
  assert (Es : shift = Fin th).
  { destruct (lr_shift r) as [v|] eqn:Q.
    - destruct (Hc4 v eq_refl) as [x ->]. cbn [val_or] in th. destruct (_ || _)%bool; [discriminate|].
      injection E6 as <-. cbn [nmul ndiv npi nofZ XRnum xmul]. destruct (Req_EM_T 180 0); [lra|reflexivity].
    - injection E6 as <-. unfold th. cbn [val_or]. f_equal. lra. }
  subst shift.
  assert (Et' : tap_of (Fin (val_or (lr_tap r) 1)) (Fin th) = up (row_t r)).
  { unfold tap_of. rewrite up_expi, up_scale. f_equal. unfold row_t. fold th. apply C_eq; unfold Cmult, RtoC; cbn [fst snd]; ring. }
  constructor; cbn [ln_f ln_t ln_series ln_shunt ln_tap ln_rate]; auto.
  - unfold series_of. change (mkC (Fin (row_r r)) (Fin (row_x r))) with (up (row_z r)). rewrite up_1, up_div by auto. f_equal. unfold Cdiv. ring.
  - unfold shunt_of, up. cbn [n0 nofZ ndiv XRnum fst snd]. rewrite xdiv_Fin by lra. reflexivity.
  - unfold row_t. fold th. intros Q. assert (Q1 : (val_or (lr_tap r) 1 * cos th = 0)%R) by (injection Q; auto).
    assert (Q2 : (val_or (lr_tap r) 1 * sin th = 0)%R) by (injection Q; auto).
    pose proof (sin2_cos2 th) as SC. unfold Rsqr in SC.
    assert (cos th = 0)%R by (apply Rmult_integral in Q1; destruct Q1; [lra|auto]).
    assert (sin th = 0)%R by (apply Rmult_integral in Q2; destruct Q2; [lra|auto]). rewrite H, H0 in SC. lra.
  - destruct (lr_rate r) as [v|] eqn:Q; [|injection E4 as <-; reflexivity].
    destruct (nltb v (Fin 0)); [discriminate|]. injection E4 as <-. destruct (Hc2 v eq_refl) as [x ->]. cbn [ndiv XRnum]. rewrite xdiv_Fin by lra. reflexivity.
  - destruct (lr_rate r) as [v|] eqn:Q; [|injection E4 as <-; reflexivity].
    cbn [or_else] in Vrate. destruct (nltb v (Fin 0)); [discriminate|]. injection E4 as <-. destruct (Hc2 v eq_refl) as [x ->]. cbn [ndiv XRnum]. rewrite xdiv_Fin by lra.
    apply (xle_Fin 0) in Vrate. apply xle_Fin. apply Rmult_le_pos; auto. left. apply Rinv_0_lt_compat; auto.
Qed.

Section Branch.
  Context (r : branch_row XR) (b : R) (br : branch XR) (Ob : br_of r b br).
  Let z := row_z r. Let t := row_t r.

  Lemma tap2_val : tap2 br = Fin (fst t * fst t + snd t * snd t).
  Proof. unfold tap2. rewrite (bo_tap _ _ _ Ob), up_abs. cbn [nmul XRnum xmul]. rewrite Cmod_sq. reflexivity. Qed.
  Lemma tt_conj : RtoC (fst t * fst t + snd t * snd t) = t * Cconj t.
  Proof. symmetry. apply Cmod2. Qed.
  Lemma t_neq : t <> RtoC 0. Proof. exact (bo_t0 _ _ _ Ob). Qed.
  Lemma tc_neq : Cconj t <> RtoC 0. Proof. apply Cconj_neq0, t_neq. Qed.
  Lemma z_neq : z <> RtoC 0. Proof. exact (bo_z _ _ _ Ob). Qed.
  Lemma t2_pos : (0 < fst t * fst t + snd t * snd t)%R. Proof. apply C_norm_pos, t_neq. Qed.

  Lemma ifrom_pi vf vt : branch_ifrom br (up vf) (up vt) = up (pi_from r vf vt).
  Proof.
    unfold branch_ifrom. rewrite tap2_val, (bo_series _ _ _ Ob), (bo_shunt _ _ _ Ob), (bo_tap _ _ _ Ob).
    rewrite up_add, up_mul, up_opp, up_mul, up_conj, up_div by apply tc_neq. rewrite up_divr by (pose proof t2_pos; lra). rewrite up_add. f_equal.
    rewrite tt_conj. unfold pi_from, pi_inner. cbv zeta. fold z t. field. pose proof tc_neq. pose proof z_neq. pose proof t_neq. auto.
  Qed.
  Lemma ito_pi vf vt : branch_ito br (up vf) (up vt) = up (pi_to r vf vt).
  Proof.
    unfold branch_ito. rewrite (bo_series _ _ _ Ob), (bo_shunt _ _ _ Ob), (bo_tap _ _ _ Ob).
    rewrite up_add, up_mul, up_opp, up_mul, up_div by apply t_neq. rewrite up_add. f_equal.
    unfold pi_to. fold z t. field. pose proof z_neq. pose proof t_neq. auto.
  Qed.
  (** the updated object *)
  Lemma update_pi vf vt : let br' := branch_update br (up vf) (up vt) in
    ln_ifrom br' = up (pi_from r vf vt) /\ ln_ito br' = up (pi_to r vf vt) /\
    ln_pfrom br' = Fin (fst (s_from r vf vt)) /\ ln_qfrom br' = Fin (snd (s_from r vf vt)) /\
    ln_pto br' = Fin (fst (s_to r vf vt)) /\ ln_qto br' = Fin (snd (s_to r vf vt)) /\
    ln_smax br' = xmul (np_sign (Fin (fst (s_from r vf vt)))) (np_max (Fin (Cmod (s_from r vf vt))) (Fin (Cmod (s_to r vf vt)))) /\
    ln_rate br' = ln_rate br.
  Proof.
    intros br'. subst br'. unfold branch_update. cbn [ln_ifrom ln_ito ln_pfrom ln_qfrom ln_pto ln_qto ln_smax ln_rate].
    rewrite ifrom_pi, ito_pi, !up_conj, !up_mul, !up_abs. repeat split; reflexivity.
  Qed.

  (** passivity *)
  Lemma loss_val vf vt : (fst (s_from r vf vt) + fst (s_to r vf vt) =
    row_r r / (row_r r * row_r r + row_x r * row_x r) * (Cmod (vf / t - vt)%C * Cmod (vf / t - vt)%C))%R.
  Proof.
    rewrite Cmod_sq. set (v' := vf / t).
    assert (E : s_from r vf vt = v' * Cconj (pi_inner r vf vt)).
    { unfold s_from, pi_from. fold t. rewrite Cconj_div by apply tc_neq. rewrite Cconj_conj. unfold v'. field. apply t_neq. }
    assert (E2 : s_from r vf vt + s_to r vf vt = (v' - vt) * Cconj (v' - vt) / Cconj z + (0, - (row_b r / 2))%R * (v' * Cconj v' + vt * Cconj vt)).
    { rewrite E. unfold s_to, pi_to, pi_inner. fold t z v'. cbv zeta. rewrite !Cconj_plus, !Cconj_mult, !Cconj_div by apply z_neq.
      rewrite !Cconj_minus. replace (Cconj (0, row_b r / 2)%R) with (0, - (row_b r / 2))%R by (unfold Cconj; reflexivity).
      field. apply Cconj_neq0, z_neq. }
    assert (E3 : fst (s_from r vf vt + s_to r vf vt) = (fst (s_from r vf vt) + fst (s_to r vf vt))%R) by reflexivity.
    rewrite <- E3, E2. rewrite !Cmod2. pose proof (C_norm_pos _ z_neq) as P. unfold z, row_z in *. cbn [fst snd] in P.
    generalize dependent (v' - vt). intros w _.
    unfold Cdiv, Cplus, Cmult, Cinv, Cconj, RtoC. cbn [fst snd]. field. lra.
  Qed.
  Lemma loss_nonneg vf vt : (0 <= fst (s_from r vf vt) + fst (s_to r vf vt))%R.
  Proof.
    rewrite loss_val. pose proof (C_norm_pos _ z_neq) as P. unfold z, row_z in P. cbn [fst snd] in P.
    apply Rmult_le_pos; [apply Rmult_le_pos; [apply (bo_r _ _ _ Ob)|left; apply Rinv_0_lt_compat; auto]|apply Rle_0_sqr].
  Qed.

  (** reported apparent power *)
  Lemma np_max_fin x y : np_max (Fin x) (Fin y) = Fin (Rmax x y).
  Proof.
    unfold np_max, nisnan. cbn [nleb neqb XRnum xleb xeqb]. rewrite (proj2 (Reqb_spec x x) eq_refl). cbn [negb]. rewrite orb_false_r.
    destruct (Rleb y x) eqn:L; [apply Rleb_spec in L; rewrite Rmax_left; auto|apply Rleb_false in L; rewrite Rmax_right; auto; lra].
  Qed.
  Lemma np_sign_fin x : np_sign (Fin x) = Fin (if Rlt_dec 0 x then 1 else if Rlt_dec x 0 then -1 else 0).
  Proof.
    unfold np_sign, nisnan. cbn [nltb neqb n0 n1 nopp XRnum xeqb xltb xopp]. rewrite (proj2 (Reqb_spec x x) eq_refl). cbn [negb].
    unfold Rltb. destruct (Rlt_dec 0 x); [|destruct (Rlt_dec x 0)]; auto.
  Qed.
  Lemma smax_val vf vt : ln_smax (branch_update br (up vf) (up vt)) =
    Fin ((if Rlt_dec 0 (fst (s_from r vf vt)) then 1 else if Rlt_dec (fst (s_from r vf vt)) 0 then -1 else 0) *
         Rmax (Cmod (s_from r vf vt)) (Cmod (s_to r vf vt))).
  Proof.
    destruct (update_pi vf vt) as (_ & _ & _ & _ & _ & _ & E & _). rewrite E, np_sign_fin, np_max_fin. reflexivity.
  Qed.
End Branch.
Lemma Rmax_cmod a b : (0 <= Rmax (Cmod a) (Cmod b))%R.
Proof. pose proof (Cmod_ge_0 a). pose proof (Rmax_l (Cmod a) (Cmod b)). lra. Qed.

(** numpy 2: the "signed magnitude" of a complex number is its real part *)
Lemma signed_magn_re (z : C) : signed_magn (up z) = Fin (fst z).
Proof.
  unfold signed_magn. rewrite up_abs. cbn [re im up neqb XRnum xeqb n0].
  destruct (Reqb (fst z) 0) eqn:A; cbn [andb].
  - destruct (Reqb (snd z) 0) eqn:B; cbn [nmul ndiv XRnum xmul].
    + apply Reqb_spec in A. rewrite A. f_equal. ring.
    + apply Reqb_spec in A. apply Reqb_false in B. assert (Cmod z <> 0)%R.
      { intros K. apply B. apply Cmod_eq_0 in K. rewrite K. reflexivity. }
      rewrite xdiv_Fin by auto. cbn [xmul]. f_equal. field. auto.
  - apply Reqb_false in A. assert (Cmod z <> 0)%R.
    { intros K. apply A. apply Cmod_eq_0 in K. rewrite K. reflexivity. }
    cbn [nmul ndiv XRnum]. rewrite xdiv_Fin by auto. cbn [xmul]. f_equal. field. auto.
Qed.
