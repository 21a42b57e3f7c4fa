(** C89: one update of the state of charge in binary64. *)
From Coq Require Import Reals Lra Floats ZArith Bool.
From Verif Require Import Base Num NumXR NumFloat Devices BusBranch CheckNetwork LoadFlow Simulator LibBase LibNum LibXR LibSim
  SpecNet ProofNet SpecDev LibInit SpecSim ProofSim ProofSoc ProofHist ProofDev ProofObs ProofUnits ProofVals ProofDevs LibF64 SpecF64 ProofF64 ProofUnits64 SpecStor64.
From Coq Require Import List. Import ListNotations.
Local Open Scope string_scope.
Local Open Scope list_scope.
Local Open Scope R_scope.
Set Bullet Behavior "Strict Subproofs".

Lemma xsub_mono a b c e : xleb a b = true -> xleb e c = true -> xsub b e <> NaN -> xsub a c <> NaN -> xleb (xsub a c) (xsub b e) = true.
Proof.
  destruct a, b, c, e; intros H1 H2 N1 N2; try discriminate H1; try discriminate H2; try reflexivity; try (exfalso; apply N1; reflexivity); try (exfalso; apply N2; reflexivity).
  cbn [xleb] in H1, H2. apply Rleb_spec in H1. apply Rleb_spec in H2. unfold xsub, xadd, xopp. apply Rleb_spec. lra.
Qed.
Lemma xsub_fin a c : c <> NaN -> xsub (Fin a) c <> NaN.
Proof. destruct c; intros H E; try discriminate E. apply H. reflexivity. Qed.
Lemma frnd_num r : frnd r <> NaN.
Proof. destruct (frnd_spec r) as [(_ & ->)|[(_ & ->)|(_ & ->)]]; discriminate. Qed.
Lemma num_leb x y : PrimFloat.leb x y = true -> fval x <> NaN /\ fval y <> NaN.
Proof. rewrite fval_leb. destruct (fval x), (fval y); intros H; try discriminate H; split; discriminate. Qed.
Lemma leb_refl64 x : fval x <> NaN -> PrimFloat.leb x x = true.
Proof. rewrite fval_leb. destruct (fval x) as [r| | |]; intros H; try reflexivity; [|exfalso; apply H; reflexivity]. apply Rleb_spec. lra. Qed.
Lemma leb_trans64 x y z : PrimFloat.leb x y = true -> PrimFloat.leb y z = true -> PrimFloat.leb x z = true.
Proof. rewrite !fval_leb. apply xle_trans. Qed.
Lemma leb_antisym64 x y : PrimFloat.leb x y = true -> PrimFloat.leb y x = true -> PrimFloat.eqb x y = true.
Proof. rewrite !fval_leb, fval_eqb. destruct (fval x), (fval y); cbn [xleb xeqb]; intros H1 H2; try discriminate; auto. apply Rleb_spec in H1. apply Rleb_spec in H2. apply Reqb_spec. lra. Qed.
Lemma eqb_leb64 x y : PrimFloat.eqb x y = true -> PrimFloat.leb x y = true /\ PrimFloat.leb y x = true.
Proof. rewrite !fval_leb, fval_eqb. destruct (fval x), (fval y); cbn [xleb xeqb]; intros H; try discriminate; auto. apply Reqb_spec in H. subst. split; apply Rleb_spec; lra. Qed.
Lemma ltb_leb64 x y : fval x <> NaN -> fval y <> NaN -> PrimFloat.ltb x y = false <-> PrimFloat.leb y x = true.
Proof.
  rewrite fval_leb, fval_ltb. destruct (fval x) as [r| | |], (fval y) as [s| | |]; intros A B; cbn [xleb xltb]; try tauto; try (split; intros; try discriminate; reflexivity).
  rewrite Rltb_false, Rleb_spec. tauto.
Qed.
Lemma sub64 c k m : fin64 c -> PrimFloat.leb k m = true -> PrimFloat.leb (c - m) (c - k) = true.
Proof.
  intros Fc H. destruct (fin64_val _ Fc) as (r & E). destruct (num_leb _ _ H) as (N1 & N2). rewrite fval_leb in *. rewrite !fval_sub, E. apply xrnd_mono, xsub_mono; auto using xsub_fin.
  cbn. apply Rleb_spec. lra.
Qed.
Lemma sub64l c a k : fin64 c -> fin64 a -> fval k <> NaN -> PrimFloat.leb c a = true -> PrimFloat.leb (c - k) (a - k) = true.
Proof.
  intros Fc Fa Nk H. destruct (fin64_val _ Fc) as (r & E). destruct (fin64_val _ Fa) as (q & E'). rewrite fval_leb in *. rewrite !fval_sub, E, E' in *. apply xrnd_mono, xsub_mono; auto using xsub_fin.
  destruct (fval k) as [w| | |]; try reflexivity; [apply Rleb_spec; lra|exfalso; apply Nk; reflexivity].
Qed.
Lemma sub64_0 c z : fin64 c -> fval z = Fin 0 -> PrimFloat.eqb (c - z) c = true.
Proof.
  intros Fc H. destruct (fin64_val _ Fc) as (r & E). rewrite fval_eqb, fval_sub, E, H. change (xsub (Fin r) (Fin 0)) with (Fin (r - 0)). rewrite Rminus_0_r. cbn [xrnd]. rewrite (frnd_fix c r E). cbn. apply Reqb_spec. reflexivity.
Qed.

(** clipping *)
Section Clip64.
  Context (L : libm) (lo hi : float) (Hlh : PrimFloat.leb lo hi = true).
  Lemma clip_mono64 x y : PrimFloat.leb x y = true -> PrimFloat.leb (np_clip (N := Fnum L) x lo hi) (np_clip (N := Fnum L) y lo hi) = true.
  Proof.
    intros H. destruct (num_leb _ _ H) as (Nx & Ny). destruct (num_leb _ _ Hlh) as (Nl & Nh).
    assert (Ax : nisnan (N := Fnum L) x = false) by (destruct (nisnan (N := Fnum L) x) eqn:E; auto; apply nan_val in E; contradiction).
    assert (Ay : nisnan (N := Fnum L) y = false) by (destruct (nisnan (N := Fnum L) y) eqn:E; auto; apply nan_val in E; contradiction).
    assert (Al : nisnan (N := Fnum L) lo = false) by (destruct (nisnan (N := Fnum L) lo) eqn:E; auto; apply nan_val in E; contradiction).
    unfold np_clip, np_max, np_min. rewrite Ax, Ay, !orb_false_r. change (nleb (Num := Fnum L)) with PrimFloat.leb.
    assert (T : forall a b, fval a <> NaN -> fval b <> NaN -> PrimFloat.leb a b = false -> PrimFloat.leb b a = true).
    { intros a b Na Nb. rewrite !fval_leb. destruct (fval a), (fval b); cbn [xleb]; try tauto; try (intros; auto; discriminate). rewrite Rleb_false, Rleb_spec. lra. }
    destruct (PrimFloat.leb lo x) eqn:E1, (PrimFloat.leb lo y) eqn:E2; rewrite ?Ax, ?Ay, ?Al, ?orb_false_r; rewrite ?Hlh.
    - destruct (PrimFloat.leb x hi) eqn:E3, (PrimFloat.leb y hi) eqn:E4; auto using leb_refl64. pose proof (leb_trans64 _ _ _ H E4). rewrite H0 in E3. discriminate.
    - pose proof (leb_trans64 _ _ _ E1 H). rewrite H0 in E2. discriminate.
    - destruct (PrimFloat.leb y hi) eqn:E4; auto.
    - apply leb_refl64; auto.
  Qed.
  Lemma cut_clip x : fval x <> NaN -> np_clip (N := Fnum L) x lo hi = cut lo hi x.
  Proof.
    intros Nx. destruct (num_leb _ _ Hlh) as (Nl & Nh).
    assert (Ax : nisnan (N := Fnum L) x = false) by (destruct (nisnan (N := Fnum L) x) eqn:E; auto; apply nan_val in E; contradiction).
    assert (Al : nisnan (N := Fnum L) lo = false) by (destruct (nisnan (N := Fnum L) lo) eqn:E; auto; apply nan_val in E; contradiction).
    unfold np_clip, np_max, np_min, cut. rewrite Ax, !orb_false_r. change (nleb (Num := Fnum L)) with PrimFloat.leb.
    destruct (PrimFloat.ltb x lo) eqn:E.
    - destruct (PrimFloat.leb lo x) eqn:E1; [apply (ltb_leb64 _ _ Nx Nl) in E1; rewrite E in E1; discriminate|]. rewrite Hlh. reflexivity.
    - apply (ltb_leb64 _ _ Nx Nl) in E. rewrite E, Ax, orb_false_r. destruct (PrimFloat.ltb hi x) eqn:E2.
      + destruct (PrimFloat.leb x hi) eqn:E1; [apply (ltb_leb64 _ _ Nh Nx) in E1; rewrite E2 in E1; discriminate|reflexivity].
      + apply (ltb_leb64 _ _ Nh Nx) in E2. rewrite E2. reflexivity.
  Qed.
End Clip64.

Section Soc64.
  Context (L : libm) (dt e lo hi : float).
  Context (Fd : fin64 dt) (Pd : PrimFloat.ltb 0 dt = true) (Pe : PrimFloat.ltb 0 e = true) (Le : PrimFloat.leb e 1 = true) (Hlh : PrimFloat.leb lo hi = true).
  (** the charge before it is cut off *)
  Definition next64 (c p : float) : float := if PrimFloat.leb p 0 then PrimFloat.sub c (PrimFloat.mul (PrimFloat.mul dt e) p) else PrimFloat.sub c (PrimFloat.div (PrimFloat.mul dt p) e).
  Lemma lt_pos x : fin64 x -> PrimFloat.ltb 0 x = true -> exists r, fval x = Fin r /\ 0 < r.
  Proof. intros Fx H. destruct (fin64_val _ Fx) as (r & E). exists r. split; auto. rewrite fval_ltb, E, fval_0 in H. cbn [xltb] in H. apply Rltb_spec in H. exact H. Qed.
  Lemma e_val : exists r, fval e = Fin r /\ 0 < r <= 1.
  Proof.
    rewrite fval_ltb, fval_0 in Pe. rewrite fval_leb, one64 in Le. destruct (fval e) as [r| | |]; try discriminate. exists r. split; auto. cbn in *. apply Rltb_spec in Pe. apply Rleb_spec in Le. lra.
  Qed.
  Lemma kp p : fin64 p -> fval (dt * p)%float <> NaN.
  Proof. intros Fp. destruct (fin64_val _ Fd) as (d & Ed). destruct (fin64_val _ Fp) as (q & Ep). rewrite fval_mul, Ed, Ep. apply frnd_num. Qed.
  (** the loss is never negative: the charge given up is at least [dt * p] *)
  Lemma next_le c p : fin64 c -> fin64 p -> PrimFloat.leb (next64 c p) (c - dt * p) = true.
  Proof.
    intros Fc Fp. destruct (lt_pos _ Fd Pd) as (d & Ed & Hd). destruct e_val as (f & Ef & Hf). destruct (fin64_val _ Fp) as (q & Ep).
    unfold next64. destruct (PrimFloat.leb p 0) eqn:S; apply sub64; auto; rewrite fval_leb in *; rewrite Ep, fval_0 in S; cbn [xleb] in S.
    - apply Rleb_spec in S. rewrite !fval_mul, Ed, Ef, Ep. cbn [xmul xrnd].
      assert (U : xleb (frnd (d * f)) (Fin d) = true). { rewrite <- (frnd_fix dt d Ed). apply frnd_mono. nra. }
      destruct (frnd (d * f)) as [g| | |] eqn:G; try discriminate U.
      + cbn [xleb] in U. apply Rleb_spec in U. cbn [xmul xrnd]. apply frnd_mono. nra.
      + exfalso. assert (V : xleb (Fin 0) (frnd (d * f)) = true) by (rewrite <- frnd_0; apply frnd_mono; nra). rewrite G in V. discriminate V.
    - apply Rleb_false in S. rewrite (fval_div _ _ f Ef), fval_mul, Ed, Ep, Ef by lra. cbn [xmul xrnd].
      assert (V : xleb (Fin 0) (frnd (d * q)) = true) by (rewrite <- frnd_0; apply frnd_mono; nra).
      pose proof (fval_mul dt p) as M. rewrite Ed, Ep in M. cbn [xmul xrnd] in M.
      destruct (frnd (d * q)) as [g| | |] eqn:G; try discriminate V.
      + cbn [xleb] in V. apply Rleb_spec in V. rewrite xdiv_Fin by lra. cbn [xrnd]. rewrite <- (frnd_fix _ g M). apply frnd_mono.
        assert (1 <= / f) by (rewrite <- Rinv_1; apply Rinv_le_contravar; lra). unfold Rdiv. nra.
      + rewrite xdiv_mul by lra. cbn [xmul]. rewrite inf_sgn_pos by (apply Rinv_0_lt_compat; lra). reflexivity.
  Qed.
  Lemma loss_sign c p : fin64 c -> fin64 p -> (PrimFloat.leb p 0 = true -> PrimFloat.leb c (next64 c p) = true) /\ (PrimFloat.leb 0 p = true -> PrimFloat.leb (next64 c p) c = true).
  Proof.
    intros Fc Fp. destruct (lt_pos _ Fd Pd) as (d & Ed & Hd). destruct e_val as (f & Ef & Hf). destruct (fin64_val _ Fp) as (q & Ep). destruct (fin64_val _ Fc) as (c0 & Ec).
    assert (U : xleb (Fin 0) (frnd (d * f)) = true) by (rewrite <- frnd_0; apply frnd_mono; nra).
    assert (U' : xleb (frnd (d * f)) (Fin d) = true). { rewrite <- (frnd_fix dt d Ed). apply frnd_mono. nra. }
    destruct (frnd (d * f)) as [g| | |] eqn:G; try discriminate U; try discriminate U'. cbn [xleb] in U. apply Rleb_spec in U.
    assert (Z : PrimFloat.eqb (c - 0) c = true) by (apply sub64_0; auto). apply eqb_leb64 in Z as (Z1 & Z2).
    split; intros S; rewrite fval_leb in S; rewrite Ep, fval_0 in S; cbn [xleb] in S; apply Rleb_spec in S.
    - unfold next64. assert (S' : PrimFloat.leb p 0 = true) by (rewrite fval_leb, Ep, fval_0; apply Rleb_spec; lra). rewrite S'.
      eapply leb_trans64; [exact Z2|]. apply sub64; auto. rewrite fval_leb, !fval_mul, Ed, Ef, Ep, fval_0. cbn [xmul xrnd]. rewrite G. cbn [xmul xrnd]. rewrite <- frnd_0. apply frnd_mono. nra.
    - eapply leb_trans64; [|exact Z1]. unfold next64. destruct (PrimFloat.leb p 0) eqn:S'; apply sub64; auto; rewrite fval_leb, fval_0.
      + rewrite !fval_mul, Ed, Ef, Ep. cbn [xmul xrnd]. rewrite G. cbn [xmul xrnd]. rewrite <- frnd_0. apply frnd_mono. nra.
      + rewrite (fval_div _ _ f Ef), fval_mul, Ed, Ep, Ef by lra. cbn [xmul xrnd]. rewrite xdiv_mul by lra.
        assert (V : xleb (Fin 0) (frnd (d * q)) = true) by (rewrite <- frnd_0; apply frnd_mono; nra).
        destruct (frnd (d * q)) as [g'| | |]; try discriminate V; cbn [xmul].
        * cbn [xleb] in V. apply Rleb_spec in V. cbn [xrnd]. rewrite <- frnd_0. apply frnd_mono. assert (0 < / f) by (apply Rinv_0_lt_compat; lra). nra.
        * rewrite inf_sgn_pos by (apply Rinv_0_lt_compat; lra). reflexivity.
  Qed.
  Definition soc64 (c p : float) : float := np_clip (N := Fnum L) (next64 c p) lo hi.
  Lemma soc64_spec c p a : fin64 c -> fin64 p -> between64 lo c hi -> fin64 a -> PrimFloat.leb c a = true ->
    between64 lo (soc64 c p) hi /\ (PrimFloat.leb p 0 = true -> PrimFloat.leb c (soc64 c p) = true) /\ (PrimFloat.leb 0 p = true -> PrimFloat.leb (soc64 c p) c = true) /\
    PrimFloat.leb (soc64 c p) (cut lo hi (a - dt * p)) = true.
  Proof.
    intros Fc Fp (B1 & B2) Fa Ca. destruct (loss_sign c p Fc Fp) as (S1 & S2). pose proof (next_le c p Fc Fp) as NL. destruct (num_leb _ _ NL) as (Nn & _).
    assert (Ci : np_clip (N := Fnum L) c lo hi = c) by (apply np_clip_id; auto). split; [|split; [|split]].
    - apply clip64; auto. destruct (nisnan (N := Fnum L) (next64 c p)) eqn:E; auto. apply nan_val in E. contradiction.
    - intros S. pose proof (clip_mono64 L lo hi Hlh _ _ (S1 S)) as M. rewrite Ci in M. exact M.
    - intros S. pose proof (clip_mono64 L lo hi Hlh _ _ (S2 S)) as M. rewrite Ci in M. exact M.
    - pose proof (sub64l c a _ Fc Fa (kp p Fp) Ca) as Q. pose proof (leb_trans64 _ _ _ NL Q) as Q'. rewrite <- (cut_clip L lo hi Hlh) by apply (num_leb _ _ Q'). apply clip_mono64; auto.
  Qed.
End Soc64.
