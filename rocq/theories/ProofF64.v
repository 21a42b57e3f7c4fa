(** Costs in binary64: sums of non-negative numbers, differences, clipping. *)
From Coq Require Import ZArith Reals Lra Lia Floats List.
From Verif Require Import Base Num NumXR NumFloat Devices BusBranch CheckNetwork LoadFlow Simulator LibNum LibBase LibF64 SpecF64.
Import ListNotations.
Local Open Scope R_scope.
Set Bullet Behavior "Strict Subproofs".

(** The value is at least 0 (possibly infinite); the value is 0. *)
Definition nnv (x : float) : Prop := xleb (Fin 0) (fval x) = true.
Definition zv (x : float) : Prop := fval x = Fin 0.
Lemma nnv_cases x : nnv x -> (exists r, fval x = Fin r /\ 0 <= r) \/ fval x = PInf.
Proof. unfold nnv. destruct (fval x) as [r| | |]; cbn; intros H; try discriminate; auto. apply Rleb_spec in H. left; eauto. Qed.
Lemma frnd_nn r : 0 <= r -> xleb (Fin 0) (frnd r) = true.
Proof. intros H. rewrite <- frnd_0. apply frnd_mono. exact H. Qed.
Lemma num_nan (L : libm) x : nisnan (N := Fnum L) x = negb (xeqb (fval x) (fval x)).
Proof. unfold nisnan. cbn. rewrite fval_eqb. reflexivity. Qed.
Lemma nan_val (L : libm) x : nisnan (N := Fnum L) x = true <-> fval x = NaN.
Proof. rewrite num_nan. destruct (fval x) as [r| | |]; cbn; rewrite ?Reqb_refl; cbn; split; congruence. Qed.
Lemma nnv_add x y : nnv x -> nnv y -> nnv (PrimFloat.add x y) /\ (zv (PrimFloat.add x y) <-> zv x /\ zv y).
Proof.
  intros X Y. unfold nnv, zv. rewrite fval_add. destruct (nnv_cases x X) as [(r & Er & Hr)|Er], (nnv_cases y Y) as [(s & Es & Hs)|Es]; rewrite Er, Es; cbn [xadd xrnd].
  - split; [apply frnd_nn; lra|]. split.
    + intros Z. assert (K1 : xleb (frnd r) (frnd (r + s)) = true) by (apply frnd_mono; lra). assert (K2 : xleb (frnd s) (frnd (r + s)) = true) by (apply frnd_mono; lra).
      rewrite (frnd_fix x r Er), Z in K1. rewrite (frnd_fix y s Es), Z in K2. cbn in K1, K2. apply Rleb_spec in K1, K2. split; f_equal; lra.
    + intros (A & B). injection A as ->. injection B as ->. rewrite Rplus_0_r. apply frnd_0.
  - split; [reflexivity|]. split; [discriminate|intros (_ & A); discriminate A].
  - split; [reflexivity|]. split; [discriminate|intros (A & _); discriminate A].
  - split; [reflexivity|]. split; [discriminate|intros (_ & A); discriminate A].
Qed.
Lemma zv_eqb x : PrimFloat.eqb x 0%float = true <-> zv x.
Proof. unfold zv. rewrite fval_eqb, fval_0. destruct (fval x) as [r| | |]; cbn; try (split; discriminate). rewrite Reqb_spec. split; [intros ->; auto|congruence]. Qed.
Lemma nnv_leb x : PrimFloat.leb 0%float x = true <-> nnv x.
Proof. unfold nnv. rewrite fval_leb, fval_0. tauto. Qed.
Lemma fin64_val x : fin64 x -> exists r, fval x = Fin r.
Proof. unfold fin64. rewrite fval_ltb, fval_abs. change (fval infinity) with PInf. destruct (fval x); cbn; try discriminate. eauto. Qed.
Lemma num64_val x : num64 x -> fval x <> NaN.
Proof. unfold num64. rewrite fval_eqb. destruct (fval x); cbn; congruence. Qed.
Definition pos_part (a : XR) : XR := match a with Fin r => if Rleb r 0 then Fin 0 else Fin r | NInf => Fin 0 | PInf => PInf | NaN => NaN end.
Lemma max0_val (L : libm) d : fval (np_max (N := Fnum L) 0%float d) = pos_part (fval d).
Proof. unfold np_max. cbn [nleb Fnum]. rewrite fval_leb, fval_0. change (nisnan (N := Fnum L) 0%float) with false. rewrite orb_false_r. destruct (fval d) as [r| | |] eqn:E; cbn; rewrite ?E; auto. destruct (Rleb r 0); auto. Qed.
Lemma max0_nn (L : libm) d : fval (np_max (N := Fnum L) 0%float d) = NaN \/ nnv (np_max (N := Fnum L) 0%float d).
Proof.
  unfold nnv. rewrite max0_val. destruct (fval d) as [r| | |]; cbn; auto; [destruct (Rleb r 0) eqn:E|]; right; cbn; apply Rleb_spec; rbool; lra.
Qed.
(** the excess of [x] over [y] *)
Lemma excess (L : libm) x y : fin64 x -> num64 y -> nnv (np_max (N := Fnum L) 0%float (PrimFloat.sub x y)) /\ (zv (np_max (N := Fnum L) 0%float (PrimFloat.sub x y)) <-> PrimFloat.leb x y = true).
Proof.
  intros X Y. destruct (fin64_val x X) as (r & Er). apply num64_val in Y. unfold nnv, zv. rewrite max0_val, fval_leb, fval_sub, Er.
  destruct (fval y) as [s| | |] eqn:Es; cbn [xsub xadd xopp xrnd xleb]; try congruence.
  - rewrite Rleb_spec. destruct (Rle_dec r s) as [H|H].
    + assert (K : xleb (frnd (r - s)) (Fin 0) = true) by (rewrite <- frnd_0; apply frnd_mono; lra). assert (Q : pos_part (frnd (r - s)) = Fin 0) by (destruct (frnd (r - s)) as [u| | |]; try discriminate K; [|reflexivity]; cbn in K |- *; rewrite K; reflexivity).
      rewrite Q. split; [cbn; apply Rleb_spec; lra|tauto].
    + assert (K : xltb (Fin 0) (frnd (r - s)) = true) by (apply (frnd_sub_pos y x s r); auto; lra). destruct (frnd (r - s)) as [u| | |]; try discriminate K; cbn in *.
      * apply Rltb_spec in K. destruct (Rleb u 0) eqn:Q; rbool; try lra. cbn. split; [rbool; lra|]. split; [|lra]. intros A. injection A as A. lra.
      * split; auto. split; [discriminate|lra].
  - cbn. split; [rbool; lra|tauto].
  - cbn. split; auto. split; discriminate.
Qed.
Lemma excess2 (L : libm) x y : num64 x -> fin64 y -> nnv (np_max (N := Fnum L) 0%float (PrimFloat.sub x y)) /\ (zv (np_max (N := Fnum L) 0%float (PrimFloat.sub x y)) <-> PrimFloat.leb x y = true).
Proof.
  intros X Y. destruct (fval x) as [r| | |] eqn:Er.
  - apply excess; [|unfold num64, fin64 in *; rewrite fval_eqb; destruct (fin64_val y Y) as (s & ->); cbn; apply Reqb_refl]. unfold fin64. rewrite fval_ltb, fval_abs, Er. reflexivity.
  - destruct (fin64_val y Y) as (s & Es). unfold nnv, zv. rewrite max0_val, fval_leb, fval_sub, Er, Es. cbn. split; auto. split; discriminate.
  - destruct (fin64_val y Y) as (s & Es). unfold nnv, zv. rewrite max0_val, fval_leb, fval_sub, Er, Es. cbn. split; [rbool; lra|tauto].
  - apply num64_val in X. congruence.
Qed.
Lemma weigh x k : nnv x -> PrimFloat.leb 1%float k = true -> PrimFloat.ltb k infinity = true -> nnv (PrimFloat.mul x k) /\ (zv (PrimFloat.mul x k) <-> zv x).
Proof.
  intros X. rewrite fval_leb, fval_ltb. change (fval infinity) with PInf. assert (E1 : fval 1%float = Fin 1) by (unfold fval; cbn; unfold Defs.F2R; cbn; f_equal; lra).
  rewrite E1. destruct (fval k) as [c| | |] eqn:Ek; cbn; try discriminate. intros K _. apply Rleb_spec in K. unfold nnv, zv. rewrite fval_mul, Ek.
  destruct (nnv_cases x X) as [(r & Er & Hr)|Er]; rewrite Er; cbn [xmul xrnd].
  - split; [apply frnd_nn; nra|]. split.
    + intros Z. assert (Q : xleb (frnd r) (frnd (r * c)) = true) by (apply frnd_mono; nra). rewrite (frnd_fix x r Er), Z in Q. cbn in Q. apply Rleb_spec in Q. f_equal; lra.
    + intros A. injection A as ->. rewrite Rmult_0_l. apply frnd_0.
  - unfold inf_sgn. destruct (Rlt_dec 0 c); [|lra]. cbn. split; auto. split; discriminate.
Qed.

Lemma buses64 (L : libm) bs a x : foldM (bus_penalty (N := Fnum L)) bs a = Ok x -> nnv a ->
  (forall b, In b bs -> fin64 (cabs (N := Fnum L) (b_v b)) /\ num64 (b_vmax b) /\ forall lo, b_vmin b = Some lo -> num64 lo) ->
  nnv x /\ (zv x <-> zv a /\ forall b lo, In b bs -> b_vmin b = Some lo -> between64 lo (cabs (N := Fnum L) (b_v b)) (b_vmax b)).
Proof.
  revert a; induction bs as [|b bs IH]; intros a H A Hb; cbn [foldM] in H.
  - injection H as <-. split; auto. split; [intros Z; split; auto; intros b lo []|tauto].
  - apply bind_ok in H as (a1 & H1 & H). destruct (Hb b (or_introl eq_refl)) as (V1 & V2 & V3). unfold bus_penalty in H1. destruct (b_vmin b) as [lo|] eqn:El; [|discriminate H1]. specialize (V3 lo eq_refl).
    injection H1 as <-. cbn [nadd nsub n0 Fnum] in H.
    destruct (excess L _ _ V1 V2) as (P1 & Z1). destruct (excess2 L _ _ V3 V1) as (P2 & Z2). destruct (nnv_add _ _ P1 P2) as (P3 & Z3). destruct (nnv_add _ _ A P3) as (P4 & Z4).
    destruct (IH _ H P4) as (P5 & Z5); [intros; apply Hb; right; auto|]. split; auto. rewrite Z5, Z4, Z3, Z1, Z2. unfold between64. split.
    + intros ((Za & Zu & Zl) & K). split; auto. intros b' lo' [<-|I] E; [|apply K; auto]. rewrite El in E. injection E as <-. auto.
    + intros (Za & K). destruct (K b lo (or_introl eq_refl) El). repeat split; auto; apply (K b0 lo0 (or_intror H2) H3).
Qed.
Lemma branches64 (L : libm) brs a : nnv a -> (forall b, In b brs -> fin64 (PrimFloat.abs (ln_smax b)) /\ num64 (ln_rate b)) ->
  nnv (fold_left (branch_penalty (N := Fnum L)) brs a) /\
  (zv (fold_left (branch_penalty (N := Fnum L)) brs a) <-> zv a /\ forall b, In b brs -> PrimFloat.leb (PrimFloat.abs (ln_smax b)) (ln_rate b) = true).
Proof.
  revert a; induction brs as [|b brs IH]; intros a A Hb; cbn [fold_left].
  - split; auto. split; [intros Z; split; auto; intros b []|tauto].
  - destruct (Hb b (or_introl eq_refl)) as (V1 & V2). destruct (excess L _ _ V1 V2) as (P1 & Z1). destruct (nnv_add _ _ A P1) as (P4 & Z4).
    destruct (IH _ P4) as (P5 & Z5); [intros; apply Hb; right; auto|]. unfold branch_penalty at 2 4. cbn [nadd nsub n0 nabs Fnum]. split; [exact P5|]. rewrite Z5, Z4, Z1. split.
    + intros ((Za & Zu) & K). split; auto. intros b' [<-|I]; auto.
    + intros (Za & K). repeat split; auto; intros; apply K; cbn; auto.
Qed.
(** ... without any condition: NaN or at least 0 *)
Definition nnn (x : float) : Prop := fval x = NaN \/ nnv x.
Lemma nnn_add x y : nnn x -> nnn y -> nnn (PrimFloat.add x y).
Proof.
  intros [X|X] [Y|Y]; [left|left|left|right; apply nnv_add; auto]; rewrite fval_add, ?X, ?Y; cbn; auto. destruct (fval x); reflexivity.
Qed.
Lemma nnn_mul x y : nnn x -> PrimFloat.leb 0%float y = true -> nnn (PrimFloat.mul x y).
Proof.
  rewrite nnv_leb. intros [X|X] Y; [left; rewrite fval_mul, X; reflexivity|]. unfold nnn, nnv. rewrite fval_mul.
  destruct (nnv_cases x X) as [(r & Er & Hr)|Er], (nnv_cases y Y) as [(s & Es & Hs)|Es]; rewrite Er, Es; cbn [xmul xrnd].
  - right. apply frnd_nn. nra.
  - unfold inf_sgn. destruct (Rlt_dec 0 r); [right; reflexivity|]. destruct (Rlt_dec r 0); [lra|left; reflexivity].
  - unfold inf_sgn. destruct (Rlt_dec 0 s); [right; reflexivity|]. destruct (Rlt_dec s 0); [lra|left; reflexivity].
  - right. reflexivity.
Qed.
Lemma penalty_nnn (L : libm) s x : penalty_of (N := Fnum L) s = Ok x -> PrimFloat.leb 0%float (PrimFloat.mul (sm_dt s) (sm_lamb s)) = true -> nnn x.
Proof.
  intros H K. unfold penalty_of in H. apply bind_ok in H as (a & Ha & H). injection H as <-. apply nnn_mul; auto.
  assert (A : nnn a). { assert (Q : nnn 0%float) by (right; unfold nnv; rewrite fval_0; cbn; apply Rleb_spec; lra). revert Ha Q. generalize (sm_buses s) as bs. cbn [n0 Fnum]. generalize 0%float as z.
    intros z bs. revert z. induction bs as [|b bs IH]; intros z Ha Q; cbn [foldM] in Ha; [congruence|]. apply bind_ok in Ha as (a1 & H1 & Ha). unfold bus_penalty in H1. destruct (b_vmin b); [|discriminate H1]. injection H1 as <-.
    eapply IH; [exact Ha|]. cbn [nadd Fnum]. apply nnn_add; auto. apply nnn_add; apply max0_nn. }
  clear Ha. revert a A. generalize (sm_branches s) as brs. induction brs as [|b brs IH]; intros a A; cbn [fold_left]; auto. apply IH. unfold branch_penalty. cbn [nadd Fnum]. apply nnn_add; auto. apply max0_nn.
Qed.
(** the reward from the two clipped costs *)
Lemma clip64 (L : libm) x lo hi : nisnan (N := Fnum L) x = false -> PrimFloat.leb lo hi = true -> between64 lo (np_clip (N := Fnum L) x lo hi) hi.
Proof. intros H K. apply (np_clip_in (N := Fnum L) x lo hi H K). Qed.
Lemma one64 : fval 1%float = Fin 1.
Proof. unfold fval. cbn. unfold Defs.F2R. cbn. f_equal. lra. Qed.
Lemma xmul_1 a : xmul (Fin 1) a = a.
Proof. destruct a; cbn; f_equal; try ring; unfold inf_sgn; destruct (Rlt_dec 0 1), (Rlt_dec 0 (-(1))), (Rlt_dec (-(1)) 0); try lra; reflexivity. Qed.
Lemma xmul_m1 a : xmul (Fin (-1)) a = xopp a.
Proof. destruct a; cbn; f_equal; try ring; unfold inf_sgn; rewrite ?Ropp_involutive; destruct (Rlt_dec 0 (-1)), (Rlt_dec (-1) 0), (Rlt_dec 0 (- -1)), (Rlt_dec 0 1); try lra; reflexivity. Qed.
Lemma xrnd_fix x : xrnd (fval x) = fval x.
Proof. destruct (fval x) as [r| | |] eqn:E; auto. cbn. apply (frnd_fix x r E). Qed.
Lemma xle_trans a b c : xleb a b = true -> xleb b c = true -> xleb a c = true.
Proof. destruct a, b, c; cbn; intros; try discriminate; auto. rbool; lra. Qed.
Lemma xrnd_mono a b : xleb a b = true -> xleb (xrnd a) (xrnd b) = true.
Proof.
  destruct a as [r| | |], b as [s| | |]; cbn [xrnd]; intros H; try discriminate H; auto.
  - apply frnd_mono. cbn in H. apply Rleb_spec in H. exact H.
  - destruct (frnd r) eqn:E; auto. exfalso. unfold frnd in E. repeat (match type of E with (if ?c then _ else _) = _ => destruct c end); discriminate.
  - destruct (frnd s) eqn:E; auto. exfalso. unfold frnd in E. repeat (match type of E with (if ?c then _ else _) = _ => destruct c end); discriminate.
Qed.
