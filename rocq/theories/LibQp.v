(** Nearest points: existence and uniqueness; rows of the set-point QP versus regions. *)
From Coq Require Import Reals Lra Classical ClassicalChoice.
From Verif Require Import Base Num NumXR Devices LibBase LibNum LibXR SpecDev ProofDev ProofVals SpecQp.
Local Open Scope R_scope.

Lemma xadd_0 x : xadd x (Fin 0) = x.
Proof. destruct x; cbn; auto. f_equal; lra. Qed.
Lemma row_Fin eps p q a b h : row_holds eps p q (mkRow (Fin a) (Fin b) h) <-> xle (Fin (a * p + b * q - eps)) h.
Proof.
  unfold row_holds, xle. cbn [qa qb qh xmul xadd]. destruct h; cbn; rewrite ?Rleb_spec; try tauto.
  split; intros; lra.
Qed.
Lemma row_nan eps p q a b h : a = NaN \/ h = NaN -> ~ row_holds eps p q (mkRow a b h).
Proof.
  unfold row_holds, xle. cbn [qa qb qh]. intros [->| ->] H.
  - cbn in H. discriminate.
  - destruct (xadd (xmul a (Fin p)) (xmul b (Fin q))); discriminate.
Qed.

Definition convex (S : R -> R -> Prop) : Prop :=
  forall x y x' y', S x y -> S x' y' -> S ((x + x') / 2) ((y + y') / 2).
Lemma xle_mid a b h : xle (Fin a) h -> xle (Fin b) h -> xle (Fin ((a + b) / 2)) h.
Proof. unfold xle. destruct h; cbn; auto. rewrite !Rleb_spec. lra. Qed.

Lemma finrow_dec (r : qrow XR) : (exists a b, qa r = Fin a /\ qb r = Fin b) \/ ~ (exists a b, qa r = Fin a /\ qb r = Fin b).
Proof. apply classic. Qed.

Definition coeffs_fin (rows : list (qrow XR)) : Prop := Forall (fun r => fin (qa r) /\ fin (qb r)) rows.
Lemma rows_convex eps rows : coeffs_fin rows -> convex (fun x y => Forall (row_holds eps x y) rows).
Proof.
  intros F x y x' y' H H'. unfold coeffs_fin in F. rewrite Forall_forall in *. intros r I. specialize (H r I). specialize (H' r I).
  destruct (F r I) as [[a Ea] [b Eb]]. destruct r as [ra rb rh]; cbn in *; subst. rewrite row_Fin in *.
  replace (a * ((x + x') / 2) + b * ((y + y') / 2) - eps) with (((a * x + b * y - eps) + (a * x' + b * y' - eps)) / 2) by field.
  apply xle_mid; auto.
Qed.

Lemma sq2_0 x y : x * x + y * y <= 0 -> x = 0 /\ y = 0.
Proof.
  intros H. assert (0 <= x * x) by apply Rle_0_sqr. assert (0 <= y * y) by apply Rle_0_sqr.
  split; apply Rsqr_0_uniq; unfold Rsqr; lra.
Qed.
Lemma nearest_unique (S : R -> R -> Prop) u v p q p' q' : convex S -> nearest S u v p q -> nearest S u v p' q' -> p' = p /\ q' = q.
Proof.
  intros C [H1 H2] [H1' H2']. pose proof (H2 _ _ H1') as K1. pose proof (H2' _ _ H1) as K2.
  pose proof (H2 _ _ (C _ _ _ _ H1 H1')) as K3. unfold dist2 in *.
  assert (E : (p' - p) * (p' - p) + (q' - q) * (q' - q) <= 0) by nra.
  destruct (sq2_0 _ _ E). split; lra.
Qed.
Lemma nearest_self (S : R -> R -> Prop) u v p q : S u v -> nearest S u v p q -> p = u /\ q = v.
Proof.
  intros H [_ K]. specialize (K _ _ H). unfold dist2 in K.
  destruct (sq2_0 (p - u) (q - v)); [lra|]. split; lra.
Qed.
Lemma dist2_pos x y u v : 0 <= dist2 x y u v.
Proof.
  unfold dist2. pose proof (Rle_0_sqr (x - u)). pose proof (Rle_0_sqr (y - v)). unfold Rsqr in *. lra.
Qed.
Lemma nearest_feasible (S : R -> R -> Prop) u v : S u v -> nearest S u v u v.
Proof. intros H. split; auto. intros x y _. pose proof (dist2_pos x y u v). unfold dist2 at 1. replace (_ + _) with 0 by ring. auto. Qed.
Lemma nearest_ext (S T : R -> R -> Prop) u v p q : (forall x y, S x y <-> T x y) -> nearest S u v p q -> nearest T u v p q.
Proof. intros E [H1 H2]. split; [apply E; auto|]. intros x y H. apply H2, E; auto. Qed.

(** ---- existence: a non-empty polyhedron has a nearest point ---- *)
Section Exist.
  Context (S : R -> R -> Prop) (u v : R) (C : convex S) (NE : exists x y, S x y).
  Context (Clo : forall (xs ys : nat -> R) x y, (forall n, S (xs n) (ys n)) -> Un_cv xs x -> Un_cv ys y -> S x y).

  Definition dists (d : R) : Prop := exists x y, S x y /\ d = - dist2 x y u v.
  Lemma inf_exists : exists m, is_lub dists m.
  Proof.
    destruct NE as (x & y & H). destruct (completeness dists) as (m & Hm).
    - exists 0. intros d (a & b & _ & ->). pose proof (dist2_pos a b u v). lra.
    - exists (- dist2 x y u v), x, y. auto.
    - exists m; auto.
  Qed.
  Lemma nearest_exists : exists p q, nearest S u v p q.
  Proof.
    destruct inf_exists as (m & U & L).
    assert (A : forall n : nat, exists xy, S (fst xy) (snd xy) /\ dist2 (fst xy) (snd xy) u v <= - m + / (INR n + 1)).
    { intros n. apply NNPP. intros N. assert (P : 0 < / (INR n + 1)) by (apply Rinv_0_lt_compat; pose proof (pos_INR n); lra).
      assert (is_upper_bound dists (m - / (INR n + 1))).
      { intros d (x & y & H & ->). apply Rnot_lt_le. intros K. apply N. exists (x, y). cbn. split; auto. lra. }
      specialize (L _ H). lra. }
    assert (A' : exists f : nat -> R * R, forall n, S (fst (f n)) (snd (f n)) /\ dist2 (fst (f n)) (snd (f n)) u v <= - m + / (INR n + 1)).
    { apply (ClassicalChoice.choice _ A). }
    destruct A' as (f & Hf). set (xs n := fst (f n)). set (ys n := snd (f n)).
    assert (D : forall x y, S x y -> - m <= dist2 x y u v).
    { intros x y H. assert (- dist2 x y u v <= m) by (apply U; exists x, y; auto). lra. }
    (* parallelogram law *)
    assert (PL : forall i j, (xs i - xs j) * (xs i - xs j) + (ys i - ys j) * (ys i - ys j) <= 2 * / (INR i + 1) + 2 * / (INR j + 1)).
    { intros i j. destruct (Hf i) as [Si Di], (Hf j) as [Sj Dj]. fold (xs i) (ys i) in *. fold (xs j) (ys j) in *.
      pose proof (D _ _ (C _ _ _ _ Si Sj)) as K. unfold dist2 in *. nra. }
    assert (INV : forall e, e > 0 -> exists K : nat, forall n, (n >= K)%nat -> / (INR n + 1) < e).
    { intros e He. destruct (archimed_cor1 e He) as (K & K1 & K2). exists K. intros n Hn.
      apply Rle_lt_trans with (/ INR K); auto. apply Rinv_le_contravar; [apply lt_0_INR; auto|].
      apply le_INR in Hn. lra. }
    assert (CX : forall zs : nat -> R, (forall i j, (zs i - zs j) * (zs i - zs j) <= 2 * / (INR i + 1) + 2 * / (INR j + 1)) -> Cauchy_crit zs).
    { intros zs Hz e He. destruct (INV (e * e / 4)) as (K & HK); [nra|]. exists K. intros i j Hi Hj.
      specialize (Hz i j). pose proof (HK _ Hi). pose proof (HK _ Hj). unfold R_dist.
      assert ((zs i - zs j) * (zs i - zs j) < e * e) by nra.
      apply Rabs_def1; nra. }
    destruct (R_complete xs) as (x & Hx).
    { apply CX. intros i j. specialize (PL i j). pose proof (Rle_0_sqr (ys i - ys j)) as SQ; unfold Rsqr in SQ. lra. }
    destruct (R_complete ys) as (y & Hy).
    { apply CX. intros i j. specialize (PL i j). pose proof (Rle_0_sqr (xs i - xs j)) as SQ; unfold Rsqr in SQ. lra. }
    exists x, y. split.
    - apply (Clo xs ys); auto. intros n. apply Hf.
    - intros x' y' H'. specialize (D _ _ H'). apply Rle_trans with (- m); auto.
      assert (LIM : Un_cv (fun n => dist2 (xs n) (ys n) u v) (dist2 x y u v)).
      { unfold dist2.
        assert (CV1 : Un_cv (fun n => xs n - u) (x - u)).
        { apply CV_minus; auto. intros e He. exists 0%nat. intros. unfold R_dist. rewrite Rminus_diag_eq, Rabs_R0; auto. }
        assert (CV2 : Un_cv (fun n => ys n - v) (y - v)).
        { apply CV_minus; auto. intros e He. exists 0%nat. intros. unfold R_dist. rewrite Rminus_diag_eq, Rabs_R0; auto. }
        apply CV_plus; apply CV_mult; auto. }
      apply Rnot_lt_le. intros K. set (e := dist2 x y u v - - m) in *. assert (He : e / 2 > 0) by (unfold e; lra).
      destruct (LIM _ He) as (N1 & H1). destruct (INV _ He) as (N2 & H2).
      set (n := max N1 N2). specialize (H1 n (Nat.le_max_l _ _)). specialize (H2 n (Nat.le_max_r _ _)).
      unfold R_dist in H1. apply Rabs_def2 in H1. destruct (Hf n) as [_ Dn]. fold (xs n) (ys n) in Dn. unfold e in *. lra.
  Qed.
End Exist.

Lemma rows_nearest rows u v : coeffs_fin rows -> (exists x y, Forall (row_holds 0 x y) rows) ->
  exists p q, nearest (fun x y => Forall (row_holds 0 x y) rows) u v p q.
Proof.
  intros F NE. apply nearest_exists; auto using rows_convex.
  intros xs ys x y H Hx Hy. unfold coeffs_fin in F. rewrite Forall_forall in F. apply Forall_forall. intros r I.
  destruct (F r I) as [[a Ea] [b Eb]].
  assert (H' : forall n, row_holds 0 (xs n) (ys n) r) by (intros n; specialize (H n); rewrite Forall_forall in H; auto).
  destruct r as [ra rb rh]; cbn in Ea, Eb; subst. setoid_rewrite row_Fin in H'. apply row_Fin.
  unfold xle in *. destruct rh as [h| | |]; cbn in *; auto; try (specialize (H' O); discriminate).
  apply Rleb_spec. assert (H2 : forall n, a * xs n + b * ys n <= h) by (intros n; specialize (H' n); apply Rleb_spec in H'; lra).
  assert (L : Un_cv (fun n => a * xs n + b * ys n) (a * x + b * y)).
  { assert (K : forall c, Un_cv (fun _ => c) c) by (intros c e He; exists 0%nat; intros; unfold R_dist; rewrite Rminus_diag_eq, Rabs_R0; auto).
    apply CV_plus; apply (CV_mult (fun _ => _)); auto. }
  apply Rnot_lt_le. intros N. destruct (L ((a * x + b * y - h))) as (k & Hk); [lra|].
  specialize (Hk k (le_n _)). specialize (H2 k). unfold R_dist in Hk. apply Rabs_def2 in Hk. lra.
Qed.

(** ---- corner lines ---- *)
Lemma slope_below x1 y1 x2 y2 p q : x1 < x2 ->
  - ((y2 - y1) / (x2 - x1)) * p + 1 * q - 0 <= y1 - (y2 - y1) / (x2 - x1) * x1 <-> below x1 y1 x2 y2 p q.
Proof.
  intros L. unfold below. set (t := (y2 - y1) / (x2 - x1)). assert (E : y2 - y1 = t * (x2 - x1)) by (unfold t; field; lra).
  rewrite E. split; intros H; [|apply Rmult_le_reg_r with (x2 - x1)]; nra.
Qed.
Lemma slope_above x1 y1 x2 y2 p q : x1 < x2 ->
  (y2 - y1) / (x2 - x1) * p + - (1) * q - 0 <= - (y1 - (y2 - y1) / (x2 - x1) * x1) <-> above x1 y1 x2 y2 p q.
Proof.
  intros L. unfold above. set (t := (y2 - y1) / (x2 - x1)). assert (E : y2 - y1 = t * (x2 - x1)) by (unfold t; field; lra).
  rewrite E. split; intros H; [|apply Rmult_le_reg_r with (x2 - x1)]; nra.
Qed.
Lemma slope_eq x1 y1 x2 y2 : x1 < x2 -> y2 - (y2 - y1) / (x2 - x1) * x2 = y1 - (y2 - y1) / (x2 - x1) * x1.
Proof. intros. field. lra. Qed.

Lemma xle_l a b h : a = b -> xle (Fin a) h <-> xle (Fin b) h.
Proof. intros ->. tauto. Qed.
Lemma xle_r a b h : a = b -> xle h (Fin a) <-> xle h (Fin b).
Proof. intros ->. tauto. Qed.
Lemma xsub_0 x t : t = 0 -> xsub x (Fin t) = x.
Proof. intros ->. destruct x; cbn; auto. f_equal; lra. Qed.
Lemma xle_opp a h : xle (Fin a) (xopp h) <-> xle h (Fin (- a)).
Proof. unfold xle. destruct h; cbn; rewrite ?Rleb_spec; try tauto. split; lra. Qed.

Section Corner.
  Context (X1 Y1 X2 Y2 : XR) (x1 x2 : R) (E1 : X1 = Fin x1) (E2 : X2 = Fin x2) (L : x1 <= x2).
  Context (F : x1 = x2 \/ fin Y1 /\ fin Y2).
  Local Existing Instance XRnum.

  Lemma corner_flat side p q : x1 = x2 -> cut side X1 Y1 X2 Y2 p q.
  Proof. intros E a b c d ? ? ? ? ?. rewrite E1 in *. rewrite E2 in *. exfalso. congruence || (assert (a = x1) by congruence; assert (c = x2) by congruence; lra). Qed.

  (** tau = slope, rho = Y1 - tau X1 *)
  Let tau : XR := if neqb X2 X1 then n0 else ndiv (nsub Y2 Y1) (nsub X2 X1).
  Lemma corner_below p q : xle (Fin q) Y1 ->
    (row_holds 0 p q (mkRow (nopp tau) n1 (nsub Y1 (nmul tau X1))) <-> cut below X1 Y1 X2 Y2 p q).
  Proof.
    intros Q. unfold tau. destruct (Req_dec x1 x2) as [E|E].
    - split; [intros _; apply corner_flat; auto|intros _].
      rewrite E1, E2, E. cbn [neqb XRnum xeqb]. rewrite (proj2 (Reqb_spec x2 x2) eq_refl).
      cbn [nopp nmul nsub n1 n0 XRnum xopp xmul]. rewrite (xsub_0 Y1) by lra. apply row_Fin.
      refine (proj2 (xle_l _ q _ _) Q). lra.
    - destruct F as [?|[[y1 K1] [y2 K2]]]; [contradiction|]. rewrite E1, E2, K1, K2.
      cbn [neqb XRnum xeqb]. rewrite (proj2 (Reqb_false x2 x1)) by auto.
      cbn [nopp nmul nsub n1 n0 XRnum xopp xmul xsub ndiv]. rewrite xdiv_Fin by lra. cbn [xopp xmul xsub].
      rewrite row_Fin, xle_Fin, slope_below by lra.
      split; [intros H a b c d A B C D _; inversion A; inversion B; inversion C; inversion D; subst; auto|].
      intros H. apply H; auto. lra.
  Qed.
  Lemma corner_above p q : xle Y1 (Fin q) ->
    (row_holds 0 p q (mkRow tau (nopp n1) (nopp (nsub Y1 (nmul tau X1)))) <-> cut above X1 Y1 X2 Y2 p q).
  Proof.
    intros Q. unfold tau. destruct (Req_dec x1 x2) as [E|E].
    - split; [intros _; apply corner_flat; auto|intros _].
      rewrite E1, E2, E. cbn [neqb XRnum xeqb]. rewrite (proj2 (Reqb_spec x2 x2) eq_refl).
      cbn [nopp nmul nsub n1 n0 XRnum xopp xmul]. rewrite (xsub_0 Y1) by lra. apply row_Fin. apply xle_opp.
      refine (proj2 (xle_r _ q _ _) Q). lra.
    - destruct F as [?|[[y1 K1] [y2 K2]]]; [contradiction|]. rewrite E1, E2, K1, K2.
      cbn [neqb XRnum xeqb]. rewrite (proj2 (Reqb_false x2 x1)) by auto.
      cbn [nopp nmul nsub n1 n0 XRnum xopp xmul xsub ndiv]. rewrite xdiv_Fin by lra. cbn [xopp xmul xsub].
      rewrite row_Fin, xle_Fin, slope_above by lra.
      split; [intros H a b c d A B C D _; inversion A; inversion B; inversion C; inversion D; subst; auto|].
      intros H. apply H; auto. lra.
  Qed.

  (** tau = slope, rho = Y2 - tau X2 *)
  Let tau' : XR := if neqb X1 X2 then n0 else ndiv (nsub Y2 Y1) (nsub X2 X1).
  Lemma corner_below' p q : xle (Fin q) Y2 ->
    (row_holds 0 p q (mkRow (nopp tau') n1 (nsub Y2 (nmul tau' X2))) <-> cut below X1 Y1 X2 Y2 p q).
  Proof.
    intros Q. unfold tau'. destruct (Req_dec x1 x2) as [E|E].
    - split; [intros _; apply corner_flat; auto|intros _].
      rewrite E1, E2, E. cbn [neqb XRnum xeqb]. rewrite (proj2 (Reqb_spec x2 x2) eq_refl).
      cbn [nopp nmul nsub n1 n0 XRnum xopp xmul]. rewrite (xsub_0 Y2) by lra. apply row_Fin.
      refine (proj2 (xle_l _ q _ _) Q). lra.
    - destruct F as [?|[[y1 K1] [y2 K2]]]; [contradiction|]. rewrite E1, E2, K1, K2.
      cbn [neqb XRnum xeqb]. rewrite (proj2 (Reqb_false x1 x2)) by auto.
      cbn [nopp nmul nsub n1 n0 XRnum xopp xmul xsub ndiv]. rewrite xdiv_Fin by lra. cbn [xopp xmul xsub].
      rewrite slope_eq by lra. rewrite row_Fin, xle_Fin, slope_below by lra.
      split; [intros H a b c d A B C D _; inversion A; inversion B; inversion C; inversion D; subst; auto|].
      intros H. apply H; auto. lra.
  Qed.
  Lemma corner_above' p q : xle Y2 (Fin q) ->
    (row_holds 0 p q (mkRow tau' (nopp n1) (nopp (nsub Y2 (nmul tau' X2)))) <-> cut above X1 Y1 X2 Y2 p q).
  Proof.
    intros Q. unfold tau'. destruct (Req_dec x1 x2) as [E|E].
    - split; [intros _; apply corner_flat; auto|intros _].
      rewrite E1, E2, E. cbn [neqb XRnum xeqb]. rewrite (proj2 (Reqb_spec x2 x2) eq_refl).
      cbn [nopp nmul nsub n1 n0 XRnum xopp xmul]. rewrite (xsub_0 Y2) by lra. apply row_Fin. apply xle_opp.
      refine (proj2 (xle_r _ q _ _) Q). lra.
    - destruct F as [?|[[y1 K1] [y2 K2]]]; [contradiction|]. rewrite E1, E2, K1, K2.
      cbn [neqb XRnum xeqb]. rewrite (proj2 (Reqb_false x1 x2)) by auto.
      cbn [nopp nmul nsub n1 n0 XRnum xopp xmul xsub ndiv]. rewrite xdiv_Fin by lra. cbn [xopp xmul xsub].
      rewrite slope_eq by lra. rewrite row_Fin, xle_Fin, slope_above by lra.
      split; [intros H a b c d A B C D _; inversion A; inversion B; inversion C; inversion D; subst; auto|].
      intros H. apply H; auto. lra.
  Qed.
  Lemma corner_fin : fin tau /\ fin tau'.
  Proof.
    unfold tau, tau'. destruct (Req_dec x1 x2) as [E|E].
    - rewrite E1, E2, E. cbn [neqb XRnum xeqb]. rewrite (proj2 (Reqb_spec x2 x2) eq_refl). split; exact (fin_Fin _).
    - destruct F as [?|[[y1 K1] [y2 K2]]]; [contradiction|]. rewrite E1, E2, K1, K2.
      cbn [neqb XRnum xeqb]. rewrite (proj2 (Reqb_false x2 x1)), (proj2 (Reqb_false x1 x2)) by auto.
      cbn [nsub XRnum xsub ndiv]. rewrite !xdiv_Fin by lra. split; apply fin_Fin.
  Qed.
End Corner.

(** There is a solver that meets all the assumptions. *)
Lemma qp_exists : exists qp, qp_sound 0 qp /\ qp_exact qp /\ qp_complete qp.
Proof.
  set (spec := fun (x : list (qrow XR) * (XR * XR)) (y : res (XR * XR)) =>
    (exists u v p q, snd x = (Fin u, Fin v) /\ y = Ok (Fin p, Fin q) /\ nearest (fun x' y' => Forall (row_holds 0 x' y') (fst x)) u v p q) \/
    (y = Err TypeErr /\ ~ exists u v p q, snd x = (Fin u, Fin v) /\ nearest (fun x' y' => Forall (row_holds 0 x' y') (fst x)) u v p q)).
  destruct (ClassicalChoice.choice spec) as [f Hf].
  { intros [rows req]. unfold spec. cbn [fst snd].
    destruct (Classical_Prop.classic (exists u v p q, req = (Fin u, Fin v) /\ nearest (fun x' y' => Forall (row_holds 0 x' y') rows) u v p q)) as [(u & v & p & q & E & K)|K].
    - exists (Ok (Fin p, Fin q)). left. exists u, v, p, q. auto.
    - exists (Err TypeErr). right. auto. }
  exists (fun rows req => f (rows, req)). split; [|split].
  - intros rows req a b E. destruct (Hf (rows, req)) as [(u & v & p & q & E1 & E2 & [K _])|[E1 _]]; [|congruence].
    rewrite E in E2. injection E2 as -> ->. exists p, q. auto.
  - intros rows u v a b E. destruct (Hf (rows, (Fin u, Fin v))) as [(u' & v' & p & q & E1 & E2 & K)|[E1 _]]; [|congruence].
    cbn [fst snd] in *. injection E1 as -> ->. rewrite E in E2. injection E2 as -> ->. exists p, q. auto.
  - intros rows u v p q K. destruct (Hf (rows, (Fin u, Fin v))) as [(u' & v' & p' & q' & E1 & E2 & K')|[_ E1]].
    + eauto.
    + exfalso. apply E1. exists u, v, p, q. auto.
Qed.
