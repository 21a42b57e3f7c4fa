(** Order laws of the number instances, and consequences (clipping). *)
From Coq Require Import Reals Lra Floats SpecFloat.
From Verif Require Import Base Num NumXR NumR NumFloat.

Lemma Rleb_spec x y : Rleb x y = true <-> (x <= y)%R.
Proof. unfold Rleb; destruct (Rle_dec x y); split; intros; try congruence; auto. Qed.
Lemma Rleb_false x y : Rleb x y = false <-> (y < x)%R.
Proof. unfold Rleb; destruct (Rle_dec x y); split; intros; try congruence; try lra. Qed.
Lemma Rltb_spec x y : Rltb x y = true <-> (x < y)%R.
Proof. unfold Rltb; destruct (Rlt_dec x y); split; intros; try congruence; auto. Qed.
Lemma Rltb_false x y : Rltb x y = false <-> (y <= x)%R.
Proof. unfold Rltb; destruct (Rlt_dec x y); split; intros; try congruence; try lra. Qed.
Lemma Reqb_spec x y : Reqb x y = true <-> (x = y)%R.
Proof. unfold Reqb; destruct (Req_EM_T x y); split; intros; try congruence; auto. Qed.
Lemma Reqb_false x y : Reqb x y = false <-> (x <> y)%R.
Proof. unfold Reqb; destruct (Req_EM_T x y); split; intros; try congruence; auto. Qed.
Lemma Reqb_refl x : Reqb x x = true.
Proof. apply Reqb_spec; reflexivity. Qed.

Ltac rbool :=
  repeat match goal with
  | H : Rleb _ _ = true |- _ => rewrite Rleb_spec in H
  | H : Rleb _ _ = false |- _ => rewrite Rleb_false in H
  | H : Rltb _ _ = true |- _ => rewrite Rltb_spec in H
  | H : Rltb _ _ = false |- _ => rewrite Rltb_false in H
  | H : Reqb _ _ = true |- _ => rewrite Reqb_spec in H
  | H : Reqb _ _ = false |- _ => rewrite Reqb_false in H
  | |- Rleb _ _ = true => rewrite Rleb_spec
  | |- Rleb _ _ = false => rewrite Rleb_false
  | |- Rltb _ _ = true => rewrite Rltb_spec
  | |- Rltb _ _ = false => rewrite Rltb_false
  | |- Reqb _ _ = true => rewrite Reqb_spec
  | |- Reqb _ _ = false => rewrite Reqb_false
  end.

Lemma xisnan_spec (x : XR) : nisnan x = true <-> x = NaN.
Proof.
  unfold nisnan; cbn; destruct x; cbn; rewrite ?Reqb_refl; cbn; split; congruence.
Qed.
Lemma xisnan_false (x : XR) : nisnan x = false <-> x <> NaN.
Proof.
  unfold nisnan; cbn; destruct x; cbn; rewrite ?Reqb_refl; cbn; split; congruence.
Qed.

#[global] Instance XRord : NumOrd XR.
Proof.
  constructor.
  - intros x H; apply xisnan_false in H; destruct x; cbn; auto; try congruence; rbool; lra.
  - intros x y z; cbn; destruct x, y, z; cbn; auto; try congruence; intros; rbool; lra.
  - intros x y Hx Hy; apply xisnan_false in Hx; apply xisnan_false in Hy; cbn.
    destruct x, y; cbn; auto; try congruence.
    destruct (Rle_dec r r0); [left|right]; rbool; lra.
  - intros x y; rewrite !xisnan_false; cbn; destruct x, y; cbn; intros; split; congruence.
  - intros x y; cbn; destruct x, y; cbn; (split; [intros H; split | intros [H1 H2]]); try congruence; rbool; lra.
  - cbn; apply xisnan_false; congruence.
Qed.

(** ---- IEEE floats ---- *)

Definition sf_key (f : spec_float) : Z * Z * Z :=
  match f with
  | S754_nan => (3, 0, 0)%Z
  | S754_zero _ => (0, 0, 0)%Z
  | S754_infinity false => (2, 0, 0)%Z
  | S754_infinity true => (-2, 0, 0)%Z
  | S754_finite false m e => (1, e, Zpos m)%Z
  | S754_finite true m e => (-1, - e, Zneg m)%Z
  end.
Definition lexle (a b : Z * Z * Z) : Prop :=
  let '(a1, a2, a3) := a in let '(b1, b2, b3) := b in
  (a1 < b1 \/ a1 = b1 /\ (a2 < b2 \/ a2 = b2 /\ a3 <= b3))%Z.
Definition sfnan (f : spec_float) := match f with S754_nan => true | _ => false end.

Lemma SFleb_key x y : SFleb x y = true <-> (sfnan x = false /\ sfnan y = false /\ lexle (sf_key x) (sf_key y)).
Proof.
  unfold SFleb, SFcompare, lexle.
  destruct x as [sx|sx| |sx mx ex], y as [sy|sy| |sy my ey]; cbn;
    try destruct sx; try destruct sy; cbn;
    try (split; [intros; try congruence; repeat split; lia | intros (?&?&?); try congruence; lia]).
  - destruct (Z.compare_spec ex ey); cbn.
    + subst. change (Pos.compare_cont Eq mx my) with (Pos.compare mx my).
      destruct (Pos.compare_spec mx my); cbn; split; intros; try congruence; repeat split; try lia;
        destruct H0 as (?&?&?); lia.
    + split; intros; try congruence; destruct H0 as (?&?&?); lia.
    + split; intros; repeat split; lia.
  - destruct (Z.compare_spec ex ey); cbn.
    + subst. change (Pos.compare_cont Eq mx my) with (Pos.compare mx my).
      destruct (Pos.compare_spec mx my); cbn; split; intros; try congruence; repeat split; try lia;
        destruct H0 as (?&?&?); lia.
    + split; intros; repeat split; lia.
    + split; intros; try congruence; destruct H0 as (?&?&?); lia.
Qed.

Lemma sfnan_spec (x : spec_float) : SFeqb x x = negb (sfnan x).
Proof.
  unfold SFeqb, SFcompare; destruct x as [s|s| |s m e]; cbn; try destruct s; auto.
  - rewrite Z.compare_refl. change (Pos.compare_cont Eq m m) with (Pos.compare m m).
    rewrite Pos.compare_refl; reflexivity.
  - rewrite Z.compare_refl. change (Pos.compare_cont Eq m m) with (Pos.compare m m).
    rewrite Pos.compare_refl; reflexivity.
Qed.

Lemma SFltb_leb x y : SFltb x y = true <-> (SFleb x y = true /\ SFleb y x = false).
Proof.
  unfold SFltb, SFleb, SFcompare.
  destruct x as [sx|sx| |sx mx ex], y as [sy|sy| |sy my ey]; cbn;
    try destruct sx; try destruct sy; cbn; try (intuition congruence).
  - rewrite (Z.compare_antisym ex ey). destruct (Z.compare ex ey); cbn; try (intuition congruence).
    change (Pos.compare_cont Eq mx my) with (Pos.compare mx my).
    change (Pos.compare_cont Eq my mx) with (Pos.compare my mx).
    rewrite (Pos.compare_antisym mx my). destruct (Pos.compare mx my); cbn; intuition congruence.
  - rewrite (Z.compare_antisym ex ey). destruct (Z.compare ex ey); cbn; try (intuition congruence).
    change (Pos.compare_cont Eq mx my) with (Pos.compare mx my).
    change (Pos.compare_cont Eq my mx) with (Pos.compare my mx).
    rewrite (Pos.compare_antisym mx my). destruct (Pos.compare mx my); cbn; intuition congruence.
Qed.

Lemma fisnan_spec (L : libm) (x : float) : nisnan (N := Fnum L) x = sfnan (Prim2SF x).
Proof.
  unfold nisnan; cbn. rewrite FloatAxioms.eqb_spec, sfnan_spec. apply negb_involutive.
Qed.

(** The order laws hold for IEEE floats, whatever the mathematical library is. *)
#[global] Instance Ford (L : libm) : NumOrd float (N := Fnum L).
Proof.
  assert (Hle : forall x y : float, nleb (Num := Fnum L) x y = SFleb (Prim2SF x) (Prim2SF y))
    by (intros; apply FloatAxioms.leb_spec).
  assert (Hlt : forall x y : float, nltb (Num := Fnum L) x y = SFltb (Prim2SF x) (Prim2SF y))
    by (intros; apply FloatAxioms.ltb_spec).
  constructor; intros *; rewrite ?fisnan_spec, ?Hle, ?Hlt.
  - intros H. apply SFleb_key. repeat split; auto.
    destruct (sf_key (Prim2SF x)) as [[a b] c]; cbn; lia.
  - intros H1 H2. apply SFleb_key in H1; apply SFleb_key in H2; apply SFleb_key.
    destruct H1 as (?&?&?), H2 as (?&?&?); repeat split; auto.
    destruct (sf_key (Prim2SF x)) as [[a b] c], (sf_key (Prim2SF y)) as [[a' b'] c'],
      (sf_key (Prim2SF z)) as [[a'' b''] c'']; cbn in *; lia.
  - intros H1 H2. rewrite !SFleb_key, H1, H2.
    destruct (sf_key (Prim2SF x)) as [[a b] c], (sf_key (Prim2SF y)) as [[a' b'] c']; cbn.
    assert (forall P Q : Prop, P \/ Q -> (false = false /\ false = false /\ P) \/ (false = false /\ false = false /\ Q)) as K by tauto.
    apply K; lia.
  - intros H. apply SFleb_key in H. tauto.
  - apply SFltb_leb.
  - reflexivity.
Qed.

(** ---- consequences for every ordered number type ---- *)
Section Ord.
  Context {F : Type} {N : Num F} {O : NumOrd F}.
  Local Open Scope num_scope.

  Lemma leb_total_false (x y : F) : nisnan x = false -> nisnan y = false ->
    (x <=? y) = false -> (y <=? x) = true.
  Proof. intros Hx Hy H. destruct (ord_total x y Hx Hy); congruence. Qed.

  Lemma np_max_ge (x lo : F) : nisnan x = false -> nisnan lo = false ->
    (lo <=? np_max x lo) = true /\ (x <=? np_max x lo) = true /\ nisnan (np_max x lo) = false.
  Proof.
    intros Hx Hl. unfold np_max. rewrite Hx, orb_false_r.
    destruct (lo <=? x) eqn:E; repeat split; auto using ord_refl, leb_total_false.
  Qed.
  Lemma np_min_le (x hi : F) : nisnan x = false -> nisnan hi = false ->
    (np_min x hi <=? hi) = true /\ (np_min x hi <=? x) = true /\ nisnan (np_min x hi) = false.
  Proof.
    intros Hx Hl. unfold np_min. rewrite Hx, orb_false_r.
    destruct (x <=? hi) eqn:E; repeat split; auto using ord_refl, leb_total_false.
  Qed.

  Lemma leb_nan_l (x y : F) : nisnan x = true -> (x <=? y) = false.
  Proof. intros H. destruct (x <=? y) eqn:E; auto. apply ord_nan in E. destruct E; congruence. Qed.
  Lemma leb_nan_r (x y : F) : nisnan y = true -> (x <=? y) = false.
  Proof. intros H. destruct (x <=? y) eqn:E; auto. apply ord_nan in E. destruct E; congruence. Qed.

  (** Clipping to a proper interval: inside, or NaN if the input is NaN. *)
  Lemma np_clip_nan (x lo hi : F) : nisnan x = true -> np_clip x lo hi = x.
  Proof.
    intros H. unfold np_clip, np_max, np_min. rewrite H, orb_true_r, H, orb_true_r. reflexivity.
  Qed.
  Lemma np_clip_in (x lo hi : F) : nisnan x = false -> (lo <=? hi) = true ->
    (lo <=? np_clip x lo hi) = true /\ (np_clip x lo hi <=? hi) = true.
  Proof.
    intros Hx H. destruct (ord_nan _ _ H) as [Hl Hh]. unfold np_clip.
    destruct (np_max_ge x lo Hx Hl) as (H1 & H2 & H3).
    destruct (np_min_le _ hi H3 Hh) as (H4 & H5 & H6).
    split; auto.
    unfold np_min. rewrite H3, orb_false_r.
    destruct (np_max x lo <=? hi); auto.
  Qed.
  Lemma np_clip_id (x lo hi : F) : (lo <=? x) = true -> (x <=? hi) = true -> np_clip x lo hi = x.
  Proof.
    intros H1 H2. unfold np_clip, np_max, np_min. rewrite H1. cbn. rewrite H2. reflexivity.
  Qed.
  Lemma np_clip_idem (x lo hi : F) : nisnan x = false -> (lo <=? hi) = true ->
    np_clip (np_clip x lo hi) lo hi = np_clip x lo hi.
  Proof.
    intros Hx H. destruct (np_clip_in x lo hi Hx H). apply np_clip_id; auto.
  Qed.
  (** A clipped value is the input or one of the bounds. *)
  Lemma np_clip_cases (x lo hi : F) : np_clip x lo hi = x \/ np_clip x lo hi = lo \/ np_clip x lo hi = hi.
  Proof.
    unfold np_clip, np_min, np_max.
    destruct ((lo <=? x) || nisnan x).
    - destruct ((x <=? hi) || nisnan x); auto.
    - destruct ((lo <=? hi) || nisnan lo); auto.
  Qed.
  Lemma ltb_irrefl (x : F) : (x <? x) = false.
  Proof.
    destruct (x <? x) eqn:E; auto. apply ord_lt in E. destruct E; congruence.
  Qed.
  Lemma ltb_false_leb (x y : F) : nisnan x = false -> nisnan y = false ->
    (x <? y) = false -> (y <=? x) = true.
  Proof.
    intros Hx Hy H. destruct (ord_total x y Hx Hy) as [H1|H1]; auto.
    destruct (y <=? x) eqn:E; auto.
    assert ((x <? y) = true) by (apply ord_lt; auto). congruence.
  Qed.
  Lemma leb_ltb_false (x y : F) : (x <=? y) = true -> (y <? x) = false.
  Proof.
    intros H. destruct (y <? x) eqn:E; auto. apply ord_lt in E. destruct E; congruence.
  Qed.
  Lemma ltb_leb (x y : F) : (x <? y) = true -> (x <=? y) = true.
  Proof. intros H. apply ord_lt in H. tauto. Qed.
  Lemma leb_false_ltb (x y : F) : nisnan x = false -> nisnan y = false ->
    (x <=? y) = false -> (y <? x) = true.
  Proof.
    intros Hx Hy H. apply ord_lt. split; auto using leb_total_false.
  Qed.
End Ord.
