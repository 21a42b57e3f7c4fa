(** C88: scaling by a positive number is monotone in binary64; values and bounds in two units. *)
From Coq Require Import Reals Lra Floats ZArith Bool.
From Verif Require Import Base Num NumXR NumFloat Devices BusBranch CheckNetwork LoadFlow Simulator LibBase LibNum LibXR LibSim
  SpecNet ProofNet SpecDev LibInit SpecSim ProofSim ProofSoc ProofHist ProofDev ProofObs ProofUnits ProofVals ProofBounds LibF64 SpecF64 ProofF64.
From Coq Require Import List. Import ListNotations.
Local Open Scope string_scope.
Local Open Scope list_scope.
Local Open Scope R_scope.
Set Bullet Behavior "Strict Subproofs".

(** [g] keeps the order of binary64 numbers (in particular it takes numbers to numbers). *)
Definition mono64 (g : float -> float) : Prop := forall x y, PrimFloat.leb x y = true -> PrimFloat.leb (g x) (g y) = true.

Lemma xmul_mono a b k : 0 < k -> xleb a b = true -> xleb (xmul a (Fin k)) (xmul b (Fin k)) = true.
Proof.
  intros Hk H. destruct a as [a| | |], b as [b| | |]; try discriminate H; cbn [xmul]; rewrite ?(inf_sgn_pos k), ?(inf_sgn_neg (- k)) by lra; try reflexivity.
  cbn [xleb] in *. apply Rleb_spec in H. apply Rleb_spec. nra.
Qed.
Lemma xdiv_mul a k : 0 < k -> xdiv a (Fin k) = xmul a (Fin (/ k)).
Proof.
  intros Hk. assert (0 < / k) by (apply Rinv_0_lt_compat; auto). destruct a; cbn [xmul]; try reflexivity.
  - rewrite xdiv_Fin by lra. reflexivity.
  - cbn [xdiv]. rewrite inf_sgn_pos by lra. destruct (Rlt_dec k 0); [lra|reflexivity].
  - cbn [xdiv]. rewrite inf_sgn_neg by lra. destruct (Rlt_dec k 0); [lra|reflexivity].
Qed.
Lemma pos_val k : fin64 k -> PrimFloat.leb k 0%float = false -> exists r, fval k = Fin r /\ 0 < r.
Proof.
  intros Fk H. destruct (fin64_val _ Fk) as (r & E). exists r. split; auto. rewrite fval_leb, E, fval_0 in H. cbn [xleb] in H. apply Rleb_false in H. lra.
Qed.
Lemma mono_mul k : fin64 k -> PrimFloat.leb k 0%float = false -> mono64 (fun x => PrimFloat.mul x k).
Proof.
  intros Fk Hk x y H. destruct (pos_val k Fk Hk) as (r & E & Hr). rewrite fval_leb in *. rewrite !fval_mul, E. apply xrnd_mono, xmul_mono; auto.
Qed.
Lemma mono_div k : fin64 k -> PrimFloat.leb k 0%float = false -> mono64 (fun x => PrimFloat.div x k).
Proof.
  intros Fk Hk x y H. destruct (pos_val k Fk Hk) as (r & E & Hr). rewrite fval_leb in *. rewrite !(fval_div _ _ r E) by lra. rewrite E.
  apply xrnd_mono. rewrite !xdiv_mul by auto. apply xmul_mono; auto. apply Rinv_0_lt_compat; auto.
Qed.

Section U64.
  Context (L : libm) (nw : network float) (dt lamb : float) (s0 : sim float) (H0 : sim_init (N := Fnum L) nw dt lamb = Ok s0).
  Lemma base_nonpos : PrimFloat.leb (nw_base nw) 0%float = false.
  Proof.
    destruct (sim_init_built _ _ _ _ H0) as (bs & ds & B). pose proof (bt_wf _ _ _ _ _ _ B) as W. destruct W as (W & _). unfold rule_base in W. exact W.
  Qed.
  Lemma in_range g (ob ob' : option float) (bo bo' : option (float * float)) v lo hi : mono64 g -> ob' = option_map g ob -> bo' = option_map (fun p => (g (fst p), g (snd p))) bo ->
    ob = Some v -> bo = Some (lo, hi) -> between64 lo v hi -> exists v' lo' hi', ob' = Some v' /\ bo' = Some (lo', hi') /\ between64 lo' v' hi'.
  Proof.
    intros M -> -> -> -> [A B]. exists (g v), (g lo), (g hi). split; auto. split; auto. split; apply M; auto.
  Qed.
  Lemma inf_mul k : fin64 k -> PrimFloat.leb k 0%float = false -> PrimFloat.mul infinity k = infinity /\ PrimFloat.mul neg_infinity k = neg_infinity.
  Proof.
    intros Fk Hk. unfold fin64 in Fk. rewrite FloatAxioms.ltb_spec, FloatAxioms.abs_spec in Fk. rewrite FloatAxioms.leb_spec in Hk.
    split; apply FloatAxioms.Prim2SF_inj; rewrite FloatAxioms.mul_spec; destruct (Prim2SF k) as [[]|[]| |[] m e] eqn:E; try discriminate; reflexivity.
  Qed.
  Lemma bound_pair64 {A} key (f : A -> list (string * (float * float))) l u u' i (g : float * float -> float * float) :
    (forall a, In a l -> dget String.eqb (f a) u = option_map g (dget String.eqb (f a) u')) ->
    match dget eid_eqb (map (fun x : A => (key x, f x)) l) i with Some q => dget String.eqb q u | None => None end =
    option_map g (match dget eid_eqb (map (fun x : A => (key x, f x)) l) i with Some q => dget String.eqb q u' | None => None end).
  Proof.
    intros H. induction l as [|a l IH]; cbn; auto. destruct (eid_eqb i (key a)); [apply H; cbn; auto|].
    apply IH. intros; apply H; cbn; auto.
  Qed.
  Lemma bounds_power64 k u i : fin64 (nw_base nw) -> In (k, u) power_units -> k <> "gen_p_max" ->
    bound (N := Fnum L) s0 k u i = option_map (fun p => (PrimFloat.mul (fst p) (nw_base nw), PrimFloat.mul (snd p) (nw_base nw))) (bound (N := Fnum L) s0 k "pu" i).
  Proof.
    intros Fb K Kn. pose proof (init_base _ _ _ _ H0) as Es. destruct (inf_mul _ Fb base_nonpos) as [I1 I2].
    unfold bound, get_state_space. rewrite Es. cbn [In power_units] in K.
    repeat (destruct K as [K|K]; [injection K as <- <-; try (exfalso; apply Kn; reflexivity); cbn [dget String.eqb Ascii.eqb Bool.eqb];
      first [apply (bound_pair64 (fun d => EId (b_id d))) | apply (bound_pair64 (fun d => EId (d_id d)))
            |apply (bound_pair64 (fun b => EBr (ln_f b) (ln_t b)))]; intros a _|]); try contradiction; try reflexivity.
    - destruct (d_spec a); reflexivity.
    - cbn [dget String.eqb Ascii.eqb Bool.eqb option_map both_inf fst snd]. unfold both_inf, nninf. cbn [nopp ninf Fnum fst snd]. change (PrimFloat.opp infinity) with neg_infinity. rewrite I1, I2. reflexivity.
    - cbn [dget String.eqb Ascii.eqb Bool.eqb option_map both_inf fst snd]. unfold both_inf, nninf. cbn [nopp ninf Fnum fst snd]. change (PrimFloat.opp infinity) with neg_infinity. rewrite I1, I2. reflexivity.
    - cbn [dget String.eqb Ascii.eqb Bool.eqb option_map both_inf fst snd]. unfold both_inf, nninf. cbn [nopp ninf Fnum fst snd]. change (PrimFloat.opp infinity) with neg_infinity. rewrite I1, I2. reflexivity.
  Qed.
  Definition deg64 (x : float) : float := PrimFloat.div (PrimFloat.mul x (nofZ (Num := Fnum L) 180)) (npi (Num := Fnum L)).
  Lemma deg64_ends : deg64 0%float = 0%float /\ deg64 (npi (Num := Fnum L)) = nofZ (Num := Fnum L) 180 /\ deg64 (PrimFloat.opp (npi (Num := Fnum L))) = PrimFloat.opp (nofZ (Num := Fnum L) 180).
  Proof. repeat split; vm_compute; reflexivity. Qed.
  Lemma deg64_mono : mono64 deg64.
  Proof.
    intros x y H. unfold deg64. apply mono_div; [vm_compute; reflexivity..|]. apply mono_mul; [vm_compute; reflexivity..|]. exact H.
  Qed.
  Lemma bounds_angle64 k i : In k angle_keys ->
    bound (N := Fnum L) s0 k "degree" i = option_map (fun p => (deg64 (fst p), deg64 (snd p))) (bound (N := Fnum L) s0 k "rad" i).
  Proof.
    intros K. unfold bound, get_state_space. cbn [In angle_keys] in K. destruct deg64_ends as (E1 & E2 & E3).
    repeat (destruct K as [K|K]; [subst k; cbn [dget String.eqb Ascii.eqb Bool.eqb];
      first [apply (bound_pair64 (fun d => EId (b_id d))) | apply (bound_pair64 (fun b => EBr (ln_f b) (ln_t b)))]; intros a _|]); try contradiction;
    try (destruct (b_slack a)); cbn [dget String.eqb Ascii.eqb Bool.eqb option_map fst snd];
    change (n0 (Num := Fnum L)) with 0%float; change (nopp (Num := Fnum L)) with PrimFloat.opp; rewrite ?E1, ?E2, ?E3; reflexivity.
  Qed.
  Lemma kv_pos r i kv : In r (nw_bus nw) -> br_id r = Some i -> br_kv r = Some kv -> PrimFloat.leb kv 0%float = false.
  Proof.
    intros I Ei Ek. destruct (sim_init_built _ _ _ _ H0) as (bs & ds & B).
    destruct (bt_bus_row_inv B _ I) as (bb & E & _). unfold bus_init in E. rewrite Ei, Ek in E. cbn [bind] in E.
    apply bind_ok in E as (ty & Ety & E). cbv zeta in E. apply bind_ok in E as (u & Hu & E).
    apply bind_ok in E as (kv' & Hkv & E). change (nleb (Num := Fnum L) kv n0) with (PrimFloat.leb kv 0%float) in Hkv. destruct (PrimFloat.leb kv 0%float); [discriminate Hkv|reflexivity].
  Qed.
  Lemma bounds_kv64 r i kv : In r (nw_bus nw) -> br_id r = Some i -> br_kv r = Some kv -> fin64 kv ->
    bound (N := Fnum L) s0 "bus_v_magn" "kV" (EId i) = option_map (fun p => (PrimFloat.mul (fst p) kv, PrimFloat.mul (snd p) kv)) (bound (N := Fnum L) s0 "bus_v_magn" "pu" (EId i)).
  Proof.
    intros I Ei Ek Fk. destruct (inf_mul _ Fk (kv_pos r i kv I Ei Ek)) as [I1 I2].
    unfold bound, get_state_space. cbn [dget String.eqb Ascii.eqb Bool.eqb].
    assert (G : forall b, In b (sm_buses s0) -> b_id b = i -> b_kv b = kv).
    { intros b1 I' Eb1. destruct (bus_row_of _ _ _ _ _ _ H0 eq_refl I') as (r' & Ir' & E1 & _ & E2 & _).
      assert (r = r') by (eapply bus_row_unique; eauto; rewrite Ei, E1, Eb1; reflexivity). subst r'. rewrite Ek in E2. injection E2 as <-. reflexivity. }
    clear -G I1 I2. induction (sm_buses s0) as [|a l IH]; cbn [map dget]; [reflexivity|].
    cbn [eid_eqb]. destruct (Z.eqb_spec i (b_id a)) as [->|Hn].
    - rewrite (G a) by (cbn; auto). destruct (b_slack a); cbn [dget String.eqb Ascii.eqb Bool.eqb option_map fst snd]; [reflexivity|].
      unfold both_inf, nninf. cbn [nopp ninf Fnum fst snd]. change (PrimFloat.opp infinity) with neg_infinity. rewrite I1, I2. reflexivity.
    - apply IH. intros; apply G; cbn; auto.
  Qed.
End U64.
