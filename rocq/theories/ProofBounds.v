(** Units of the advertised bounds (C31) and range of the reported angles (C58). *)
From Coq Require Import Reals Lra.
From Verif Require Import Base Num NumXR Devices BusBranch CheckNetwork LoadFlow Simulator LibBase LibNum LibXR LibSim
  SpecNet ProofNet SpecDev LibInit SpecSim ProofSim ProofSoc ProofHist ProofDev ProofObs ProofUnits ProofVals.
Local Open Scope string_scope.
Local Open Scope list_scope.
Local Open Scope R_scope.

Lemma dget_ext {A V W} (key : A -> eid) (f : A -> V) (g : V -> W) (h : A -> W) l i :
  (forall a, In a l -> g (f a) = h a) ->
  match dget eid_eqb (map (fun x => (key x, f x)) l) i with Some v => Some (g v) | None => None end =
  dget eid_eqb (map (fun x => (key x, h x)) l) i.
Proof.
  intros H. induction l as [|a l IH]; cbn; auto. destruct (eid_eqb i (key a)); [rewrite (H a); cbn; auto|].
  apply IH. intros; apply H; cbn; auto.
Qed.

Section BoundUnits.
  Context (nw : network XR) (dt lamb : XR) (s0 : sim XR) (H0 : sim_init nw dt lamb = Ok s0).
  Context (b : R) (Eb : nw_base nw = Fin b).

  Definition scale_pair (k : XR) (p : XR * XR) : XR * XR := (nmul (fst p) k, nmul (snd p) k).

  Lemma inf_base : xmul NInf (Fin b) = NInf /\ xmul PInf (Fin b) = PInf.
  Proof.
    pose proof (base_pos _ _ _ _ H0 _ Eb) as Hb. cbn [xmul]. rewrite inf_sgn_neg by lra. rewrite inf_sgn_pos by lra. auto.
  Qed.
  (** the last entry of a bound table with two units *)
  Lemma bound_pair {A} key (f : A -> list (string * (XR * XR))) l u u' i g :
    (forall a, In a l -> dget String.eqb (f a) u = option_map g (dget String.eqb (f a) u')) ->
    match dget eid_eqb (map (fun x : A => (key x, f x)) l) i with Some q => dget String.eqb q u | None => None end =
    option_map g (match dget eid_eqb (map (fun x : A => (key x, f x)) l) i with Some q => dget String.eqb q u' | None => None end).
  Proof.
    intros H. induction l as [|a l IH]; cbn; auto. destruct (eid_eqb i (key a)); [apply H; cbn; auto|].
    apply IH. intros; apply H; cbn; auto.
  Qed.

  Lemma bounds_power k u i : In (k, u) power_units -> k <> "gen_p_max" ->
    bound s0 k u i = option_map (scale_pair (nw_base nw)) (bound s0 k "pu" i).
  Proof.
    intros K Kn. pose proof (init_base _ _ _ _ H0) as Es. destruct inf_base as [I1 I2].
    unfold bound, get_state_space. rewrite Es, Eb. cbn [In power_units] in K.
    repeat (destruct K as [K|K]; [injection K as <- <-; try congruence; cbn [dget String.eqb Ascii.eqb Bool.eqb];
      first [apply (bound_pair (fun d => EId (b_id d))) | apply (bound_pair (fun d => EId (d_id d)))
            |apply (bound_pair (fun b => EBr (ln_f b) (ln_t b)))]; intros a _|]); try contradiction;
    try reflexivity.
    - destruct (d_spec a); reflexivity.
    - cbn [dget String.eqb Ascii.eqb Bool.eqb option_map]. unfold scale_pair, both_inf. cbn [fst snd nmul XRnum nninf nopp ninf]. unfold nninf. cbn [nopp ninf XRnum xopp]. rewrite I1, I2. reflexivity.
    - cbn [dget String.eqb Ascii.eqb Bool.eqb option_map]. unfold scale_pair, both_inf. cbn [fst snd nmul XRnum nninf nopp ninf]. unfold nninf. cbn [nopp ninf XRnum xopp]. rewrite I1, I2. reflexivity.
    - cbn [dget String.eqb Ascii.eqb Bool.eqb option_map]. unfold scale_pair, both_inf. cbn [fst snd nmul XRnum nninf nopp ninf]. unfold nninf. cbn [nopp ninf XRnum xopp]. rewrite I1, I2. reflexivity.
  Qed.
  Lemma bounds_gen_p_max i lo hi : bound s0 "gen_p_max" "pu" i = Some (lo, hi) ->
    exists hi', bound s0 "gen_p_max" "MW" i = Some (nmul lo (nw_base nw), hi').
  Proof.
    pose proof (init_base _ _ _ _ H0) as Es.
    unfold bound, get_state_space. rewrite Es, Eb. cbn [dget String.eqb Ascii.eqb Bool.eqb].
    induction (filter is_nsgen (sm_devs s0)) as [|d l IH]; cbn [map dget]; [discriminate|].
    destruct (eid_eqb i (EId (d_id d))); auto. cbn [dget String.eqb Ascii.eqb Bool.eqb].
    intros E; inversion E; subst. eauto.
  Qed.
  Lemma bounds_angle k i : In k angle_keys ->
    bound s0 k "degree" i = option_map (fun p => (ndiv (nmul (fst p) (nofZ 180)) npi, ndiv (nmul (snd p) (nofZ 180)) npi)) (bound s0 k "rad" i).
  Proof.
    intros K. unfold bound, get_state_space. cbn [In angle_keys] in K.
    pose proof PI_RGT_0 as HP.
    assert (E1 : xdiv (xmul (xopp (Fin PI)) (Fin (IZR 180))) (Fin PI) = xopp (Fin (IZR 180))).
    { cbn [xopp xmul]. rewrite xdiv_Fin by lra. f_equal. field; lra. }
    assert (E2 : xdiv (xmul (Fin PI) (Fin (IZR 180))) (Fin PI) = Fin (IZR 180)).
    { cbn [xopp xmul]. rewrite xdiv_Fin by lra. f_equal. field; lra. }
    assert (E3 : xdiv (xmul (Fin 0) (Fin (IZR 180))) (Fin PI) = Fin 0).
    { cbn [xopp xmul]. rewrite xdiv_Fin by lra. f_equal. field; lra. }
    repeat (destruct K as [K|K]; [subst k; cbn [dget String.eqb Ascii.eqb Bool.eqb];
      first [apply (bound_pair (fun d => EId (b_id d))) | apply (bound_pair (fun b => EBr (ln_f b) (ln_t b)))]; intros a _|]); try contradiction;
    try (destruct (b_slack a)); cbn [dget String.eqb Ascii.eqb Bool.eqb option_map];
    cbn [fst snd nopp nofZ npi nmul ndiv n0 XRnum]; rewrite ?E1, ?E2, ?E3; reflexivity.
  Qed.
  Lemma bounds_kv r i kv : In r (nw_bus nw) -> br_id r = Some i -> br_kv r = Some (Fin kv) ->
    bound s0 "bus_v_magn" "kV" (EId i) = option_map (scale_pair (Fin kv)) (bound s0 "bus_v_magn" "pu" (EId i)).
  Proof.
    intros I Ei Ek. pose proof (base_pos _ _ _ _ H0 _ Eb) as Hb.
    destruct (sim_init_built _ _ _ _ H0) as (bs & ds & B).
    destruct (bt_bus_row_inv B _ I) as (bb & E & _). unfold bus_init in E. rewrite Ei, Ek in E. cbn [bind] in E.
    apply bind_ok in E as (ty & Ety & E). cbv zeta in E. apply bind_ok in E as (u & Hu & E).
    apply bind_ok in E as (kv' & Hkv & E). cbn [nleb XRnum xleb n0] in Hkv.
    destruct (Rleb kv 0) eqn:L; [discriminate|]. apply Rleb_false in L.
    assert (I1 : xmul NInf (Fin kv) = NInf) by (cbn [xmul]; apply inf_sgn_neg; lra).
    assert (I2 : xmul PInf (Fin kv) = PInf) by (cbn [xmul]; apply inf_sgn_pos; lra).
    unfold bound, get_state_space. cbn [dget String.eqb Ascii.eqb Bool.eqb].
    assert (G : forall b, In b (sm_buses s0) -> b_id b = i -> b_kv b = Fin kv).
    { intros b1 I' Eb1. destruct (bus_row_of _ _ _ _ _ _ H0 eq_refl I') as (r' & Ir' & E1 & _ & E2 & _).
      assert (r = r') by (eapply bus_row_unique; eauto; congruence). congruence. }
    clear -G I1 I2. induction (sm_buses s0) as [|a l IH]; cbn [map dget]; [reflexivity|].
    cbn [eid_eqb]. destruct (Z.eqb_spec i (b_id a)) as [->|Hn].
    - rewrite (G a) by (cbn; auto). destruct (b_slack a); cbn [dget String.eqb Ascii.eqb Bool.eqb option_map]; [reflexivity|].
      unfold scale_pair, both_inf, nninf. cbn [fst snd nopp ninf nmul XRnum]. change (xopp PInf) with NInf. rewrite I1, I2. reflexivity.
    - apply IH. intros; apply G; cbn; auto.
  Qed.
End BoundUnits.

(** ---- C58 ---- *)
Lemma ratan2_range y x : - PI <= ratan2 y x <= PI.
Proof.
  pose proof PI_RGT_0. unfold ratan2. pose proof (atan_bound (y / x)) as [A1 A2].
  destruct (Rlt_dec 0 x); [lra|]. destruct (Rlt_dec x 0).
  - assert (Hx : / x < 0) by (apply Rinv_lt_0_compat; auto).
    destruct (Rle_dec 0 y) as [Hy|Hy].
    + assert (y / x <= 0) by (unfold Rdiv; nra).
      assert (atan (y / x) <= 0).
      { destruct (Req_dec (y / x) 0) as [->|]; [rewrite atan_0; lra|].
        rewrite <- atan_0. left. apply atan_increasing. lra. }
      lra.
    + assert (0 < y / x) by (unfold Rdiv; nra).
      assert (0 < atan (y / x)) by (rewrite <- atan_0; apply atan_increasing; auto). lra.
  - destruct (Rlt_dec 0 y); [lra|]. destruct (Rlt_dec y 0); lra.
Qed.
Lemma xatan2_range y x : xatan2 y x = NaN \/ exists a, xatan2 y x = Fin a /\ - PI <= a <= PI.
Proof.
  pose proof PI_RGT_0.
  destruct y, x; cbn [xatan2]; auto; right; eauto using ratan2_range; try (eexists; split; [reflexivity|]; lra).
  destruct (Rle_dec 0 r); eexists; (split; [reflexivity|]); lra.
Qed.

Lemma angles_rad (nw : network XR) dt lamb s0 cs k i v :
  sim_init nw dt lamb = Ok s0 -> In k angle_keys -> obs (run s0 cs) k "rad" i = Some v ->
  v = NaN \/ exists a, v = Fin a /\ - PI <= a <= PI.
Proof.
  intros H K. revert v.
  apply (gathered_obs _ _ _ _ cs (fun f => forall v, f k "rad" i = Some v -> v = NaN \/ exists a, v = Fin a /\ - PI <= a <= PI) H); [discriminate|].
  intros s1 S v R. cbn [In angle_keys] in K. decompose [or] K; clear K; subst; try contradiction.
  - eapply read_bus_inv in R; [|cbn; do 6 right; left; reflexivity]. destruct R as (b & _ & _ & ->). apply xatan2_range.
  - eapply read_bus_inv in R; [|cbn; do 10 right; left; reflexivity]. destruct R as (b & _ & _ & ->). apply xatan2_range.
  - eapply read_br_inv in R; [|cbn; do 7 right; left; reflexivity]. destruct R as (b & _ & _ & ->). apply xatan2_range.
Qed.
Lemma angles_deg (nw : network XR) dt lamb s0 cs k i v :
  sim_init nw dt lamb = Ok s0 -> In k angle_keys -> obs (run s0 cs) k "degree" i = Some v ->
  v = NaN \/ exists a, v = Fin a /\ - 180 <= a <= 180.
Proof.
  intros H K R. rewrite (units_angle_state _ _ _ _ cs k i H K) in R.
  destruct (obs (run s0 cs) k "rad" i) as [w|] eqn:W; [|discriminate]. cbn [option_map] in R. inversion R; subst.
  pose proof PI_RGT_0.
  destruct (angles_rad _ _ _ _ cs k i w H K W) as [->|(a & -> & A)]; [left; reflexivity|].
  right. cbn [nmul nofZ npi ndiv XRnum xmul]. rewrite xdiv_Fin by lra. eexists; split; [reflexivity|].
  assert (P : 0 < / PI) by (apply Rinv_0_lt_compat; auto). assert (Q : PI * / PI = 1) by (field; lra).
  unfold Rdiv. split.
  - replace (-180) with ((- PI * 180) * / PI) by (field; lra). apply Rmult_le_compat_r; lra.
  - replace 180 with ((PI * 180) * / PI) at 2 by (field; lra). apply Rmult_le_compat_r; lra.
Qed.
