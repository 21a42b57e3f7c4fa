(** C89: the state of charge in binary64. *)
From Coq Require Import Reals Lra Floats ZArith Bool.
From Verif Require Import Base Num NumXR NumFloat Devices BusBranch CheckNetwork LoadFlow Simulator LibBase LibNum LibXR LibSim
  SpecNet ProofNet SpecDev LibInit SpecSim ProofSim ProofSoc ProofHist ProofDev ProofObs ProofUnits ProofVals ProofDevs LibF64 SpecF64 ProofF64 ProofUnits64 SpecStor64 ProofStor64.
From Coq Require Import List. Import ListNotations.
Local Open Scope string_scope.
Local Open Scope list_scope.
Set Bullet Behavior "Strict Subproofs".

Lemma eff_of (L : libm) r base t : stor_check (N := Fnum L) r base = Ok t -> s_eff t = eff64 r /\ (dr_eff r = None \/ PrimFloat.ltb 1 (eff64 r) = false).
Proof.
  unfold stor_check. cbv zeta. intros H. repeat (apply bind_ok in H as (? & ? & H)).
  injection H as <-. cbn [s_eff]. unfold eff64. destruct (dr_eff r) as [v|]; [|match goal with E : Ok n1 = Ok _ |- _ => injection E as <- end; split; auto].
  match goal with E : (if (nltb v n0 || nltb n1 v)%bool then _ else _) = Ok _ |- _ => change (nltb n1 v) with (PrimFloat.ltb 1 v) in E; destruct (PrimFloat.ltb 1 v) eqn:Q; rewrite ?orb_true_r in E; [discriminate E|]; destruct (nltb v n0 || false)%bool; [discriminate E|injection E as <-] end.
  auto.
Qed.

Section Step.
  Context (L : libm) (nw : network float) (dt lamb : float) (s0 : sim float) (H0 : sim_init (N := Fnum L) nw dt lamb = Ok s0).
  Context (r : dev_row float) (i : Z) (Ir : In r (nw_dev nw)) (Ei : dr_id r = Some i) (Ty : dr_type r = Some 3%Z).
  Context (lo hi : float) (Bd : bound (N := Fnum L) s0 "des_soc" "pu" (EId i) = Some (lo, hi)).
  Lemma soc_step64 s Or inp s' out c : strip (N := Fnum L) s = strip (N := Fnum L) s0 -> fresh (N := Fnum L) s -> transition (N := Fnum L) Or inp s = (s', Ok out) -> obs s "des_soc" "pu" (EId i) = Some c ->
    (dr_eff r = None \/ PrimFloat.ltb 1 (eff64 r) = false) /\
    exists p, obs s' "dev_p" "pu" (EId i) = Some p /\ obs s' "des_soc" "pu" (EId i) = Some (soc64 L dt (eff64 r) lo hi c p) /\ strip (N := Fnum L) s' = strip (N := Fnum L) s0 /\ fresh (N := Fnum L) s'.
  Proof.
    intros St Fr T Oc. destruct out as [[[[st rw] ee] pen] conv]. apply transition_ok in T as (_ & _ & ds & v & j & T).
    destruct (row_stepped (N := Fnum L) nw dt lamb s0 H0 _ _ _ _ _ _ _ _ r i St T Ir Ei) as (d0 & dd & d1 & d' & R).
    destruct (stor_step _ _ _ _ H0 _ _ _ _ _ _ _ _ _ _ R Ty) as (t & u' & v' & soc & rows & G1 & G2 & G3 & G3' & G4 & G5 & G6 & G7 & G8 & G9).
    assert (Es : d_soc dd = Some c). { eapply (prev_soc (N := Fnum L) nw dt lamb s0 H0); eauto. unfold is_stor. rewrite G3'. auto. }
    rewrite Es in G4. injection G4 as <-. pose proof (soc_bound _ _ _ _ H0 _ _ _ _ _ _ _ _ _ _ R _ G2) as Bd'. rewrite Bd in Bd'. injection Bd' as -> ->.
    destruct (eff_of L r _ t G1) as (E1 & E2). split; [exact E2|]. exists (d_p d'). split; [apply (rs_p _ _ _ _ _ _ _ _ _ _ _ _ R)|]. split; [|split].
    - rewrite (rs_soc _ _ _ _ _ _ _ _ _ _ _ _ R G3). unfold soc_of. rewrite G9. unfold stor_update_soc. rewrite E1. reflexivity.
    - rewrite (tk_strip _ _ _ _ _ _ _ _ T); auto.
    - eapply trans_fresh; eauto.
  Qed.
  Context (Fd : fin64 dt) (Pd : PrimFloat.ltb 0 dt = true) (Pe : PrimFloat.ltb 0 (eff64 r) = true) (Fl : fin64 lo) (Fh : fin64 hi).
  Lemma le1 : dr_eff r = None \/ PrimFloat.ltb 1 (eff64 r) = false -> PrimFloat.leb (eff64 r) 1 = true.
  Proof.
    intros [E|E]; [unfold eff64; rewrite E; reflexivity|]. apply ltb_leb64 in E; auto; [rewrite one64; discriminate|].
    rewrite fval_ltb in Pe. intros E'. rewrite E', fval_0 in Pe. discriminate Pe.
  Qed.
  Lemma fin_between x : between64 lo x hi -> fin64 x.
  Proof.
    intros (A & B). destruct (fin64_val _ Fl) as (a & Ea). destruct (fin64_val _ Fh) as (b & Eb). rewrite fval_leb in A, B. rewrite Ea in A. rewrite Eb in B.
    unfold fin64. rewrite fval_ltb, fval_abs. destruct (fval x); try discriminate A; try discriminate B. reflexivity.
  Qed.
  Lemma cut_between x : PrimFloat.leb lo hi = true -> fval x <> NaN -> between64 lo (cut lo hi x) hi.
  Proof. intros H Nx. rewrite <- (cut_clip L lo hi H x Nx). apply clip64; auto. destruct (nisnan (N := Fnum L) x) eqn:E; auto. apply nan_val in E. contradiction. Qed.

  Lemma history64 s c ps s' : strip (N := Fnum L) s = strip (N := Fnum L) s0 -> fresh (N := Fnum L) s -> obs s "des_soc" "pu" (EId i) = Some c -> between64 lo c hi -> powers L i s ps s' -> Forall fin64 ps ->
    strip (N := Fnum L) s' = strip (N := Fnum L) s0 /\ fresh (N := Fnum L) s' /\ exists c', obs s' "des_soc" "pu" (EId i) = Some c' /\ between64 lo c' hi /\
      (Forall (fun p => PrimFloat.leb p 0 = true) ps -> PrimFloat.leb c c' = true) /\ (Forall (fun p => PrimFloat.leb 0 p = true) ps -> PrimFloat.leb c' c = true) /\
      between64 lo (lossless dt lo hi c ps) hi /\ PrimFloat.leb c' (lossless dt lo hi c ps) = true.
  Proof.
    intros St Fr Oc Bc P. assert (Hlh : PrimFloat.leb lo hi = true) by (eapply leb_trans64; apply Bc). induction P as [|ps s1 Or inp s2 out p P IH T Op]; intros Fp.
    - split; auto. split; auto. exists c. assert (PrimFloat.leb c c = true) by (apply leb_refl64; destruct Bc as (A & _); apply num_leb in A; apply A). split; auto.
    - apply Forall_app in Fp as (Fps & Fp). apply Forall_inv in Fp. destruct (IH Fps) as (St1 & Fr1 & c1 & O1 & B1 & U1 & D1 & B1' & Q1).
      destruct (soc_step64 s1 Or inp s2 out c1 St1 Fr1 T O1) as (Le & p' & Op' & O2 & St2 & Fr2). rewrite Op in Op'. injection Op' as <-. split; auto. split; auto.
      destruct (soc64_spec L dt (eff64 r) lo hi Fd Pd Pe (le1 Le) Hlh c1 p (lossless dt lo hi c ps) (fin_between _ B1) Fp B1 (fin_between _ B1') Q1) as (K1 & K2 & K3 & K4).
      eexists. split; [exact O2|]. split; [exact K1|]. split; [|split].
      + intros A. apply Forall_app in A as (A1 & A2). apply Forall_inv in A2. exact (leb_trans64 _ _ _ (U1 A1) (K2 A2)).
      + intros A. apply Forall_app in A as (A1 & A2). apply Forall_inv in A2. exact (leb_trans64 _ _ _ (K3 A2) (D1 A1)).
      + unfold lossless. rewrite fold_left_app. cbn [fold_left]. change (fold_left (fun c p => cut lo hi (c - dt * p)%float) ps c) with (lossless dt lo hi c ps).
        split; [|exact K4]. apply cut_between; auto.
        rewrite fval_sub. destruct (fin64_val _ (fin_between _ B1')) as (a & ->). pose proof (kp dt Fd p Fp) as Nk. destruct (fval (dt * p)%float) as [k| | |]; try discriminate; [apply frnd_num|contradiction Nk; reflexivity].
  Qed.
End Step.

(** C89: over any sequence of transitions in which the reported power of a storage unit is finite, its reported charge stays within the advertised limits, never falls while
    the unit only takes power, never rises while it only gives power, and is never above that of a unit without losses that gives and takes the same powers. *)
Theorem C89_history : forall (L : libm) (nw : network float) dt lamb s0 cs cl r i lo hi c ps s',
  sim_init (N := Fnum L) nw dt lamb = Ok s0 -> In r (nw_dev nw) -> dr_id r = Some i -> dr_type r = Some 3%Z ->
  fin64 dt -> PrimFloat.ltb 0 dt = true -> PrimFloat.ltb 0 (eff64 r) = true ->
  bound (N := Fnum L) s0 "des_soc" "pu" (EId i) = Some (lo, hi) -> fin64 lo -> fin64 hi ->
  returned (N := Fnum L) (run (N := Fnum L) s0 cs) cl -> obs (run (N := Fnum L) s0 (cs ++ [cl])) "des_soc" "pu" (EId i) = Some c -> between64 lo c hi ->
  powers L i (run (N := Fnum L) s0 (cs ++ [cl])) ps s' -> Forall fin64 ps ->
  exists c', obs s' "des_soc" "pu" (EId i) = Some c' /\ between64 lo c' hi /\
    (Forall (fun p => PrimFloat.leb p 0 = true) ps -> PrimFloat.leb c c' = true) /\
    (Forall (fun p => PrimFloat.leb 0 p = true) ps -> PrimFloat.leb c' c = true) /\
    PrimFloat.leb c' (lossless dt lo hi c ps) = true.
Proof.
  intros L nw dt lamb s0 cs cl r i lo hi c ps s' H0 Ir Ei Ty Fd Pd Pe Bd Fl Fh Rt Oc Bc P Fp.
  destruct (history64 L nw dt lamb s0 H0 r i Ir Ei Ty lo hi Bd Fd Pd Pe Fl Fh (run (N := Fnum L) s0 (cs ++ [cl])) c ps s') as (_ & _ & c' & K1 & K2 & K3 & K4 & _ & K5); auto.
  - apply ProofSim.strip_run.
  - unfold run. rewrite fold_left_app. cbn [fold_left]. apply call_fresh. exact Rt.
  - exists c'. auto.
Qed.

(** C89: a unit that stays idle keeps its charge, without drift, however long. *)
Theorem C89_idle : forall (L : libm) (nw : network float) dt lamb s0 cs cl r i lo hi c ps s',
  sim_init (N := Fnum L) nw dt lamb = Ok s0 -> In r (nw_dev nw) -> dr_id r = Some i -> dr_type r = Some 3%Z ->
  fin64 dt -> PrimFloat.ltb 0 dt = true -> PrimFloat.ltb 0 (eff64 r) = true ->
  bound (N := Fnum L) s0 "des_soc" "pu" (EId i) = Some (lo, hi) -> fin64 lo -> fin64 hi ->
  returned (N := Fnum L) (run (N := Fnum L) s0 cs) cl -> obs (run (N := Fnum L) s0 (cs ++ [cl])) "des_soc" "pu" (EId i) = Some c -> between64 lo c hi ->
  powers L i (run (N := Fnum L) s0 (cs ++ [cl])) ps s' -> Forall (fun p => PrimFloat.eqb p 0 = true) ps ->
  exists c', obs s' "des_soc" "pu" (EId i) = Some c' /\ PrimFloat.eqb c' c = true.
Proof.
  intros L nw dt lamb s0 cs cl r i lo hi c ps s' H0 Ir Ei Ty Fd Pd Pe Bd Fl Fh Rt Oc Bc P Z.
  assert (Fp : Forall fin64 ps).
  { eapply Forall_impl; [|exact Z]. intros p E. unfold fin64. rewrite fval_ltb, fval_abs. apply zv_eqb in E. rewrite E. reflexivity. }
  destruct (C89_history L nw dt lamb s0 cs cl r i lo hi c ps s' H0 Ir Ei Ty Fd Pd Pe Bd Fl Fh Rt Oc Bc P Fp) as (c' & K1 & _ & K3 & K4 & _). exists c'. split; auto.
  apply leb_antisym64; [apply K4|apply K3]; (eapply Forall_impl; [|exact Z]); intros p E; apply eqb_leb64 in E; tauto.
Qed.

Print Assumptions C89_history.
Print Assumptions C89_idle.
