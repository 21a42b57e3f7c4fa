(** ANM6Easy end to end: initial sample (C47), demands and potentials in the simulator (C63). *)
From Coq Require Import Reals Lra Sorted.
From Verif Require Import Base Num NumXR Devices BusBranch CheckNetwork LoadFlow Simulator EnvArgs Env Anm6 LibBase LibNum LibSim LibXR LibEval
  ProofNet LibInit SpecSim ProofSim ProofObs ProofSoc ProofReset ProofUnits SpecDev ProofVals ProofBounds ProofDevs SpecEnv ProofEnv ProofStep ProofState ProofDraw ProofEnvOk PropEnv SpecAnm6 ProofEasy PropEasy.
Local Open Scope string_scope.
Local Open Scope list_scope.
Local Open Scope num_scope.
Set Bullet Behavior "Strict Subproofs".

Ltac pick := (left; reflexivity) + (right; pick).
Section Sims.
  Context {F G : Type} {N : Num F}.
  Implicit Types (a : anm6 F G).

  Lemma anm6_ids : ids_of (anm6_network (F := F)) ALL [0; 1; 2; 3; 4; 5; 6]%Z /\ ids_of (anm6_network (F := F)) LOADS [1; 3; 5]%Z /\
    ids_of (anm6_network (F := F)) GENS [2; 4]%Z /\ ids_of (anm6_network (F := F)) STORS [6]%Z.
  Proof.
    assert (Sub : forall ts l, Sorted Z.lt l -> (forall i, In i l -> exists r t, In r (nw_dev (anm6_network (F := F))) /\ dr_id r = Some i /\ dr_type r = Some t /\ In t ts) ->
      (forall r t i, In r (nw_dev (anm6_network (F := F))) -> dr_id r = Some i -> dr_type r = Some t -> In t ts -> In i l) -> ids_of (anm6_network (F := F)) ts l).
    { intros ts l H1 H2 H3. split; [auto|]. intros i. split; [auto|]. intros (r & t & A & B & C & D). eauto. }
    cbn [nw_dev anm6_network] in Sub.
    split; [|split; [|split]]; apply Sub; try (repeat constructor; lia).
    all: try (intros i I; cbn in I; decompose [or] I; try contradiction; subst i;
      (eexists _, _; unshelve (once (split; [pick|split; [reflexivity|split; [reflexivity|cbn; tauto]]])))).
    all: intros r t i I E1 E2 T; cbn in I; decompose [or] I; try contradiction; subst r; cbn in E1, E2; injection E1 as <-; injection E2 as <-; cbn in T;
      solve [exfalso; intuition lia | cbn; tauto].
  Qed.

  (** the simulator of an ANM6Easy environment only undergoes simulator calls *)
  Definition simrun (s0 : sim F) a : Prop := exists l, e_sim (a_env a) = run s0 l.
  Lemma sr_reset (s0 : sim F) Or (ro : rng_ops F G) sf seed date a : simrun s0 a -> simrun s0 (fst (easy_reset Or ro sf seed date a)).
  Proof.
    intros (l & E). unfold easy_reset, anm6_reset. destruct (env_reset Or _ seed (a_env a)) as (e', r) eqn:Er.
    apply env_reset_const in Er as (_ & _ & _ & _ & _ & _ & l' & E' & _). rewrite E, <- run_app in E'.
    destruct r as [ob|x]; [|exists (l ++ l'); auto]. destruct date as [d|]; [|destruct (random_date ro 0 (e_rng e')) as (d, gr)]; cbn.
    - destruct (e_state e') as [st|]; [destruct (ntrunc _)|]; exists (l ++ l'); cbn; auto.
    - destruct (e_state e') as [st|]; [destruct (ntrunc _)|]; exists (l ++ l'); cbn; auto.
  Qed.
  Lemma sr_step (s0 : sim F) Or (ro : rng_ops F G) sf act a : simrun s0 a -> simrun s0 (fst (easy_step Or ro sf act a)).
  Proof.
    intros (l & E). unfold easy_step, anm6_step. pose proof (stepped_const _ _ _ _ _ _ (env_stepped Or (easy_task ro sf (e_sim (a_env a))) act (a_env a))) as (_ & _ & S).
    assert (S' : exists l', e_sim (fst (env_step Or (easy_task ro sf (e_sim (a_env a))) act (a_env a))) = run s0 l').
    { destruct S as [S|(inp & S)]; rewrite S, E; [eauto|]. exists (l ++ [CTrans Or inp]). rewrite run_app. reflexivity. }
    destruct S' as (l' & S'). destruct (env_step _ _ _ _) as (e', [o|x]); [|exists l'; auto]. destruct (a_date a); [destruct (a_date_init a)|]; exists l'; auto.
  Qed.
  Lemma sr_run6 (s0 : sim F) (ro : rng_ops F G) sf cs : forall a, simrun s0 a -> simrun s0 (run6 ro sf a cs).
  Proof.
    induction cs as [|c cs IH]; intros a H; [auto|]. apply IH. destruct c; cbn [run_call6]; [apply sr_reset; auto|apply sr_step; auto| |auto].
    destruct (render_keeps human skip started up a) as (A & _). unfold simrun. rewrite A. auto.
  Qed.
  Lemma sr_stepping (s0 : sim F) (ro : rng_ops F G) sf P n a a' : stepping ro sf P n a a' -> simrun s0 a -> simrun s0 a'.
  Proof.
    induction 1; auto; intros Ha; specialize (IHstepping Ha).
    - pose proof (sr_step s0 Or ro sf action a1 IHstepping) as R. rewrite H0 in R. auto.
    - apply sr_step; auto.
    - destruct (render_keeps human skip started up a1) as (A & _). unfold simrun. rewrite A. auto.
  Qed.

  (** ---- [init_state] ---- *)
  Lemma find_dev_in (s : sim F) i d : find_dev s i = Ok d -> In d (sm_devs s) /\ d_id d = i.
  Proof. unfold find_dev. destruct (find _ _) as [x|] eqn:E; [|discriminate]. intros H; injection H as <-. apply find_some in E as (I & Q). apply Z.eqb_eq in Q. auto. Qed.
  Lemma easy_init_draws (ro : rng_ops F G) (s : sim F) g v g' : NoDup (map d_id (sm_devs s)) -> easy_init ro s g = (Ok v, g') ->
    exists lo hi g1 lo2 hi2 g2 lo4 hi4 g4, bound s "des_soc" "pu" (EId 6) = Some (lo, hi) /\ nth_error v 14 = Some (fst (r_unif ro lo hi g1)) /\
      bound s "dev_q" "pu" (EId 2) = Some (lo2, hi2) /\ nth_error v 9 = Some (fst (r_unif ro lo2 hi2 g2)) /\
      bound s "dev_q" "pu" (EId 4) = Some (lo4, hi4) /\ nth_error v 11 = Some (fst (r_unif ro lo4 hi4 g4)) /\ List.length v = 18%nat.
  Proof.
    intros ND. unfold easy_init. destruct (r_int ro 0%Z 96%Z g) as (t0, g1).
    destruct (find_dev s 2) as [d2|x] eqn:E2; [|intros H; discriminate H]. destruct (find_dev s 4) as [d4|x] eqn:E4; [|intros H; discriminate H]. cbn [bind].
    destruct (r_unif ro (d_qmin d2) (d_qmax d2) g1) as (q2, g2) eqn:Q2. destruct (r_unif ro (d_qmin d4) (d_qmax d4) g2) as (q4, g3) eqn:Q4.
    destruct (find_dev s 6) as [d6|x] eqn:E6; [|intros H; discriminate H]. cbn [bind]. unfold dev_soc_rng. destruct (d_spec d6) as [| |t] eqn:S6; try (intros H; discriminate H).
    destruct (r_unif ro (s_socmin t) (s_socmax t) g3) as (soc, g4) eqn:Q6. intros H. injection H as H <-.
    do 8 (apply bind_ok in H; destruct H as (? & _ & H)). injection H as <-.
    apply find_dev_in in E2 as (I2 & E2), E4 as (I4 & E4), E6 as (I6 & E6).
    exists (s_socmin t), (s_socmax t), g3, (d_qmin d2), (d_qmax d2), g1, (d_qmin d4), (d_qmax d4), g2.
    rewrite <- E6, <- E2, <- E4. rewrite (bound_soc s d6 t ND I6 S6), (bound_dev_q s d2 ND I2), (bound_dev_q s d4 ND I4). rewrite Q2, Q4, Q6. cbn [fst nth_error List.length]. auto 12.
  Qed.
  Lemma draw_is_init (ro : rng_ops F G) sf (s : sim F) k : forall gr v g', draw (easy_task ro sf s) gr k = (Ok v, g') -> exists g1, easy_init ro s g1 = (Ok v, g').
  Proof. induction k as [|k IH]; intros gr v g' H; cbn [draw t_init easy_task] in H; eauto. Qed.

  Context (Hc : clock_ok (F := F)) (ro : rng_ops F G) (sf : Z -> G) (g : G) (a0 : anm6 F G).
  Hypothesis built : easy_make g = Ok a0.

  Lemma start_facts : exists e0, reach6 g e0 a0 /\ a_env a0 = e0 /\ sim_init anm6_network easy_dt (nofZ 100) = Ok (e_sim e0) /\ simrun (e_sim e0) a0.
  Proof.
    destruct (easy_make_inv g a0 Hc built) as (e0 & R & E & _). exists e0. split; [auto|]. split; [auto|]. split; [apply (gd_sim0 _ (proj1 R))|]. exists []. rewrite E. reflexivity.
  Qed.

  (** C47, the sample.  [init_state] draws the energy from the range of the per-unit capacity and the reactive powers from the per-unit ranges
      of the generators, although the entries of the vector that it returns are read in MWh and MVAr. *)
  Theorem C47_initial_sample : forall cs gr v, fst (t_init (easy_task ro sf (e_sim (a_env (run6 ro sf a0 cs)))) gr) = Ok v ->
    let s := e_sim (a_env a0) in
    exists lo hi g1 lo2 hi2 g2 lo4 hi4 g4, bound s "des_soc" "pu" (EId 6) = Some (lo, hi) /\ nth_error v 14 = Some (fst (r_unif ro lo hi g1)) /\
      bound s "dev_q" "pu" (EId 2) = Some (lo2, hi2) /\ nth_error v 9 = Some (fst (r_unif ro lo2 hi2 g2)) /\
      bound s "dev_q" "pu" (EId 4) = Some (lo4, hi4) /\ nth_error v 11 = Some (fst (r_unif ro lo4 hi4 g4)).
  Proof.
    intros cs gr v H s. destruct start_facts as (e0 & R0 & E0 & Hs & Sr). destruct (sr_run6 _ ro sf cs _ Sr) as (l & El). rewrite El in H. cbn [t_init easy_task] in H.
    destruct (easy_init ro (run (e_sim e0) l) gr) as (v', g') eqn:Ei. cbn [fst] in H. subst v'.
    apply easy_init_draws in Ei; [|eapply static_nodup; [exact Hs|apply strip_run]].
    destruct Ei as (lo & hi & g1 & lo2 & hi2 & g2 & lo4 & hi4 & g4 & A). rewrite !bound_run in A. subst s. rewrite E0. exists lo, hi, g1, lo2, hi2, g2, lo4, hi4, g4. tauto.
  Qed.
  (** ... and after a reset that returned the stored energy, in MWh, is that draw (converted to per-unit and back). *)
  Theorem C47_initial_soc : forall cs Or seed date a1 ob, easy_reset Or ro sf seed date (run6 ro sf a0 cs) = (a1, Ok ob) ->
    exists lo hi g1 st, bound (e_sim (a_env a0)) "des_soc" "pu" (EId 6) = Some (lo, hi) /\ e_state (a_env a1) = Some st /\
      nth_error st 14 = Some (fst (r_unif ro lo hi g1) / nofZ 100 * nofZ 100) /\
      obs (e_sim (a_env a1)) "des_soc" "MWh" (EId 6) = nth_error st 14.
  Proof.
    intros cs Or seed date a1 ob H. destruct start_facts as (e0 & R0 & E0 & Hs & Sr).
    pose proof (sr_run6 _ ro sf cs _ Sr) as (l & El). pose proof (run6_reach g e0 ro sf cs a0 R0) as (Hg & _).
    assert (Sr1 : simrun (e_sim e0) a1). { pose proof (sr_reset (e_sim e0) Or ro sf seed date _ (ex_intro _ l El)) as S. rewrite H in S. exact S. }
    destruct Sr1 as (l1 & El1). destruct anm6_ids as (D1 & D2 & D3 & D4).
    unfold easy_reset, anm6_reset in H. destruct (env_reset Or _ seed _) as (e', [ob'|x]) eqn:E; [|discriminate].
    destruct (gd_reset_inv _ _ _ _ _ _ _ _ _ Hg E D1 D3 D4) as (k & init & st & _ & _ & At & D & _ & Si & Es & Ly & _).
    assert (Ea : e_sim (a_env a1) = e_sim e' /\ e_state (a_env a1) = e_state e').
    { destruct date as [d|]; [|destruct (random_date ro 0 (e_rng e')) as (d, gr)]; cbn in H; rewrite Es in H; (destruct (ntrunc _); [|discriminate H]); injection H as <- _; cbn; auto. }
    assert (Rs : snd (sim_reset Or init (e_sim e0)) = Ok true).
    { destruct At as (init' & A1 & _ & A3). rewrite D in A1. cbn [fst] in A1. injection A1 as <-. exact A3. }
    destruct Ea as (Ea1 & Ea2). apply draw_is_init in D as (g0 & Ei). rewrite El in Ei.
    apply easy_init_draws in Ei; [|eapply static_nodup; [exact Hs|apply strip_run]].
    destruct Ei as (lo & hi & g1 & lo2 & hi2 & g2 & lo4 & hi4 & g4 & B1 & B2 & _). rewrite bound_run in B1. exists lo, hi, g1, st. rewrite E0, Ea2. split; [auto|]. split; [auto|].
    assert (Rs' : sim_reset Or init (run (e_sim e0) []) = (e_sim e', Ok true)) by (cbn [run fold_left]; rewrite Si; destruct (sim_reset Or init (e_sim e0)); cbn in *; congruence).
    assert (Ids : map d_id (sm_devs (e_sim e0)) = [0; 1; 2; 3; 4; 5; 6]%Z) by (symmetry; apply (proj1 (ids_lists _ _ _ _ _ Hs eq_refl)); auto).
    assert (Sid : nth_error (storage_ids (e_sim e0)) 0 = Some (EId 6)).
    { rewrite storage_ids_eq. rewrite <- (map_map d_id EId). rewrite <- (proj2 (proj2 (proj2 (ids_lists _ _ _ _ _ Hs eq_refl))) _ D4). reflexivity. }
    destruct (reset_soc _ _ _ _ [] Or init _ _ 0 _ Hs Rs' Sid) as (c & C1 & C2).
    assert (Nd : n_device (e_sim e0) = 7%nat) by (unfold n_device; rewrite <- (map_length d_id), Ids; reflexivity).
    rewrite Nd in C1. cbn [Nat.mul Nat.add] in C1. rewrite B2 in C1. injection C1 as <-.
    assert (Ob : obs (e_sim e') "des_soc" "MWh" (EId 6) = Some (fst (r_unif ro lo hi g1) / nofZ 100 * nofZ 100)).
    { rewrite <- Ea1, El1 in C2 |- *. rewrite (units_power_state _ _ _ _ l1 "des_soc" "MWh" (EId 6) Hs) by (cbn; tauto). rewrite C2. reflexivity. }
    assert (St : nth_error st 14 = Some (fst (r_unif ro lo hi g1) / nofZ 100 * nofZ 100)).
    { destruct Ly as (_ & M). apply (f_equal (fun l => nth_error l 14)) in M. cbv beta in M. rewrite nth_error_map in M. destruct (nth_error st 14) as [fx|]; unfold reads in M; cbn [map app nth_error] in M; rewrite Ob in M; cbn [option_map] in M; congruence. }
    rewrite Ea1, Ob, St. auto.
  Qed.
End Sims.

(** C47 refuted (exact numbers): the initial energy is at most 1 MWh although the capacity of the storage unit is 100 MWh; likewise
    the sampled reactive powers stay within 0.3 and 0.5 MVAr although the ranges are 30 and 50 MVAr. *)
Local Open Scope R_scope.
Lemma anm6_row i r : nth_error (nw_dev (anm6_network (F := XR))) i = Some r -> In r (nw_dev (anm6_network (F := XR))).
Proof. apply nth_error_In. Qed.
Lemma unif_between {G} (ro : rng_ops XR G) lo hi g : rng_sound ro -> lo <= hi -> exists x, fst (r_unif ro (Fin lo) (Fin hi) g) = Fin x /\ lo <= x <= hi.
Proof.
  intros Rs H. destruct (rs_unif ro Rs (Fin lo) (Fin hi) g) as (A & B); [apply Rleb_spec; auto|]. destruct (fst (r_unif ro (Fin lo) (Fin hi) g)) as [x| | |]; cbn in A, B; try discriminate.
  exists x. split; [auto|]. split; apply Rleb_spec; auto.
Qed.
Theorem C47_refuted : forall (G : Type) (ro : rng_ops XR G) sf g a0 cs Or seed date a1 ob,
  rng_sound ro -> easy_make g = Ok a0 -> easy_reset Or ro sf seed date (run6 ro sf a0 cs) = (a1, Ok ob) ->
  bound (e_sim (a_env a0)) "des_soc" "MWh" (EId 6) = Some (Fin 0, Fin 100) /\
  exists st x, e_state (a_env a1) = Some st /\ nth_error st 14 = Some (Fin x) /\ obs (e_sim (a_env a1)) "des_soc" "MWh" (EId 6) = Some (Fin x) /\ 0 <= x <= 1.
Proof.
  intros G ro sf g a0 cs Or seed date a1 ob Rs B H.
  destruct (C47_initial_soc clock_XR ro sf g a0 B cs Or seed date a1 ob H) as (lo & hi & g1 & st & Bd & Es & Ns & Os).
  destruct (start_facts clock_XR g a0 B) as (e0 & _ & E0 & Hs & _). rewrite <- E0 in Hs.
  destruct (C10_lemma _ _ _ _ Hs 100 eq_refl _ 6%Z (anm6_row 6 _ eq_refl) eq_refl) as (_ & _ & C). destruct (C eq_refl) as (_ & _ & sm & Sm & Bs).
  cbn [dr_socmax] in Sm. injection Sm as <-. unfold SOCMIN in Bs. cbn [dr_socmin or_else nofZ XRnum] in Bs. rewrite !xdiv_Fin in Bs by lra.
  rewrite (bounds_power _ _ _ _ Hs 100 eq_refl "des_soc" "MWh" (EId 6)) by (cbn; try tauto; discriminate). rewrite Bs in Bd |- *. injection Bd as <- <-.
  split. { cbn [option_map nw_base anm6_network nofZ XRnum]. unfold scale_pair. cbn [fst snd nmul XRnum xmul]. do 3 f_equal; lra. }
  destruct (unif_between ro (0 / 100) (100 / 100) g1 Rs ltac:(lra)) as (x & Ex & Bx). rewrite Ex in Ns. cbn [nofZ XRnum ndiv nmul] in Ns. rewrite xdiv_Fin in Ns by lra. cbn [xmul] in Ns.
  exists st, (x / 100 * 100). rewrite Os. repeat split; auto; lra.
Qed.

Theorem C47_sample_refuted : forall (G : Type) (ro : rng_ops XR G) sf g a0 cs gr v,
  rng_sound ro -> easy_make g = Ok a0 -> fst (t_init (easy_task ro sf (e_sim (a_env (run6 ro sf a0 cs)))) gr) = Ok v ->
  (bound (e_sim (a_env a0)) "dev_q" "MVAr" (EId 2) = Some (Fin (-30), Fin 30) /\ exists q, nth_error v 9 = Some (Fin q) /\ -3/10 <= q <= 3/10) /\
  (bound (e_sim (a_env a0)) "dev_q" "MVAr" (EId 4) = Some (Fin (-50), Fin 50) /\ exists q, nth_error v 11 = Some (Fin q) /\ -5/10 <= q <= 5/10).
Proof.
  intros G ro sf g a0 cs gr v Rs B H.
  destruct (C47_initial_sample clock_XR ro sf g a0 B cs gr v H) as (lo & hi & g1 & lo2 & hi2 & g2 & lo4 & hi4 & g4 & _ & _ & B2 & N2 & B4 & N4).
  destruct (start_facts clock_XR g a0 B) as (e0 & _ & E0 & Hs & _). rewrite <- E0 in Hs.
  destruct (C10_lemma _ _ _ _ Hs 100 eq_refl _ 2%Z (anm6_row 2 _ eq_refl) eq_refl) as (_ & C2 & _). destruct (C2 (or_intror (or_intror eq_refl))) as (_ & Q2).
  destruct (C10_lemma _ _ _ _ Hs 100 eq_refl _ 4%Z (anm6_row 4 _ eq_refl) eq_refl) as (_ & C4 & _). destruct (C4 (or_intror (or_intror eq_refl))) as (_ & Q4).
  unfold QMIN, QMAX in Q2, Q4. cbn [dr_qmin dr_qmax or_else nofZ XRnum] in Q2, Q4. rewrite !xdiv_Fin in Q2, Q4 by lra.
  rewrite !(bounds_power _ _ _ _ Hs 100 eq_refl "dev_q" "MVAr") by (cbn; try tauto; discriminate). rewrite Q2 in B2 |- *. rewrite Q4 in B4 |- *. injection B2 as <- <-. injection B4 as <- <-.
  destruct (unif_between ro (-30 / 100) (30 / 100) g2 Rs ltac:(lra)) as (x & Ex & Bx). destruct (unif_between ro (-50 / 100) (50 / 100) g4 Rs ltac:(lra)) as (y & Ey & By).
  rewrite Ex in N2. rewrite Ey in N4. split; (split; [cbn [option_map nw_base anm6_network nofZ XRnum]; unfold scale_pair; cbn [fst snd nmul XRnum xmul]; do 3 f_equal; lra|]).
  - exists x. split; [auto|]. lra.
  - exists y. split; [auto|]. lra.
Qed.

(** ---- C63: what the simulator holds after a step ---- *)
(** What the simulator reports, in MW and MVAr, at quarter of an hour [k] of the documented day: demands (reactive power 0.2 times the
    real one), wind potential, and PV potential cut at the installed 30 MW. *)
Definition easy_day (s : sim XR) (k : nat) : Prop :=
  (forall i s1 s2 s3, In (i, (s1, s2, s3)) [(1, (-1, -5, -2)); (3, (-4, -10, -20)); (5, (0, -25, 0))]%Z ->
     obs s "dev_p" "MW" (EId i) = Some (Fin (scenario (IZR s1) (IZR s2) (IZR s3) k)) /\
     obs s "dev_q" "MVAr" (EId i) = Some (Fin (2 / 10 * scenario (IZR s1) (IZR s2) (IZR s3) k))) /\
  (exists x, nth_error (table 4) k = Some (Fin x) /\ obs s "gen_p_max" "MW" (EId 4) = Some (Fin x)) /\
  (exists x, nth_error (table 2) k = Some (Fin x) /\ obs s "gen_p_max" "MW" (EId 2) = Some (Fin (Rmin x 30))).
Lemma at_index_tables k v : (0 <= k < 96)%Z -> at_index k v -> exists l1 l3 l5 m2 m4, v = [l1; l3; l5; m2; m4; nofZ k] /\
  nth_error (table 1) (Z.to_nat k) = Some l1 /\ nth_error (table 3) (Z.to_nat k) = Some l3 /\ nth_error (table 5) (Z.to_nat k) = Some l5 /\
  nth_error (table 2) (Z.to_nat k) = Some m2 /\ nth_error (table 4) (Z.to_nat k) = Some m4.
Proof.
  intros Hk (l1 & l3 & l5 & m2 & m4 & -> & A & B). exists l1, l3, l5, m2, m4. split; [auto|].
  change (table 1) with (nth 0 (P_loads (F := XR)) []). change (table 3) with (nth 1 (P_loads (F := XR)) []). change (table 5) with (nth 2 (P_loads (F := XR)) []).
  change (table 2) with (nth 0 (P_maxs (F := XR)) []). change (table 4) with (nth 1 (P_maxs (F := XR)) []).
  remember (P_loads (F := XR)) as L. remember (P_maxs (F := XR)) as M. clear HeqL HeqM.
  destruct L as [|u1 [|u2 [|u3 [|]]]]; try discriminate. destruct M as [|w1 [|w2 [|]]]; try discriminate. cbn [map nth] in *. injection A as A1 A2 A3. injection B as B1 B2. auto.
Qed.
Lemma limits_row i lo hi : limits i lo hi -> i = 2%Z /\ lo = 0 /\ hi = 30 \/ i = 4%Z /\ lo = 0 /\ hi = 50 \/ ~ In i [2; 4]%Z.
Proof.
  intros (r & Ir & Ei & E1 & E2). unfold anm6_network in Ir. cbn [nw_dev In] in Ir. decompose [or] Ir; try contradiction; subst r; cbn [dr_id] in Ei; injection Ei as <-;
    cbn in E1, E2; try injection E1 as <-; try injection E2 as <-; auto; right; right; cbn; lia.
Qed.
(** the values that a transition on these inputs leaves in the simulator, in p.u. *)
Lemma easy_values s0 z Or inp s1 out k : sim_init (anm6_network (F := XR)) easy_dt (nofZ 100) = Ok s0 -> strip z = strip s0 -> transition Or inp z = (s1, Ok out) -> (k < 96)%nat ->
  (forall i, In i [1; 3; 5]%Z -> dget Z.eqb (ti_load inp) i = nth_error (table i) k) -> (forall i, In i [2; 4]%Z -> dget Z.eqb (ti_pot inp) i = nth_error (table i) k) ->
  (forall i s1' s2 s3, In (i, (s1', s2, s3)) [(1, (-1, -5, -2)); (3, (-4, -10, -20)); (5, (0, -25, 0))]%Z ->
     obs s1 "dev_p" "pu" (EId i) = Some (Fin (scenario (IZR s1') (IZR s2) (IZR s3) k / 100)) /\
     obs s1 "dev_q" "pu" (EId i) = Some (Fin (scenario (IZR s1') (IZR s2) (IZR s3) k / 100 * (2 / 10)))) /\
  (exists x, nth_error (table 4) k = Some (Fin x) /\ obs s1 "gen_p_max" "pu" (EId 4) = Some (Fin (x / 100))) /\
  (exists x, nth_error (table 2) k = Some (Fin x) /\ obs s1 "gen_p_max" "pu" (EId 2) = Some (Fin (Rmin x 30 / 100))).
Proof.
  intros Hs Sz Tr Hk' Y1 Y2. destruct (C46_series_partial k Hk') as (Ld & _ & Pv & Wd).
  assert (Gp : forall i x hi, In (i, hi) [(2, 30); (4, 50)]%Z -> dget Z.eqb (ti_pot inp) i = Some (Fin x) -> 0 <= x ->
    obs s1 "gen_p_max" "pu" (EId i) = Some (Fin (Rmin x (IZR hi) / 100))).
  { intros i x hi I D Hx.
    assert (Q : exists r, In r (nw_dev (anm6_network (F := XR))) /\ dr_id r = Some i /\ dr_type r = Some 2%Z /\ dr_pmin r = Some (Fin 0) /\ dr_pmax r = Some (Fin (IZR hi))).
    { destruct I as [I|[I|[]]]; injection I as <- <-; eexists; unshelve (once (split; [pick|split; [reflexivity|split; [reflexivity|split; reflexivity]]])). }
    destruct Q as (r & Ir & Ei & Ety & Elo & Ehi). destruct (row_stepped_any _ _ _ _ Hs _ _ _ _ _ _ _ Sz Tr Ir Ei) as (d0 & d & d1 & d' & R).
    destruct (gen_step _ _ _ _ _ _ _ _ _ _ _ _ R (or_intror Ety)) as (gs & y & u & w & G1 & _ & G3 & G4 & _ & _ & G7 & _).
    rewrite D in G4. injection G4 as <-. rewrite (rs_pot _ _ _ _ _ _ _ _ _ _ _ _ R G3), G7. change (nw_base (anm6_network (F := XR))) with (Fin 100) in *.
    apply (gen_check_vals 100 ltac:(lra)) in G1. destruct G1 as [V1 V2 _ _ _ _ _ _ _ _ _]. unfold PMIN in V1. unfold PMAX in V2. rewrite Elo in V1. rewrite Ehi in V2. cbn [or_else] in V1, V2.
    assert (0 < IZR hi) by (destruct I as [I|[I|[]]]; injection I as _ <-; lra).
    rewrite V1, V2. cbn [ndiv XRnum]. rewrite !xdiv_Fin by lra. replace (0 / 100) with 0 by lra.
    assert (Cl : np_clip (Fin (x / 100)) (Fin 0) (Fin (IZR hi / 100)) = Fin (Rmin x (IZR hi) / 100)).
    { unfold Rmin. destruct (Rle_dec x (IZR hi)).
      - apply np_clip_id; apply Rleb_spec; lra.
      - destruct (clip_clamped (Fin (x / 100)) (Fin 0) (Fin (IZR hi / 100))) as (_ & _ & _ & C); [apply Rleb_spec; lra|apply xisnan_false; discriminate|]. apply C, Rltb_spec. lra. }
    rewrite Cl, np_clip_id; [reflexivity| |]; apply Rleb_spec; [|assert (Rmin x (IZR hi) <= IZR hi) by apply Rmin_r; lra].
    assert (0 <= Rmin x (IZR hi)) by (apply Rmin_glb; lra). lra. }
  split; [|split].
  - intros i s1' s2 s3 I. destruct (Ld i s1' s2 s3 I) as (N1 & lo & hi & Li & Bx).
    assert (Ein : dget Z.eqb (ti_load inp) i = Some (Fin (scenario (IZR s1') (IZR s2) (IZR s3) k))).
    { rewrite <- N1. apply Y1. destruct I as [I|[I|[I|[]]]]; injection I as <- _ _ _; cbn; auto. }
    assert (Q : exists r, In r (nw_dev (anm6_network (F := XR))) /\ dr_id r = Some i /\ dr_type r = Some (-1)%Z /\ dr_qp r = Some (Fin (2 / 10)) /\
      dr_pmin r = Some (Fin lo) /\ dr_pmax r = Some (Fin 0) /\ hi = 0).
    { destruct Li as (r & Ir & Ei & Emin & Emax). exists r. split; [auto|]. split; [auto|]. split; [|split; [|split; [auto|]]].
      - destruct I as [I|[I|[I|[]]]]; injection I as <- _ _ _; unfold anm6_network in Ir; cbn [nw_dev In] in Ir; decompose [or] Ir; try contradiction; subst r; cbn [dr_id] in Ei; try discriminate; reflexivity.
      - rewrite <- (nrat_XR 2 10) by lia.
        destruct I as [I|[I|[I|[]]]]; injection I as <- _ _ _; unfold anm6_network in Ir; cbn [nw_dev In] in Ir; decompose [or] Ir; try contradiction; subst r; cbn [dr_id] in Ei; try discriminate; reflexivity.
      - destruct I as [I|[I|[I|[]]]]; injection I as <- _ _ _; unfold anm6_network in Ir; cbn [nw_dev In] in Ir; decompose [or] Ir; try contradiction; subst r; cbn [dr_id] in Ei; try discriminate;
          cbn in Emax; injection Emax as <-; split; reflexivity. }
    destruct Q as (r & Ir & Ei & Ety & Eq & Elo & Ehi & ->).
    destruct (C07_any _ _ _ _ Hs Or inp z _ _ r i Sz Tr Ir Ei Ety) as (x & kq & lo' & hi' & p & P1 & P2 & P3 & P4 & P5 & P6).
    rewrite Ein in P1. injection P1 as <-. rewrite Eq in P2. injection P2 as <-.
    destruct (C10_lemma _ _ _ _ Hs 100 eq_refl r i Ir Ei) as (C & _). specialize (C Ety). unfold PMIN in C. rewrite Elo, Ehi in C. cbn [or_else] in C.
    rewrite xdiv_Fin in C by lra. rewrite P3 in C. injection C as -> ->. set (x := scenario (IZR s1') (IZR s2) (IZR s3) k) in *.
    change (nw_base (anm6_network (F := XR))) with (Fin 100) in P6. cbn [ndiv XRnum] in P6. rewrite xdiv_Fin in P6 by lra.
    assert (Ep : p = Fin (x / 100)).
    { destruct P6 as [(_ & [P6|[P6|P6]])|(_ & (P6 & _) & _)]; try (apply xisnan_spec in P6; discriminate). apply P6. split; apply Rleb_spec; lra. }
    subst p. rewrite P4, P5. split; reflexivity.
  - destruct Wd as (x & lo & hi & Nt & Li & Bx). apply limits_row in Li as [(K & _)|[(_ & -> & ->)|K]]; [discriminate| |cbn in K; tauto]. exists x. split; [auto|].
    rewrite (Gp 4%Z x 50%Z), Rmin_left; [reflexivity|lra|cbn; tauto|rewrite Y2 by (cbn; auto); auto|lra].
  - destruct Pv as (x & lo & hi & Nt & Li & Bx & _). apply limits_row in Li as [(_ & -> & ->)|[(K & _)|K]]; [|discriminate|cbn in K; tauto]. exists x. split; [auto|].
    apply (Gp 2%Z x 30%Z); [cbn; tauto|rewrite Y2 by (cbn; auto); auto|lra].
Qed.
Lemma in_mw (s0 s : sim XR) : sim_init (anm6_network (F := XR)) easy_dt (nofZ 100) = Ok s0 -> forall l k, s = run s0 l ->
  (forall i s1 s2 s3, In (i, (s1, s2, s3)) [(1, (-1, -5, -2)); (3, (-4, -10, -20)); (5, (0, -25, 0))]%Z ->
     obs s "dev_p" "pu" (EId i) = Some (Fin (scenario (IZR s1) (IZR s2) (IZR s3) k / 100)) /\
     obs s "dev_q" "pu" (EId i) = Some (Fin (scenario (IZR s1) (IZR s2) (IZR s3) k / 100 * (2 / 10)))) /\
  (exists x, nth_error (table 4) k = Some (Fin x) /\ obs s "gen_p_max" "pu" (EId 4) = Some (Fin (x / 100))) /\
  (exists x, nth_error (table 2) k = Some (Fin x) /\ obs s "gen_p_max" "pu" (EId 2) = Some (Fin (Rmin x 30 / 100))) ->
  easy_day s k.
Proof.
  intros Hs l k -> (A & (x & X1 & X2) & (y & Y1 & Y2)).
  assert (Un : forall key u i, In (key, u) power_units -> obs (run s0 l) key u i = option_map (fun x => xmul x (Fin 100)) (obs (run s0 l) key "pu" i)).
  { intros key u i I. apply (units_power_state _ _ _ _ _ _ _ _ Hs I). }
  split; [|split].
  - intros i s1 s2 s3 I. destruct (A i s1 s2 s3 I) as (A1 & A2). rewrite (Un "dev_p" "MW"), (Un "dev_q" "MVAr") by (cbn; tauto). rewrite A1, A2. cbn [option_map xmul]. split; do 2 f_equal; field.
  - exists x. split; [auto|]. rewrite (Un "gen_p_max" "MW") by (cbn; tauto). rewrite X2. cbn [option_map xmul]. do 2 f_equal. field.
  - exists y. split; [auto|]. rewrite (Un "gen_p_max" "MW") by (cbn; tauto). rewrite Y2. cbn [option_map xmul]. do 2 f_equal. field.
Qed.
(** the same for any step of a live episode, the one that ends it included *)
Lemma live_step_values : forall (G : Type) (ro : rng_ops XR G) sf g a0 cs Or0 seed date a1 ob,
  rng_sound ro -> easy_make g = Ok a0 -> easy_reset Or0 ro sf seed date (run6 ro sf a0 cs) = (a1, Ok ob) ->
  exists t0, (0 <= t0 < 96)%Z /\ time_index a1 = Some (nofZ t0) /\ forall n a Or act a2 out, stepping ro sf alive n a1 a ->
    easy_step Or ro sf act a = (a2, Ok out) -> e_term (a_env a) = Some false ->
    easy_day (e_sim (a_env a2)) (Z.to_nat ((t0 + Z.of_nat n + 1) mod 96)).
Proof.
  intros G ro sf g a0 cs Or0 seed date a1 ob Rs B H.
  destruct (C44_time_index XR G _ ro sf g a0 cs Or0 seed date a1 ob clock_XR Rs B H) as (t0 & Ht & A). exists t0. split; [auto|].
  split. { destruct (A 0%nat a1 (SNone _ _ _ a1)) as (K & _). rewrite Z.add_0_r, Z.mod_small in K by lia. exact K. }
  intros n a Or act a2 out St Es Et. set (k := Z.to_nat ((t0 + Z.of_nat n + 1) mod 96)). destruct (A n a St) as (_ & v & Sv & Av). clear A.
  destruct (start_facts clock_XR g a0 B) as (e0 & R0 & E0 & Hs & Sr).
  assert (R1 : reach6 g e0 a1). { pose proof (easy_reset_reach g e0 Or0 ro sf seed date _ (run6_reach g e0 ro sf cs a0 R0)) as R. rewrite H in R. exact R. }
  assert (Sr1 : simrun (e_sim e0) a1). { pose proof (sr_reset (e_sim e0) Or0 ro sf seed date _ (sr_run6 _ ro sf cs _ Sr)) as S1. rewrite H in S1. exact S1. }
  pose proof (stepping_reach g e0 ro sf alive n a1 a St R1) as (Hg & _). destruct (sr_stepping _ ro sf alive n a1 a St Sr1) as (l & El).
  unfold easy_step, anm6_step in Es. destruct (env_step Or _ act (a_env a)) as (e', [o|x]) eqn:E; [|discriminate].
  assert (Ea : a_env a2 = e' /\ o = out) by (destruct (a_date a); [destruct (a_date_init a)|]; injection Es as <- E'; try discriminate; split; auto; congruence).
  destruct Ea as (Ea & ->). clear Es.
  destruct (gd_step_inv _ _ _ _ _ _ Hg E) as [(Tt & _)|(st & vars & el & pen & conv & L)]; [congruence|].
  pose proof (lv_next _ _ _ _ _ _ _ _ _ _ _ L) as Nx. pose proof (lv_state _ _ _ _ _ _ _ _ _ _ _ L) as Est. destruct (lv_trans _ _ _ _ _ _ _ _ _ _ _ L) as (fl & rr & Tr).
  unfold sampled in Sv. rewrite Est in Sv. injection Sv as Sv. apply (f_equal fst) in Nx. change (easy_next st = Ok vars) in Nx. rewrite Nx in Sv. injection Sv as ->.
  destruct (anm6_ids (F := XR)) as (D1 & D2 & D3 & D4).
  assert (Ly : layout [1; 3; 5]%Z [2; 4]%Z [6]%Z v act (step_inputs (a_env a) v act)).
  { destruct (gd_lists _ Hg _ _ _ _ D1 D2 D3 D4) as (A1 & A2 & A3 & A4 & _). rewrite A2, A3, A4. apply step_inputs_layout.
    eapply static_nodup; [exact Hs|]. rewrite El. apply strip_run. }
  rewrite El in Tr. set (inp := step_inputs (a_env a) v act) in *.
  assert (Hk : (0 <= (t0 + Z.of_nat n + 1) mod 96 < 96)%Z) by (apply Z.mod_pos_bound; lia). assert (Hk' : (k < 96)%nat) by (subst k; lia).
  destruct (at_index_tables _ _ Hk Av) as (l1 & l3 & l5 & m2 & m4 & -> & T1 & T3 & T5 & T2 & T4). fold k in T1, T3, T5, T2, T4.
  destruct Ly as (Y1 & Y2 & _).
  assert (Es' : e_sim e' = run (e_sim e0) (l ++ [CTrans Or inp])). { unfold run. rewrite fold_left_app. fold (run (e_sim e0) l). cbn [fold_left run_call]. rewrite Tr. reflexivity. }
  rewrite Ea. apply (in_mw _ _ Hs _ k Es'). apply (easy_values _ _ _ _ _ _ k Hs (strip_run _ l) Tr Hk').
  - intros i I. cbn in I. destruct I as [<-|[<-|[<-|[]]]]; [rewrite T1; apply (Y1 0%nat)|rewrite T3; apply (Y1 1%nat)|rewrite T5; apply (Y1 2%nat)]; reflexivity.
  - intros i I. cbn in I. destruct I as [<-|[<-|[]]]; [rewrite T2; apply (Y2 0%nat)|rewrite T4; apply (Y2 1%nat)]; reflexivity.
Qed.

(** C63.  After the reset and any number of steps that did not end the episode, a further such step leaves in the simulator, in MW, the
    demands of the documented day at the current quarter of an hour (with reactive power 0.2 times the real one), the tabulated wind potential,
    and the tabulated PV potential cut at the installed 30 MW. *)
Theorem C63_step_values : forall (G : Type) (ro : rng_ops XR G) sf g a0 cs Or0 seed date a1 ob,
  rng_sound ro -> easy_make g = Ok a0 -> easy_reset Or0 ro sf seed date (run6 ro sf a0 cs) = (a1, Ok ob) ->
  exists t0, (0 <= t0 < 96)%Z /\ time_index a1 = Some (nofZ t0) /\ forall n a Or act a2 out, stepping ro sf alive n a1 a ->
    easy_step Or ro sf act a = (a2, Ok out) -> so_terminated out = false ->
    easy_day (e_sim (a_env a2)) (Z.to_nat ((t0 + Z.of_nat n + 1) mod 96)).
Proof.
  intros G ro sf g a0 cs Or0 seed date a1 ob Rs B H. destruct (live_step_values G ro sf g a0 cs Or0 seed date a1 ob Rs B H) as (t0 & Ht & Ti & A). exists t0. split; [exact Ht|]. split; [exact Ti|].
  intros n a Or act a2 out St Es Et. apply (A n a Or act a2 out St Es).
  destruct (start_facts clock_XR g a0 B) as (e0 & R0 & E0 & Hs & Sr).
  assert (R1 : reach6 g e0 a1). { pose proof (easy_reset_reach g e0 Or0 ro sf seed date _ (run6_reach g e0 ro sf cs a0 R0)) as R. rewrite H in R. exact R. }
  pose proof (stepping_reach g e0 ro sf alive n a1 a St R1) as (Hg & _).
  unfold easy_step, anm6_step in Es. destruct (env_step Or _ act (a_env a)) as (e', [o|x]) eqn:E; [|discriminate].
  assert (Ea : o = out) by (destruct (a_date a); [destruct (a_date_init a)|]; injection Es as <- E'; try discriminate; congruence). subst o.
  destruct (gd_step_inv _ _ _ _ _ _ Hg E) as [(_ & _ & _ & sp & _ & ->)|(st & vars & el & pen & conv & L)]; [discriminate|]. exact (lv_term _ _ _ _ _ _ _ _ _ _ _ L).
Qed.

Print Assumptions C47_initial_sample.
Print Assumptions C47_initial_soc.
Print Assumptions C47_refuted.
Print Assumptions C47_sample_refuted.
Print Assumptions C63_step_values.
