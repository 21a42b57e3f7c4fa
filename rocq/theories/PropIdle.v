(** C93: the documented action that does nothing, [30, 50, 0, 0, 0, 0], does nothing in ANM6Easy. *)
From Coq Require Import Reals Lra Lia.
From Verif Require Import Base Num NumXR Devices BusBranch CheckNetwork LoadFlow Simulator EnvArgs Env Anm6 LibBase LibNum LibSim LibXR LibEval LibInit
  SpecSim ProofSim ProofObs ProofHist ProofSoc ProofReset ProofUnits SpecDev SpecQp ProofVals ProofBounds ProofDevs SpecEnv SpecObs ProofEnv ProofStep ProofState ProofDraw ProofEnvOk PropEnv
  PropSet PropTotal ProofTotal SpecTotal SpecMpc PropExec ProofResetIn SpecAnm6 ProofEasy ProofAnm6 PropEasy PropEasy2 PropEasy3 PropEasy4 PropState.
Local Open Scope string_scope.
Local Open Scope list_scope.
Local Open Scope R_scope.
Set Bullet Behavior "Strict Subproofs".

(** PV plant and wind farm at full power without reactive power, storage unit at rest *)
Definition nothing : list XR := [Fin 30; Fin 50; Fin 0; Fin 0; Fin 0; Fin 0].
(** In the simulator: the generators inject all that they can and no reactive power, and the storage unit, holding [c] MWh, is at rest. *)
Definition at_rest (s : sim XR) (c : R) : Prop :=
  (forall i, i = 2%Z \/ i = 4%Z -> exists x, obs s "gen_p_max" "MW" (EId i) = Some (Fin x) /\ obs s "dev_p" "MW" (EId i) = Some (Fin x) /\ obs s "dev_q" "MVAr" (EId i) = Some (Fin 0)) /\
  obs s "dev_p" "MW" (EId 6) = Some (Fin 0) /\ obs s "dev_q" "MVAr" (EId 6) = Some (Fin 0) /\ obs s "des_soc" "MWh" (EId 6) = Some (Fin c).
(** [n] steps that do nothing *)
Inductive resting {G} (ro : rng_ops XR G) (sf : Z -> G) : nat -> anm6 XR G -> anm6 XR G -> Prop :=
| RNone a : resting ro sf 0 a a
| RStep n a a1 a2 Or out : resting ro sf n a a1 -> qp_exact (o_qp Or) -> qp_sound 0 (o_qp Or) -> easy_step Or ro sf nothing a1 = (a2, Ok out) -> so_terminated out = false -> resting ro sf (S n) a a2.

Ltac limits := unfold PMIN, PMAX, QMIN, QMAX, PPLUS, QPLUS, QMINUS, PMINUS, SOCMIN, or_else, PMAX, QMAX, QMIN, PMIN; cbn [dr_pmin dr_pmax dr_qmin dr_qmax dr_pplus dr_pminus dr_qplus dr_qminus dr_socmin dr_socmax nofZ XRnum];
  rewrite ?xdiv_Fin by lra.
Lemma idle_gen i hi : In (i, hi) [(2%Z, 30); (4%Z, 50)] -> exists r, In r (nw_dev anm6x) /\ dr_id r = Some i /\ dr_type r = Some 2%Z /\
  forall p, 0 <= p <= hi / 100 -> gen_region r 100 (Fin p) p 0.
Proof.
  intros I. cbn [In] in I. decompose [or] I; try contradiction; match goal with H : (_, _) = _ |- _ => injection H as <- <- end; eexists; unshelve (once (split; [pick|split; [reflexivity|split; [reflexivity|]]]));
    intros p Hp; unfold gen_region; limits; repeat split; try (apply xle_Fin; lra); try (apply cut_below || apply cut_above; apply xle_Fin; lra).
Qed.
Lemma idle_stor : exists r, In r (nw_dev anm6x) /\ dr_id r = Some 6%Z /\ dr_type r = Some 3%Z /\ EFF r = Fin (9/10) /\ forall c, 0 <= c <= 1 -> stor_region r 100 (9/10) (1/4) c 0 0.
Proof.
  eexists. unshelve (once (split; [pick|split; [reflexivity|split; [reflexivity|]]])). unfold EFF. cbn [dr_eff or_else]. split; [rewrite nrat_XR by lia; f_equal|].
  intros c Hc. unfold stor_region, soc_after. destruct (Rle_dec 0 0); [|lra]. limits.
  repeat (split; [first [apply xle_Fin; lra | apply cut_below; apply xle_Fin; lra | apply cut_above; apply xle_Fin; lra | apply cut_below_l; apply xle_Fin; lra | apply cut_above_l; apply xle_Fin; lra]|]).
  exists (Fin 100). split; [reflexivity|]. rewrite xdiv_Fin by lra. apply xle_Fin. lra.
Qed.
Lemma map_of r : In r (nw_dev anm6x) -> mappable r.
Proof. intros I. pose proof ax_mappable as M. rewrite Forall_forall in M. auto. Qed.

(** the transition *)
Lemma idle_trans (s0 s1 : sim XR) l Or inp out c : sim_init anm6x (Fin (1/4)) (nofZ 100) = Ok s0 -> transition Or inp (run s0 l) = (s1, Ok out) -> qp_exact (o_qp Or) -> qp_sound 0 (o_qp Or) ->
  dget Z.eqb (ti_p inp) 2%Z = Some (Fin 30) -> dget Z.eqb (ti_q inp) 2%Z = Some (Fin 0) -> dget Z.eqb (ti_p inp) 4%Z = Some (Fin 50) -> dget Z.eqb (ti_q inp) 4%Z = Some (Fin 0) ->
  dget Z.eqb (ti_p inp) 6%Z = Some (Fin 0) -> dget Z.eqb (ti_q inp) 6%Z = Some (Fin 0) -> fresh (run s0 l) -> obs (run s0 l) "des_soc" "pu" (EId 6) = Some (Fin c) -> 0 <= c <= 1 ->
  (forall i, i = 2%Z \/ i = 4%Z -> exists x, obs s1 "gen_p_max" "pu" (EId i) = Some (Fin x) /\ obs s1 "dev_p" "pu" (EId i) = Some (Fin x) /\ obs s1 "dev_q" "pu" (EId i) = Some (Fin 0)) /\
  obs s1 "dev_p" "pu" (EId 6) = Some (Fin 0) /\ obs s1 "dev_q" "pu" (EId 6) = Some (Fin 0) /\ obs s1 "des_soc" "pu" (EId 6) = Some (Fin c).
Proof.
  intros Hs T Qe Qs P2 Q2 P4 Q4 P6 Q6 Fr Oc Hc.
  assert (Hs' : sim_init anm6x easy_dt (nofZ 100) = Ok s0) by (unfold easy_dt; rewrite nrat_XR by lia; exact Hs).
  destruct (trans_fits s0 (run s0 l) s1 Or inp out Hs' (strip_run s0 l) T Qs) as (_ & F2).
  assert (Gn : forall i hi, In (i, hi) [(2%Z, 30); (4%Z, 50)] -> dget Z.eqb (ti_p inp) i = Some (Fin hi) -> dget Z.eqb (ti_q inp) i = Some (Fin 0) ->
    exists x, obs s1 "gen_p_max" "pu" (EId i) = Some (Fin x) /\ obs s1 "dev_p" "pu" (EId i) = Some (Fin x) /\ obs s1 "dev_q" "pu" (EId i) = Some (Fin 0)).
  { intros i hi I Ep Eq. destruct (idle_gen i hi I) as (r & Ir & Ei & Ty & Rg). destruct (map_of r Ir) as (Rf & Lm & _). specialize (Lm (or_intror Ty)).
    destruct (C04_lemma anm6x (Fin (1/4)) (nofZ 100) s0 Hs 100 eq_refl l Or inp s1 out T r i Ir Ei hi 0 Qe Rf Lm (or_intror Ty) Ep Eq) as (pot & p & q & O1 & O2 & O3 & _ & Un & _).
    destruct (F2 i hi I) as (x & Ox & Hx). rewrite O1 in Ox. injection Ox as ->. exists x. split; [exact O1|].
    destruct (Un x 0) as (Ep' & Eq'); [|subst p q; auto]. split; [apply Rg; exact Hx|].
    intros p' q' (_ & _ & L & _). apply xle_inv in L. unfold dist2. assert (0 <= (q' - 0 / 100) * (q' - 0 / 100)) by apply Rle_0_sqr.
    assert (0 / 100 = 0) as Z0 by lra. rewrite Z0 in *. nra. }
  destruct idle_stor as (r & Ir & Ei & Ty & Ef & Rg). destruct (map_of r Ir) as (Rf & _ & Lm). specialize (Lm Ty). destruct Lm as (Lm & _).
  assert (Ax : sm_devs s0 = ax_devs /\ sm_base s0 = Fin 100). { destruct (ax_sim easy_dt (nofZ 100)) as (s & Es & Ed & Eb & _). rewrite Es in Hs'. injection Hs' as <-. auto. } destruct Ax as (Ed & Eb).
  destruct (C05_lemma anm6x (Fin (1/4)) (nofZ 100) s0 Hs 100 eq_refl l Or inp s1 out T r 6%Z Ir Ei 0 0 c (9/10) (1/4) Qe Rf Lm Ty eq_refl ltac:(lra) Ef ltac:(lra) Fr Oc) as (p & q & O1 & O2 & _ & _ & Ex & Os); auto.
  { intros lo hi Bd. rewrite (ax_bound s0 "des_soc" "pu" 6 0 1 Ed Eb) in Bd by (cbn [In]; repeat (try (left; reflexivity); right)). injection Bd as <- <-. split; apply xle_Fin; lra. }
  assert (Z0 : 0 / 100 = 0) by lra. rewrite !Z0 in Ex. destruct (Ex (Rg c Hc)) as (-> & ->).
  split; [intros i [->| ->]; eapply Gn; eauto; cbn; auto|]. split; [exact O1|]. split; [exact O2|]. rewrite Os. unfold soc_after. destruct (Rle_dec 0 0); [|lra]. do 2 f_equal. lra.
Qed.

(** what holds between the calls of an episode *)
Section Episode.
  Context {G : Type} (ro : rng_ops XR G) (sf : Z -> G) (g : G) (a0 : anm6 XR G) (Rs : rng_sound ro) (B : easy_make g = Ok a0).
  Notation s0 := (e_sim (a_env a0)).
  Definition steady (a : anm6 XR G) : Prop := fresh (e_sim (a_env a)) /\ forall v, obs (e_sim (a_env a)) "des_soc" "MWh" (EId 6) = Some v -> v = NaN \/ exists c, v = Fin c /\ 0 <= c <= 100.
  Lemma init6 : sim_init anm6x easy_dt (nofZ 100) = Ok s0.
  Proof. destruct (start_facts clock_XR g a0 B) as (e0 & _ & <- & Hs & _). exact Hs. Qed.
  Lemma soc_mwh (s : sim XR) l c : s = run s0 l -> obs s "des_soc" "pu" (EId 6) = Some (Fin c) -> obs s "des_soc" "MWh" (EId 6) = Some (Fin (c * 100)).
  Proof. intros -> O. rewrite (units_power_state _ _ _ _ l "des_soc" "MWh" (EId 6) init6) by (cbn; tauto). rewrite O. reflexivity. Qed.
  Lemma soc_pu (s : sim XR) l c : s = run s0 l -> obs s "des_soc" "MWh" (EId 6) = Some (Fin c) -> obs s "des_soc" "pu" (EId 6) = Some (Fin (c / 100)).
  Proof.
    intros -> O. rewrite (units_power_state _ _ _ _ l "des_soc" "MWh" (EId 6) init6) in O by (cbn; tauto). destruct (obs (run s0 l) "des_soc" "pu" (EId 6)) as [x|]; [|discriminate O]. cbn [option_map] in O.
    injection O as O. cbn [nmul XRnum nw_base anm6_network nofZ] in O. destruct x as [w| | |]; [|exfalso; revert O; unfold xmul, inf_sgn; repeat match goal with |- context [if ?b then _ else _] => destruct b end; discriminate..].
    cbn [xmul] in O. injection O as <-. do 2 f_equal. lra.
  Qed.

  Lemma steady_reset cs Or seed date a1 ob : easy_reset Or ro sf seed date (run6 ro sf a0 cs) = (a1, Ok ob) -> steady a1 /\ exists c, obs (e_sim (a_env a1)) "des_soc" "MWh" (EId 6) = Some (Fin c) /\ 0 <= c <= 100.
  Proof.
    intros H. destruct (C47_initial_soc clock_XR ro sf g a0 B cs Or seed date a1 ob H) as (lo & hi & g1 & st & Bd & Est & N14 & O14).
    pose proof init6 as Hs. assert (Ax : sm_devs s0 = ax_devs /\ sm_base s0 = Fin 100). { destruct (ax_sim easy_dt (nofZ 100)) as (s & Es & Ed & Eb & _). rewrite Es in Hs. injection Hs as <-. auto. } destruct Ax as (Ed & Eb).
    rewrite (ax_bound s0 "des_soc" "pu" 6 0 1 Ed Eb) in Bd by (cbn [In]; repeat (try (left; reflexivity); right)). injection Bd as <- <-.
    destruct (rs_unif _ Rs (Fin 0) (Fin 1) g1 ltac:(apply xle_Fin; lra)) as (U1 & U2). destruct (fst (r_unif ro (Fin 0) (Fin 1) g1)) as [c| | |]; try discriminate. apply xle_inv in U1, U2.
    cbn [ndiv nmul nofZ XRnum] in N14. rewrite xdiv_Fin in N14 by lra. cbn [xmul] in N14. rewrite <- O14 in N14. assert (Hc : 0 <= c / 100 * 100 <= 100) by lra.
    split; [|eauto]. split; [|intros v Ov; rewrite N14 in Ov; injection Ov as <-; eauto].
    pose proof (kept_run ro sf g a0 cs _ (kept_start g a0 B)) as ((Hg & _) & _).
    unfold easy_reset, anm6_reset in H. destruct (env_reset Or _ seed _) as (e', [ob'|x]) eqn:E; [|discriminate].
    pose proof (live_fresh _ _ _ _ _ _ _ _ _ _ (easy_task ro sf (e_sim (a_env (run6 ro sf a0 cs)))) _ (EReset Or seed) Hg) as Fr. cbn [live_call run_ecall] in Fr. rewrite E in Fr. specialize (Fr eq_refl). cbn [fst] in Fr.
    assert (Ea : e_sim (a_env a1) = e_sim e').
    { destruct date as [d|]; [|destruct (random_date ro 0 (e_rng e')) as (d, gr)]; cbn in H; destruct (e_state e') as [q|]; try discriminate; (destruct (xtrunc _); [|discriminate H]); injection H as <- _; cbn; auto. }
    rewrite Ea. exact Fr.
  Qed.
  (** a step of a live episode, seen from the simulator *)
  Lemma step_sim Or act a a2 out : reach6 g (a_env a0) a -> easy_step Or ro sf act a = (a2, Ok out) -> so_terminated out = false ->
    exists vars fl, transition Or (step_inputs (a_env a) vars act) (e_sim (a_env a)) = (e_sim (a_env a2), Ok fl).
  Proof.
    intros (Hg & _) E2 Tf. unfold easy_step, anm6_step in E2. destruct (env_step Or _ act (a_env a)) as (e', [o|x]) eqn:E; [|discriminate].
    assert (Ea : a_env a2 = e' /\ o = out) by (destruct (a_date a); [destruct (a_date_init a)|]; injection E2 as <- E'; try discriminate; split; auto; congruence).
    destruct Ea as (-> & ->). destruct (gd_step_inv _ _ _ _ _ _ Hg E) as [(_ & _ & _ & sp & _ & ->)|(st1 & vars & el & pen & conv & L)]; [discriminate|].
    destruct (lv_trans _ _ _ _ _ _ _ _ _ _ _ L) as (fl & rr & Tr). eauto.
  Qed.
  Lemma steady_step Or act a a2 out : reach6 g (a_env a0) a -> simrun s0 a -> easy_step Or ro sf act a = (a2, Ok out) -> so_terminated out = false -> steady a2.
  Proof.
    intros R (l & El) E Tf. destruct (step_sim Or act a a2 out R E Tf) as (vars & fl & Tr). rewrite El in Tr. split.
    - pose proof (call_fresh (run s0 l) (CTrans Or (step_inputs (a_env a) vars act))) as Q. cbn in Q. rewrite Tr in Q. apply Q. reflexivity.
    - intros v Ov. pose proof (sr_step _ Or ro sf act a (ex_intro _ l El)) as (l2 & El2). rewrite E in El2. cbn [fst] in El2.
      pose proof (fun w => trans_soc6 s0 _ _ _ _ _ w init6 (strip_run s0 l) Tr) as Sc. rewrite El2 in Ov, Sc. rewrite (units_power_state _ _ _ _ l2 "des_soc" "MWh" (EId 6) init6) in Ov by (cbn; tauto).
      destruct (obs (run s0 l2) "des_soc" "pu" (EId 6)) as [w|]; [|discriminate]. cbn [option_map] in Ov. injection Ov as <-. destruct (Sc w eq_refl) as [->|(c & -> & Hc)]; [left; reflexivity|right].
      exists (c * 100). split; [reflexivity|lra].
  Qed.
  Lemma steady_stepping n a1 a : stepping ro sf alive6 n a1 a -> reach6 g (a_env a0) a1 -> simrun s0 a1 -> steady a1 -> steady a.
  Proof.
    intros St R S J. induction St as [a1|n a1 a3 a4 Or1 act1 out1 St IH E1 P1|n a1 a3 Or1 act1 St IH E1|n a1 a3 hu sk st up St IH|n a1 a3 St IH]; auto.
    - apply (steady_step Or1 act1 a3 a4 out1); auto; [eapply stepping_reach|eapply sr_stepping]; eauto.
    - rewrite refused_step by auto. auto.
    - unfold steady. destruct (render_keeps hu sk st up a3) as (A1 & _). rewrite A1. apply IH; auto.
  Qed.
End Episode.

(** C93.  At any point of any episode, with a solver that returns the nearest point of the feasible set: the action is in the action space, and if the step
    does not end the episode then afterwards the generators inject their whole potential and no reactive power, the storage unit neither charges nor
    discharges, and its energy is what it was. *)
Theorem C93_do_nothing : forall (G : Type) (ro : rng_ops XR G) sf g a0 cs Or0 seed date a1 ob, rng_sound ro -> easy_make g = Ok a0 -> easy_reset Or0 ro sf seed date (run6 ro sf a0 cs) = (a1, Ok ob) ->
  forall n a, stepping ro sf alive6 n a1 a -> valid_action (a_env a) nothing /\
  forall Or a2 out c, qp_exact (o_qp Or) -> qp_sound 0 (o_qp Or) -> obs (e_sim (a_env a)) "des_soc" "MWh" (EId 6) = Some (Fin c) ->
    easy_step Or ro sf nothing a = (a2, Ok out) -> so_terminated out = false -> at_rest (e_sim (a_env a2)) c.
Proof.
  intros G ro sf g a0 cs Or0 seed date a1 ob Rs B H n a St.
  pose proof (kept_run ro sf g a0 cs _ (kept_start g a0 B)) as K. pose proof (kept_reset ro sf g a0 Or0 seed date _ K) as K1. rewrite H in K1. cbn [fst] in K1.
  destruct (steady_reset ro sf g a0 Rs B cs Or0 seed date a1 ob H) as (J1 & _). pose proof (steady_stepping ro sf g a0 B n a1 a St (proj1 K1) (proj1 (proj2 K1)) J1) as (Fr & Sc).
  destruct (kept_stepping ro sf g a0 alive6 n a1 a St K1) as (R & S & _). split.
  - destruct R as (Hg & _). unfold valid_action. rewrite (gd_aspace _ Hg). destruct (e6_devs g a0 B) as (Ed & Eb).
    unfold build_action_space, get_action_space. rewrite Ed, Eb. cbn -[xleb nleb box_contains]. rewrite ?xdiv_Fin by lra. unfold box_contains, nothing. cbn. xeval. rewrite ?(proj2 (Rleb_spec _ _)) by lra. reflexivity.
  - intros Or a2 out c Qe Qs Oc E Tf. destruct (step_sim ro sf g a0 Or nothing a a2 out R E Tf) as (vars & fl & Tr). destruct S as (l & El).
    pose proof (init6 g a0 B) as Hs. assert (Hs' : sim_init anm6x (Fin (1/4)) (nofZ 100) = Ok (e_sim (a_env a0))) by (unfold easy_dt in Hs; rewrite nrat_XR in Hs by lia; exact Hs).
    destruct (anm6_ids (F := XR)) as (D1 & D2 & D3 & D4). destruct R as (Hg & _).
    assert (Ly : layout [1; 3; 5]%Z [2; 4]%Z [6]%Z vars nothing (step_inputs (a_env a) vars nothing)).
    { destruct (gd_lists _ Hg _ _ _ _ D1 D2 D3 D4) as (A1 & A2 & A3 & A4 & _). rewrite A2, A3, A4. apply step_inputs_layout. eapply static_nodup; [exact Hs|]. rewrite El. apply strip_run. }
    destruct Ly as (_ & Y2 & Y3). cbn [List.length] in Y2, Y3. destruct (Y2 0%nat 2%Z eq_refl) as (_ & P2 & Q2). destruct (Y2 1%nat 4%Z eq_refl) as (_ & P4 & Q4). destruct (Y3 0%nat 6%Z eq_refl) as (P6 & Q6).
    pose proof (soc_pu g a0 B _ l c El Oc) as Op. destruct (Sc _ Oc) as [Q|(c' & Q & Hc)]; [discriminate Q|]. injection Q as <-.
    pose proof (sr_step _ Or ro sf nothing a (ex_intro _ l El)) as (l2 & El2). rewrite E in El2. cbn [fst] in El2.
    rewrite El in Tr, Fr, Op. destruct (idle_trans _ _ l Or _ _ (c / 100) Hs' Tr Qe Qs P2 Q2 P4 Q4 P6 Q6 Fr Op ltac:(lra)) as (Gn & O1 & O2 & O3).
    assert (Un : forall key u i x, In (key, u) power_units -> obs (e_sim (a_env a2)) key "pu" i = Some (Fin x) -> obs (e_sim (a_env a2)) key u i = Some (Fin (x * 100))).
    { intros key u i x I O. rewrite El2 in O |- *. rewrite (units_power_state _ _ _ _ _ _ _ _ Hs I), O. reflexivity. }
    apply (Un _ "MW") in O1; [|cbn; tauto]. apply (Un _ "MVAr") in O2; [|cbn; tauto]. apply (Un _ "MWh") in O3; [|cbn; tauto].
    rewrite Rmult_0_l in O1, O2. replace (c / 100 * 100) with c in O3 by lra. split; [|auto].
    intros i I. destruct (Gn i I) as (x & G1 & G2 & G3). apply (Un _ "MW") in G1, G2; try (cbn; tauto). apply (Un _ "MVAr") in G3; [|cbn; tauto]. rewrite Rmult_0_l in G3. eauto.
Qed.
(** ... so along an episode in which the agent does nothing from the reset on, the storage unit keeps the energy that the reset gave it. *)
Theorem C93_idle_episode : forall (G : Type) (ro : rng_ops XR G) sf g a0 cs Or0 seed date a1 ob, rng_sound ro -> easy_make g = Ok a0 -> easy_reset Or0 ro sf seed date (run6 ro sf a0 cs) = (a1, Ok ob) ->
  exists c, 0 <= c <= 100 /\ obs (e_sim (a_env a1)) "des_soc" "MWh" (EId 6) = Some (Fin c) /\ forall n a, resting ro sf n a1 a -> (0 < n)%nat -> at_rest (e_sim (a_env a)) c.
Proof.
  intros G ro sf g a0 cs Or0 seed date a1 ob Rs B H. destruct (steady_reset ro sf g a0 Rs B cs Or0 seed date a1 ob H) as (_ & c & Oc & Hc). exists c. split; [exact Hc|]. split; [exact Oc|].
  assert (P : forall n a, resting ro sf n a1 a -> stepping ro sf alive6 n a1 a /\ obs (e_sim (a_env a)) "des_soc" "MWh" (EId 6) = Some (Fin c) /\ ((0 < n)%nat -> at_rest (e_sim (a_env a)) c)).
  { intros n a R. remember a1 as b1. induction R as [b|n b b3 b4 Or out R IH Qe Qs E Tf]; subst.
    - split; [constructor|]. split; [exact Oc|lia].
    - destruct (IH eq_refl H Oc) as (St & O & _). destruct (C93_do_nothing G ro sf g a0 cs Or0 seed date a1 ob Rs B H n b3 St) as (_ & A). pose proof (A Or b4 out c Qe Qs O E Tf) as Re.
      split; [eapply SStep; eauto; exact Tf|]. split; [apply Re|auto]. }
  intros n a R. apply P. exact R.
Qed.

(** The hypotheses are met: generators and exact solvers exist, the environment can be built, and a reset returns unless 99 samples in a row diverge (C74). *)
Example C93_ex : exists (a0 : anm6 XR nat) Or, rng_sound low_rng /\ easy_make 0%nat = Ok a0 /\ qp_exact (o_qp Or) /\ qp_sound 0 (o_qp Or) /\ good_oracles Or /\
  forall sf cs date, answers6 low_rng sf (e_sim (a_env a0)) (run6 low_rng sf a0 cs) (E6Reset Or None date) /\
    forall a1 ob, easy_reset Or low_rng sf None date (run6 low_rng sf a0 cs) = (a1, Ok ob) -> valid_action (a_env a1) nothing /\ exists c, 0 <= c <= 100 /\
      forall a2 out, easy_step Or low_rng sf nothing a1 = (a2, Ok out) -> so_terminated out = false -> resting low_rng sf 1 a1 a2 /\ at_rest (e_sim (a_env a2)) c.
Proof.
  destruct C06_solver_exists as (qp & Qs & Qe & Qc). destruct (C74_constructed nat 0%nat) as (a0 & B). exists a0, (mkOr qp gauss_solve).
  assert (Go : good_oracles (mkOr qp gauss_solve)) by (split; [exact Qe|split; [exact Qc|apply C68_linear_solver_exists]]).
  split; [apply low_sound|]. split; [exact B|]. split; [exact Qe|]. split; [exact Qs|]. split; [exact Go|]. intros sf cs date. split; [apply (C74_easy_resets nat low_rng sf 0%nat a0); auto using low_sound|].
  intros a1 ob H. split; [apply (C93_do_nothing nat low_rng sf 0%nat a0 cs _ None date a1 ob low_sound B H 0%nat a1 (SNone _ _ _ a1))|].
  destruct (C93_idle_episode nat low_rng sf 0%nat a0 cs _ None date a1 ob low_sound B H) as (c & Hc & _ & A). exists c. split; [exact Hc|]. intros a2 out E T.
  assert (R : resting low_rng sf 1 a1 a2) by (apply (RStep low_rng sf 0%nat a1 a1 a2 (mkOr qp gauss_solve) out); auto; constructor). split; [exact R|]. apply (A 1%nat); auto.
Qed.

Print Assumptions C93_do_nothing.
Print Assumptions C93_idle_episode.
