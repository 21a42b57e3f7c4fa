(** C94: the set-points that a step reports, sent instead of the requested ones, produce the same step. *)
From Coq Require Import Reals Lra Lia.
From Verif Require Import Base Num NumXR Devices BusBranch CheckNetwork LoadFlow Simulator EnvArgs Env LibBase LibNum LibSim LibXR LibQp LibInit
  SpecSim ProofSim ProofObs ProofHist ProofSoc ProofReset ProofUnits SpecDev SpecQp ProofVals ProofBounds ProofDevs SpecEnv ProofEnv ProofStep ProofState ProofDraw ProofEnvOk PropEnv ProofRestore ProofUnits64 ProofPf PropUnits.
Local Open Scope string_scope.
Local Open Scope list_scope.
Local Open Scope R_scope.
Set Bullet Behavior "Strict Subproofs".

(** The set-points of [inp'] for generators and storage units are those that the simulator [s'] reports; demands and potentials are those of [inp]. *)
Definition sends_back (nw : network XR) (s' : sim XR) (inp inp' : tr_in XR) : Prop :=
  (forall i, dget Z.eqb (ti_load inp') i = dget Z.eqb (ti_load inp) i) /\ (forall i, dget Z.eqb (ti_pot inp') i = dget Z.eqb (ti_pot inp) i) /\
  forall r i t, In r (nw_dev nw) -> dr_id r = Some i -> dr_type r = Some t -> In t (GENS ++ STORS) ->
    dget Z.eqb (ti_p inp') i = obs s' "dev_p" "MW" (EId i) /\ dget Z.eqb (ti_q inp') i = obs s' "dev_q" "MVAr" (EId i).

Section Dev.
  Context (b : R) (Hb : 0 < b) (qp qp' : qp_solver XR) (Qs : qp_sound 0 qp) (Qe : qp_exact qp') (Qc : qp_complete qp') (dt : XR).
  Lemma resend_dev inp inp' d d1 : dev_transition qp (Fin b) dt inp d = (d1, Ok tt) ->
    dget Z.eqb (ti_load inp') (d_id d) = dget Z.eqb (ti_load inp) (d_id d) -> dget Z.eqb (ti_pot inp') (d_id d) = dget Z.eqb (ti_pot inp) (d_id d) ->
    (is_nsgen d = true \/ is_stor d = true -> dget Z.eqb (ti_p inp') (d_id d) = Some (nmul (d_p d1) (Fin b)) /\ dget Z.eqb (ti_q inp') (d_id d) = Some (nmul (d_q d1) (Fin b))) ->
    dev_transition qp' (Fin b) dt inp' d = (d1, Ok tt).
  Proof.
    intros T L P A. unfold dev_transition, is_nsgen, is_gen, is_stor in *. destruct (d_spec d) as [l|g|t].
    - unfold dgetE in *. rewrite L. exact T.
    - destruct (d_slack d); [exact T|]. unfold dgetE in *. rewrite P. destruct (dget Z.eqb (ti_pot inp) (d_id d)) as [pot|]; [|exact T].
      destruct (A (or_introl eq_refl)) as (-> & ->).
      destruct (dget Z.eqb (ti_p inp) (d_id d)) as [u|]; [|discriminate T]. destruct (dget Z.eqb (ti_q inp) (d_id d)) as [v|]; [|discriminate T].
      cbn [bind] in T |- *. unfold gen_map_pq in *.
      match type of T with context [qp ?rows ?x] => destruct (qp rows x) as [(p, q)|e] eqn:E end; [|discriminate T].
      injection T as <-. apply Qs in E as (x & y & -> & -> & Rw). cbn [fst snd d_p d_q d_set_pq]. rewrite !mul_div_back by exact Hb.
      rewrite (qp_self qp' Qe Qc _ x y Rw). reflexivity.
    - unfold dgetE in *. destruct (A (or_intror eq_refl)) as (-> & ->).
      destruct (dget Z.eqb (ti_p inp) (d_id d)) as [u|]; [|discriminate T]. destruct (dget Z.eqb (ti_q inp) (d_id d)) as [v|]; [|discriminate T].
      cbn [bind] in T |- *. unfold stor_map_pq in *. destruct (d_soc d) as [c|]; [|discriminate T]. destruct (stor_rows t c dt) as [rows|e]; cbn [bind] in T |- *; [|discriminate T].
      match type of T with context [qp ?rows ?x] => destruct (qp rows x) as [(p, q)|e] eqn:E end; cbn [bind] in T; [|discriminate T].
      injection T as <-. apply Qs in E as (x & y & -> & -> & Rw). cbn [fst snd d_p d_q d_set_pq d_set_soc]. rewrite !mul_div_back by exact Hb.
      rewrite (qp_self qp' Qe Qc _ x y Rw). reflexivity.
  Qed.
  Lemma resend_devs inp inp' ds ds1 u : devs_transition qp (Fin b) dt inp ds = (ds1, Ok u) ->
    (forall d d1, In d ds -> dev_transition qp (Fin b) dt inp d = (d1, Ok tt) -> dev_transition qp' (Fin b) dt inp' d = (d1, Ok tt)) ->
    devs_transition qp' (Fin b) dt inp' ds = (ds1, Ok u).
  Proof.
    revert ds1. induction ds as [|d ds IH]; intros ds1 T A; [exact T|]. cbn [devs_transition] in *.
    destruct (dev_transition qp (Fin b) dt inp d) as (d1, [[]|e]) eqn:E; [|discriminate T]. rewrite (A d d1 (or_introl eq_refl) E).
    destruct (devs_transition qp (Fin b) dt inp ds) as (l, r) eqn:E2. cbn [fst snd] in T. injection T as <- ->. rewrite (IH l eq_refl) by (intros; apply A; [right|]; auto). reflexivity.
  Qed.
End Dev.

Section Sim.
  Context (nw : network XR) (dt lamb : XR) (s0 : sim XR) (H0 : sim_init nw dt lamb = Ok s0) (b : R) (Eb : nw_base nw = Fin b).
  Lemma resend_any s s' Or Or' inp inp' out : strip s = strip s0 -> qp_sound 0 (o_qp Or) -> qp_exact (o_qp Or') -> qp_complete (o_qp Or') -> o_lin Or' = o_lin Or ->
    transition Or inp s = (s', Ok out) ->
    (forall d, In d (sm_devs s) -> dget Z.eqb (ti_load inp') (d_id d) = dget Z.eqb (ti_load inp) (d_id d) /\ dget Z.eqb (ti_pot inp') (d_id d) = dget Z.eqb (ti_pot inp) (d_id d)) ->
    (forall i, (exists r t, In r (nw_dev nw) /\ dr_id r = Some i /\ dr_type r = Some t /\ In t (GENS ++ STORS)) ->
      dget Z.eqb (ti_p inp') i = option_map (fun v => nmul v (Fin b)) (obs s' "dev_p" "pu" (EId i)) /\ dget Z.eqb (ti_q inp') i = option_map (fun v => nmul v (Fin b)) (obs s' "dev_q" "pu" (EId i))) ->
    transition Or' inp' s = (s', Ok out).
  Proof.
    intros Sz Qs Qe Qc El T A1 A2. pose proof (base_pos nw dt lamb s0 H0 b Eb) as Hb. pose proof T as T0. unfold transition in *.
    assert (Bs : sm_base s = Fin b) by (rewrite (strip_base _ _ Sz), <- Eb; eapply init_base; eauto). rewrite Bs in *.
    destruct (devs_transition (o_qp Or) (Fin b) (sm_dt s) inp (sm_devs s)) as (ds, [u|e]) eqn:E; [|discriminate T].
    rewrite (resend_devs b (o_qp Or) (o_qp Or') (sm_dt s) inp inp' (sm_devs s) ds u E); [rewrite El; exact T|].
    intros d d1 Id Td. destruct (A1 d Id) as (L1 & L2). apply (resend_dev b Hb (o_qp Or) (o_qp Or') Qs Qe Qc _ inp inp' d d1 Td L1 L2).
    intros Fl. destruct (init_dev_types _ _ _ _ H0) as (_ & Ir & _ & Kd).
    destruct (static_dev_inv s s0 d (eq_sym Sz) Id) as (dz & Iz & Ez). pose proof (strip_spec _ _ Ez) as (Z1 & Z2 & Z3 & _).
    destruct (Ir dz Iz) as (r & I & Ei & Et). rewrite <- Z2 in Ei. rewrite <- Z3 in Et. destruct (Kd dz Iz) as (_ & K2 & K3 & _).
    assert (Ft : In (d_type d) (GENS ++ STORS)).
    { apply in_or_app. rewrite Z3. destruct Fl as [Fl|Fl]; [left|right]; apply zmem_spec; [rewrite <- K2|rewrite <- K3]; unfold is_nsgen, is_gen, is_stor, d_slack in *; rewrite <- Z1, <- ?Z3; exact Fl. }
    destruct (A2 (d_id d)) as (P & Q); [exists r, (d_type d); auto|]. rewrite P, Q.
    assert (T1 : transition Or inp s = (s', Ok out)) by (unfold transition; rewrite Bs, E; exact T).
    destruct (row_stepped_any nw dt lamb s0 H0 _ _ _ _ _ _ _ Sz T1 I Ei) as (dd0 & dd & dd1 & dd' & R).
    destruct (row_type _ _ _ _ _ _ _ _ _ _ _ _ R) as (R1 & R2 & R3 & R4 & R5 & R6 & R7).
    assert (dd = d). { apply (ProofPf.nodup_inj d_id (sm_devs s)); auto; [eapply ProofEnv.static_nodup; eauto|apply R]. } subst dd.
    pose proof (rs_tr _ _ _ _ _ _ _ _ _ _ _ _ R) as Tr. rewrite Eb, <- (strip_dt _ _ Sz), Td in Tr. injection Tr as <-.
    assert (E1 : dd' = d1). { eapply slack_update_id; [apply (rs_sl _ _ _ _ _ _ _ _ _ _ _ _ R)|]. unfold d_slack. rewrite R7, <- R6. cbn in Ft. destruct Ft as [<-|[<-|[<-|[]]]]; reflexivity. }
    subst dd'. rewrite (rs_p _ _ _ _ _ _ _ _ _ _ _ _ R), (rs_q _ _ _ _ _ _ _ _ _ _ _ _ R). split; reflexivity.
  Qed.
End Sim.

(** C94, simulator.  After any history, for every accepted network: replacing the requested set-points by the ones that the transition reports for the
    generators and storage units reproduces it, whatever had been requested: same simulator, same reward, same convergence flag. *)
Theorem C94_transition : forall (nw : network XR) dt lamb s0 cs b Or Or' inp inp' s' out, sim_init nw dt lamb = Ok s0 -> nw_base nw = Fin b ->
  qp_sound 0 (o_qp Or) -> qp_exact (o_qp Or') -> qp_complete (o_qp Or') -> o_lin Or' = o_lin Or ->
  transition Or inp (run s0 cs) = (s', Ok out) -> sends_back nw s' inp inp' -> transition Or' inp' (run s0 cs) = (s', Ok out).
Proof.
  intros nw dt lamb s0 cs b Or Or' inp inp' s' out H0 Eb Qs Qe Qc El T (A1 & A2 & A3). apply (resend_any nw dt lamb s0 H0 b Eb _ _ Or _ inp); auto; [apply strip_run|].
  intros i (r & t & Ir & Ei & Et & It). destruct (A3 r i t Ir Ei Et It) as (-> & ->).
  assert (Es : s' = run s0 (cs ++ [CTrans Or inp])) by (rewrite run_app; cbn; rewrite T; reflexivity). rewrite Es.
  rewrite (units_power_state nw dt lamb s0 _ "dev_p" "MW" _ H0), (units_power_state nw dt lamb s0 _ "dev_q" "MVAr" _ H0) by (cbn; tauto). rewrite Eb. auto.
Qed.

(** The action vector [P_gen, Q_gen, P_des, Q_des] made of the set-points that [s] reports. *)
Definition reported_action (gens dess : list Z) (s : sim XR) (a : list XR) : Prop :=
  map Some a = reads s "dev_p" "MW" gens ++ reads s "dev_q" "MVAr" gens ++ reads s "dev_p" "MW" dess ++ reads s "dev_q" "MVAr" dess.

Lemma nth_somes {A} (a : list A) L k x : map Some a = L -> nth_error L k = Some x -> nth_error a k = x.
Proof. intros <- E. rewrite nth_error_map in E. destruct (nth_error a k); [|discriminate]. injection E as <-. reflexivity. Qed.
Lemma somes_of {A} (L : list (option A)) : Forall (fun x => exists v, x = Some v) L -> exists a, map Some a = L.
Proof. induction 1 as [|x L (v & ->) _ (a & <-)]; [exists []; reflexivity|]. exists (v :: a). reflexivity. Qed.
Lemma reads_nth (s : sim XR) k u ids j i : nth_error ids j = Some i -> nth_error (reads s k u ids) j = Some (obs s k u (EId i)).
Proof. intros E. unfold reads. rewrite nth_error_map, E. reflexivity. Qed.
Definition fits (ob : option (XR * XR)) (ov : option XR) : Prop := exists lo hi v, ob = Some (lo, hi) /\ ov = Some v /\ within v lo hi.
Lemma fits_ids (s0 s : sim XR) k u ids : (forall i, In i ids -> fits (bound s0 k u (EId i)) (obs s k u (EId i))) -> Forall2 fits (bounds_of s0 k u ids) (reads s k u ids).
Proof. intros H. unfold bounds_of, reads. induction ids as [|i ids IH]; cbn [map]; constructor; [apply H; left; auto|apply IH; intros; apply H; right; auto]. Qed.
Lemma fits_box B a : Forall2 fits (map Some B) (map Some a) -> box_contains (mkBox (map fst B) (map snd B) false) (mkObs true a) = true.
Proof.
  intros H. unfold box_contains. cbn [ov_f64 bx_f32 ov_vec bx_lo bx_hi andb negb]. rewrite map_length.
  assert (Q : List.length a = List.length B /\ forallb (fun p => nleb (fst p) (snd p)) (combine (map fst B) a) = true /\ forallb (fun p => nleb (fst p) (snd p)) (combine a (map snd B)) = true).
  { revert a H. induction B as [|(lo, hi) B IH]; intros [|v a] H; inversion H as [|x y l l' (lo' & hi' & w & E1 & E2 & W1 & W2) H']; subst; [auto|].
    injection E1 as <- <-. injection E2 as <-. destruct (IH a H') as (L & F1 & F2). cbn [map combine forallb fst snd List.length]. rewrite L, F1, F2. unfold within in *. rewrite W1, W2. auto. }
  destruct Q as (-> & -> & ->). rewrite Nat.eqb_refl. reflexivity.
Qed.

(** C94, environments.  At any point of any history: if a step of a live episode returns, then sending the set-points that are reported after it as the
    action instead is allowed and gives the same step (observation, reward, end of episode) and the same environment. *)
Theorem C94_step : forall (G : Type) (nw : network XR) o K dt gamma lamb auxb clip (g : G) e0 (T : task XR G) cs b gens dess Or Or' a e' out,
  env_init nw o K dt gamma lamb auxb clip g = Ok e0 -> nw_base nw = Fin b -> ids_of nw GENS gens -> ids_of nw STORS dess ->
  qp_sound 0 (o_qp Or) -> qp_exact (o_qp Or') -> qp_complete (o_qp Or') -> o_lin Or' = o_lin Or ->
  let e := erun T e0 cs in e_term e = Some false -> env_step Or T a e = (e', Ok out) ->
  (exists a', reported_action gens dess (e_sim e') a') /\
  forall a', reported_action gens dess (e_sim e') a' -> valid_action e a' /\ env_step Or' T a' e = (e', Ok out).
Proof.
  intros G nw o K dt gamma lamb auxb clip g e0 T cs b gens dess Or Or' a e' out B Eb Ig Id Qs Qe Qc El e Te E.
  pose proof (good_erun _ _ _ _ _ _ _ _ _ _ T cs B) as Hg. fold e in Hg. pose proof (gd_sim0 _ Hg) as H0. pose proof (base_pos nw dt lamb _ H0 b Eb) as Hb.
  destruct (gd_step_inv _ _ _ _ _ _ Hg E) as [(Q & _)|(st & vars & el & pen & conv & Lv)]; [congruence|]. destruct (lv_trans _ _ _ _ _ _ _ _ _ _ _ Lv) as (fl & rr & Tr).
  destruct (erun_run T cs e0) as (l & Er). fold e in Er.
  assert (Er' : e_sim e' = run (e_sim e0) (l ++ [CTrans Or (step_inputs e vars a)])) by (rewrite run_app, <- Er; cbn; rewrite Tr; reflexivity).
  assert (Un : forall k u i, In (k, u) power_units -> obs (e_sim e') k u i = option_map (fun v => nmul v (Fin b)) (obs (e_sim e') k "pu" i)).
  { intros k u i I. rewrite Er', (units_power_state nw dt lamb _ _ k u i H0 I), Eb. reflexivity. }
  assert (Fit : forall i, In i gens \/ In i dess -> fits (bound (e_sim e0) "dev_p" "MW" (EId i)) (obs (e_sim e') "dev_p" "MW" (EId i)) /\ fits (bound (e_sim e0) "dev_q" "MVAr" (EId i)) (obs (e_sim e') "dev_q" "MVAr" (EId i))).
  { intros i I. assert (Row : exists r, In r (nw_dev nw) /\ dr_id r = Some i /\ (dr_type r = Some 1%Z \/ dr_type r = Some 2%Z \/ dr_type r = Some 3%Z)).
    { destruct I as [I|I]; [apply (proj2 Ig) in I as (r & t & I1 & I2 & I3 & I4)|apply (proj2 Id) in I as (r & t & I1 & I2 & I3 & I4)]; exists r; cbn in I4; intuition (subst; auto). }
    destruct Row as (r & Ir & Ei & Ty).
    destruct (C09_any nw dt lamb _ H0 _ (gd_strip _ Hg) _ _ _ _ Tr r i Ir Ei 0 Qs Ty) as (p & q & lo & hi & lo' & hi' & O1 & O2 & B1 & B2 & W1 & W2 & W3 & W4).
    rewrite Rplus_0_r in W1, W3. rewrite Rminus_0_r in W2, W4.
    rewrite (Un "dev_p" "MW"), (Un "dev_q" "MVAr") by (cbn; tauto). rewrite O1, O2.
    rewrite (C31_bound_power_units nw dt lamb _ b "dev_p" "MW" _ H0 Eb), (C31_bound_power_units nw dt lamb _ b "dev_q" "MVAr" _ H0 Eb) by (cbn; tauto || discriminate). rewrite B1, B2.
    cbn [option_map fst snd]. split; do 3 eexists; (split; [reflexivity|split; [reflexivity|]]); split; apply xmul_mono; assumption. }
  split.
  { apply somes_of. repeat (apply Forall_app; split); unfold reads; apply Forall_forall; intros x Ix; apply in_map_iff in Ix as (i & <- & Ii);
      (destruct (Fit i) as ((? & ? & v & _ & V & _) & (? & ? & w & _ & W & _)); [tauto|]); eauto. }
  intros a' Ra. pose proof Ra as Ra0. unfold reported_action in Ra0.
  assert (V : valid_action e a').
  { unfold valid_action. rewrite (gd_aspace _ Hg). destruct (action_space_bounds nw dt lamb _ gens dess H0 Ig Id) as (Bd & EB & ->). apply fits_box. rewrite EB, Ra0.
    repeat apply Forall2_app; apply fits_ids; intros i I; apply Fit; auto. }
  split; [exact V|].
  assert (Ly : layout (map d_id (filter is_load (sm_devs (e_sim e)))) gens dess vars a' (step_inputs e vars a')).
  { destruct (gd_lists _ Hg _ _ _ _ (ids_of_ex _ _ _ _ ALL H0) (ids_of_ex _ _ _ _ LOADS H0) Ig Id) as (_ & _ & A3 & A4 & _). rewrite A3, A4. apply step_inputs_layout. eapply ProofEnv.static_nodup; [exact H0|apply (gd_strip _ Hg)]. }
  destruct Ly as (_ & Yg & Yd).
  assert (Tr' : transition Or' (step_inputs e vars a') (e_sim e) = (e_sim e', Ok (fl, rr, el, pen, conv))).
  { apply (resend_any nw dt lamb _ H0 b Eb _ _ Or _ (step_inputs e vars a)); auto; [apply (gd_strip _ Hg)|].
    intros i (r & t & Ir & Ei & Et & It). rewrite <- (Un "dev_p" "MW"), <- (Un "dev_q" "MVAr") by (cbn; tauto). apply in_app_or in It. destruct It as [It|It].
    - assert (I : In i gens) by (apply (proj2 Ig); eauto 8). apply In_nth_error in I as (k & Ek). assert (Hk : (k < List.length gens)%nat) by (apply nth_error_Some; congruence).
      destruct (Yg k i Ek) as (_ & -> & ->). split; eapply nth_somes; try exact Ra0.
      + rewrite nth_error_app1 by (unfold reads; rewrite map_length; lia). apply reads_nth. exact Ek.
      + rewrite nth_error_app2 by (unfold reads; rewrite map_length; lia). rewrite nth_error_app1 by (unfold reads; rewrite !map_length; lia).
        replace (List.length gens + k - List.length (reads (e_sim e') "dev_p" "MW" gens))%nat with k by (unfold reads; rewrite map_length; lia). apply reads_nth. exact Ek.
    - assert (I : In i dess) by (apply (proj2 Id); eauto 8). apply In_nth_error in I as (k & Ek). assert (Hk : (k < List.length dess)%nat) by (apply nth_error_Some; congruence).
      destruct (Yd k i Ek) as (-> & ->). split; eapply nth_somes; try exact Ra0; do 2 rewrite nth_error_app2 by (unfold reads; rewrite ?map_length; lia).
      + rewrite nth_error_app1 by (unfold reads; rewrite !map_length; lia).
        match goal with |- nth_error _ ?n = _ => replace n with k by (unfold reads; rewrite !map_length; lia) end. apply reads_nth. exact Ek.
      + rewrite nth_error_app2 by (unfold reads; rewrite !map_length; lia).
        match goal with |- nth_error _ ?n = _ => replace n with k by (unfold reads; rewrite !map_length; lia) end. apply reads_nth. exact Ek. }
  unfold env_step in E |- *. pose proof (lv_valid _ _ _ _ _ _ _ _ _ _ _ Lv) as V0. unfold valid_action in V, V0. rewrite V0 in E. rewrite V. cbn [negb] in E |- *.
  rewrite Te in E |- *. rewrite (lv_state _ _ _ _ _ _ _ _ _ _ _ Lv) in E |- *. rewrite (lv_next _ _ _ _ _ _ _ _ _ _ _ Lv) in E |- *. cbn [e_sim env_set_rng] in E |- *.
  destruct (negb _); [discriminate E|]. change (step_inputs (env_set_rng e (e_rng e')) vars a) with (step_inputs e vars a) in E. change (step_inputs (env_set_rng e (e_rng e')) vars a') with (step_inputs e vars a').
  rewrite Tr in E. rewrite Tr'. exact E.
Qed.
Print Assumptions C94_transition.
Print Assumptions C94_step.
