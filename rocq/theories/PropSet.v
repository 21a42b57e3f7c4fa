(** Set-points applied by a transition: C03-C09, C32.  Everything in p.u., over the exact extended
    reals (C07 over any ordered number type); the regions, the nearest point and the assumptions
    on the external QP solver are defined in SpecQp.v. *)
From Coq Require Import Reals Lra.
From Verif Require Import Base Num NumXR NumFloat Devices BusBranch CheckNetwork LoadFlow Simulator LibBase LibNum LibXR LibEval
  SpecDev SpecSim SpecQp LibQp ProofSoc ProofHist ProofDevs ProofEnergy ProofBusP ExNet ExRun ExSmall.
Local Open Scope string_scope.
Local Open Scope list_scope.
Local Open Scope R_scope.

(** ---- the example solver meets the assumptions ---- *)
Lemma ex_qp_rows p q rows :
  forallb (fun r => xleb (xadd (xmul (qa r) (Fin p)) (xmul (qb r) (Fin q))) (qh r)) rows = true -> Forall (row_holds 0 p q) rows.
Proof.
  intros H. rewrite forallb_forall in H. apply Forall_forall. intros r I. unfold row_holds, xle. rewrite xadd_0. auto.
Qed.
Lemma ex_qp_sound : qp_sound 0 ex_qp.
Proof.
  intros rows [x y] a b E. unfold ex_qp in E. destruct x as [p| | |]; try discriminate. destruct y as [q| | |]; try discriminate.
  destruct (forallb _ rows) eqn:Fb; [|discriminate]. injection E as <- <-. exists p, q. split; auto. split; auto. apply ex_qp_rows; auto.
Qed.
Lemma ex_qp_exact : qp_exact ex_qp.
Proof.
  intros rows u v a b E. unfold ex_qp in E. destruct (forallb _ rows) eqn:Fb; [|discriminate]. injection E as <- <-.
  exists u, v. split; auto. split; auto. apply nearest_feasible. apply ex_qp_rows; auto.
Qed.
Ltac row_fin := repeat apply Forall_cons; try apply Forall_nil; intros ? E_; inversion E_; exact (fin_Fin _).
Lemma ex_rows_fin k w : Forall dev_row_fin (nw_dev (ex_nwk k w)).
Proof. cbn [nw_dev ex_nwk]. repeat apply Forall_cons; try apply Forall_nil; row_fin. Qed.
Definition ex_reset_call : call XR := CReset ex_or (ex_vec 50).
Lemma ex_reset_ret : returned (run ex_sim0 []) ex_reset_call /\ run ex_sim0 ([] ++ [ex_reset_call]) = ex_sim1 (Fin (50 / 10)).
Proof.
  unfold ex_reset_call. split; [cbn [returned run fold_left]; rewrite ex_reset; reflexivity|].
  cbn [app run fold_left run_call]. rewrite ex_reset. reflexivity.
Qed.
Definition ex_out : fstate XR * XR * XR * XR * bool :=
  (gather_state (ex_sim1 (Fin (50 / 10 - 1/72))), Fin (-1/16), Fin (1/16), Fin 0, true).
Lemma ex_step : transition ex_or ex_in (run ex_sim0 ([] ++ [ex_reset_call])) = (ex_sim1 (Fin (50 / 10 - 1/72)), Ok ex_out).
Proof. rewrite (proj2 ex_reset_ret). apply ex_trans. lra. Qed.
Lemma ex_in_range : in_range ex_sim0 3 (50 / 10).
Proof. intros lo hi E. change (Some (Fin 0, Fin 10) = Some (lo, hi)) in E. injection E as <- <-. split; apply Rleb_spec; lra. Qed.

(** C03, one step: the new state of charge is the old one minus the energy drawn from the store;
    the clipping at the end of the update never acts. *)
Theorem C03_soc_step : forall (nw : network XR) d lamb s0 b r i e cs cl Or inp s' out c,
  sim_init nw (Fin d) lamb = Ok s0 -> nw_base nw = Fin b -> 0 < d ->
  In r (nw_dev nw) -> dr_id r = Some i -> dr_type r = Some 3%Z -> dev_row_fin r -> EFF r = Fin e -> 0 < e ->
  returned (run s0 cs) cl -> transition Or inp (run s0 (cs ++ [cl])) = (s', Ok out) -> qp_sound 0 (o_qp Or) ->
  obs (run s0 (cs ++ [cl])) "des_soc" "pu" (EId i) = Some (Fin c) ->
  (forall lo hi, bound s0 "des_soc" "pu" (EId i) = Some (lo, hi) -> within (Fin c) lo hi) ->
  exists p, obs s' "dev_p" "pu" (EId i) = Some (Fin p) /\
    obs s' "des_soc" "pu" (EId i) = Some (Fin (if Rle_dec p 0 then c - d * e * p else c - d * p / e)).
Proof.
  intros nw d lamb s0 b r i e cs cl Or inp s' out c H0 Eb Hd Ir Ei Ty Hf Ee He Rt T Q Oc Wc.
  destruct (C03_step_gen nw (Fin d) lamb s0 H0 b Eb r i Ir Ei Hf Ty e d eq_refl Hd Ee He (run s0 (cs ++ [cl])) Or inp s' out c) as (p & A & B & _); auto.
  - apply ProofSim.strip_run.
  - unfold run. rewrite fold_left_app. cbn [fold_left]. apply call_fresh. exact Rt.
  - exists p. split; auto.
Qed.
(** C03, histories: [D] p.u.h delivered to the grid and [T] taken from it by unit [i] over any
    sequence of transitions (see [energy] in ProofEnergy.v). *)
Theorem C03_energy_balance : forall (nw : network XR) d lamb s0 b r i e cs cl c0 l s' D T,
  sim_init nw (Fin d) lamb = Ok s0 -> nw_base nw = Fin b -> 0 < d ->
  In r (nw_dev nw) -> dr_id r = Some i -> dr_type r = Some 3%Z -> dev_row_fin r -> EFF r = Fin e -> 0 < e ->
  returned (run s0 cs) cl -> obs (run s0 (cs ++ [cl])) "des_soc" "pu" (EId i) = Some (Fin c0) ->
  (forall lo hi, bound s0 "des_soc" "pu" (EId i) = Some (lo, hi) -> within (Fin c0) lo hi) ->
  Forall (fun x => qp_sound 0 (o_qp (fst x))) l -> energy i d (run s0 (cs ++ [cl])) l s' D T ->
  exists c, obs s' "des_soc" "pu" (EId i) = Some (Fin c) /\
    (forall lo hi, bound s0 "des_soc" "pu" (EId i) = Some (lo, hi) -> within (Fin c) lo hi) /\
    D = e * (c0 - c) + e * e * T.
Proof.
  intros nw d lamb s0 b r i e cs cl c0 l s' D T H0 Eb Hd Ir Ei Ty Hf Ee He Rt Oc Wc Q En.
  exact (C03_history_lemma nw (Fin d) lamb s0 H0 b Eb r i Ir Ei Hf Ty e d eq_refl Hd Ee He cs cl c0 l s' D T Rt Oc Wc Q En).
Qed.
Example C03_ex : sim_init ex_nw (Fin (1/4)) (Fin 100) = Ok ex_sim0 /\ In ex_stor (nw_dev ex_nw) /\ dr_type ex_stor = Some 3%Z /\
  dev_row_fin ex_stor /\ EFF ex_stor = Fin (9/10) /\ returned (run ex_sim0 []) ex_reset_call /\
  transition ex_or ex_in (run ex_sim0 ([] ++ [ex_reset_call])) = (ex_sim1 (Fin (50/10 - 1/72)), Ok ex_out) /\ qp_sound 0 (o_qp ex_or) /\
  obs (run ex_sim0 ([] ++ [ex_reset_call])) "des_soc" "pu" (EId 3) = Some (Fin (50/10)) /\ in_range ex_sim0 3 (50/10) /\
  energy 3 (1/4) (run ex_sim0 ([] ++ [ex_reset_call])) [(ex_or, ex_in)] (ex_sim1 (Fin (50/10 - 1/72))) (0 + 1/4 * Rmax (1/20) 0) (0 + 1/4 * Rmax (- (1/20)) 0).
Proof.
  split; [exact ex_init|]. split; [cbn; auto|]. split; [reflexivity|]. split; [row_fin|]. split; [reflexivity|]. split; [apply ex_reset_ret|].
  split; [exact ex_step|]. split; [exact ex_qp_sound|]. split; [rewrite (proj2 ex_reset_ret); reflexivity|]. split; [exact ex_in_range|].
  refine (en_snoc 3 (1/4) (run ex_sim0 ([] ++ [ex_reset_call])) [] _ 0 0 ex_or ex_in _ ex_out (1/20) (en_nil _ _ _) ex_step eq_refl).
Qed.

(** C04: the injection of a non-slack generator is the point of its capability region nearest to
    the request, the only such point, and the request itself when feasible. *)
Theorem C04_generator_nearest : forall (nw : network XR) dt lamb s0 b cs Or inp s' out r i u v,
  sim_init nw dt lamb = Ok s0 -> nw_base nw = Fin b -> transition Or inp (run s0 cs) = (s', Ok out) ->
  In r (nw_dev nw) -> dr_id r = Some i -> qp_exact (o_qp Or) -> dev_row_fin r -> gen_limits_given r ->
  dr_type r = Some 1%Z \/ dr_type r = Some 2%Z ->
  dget Z.eqb (ti_p inp) i = Some (Fin u) -> dget Z.eqb (ti_q inp) i = Some (Fin v) ->
  exists pot p q, obs s' "gen_p_max" "pu" (EId i) = Some pot /\
    obs s' "dev_p" "pu" (EId i) = Some (Fin p) /\ obs s' "dev_q" "pu" (EId i) = Some (Fin q) /\
    nearest (gen_region r b pot) (u / b) (v / b) p q /\
    (forall p' q', nearest (gen_region r b pot) (u / b) (v / b) p' q' -> p' = p /\ q' = q) /\
    (gen_region r b pot (u / b) (v / b) -> p = u / b /\ q = v / b).
Proof. intros nw dt lamb s0 b cs Or inp s' out r i u v H Eb T Ir Ei. exact (C04_lemma nw dt lamb s0 H b Eb cs Or inp s' out T r i Ir Ei u v). Qed.
Example C04_ex : sim_init ex_nw (Fin (1/4)) (Fin 100) = Ok ex_sim0 /\ nw_base ex_nw = Fin 10 /\
  transition ex_or ex_in (run ex_sim0 ([] ++ [ex_reset_call])) = (ex_sim1 (Fin (50/10 - 1/72)), Ok ex_out) /\
  In ex_rer (nw_dev ex_nw) /\ qp_exact (o_qp ex_or) /\ dev_row_fin ex_rer /\ gen_limits_given ex_rer /\ dr_type ex_rer = Some 2%Z /\
  dget Z.eqb (ti_p ex_in) 2%Z = Some (Fin 2) /\ dget Z.eqb (ti_q ex_in) 2%Z = Some (Fin (5 * (2/10))).
Proof.
  split; [exact ex_init|]. split; [reflexivity|]. split; [exact ex_step|]. split; [cbn; auto|]. split; [exact ex_qp_exact|]. split; [row_fin|].
  split; [split; [discriminate|right; split; discriminate]|]. do 2 (split; [reflexivity|]). reflexivity.
Qed.

(** C05: the same for a storage unit; its region includes "the new SoC stays in range". *)
Theorem C05_storage_nearest : forall (nw : network XR) d lamb s0 b cs cl Or inp s' out r i u v c e,
  sim_init nw (Fin d) lamb = Ok s0 -> nw_base nw = Fin b -> 0 < d ->
  returned (run s0 cs) cl -> transition Or inp (run s0 (cs ++ [cl])) = (s', Ok out) ->
  In r (nw_dev nw) -> dr_id r = Some i -> qp_exact (o_qp Or) -> dev_row_fin r -> stor_limits_given r ->
  dr_type r = Some 3%Z -> EFF r = Fin e -> 0 < e ->
  obs (run s0 (cs ++ [cl])) "des_soc" "pu" (EId i) = Some (Fin c) ->
  (forall lo hi, bound s0 "des_soc" "pu" (EId i) = Some (lo, hi) -> within (Fin c) lo hi) ->
  dget Z.eqb (ti_p inp) i = Some (Fin u) -> dget Z.eqb (ti_q inp) i = Some (Fin v) ->
  exists p q, obs s' "dev_p" "pu" (EId i) = Some (Fin p) /\ obs s' "dev_q" "pu" (EId i) = Some (Fin q) /\
    nearest (stor_region r b e d c) (u / b) (v / b) p q /\
    (forall p' q', nearest (stor_region r b e d c) (u / b) (v / b) p' q' -> p' = p /\ q' = q) /\
    (stor_region r b e d c (u / b) (v / b) -> p = u / b /\ q = v / b) /\
    obs s' "des_soc" "pu" (EId i) = Some (Fin (soc_after e d c p)).
Proof.
  intros nw d lamb s0 b cs cl Or inp s' out r i u v c e H Eb Hd Rt T Ir Ei Q Hf Lim Ty Ee He Oc Wc.
  apply (C05_lemma nw (Fin d) lamb s0 H b Eb (cs ++ [cl]) Or inp s' out T r i Ir Ei u v c e d); auto.
  unfold run. rewrite fold_left_app. cbn [fold_left]. apply call_fresh. exact Rt.
Qed.
Example C05_ex : sim_init ex_nw (Fin (1/4)) (Fin 100) = Ok ex_sim0 /\ returned (run ex_sim0 []) ex_reset_call /\
  transition ex_or ex_in (run ex_sim0 ([] ++ [ex_reset_call])) = (ex_sim1 (Fin (50/10 - 1/72)), Ok ex_out) /\
  In ex_stor (nw_dev ex_nw) /\ qp_exact (o_qp ex_or) /\ dev_row_fin ex_stor /\ stor_limits_given ex_stor /\
  EFF ex_stor = Fin (9/10) /\ obs (run ex_sim0 ([] ++ [ex_reset_call])) "des_soc" "pu" (EId 3) = Some (Fin (50/10)) /\ in_range ex_sim0 3 (50/10) /\
  dget Z.eqb (ti_p ex_in) 3%Z = Some (Fin (1/2)) /\ dget Z.eqb (ti_q ex_in) 3%Z = Some (Fin 0).
Proof.
  split; [exact ex_init|]. split; [apply ex_reset_ret|]. split; [exact ex_step|]. split; [cbn; auto|]. split; [exact ex_qp_exact|]. split; [row_fin|].
  split; [split; [discriminate|split; [discriminate|right; split; discriminate]]|]. split; [reflexivity|]. split; [rewrite (proj2 ex_reset_ret); reflexivity|].
  split; [exact ex_in_range|]. split; reflexivity.
Qed.

(** C06 (guarded): when every row has the limits its corner lines need and a non-zero efficiency,
    the whole device phase of a transition succeeds for any solver that solves solvable problems. *)
Theorem C06_mapping_succeeds : forall (nw : network XR) d lamb s0 b Or inp cs cl,
  sim_init nw (Fin d) lamb = Ok s0 -> nw_base nw = Fin b -> 0 < d -> Forall mappable (nw_dev nw) ->
  returned (run s0 cs) cl ->
  (forall i v, obs (run s0 (cs ++ [cl])) "des_soc" "pu" (EId i) = Some v ->
     exists c, v = Fin c /\ forall lo hi, bound s0 "des_soc" "pu" (EId i) = Some (lo, hi) -> within (Fin c) lo hi) ->
  qp_exact (o_qp Or) -> qp_complete (o_qp Or) -> usable_inputs nw inp ->
  let s := run s0 (cs ++ [cl]) in
  snd (devs_transition (o_qp Or) (sm_base s) (sm_dt s) inp (sm_devs s)) = Ok tt.
Proof. intros nw d lamb s0 b Or inp cs cl H Eb Hd Mp. exact (C06_phase nw (Fin d) lamb s0 H b Eb d eq_refl Hd Mp Or inp cs cl). Qed.
Theorem C06_solver_exists : exists qp, qp_sound 0 qp /\ qp_exact qp /\ qp_complete qp.
Proof. exact qp_exists. Qed.
Example C06_ex : sim_init ex_nw (Fin (1/4)) (Fin 100) = Ok ex_sim0 /\ Forall mappable (nw_dev ex_nw) /\
  returned (run ex_sim0 []) ex_reset_call /\ usable_inputs ex_nw ex_in /\
  (forall i v, obs (run ex_sim0 ([] ++ [ex_reset_call])) "des_soc" "pu" (EId i) = Some v -> exists c, v = Fin c /\ in_range ex_sim0 i c).
Proof.
  split; [exact ex_init|]. split.
  { cbn [nw_dev ex_nwk]. repeat apply Forall_cons; try apply Forall_nil; (split; [row_fin|split]);
      try (intros [E|E]; discriminate); try (intros E; discriminate).
    - intros _. split; [split; [discriminate|split; [discriminate|right; split; discriminate]]|]. apply xlt_Fin; lra.
    - intros _. split; [discriminate|right; split; discriminate]. }
  split; [apply ex_reset_ret|]. split.
  { intros r i I E. unfold has_num. cbn in I.
    destruct I as [<-|[<-|[<-|[<-|[]]]]]; cbn in E; injection E as <-; cbn; repeat split; intros; try discriminate; try (exfalso; match goal with K : _ \/ _ |- _ => destruct K as [K|K]; try destruct K as [K|K]; discriminate end); eexists; reflexivity. }
  rewrite (proj2 ex_reset_ret). intros i v E.
  change (dget eid_eqb [(EId 3, Fin (50/10))] (EId i) = Some v) in E. cbn [dget] in E.
  destruct (eid_eqb (EId i) (EId 3)) eqn:K.
  - apply ProofSim.eid_eqb_iff in K. injection K as ->. injection E as <-. exists (50/10). split; auto. exact ex_in_range.
  - discriminate.
Qed.
(** ... but accepted rows exist that no sound solver can ever map: a generator without PMAX (and
    P+), and a storage unit with efficiency 0. *)
Theorem C06_no_pmax_always_fails : forall (nw : network XR) dt lamb s0 b eps cs Or inp r i,
  sim_init nw dt lamb = Ok s0 -> nw_base nw = Fin b ->
  In r (nw_dev nw) -> dr_id r = Some i -> dr_type r = Some 1%Z \/ dr_type r = Some 2%Z ->
  dr_pmax r = None -> dr_pplus r = None -> qp_sound eps (o_qp Or) -> is_ok (snd (transition Or inp (run s0 cs))) = false.
Proof. intros nw dt lamb s0 b eps cs Or inp r i H Eb. exact (no_pmax_fails nw dt lamb s0 H b Eb eps cs Or inp r i). Qed.
Theorem C06_eff0_always_fails : forall (nw : network XR) dt lamb s0 b cs Or inp r i,
  sim_init nw dt lamb = Ok s0 -> nw_base nw = Fin b ->
  In r (nw_dev nw) -> dr_id r = Some i -> dr_type r = Some 3%Z ->
  dr_eff r = Some (Fin 0) -> fin dt -> is_ok (snd (transition Or inp (run s0 cs))) = false.
Proof. intros nw dt lamb s0 b cs Or inp r i H Eb. exact (eff0_fails nw dt lamb s0 H b Eb cs Or inp r i). Qed.

(** Two accepted networks on which every transition raises, whatever the solver and the inputs. *)
Theorem C06_refuted : exists (nw nw' : network XR) dt lamb s0 s0',
  sim_init nw dt lamb = Ok s0 /\ sim_init nw' dt lamb = Ok s0' /\
  (forall cs eps Or inp, qp_sound eps (o_qp Or) -> is_ok (snd (transition Or inp (run s0 cs))) = false) /\
  (forall cs Or inp, is_ok (snd (transition Or inp (run s0' cs))) = false).
Proof.
  destruct sm_gen_accept as [s1 H1]. destruct sm_stor_accept as [s2 H2].
  exists (sm_nw sm_gen), (sm_nw sm_stor), (Fin (1/4)), (Fin 100), s1, s2. split; auto. split; auto. split.
  - intros cs eps Or inp Q. apply (no_pmax_fails _ _ _ _ H1 10 eq_refl eps cs Or inp sm_gen 1); auto; cbn; auto.
  - intros cs Or inp. apply (eff0_fails _ _ _ _ H2 10 eq_refl cs Or inp sm_stor 1); auto; cbn; auto; apply fin_Fin.
Qed.

(** C07: loads (any ordered number type). *)
Theorem C07_loads : forall (F : Type) (N : Num F) (NO : NumOrd F) (nw : network F) dt lamb s0 Or inp cs s' out r i,
  sim_init nw dt lamb = Ok s0 -> transition Or inp (run s0 cs) = (s', Ok out) -> In r (nw_dev nw) -> dr_id r = Some i ->
  dr_type r = Some (-1)%Z ->
  exists x k lo hi p, dget Z.eqb (ti_load inp) i = Some x /\ dr_qp r = Some k /\
    bound s0 "dev_p" "pu" (EId i) = Some (lo, hi) /\
    obs s' "dev_p" "pu" (EId i) = Some p /\ obs s' "dev_q" "pu" (EId i) = Some (nmul p k) /\
    (nisnan p = true /\ (nisnan (ndiv x (nw_base nw)) = true \/ nisnan lo = true \/ nisnan hi = true) \/
     within p lo hi /\ clamped (ndiv x (nw_base nw)) lo hi p /\ nleb p n0 = true).
Proof. intros F N NO nw dt lamb s0 Or inp cs s' out r i H. exact (C07_lemma nw dt lamb s0 H Or inp cs s' out r i). Qed.
Example C07_ex : sim_init ex_nw (Fin (1/4)) (Fin 100) = Ok ex_sim0 /\
  transition ex_or ex_in (run ex_sim0 ([] ++ [ex_reset_call])) = (ex_sim1 (Fin (50/10 - 1/72)), Ok ex_out) /\
  In (ex_load (2/10)) (nw_dev ex_nw) /\ dr_type (ex_load (2/10)) = Some (-1)%Z /\
  obs (ex_sim1 (Fin (50/10 - 1/72))) "dev_p" "pu" (EId 1) = Some (Fin (-5/10)).
Proof. split; [exact ex_init|]. split; [exact ex_step|]. split; [cbn; auto|]. split; reflexivity. Qed.

(** C08: the potential is the request clamped to the limits, and is not exceeded (up to the
    tolerance [eps] of the solver; with [eps = 0] curtailment is non-negative). *)
Theorem C08_potential : forall (nw : network XR) dt lamb s0 b eps cs Or inp s' out r i,
  sim_init nw dt lamb = Ok s0 -> nw_base nw = Fin b -> transition Or inp (run s0 cs) = (s', Ok out) ->
  In r (nw_dev nw) -> dr_id r = Some i -> qp_sound eps (o_qp Or) -> dr_type r = Some 1%Z \/ dr_type r = Some 2%Z ->
  exists x lo hi pot p, dget Z.eqb (ti_pot inp) i = Some x /\
    bound s0 "gen_p_max" "pu" (EId i) = Some (lo, hi) /\
    obs s' "gen_p_max" "pu" (EId i) = Some pot /\ obs s' "dev_p" "pu" (EId i) = Some (Fin p) /\
    within pot lo hi /\ clamped (xdiv x (Fin b)) lo hi pot /\ xle (Fin (p - eps)) pot.
Proof. intros nw dt lamb s0 b eps cs Or inp s' out r i H Eb T Ir Ei. exact (C08_lemma nw dt lamb s0 H b Eb cs Or inp s' out T r i Ir Ei eps). Qed.
Example C08_ex : transition ex_or ex_in (run ex_sim0 ([] ++ [ex_reset_call])) = (ex_sim1 (Fin (50/10 - 1/72)), Ok ex_out) /\ qp_sound 0 (o_qp ex_or) /\
  dr_type ex_rer = Some 2%Z /\ obs (ex_sim1 (Fin (50/10 - 1/72))) "gen_p_max" "pu" (EId 2) = Some (Fin (1/4)) /\
  obs (ex_sim1 (Fin (50/10 - 1/72))) "dev_p" "pu" (EId 2) = Some (Fin (2/10)).
Proof. split; [exact ex_step|]. split; [exact ex_qp_sound|]. repeat split. Qed.

(** C09: generators and storage units stay within their advertised bounds (up to [eps]) ... *)
Theorem C09_flexible_bounds : forall (nw : network XR) dt lamb s0 eps cs Or inp s' out r i,
  sim_init nw dt lamb = Ok s0 -> transition Or inp (run s0 cs) = (s', Ok out) ->
  In r (nw_dev nw) -> dr_id r = Some i -> qp_sound eps (o_qp Or) ->
  dr_type r = Some 1%Z \/ dr_type r = Some 2%Z \/ dr_type r = Some 3%Z ->
  exists p q lo hi lo' hi', obs s' "dev_p" "pu" (EId i) = Some (Fin p) /\ obs s' "dev_q" "pu" (EId i) = Some (Fin q) /\
    bound s0 "dev_p" "pu" (EId i) = Some (lo, hi) /\ bound s0 "dev_q" "pu" (EId i) = Some (lo', hi') /\
    xle lo (Fin (p + eps)) /\ xle (Fin (p - eps)) hi /\ xle lo' (Fin (q + eps)) /\ xle (Fin (q - eps)) hi'.
Proof. intros nw dt lamb s0 eps cs Or inp s' out r i H T Ir Ei. exact (C09_flex nw dt lamb s0 H cs Or inp s' out T r i Ir Ei eps). Qed.
(** ... loads too, for P; for Q when Q/P >= 0 (and not both Q/P = 0 and PMIN empty) ... *)
Theorem C09_load_bounds : forall (nw : network XR) dt lamb s0 b cs Or inp s' out r i,
  sim_init nw dt lamb = Ok s0 -> nw_base nw = Fin b -> transition Or inp (run s0 cs) = (s', Ok out) ->
  In r (nw_dev nw) -> dr_id r = Some i -> dr_type r = Some (-1)%Z -> dev_row_fin r ->
  (forall x, dget Z.eqb (ti_load inp) i = Some x -> fin x) ->
  exists p k lo hi lo' hi', obs s' "dev_p" "pu" (EId i) = Some (Fin p) /\ obs s' "dev_q" "pu" (EId i) = Some (Fin (p * k)) /\
    bound s0 "dev_p" "pu" (EId i) = Some (lo, hi) /\ bound s0 "dev_q" "pu" (EId i) = Some (lo', hi') /\
    dr_qp r = Some (Fin k) /\ within (Fin p) lo hi /\
    (0 <= k -> dr_pmin r <> None \/ 0 < k -> within (Fin (p * k)) lo' hi').
Proof. intros nw dt lamb s0 b cs Or inp s' out r i H Eb. exact (load_bounds nw dt lamb s0 H b Eb cs Or inp s' out r i). Qed.
(** ... and a load with a negative Q/P leaves the advertised Q range. *)
Theorem C09_refuted : exists (nw : network XR) dt lamb s0 cs Or inp s' out i q lo hi,
  sim_init nw dt lamb = Ok s0 /\ transition Or inp (run s0 cs) = (s', Ok out) /\ qp_sound 0 (o_qp Or) /\
  obs s' "dev_q" "pu" (EId i) = Some (Fin q) /\ bound s0 "dev_q" "pu" (EId i) = Some (Fin lo, Fin hi) /\ ~ lo <= q <= hi.
Proof.
  exists (ex_nwk (-2/10) 1), (Fin (1/4)), (Fin 100), (ex_simk (-2/10) 1), [CReset ex_or (ex_veck (-2/10) 50)], ex_or, (ex_ink (-2/10)).
  do 2 eexists. exists 1%Z, (- (-2/10)/2), (- (-2/10)), (- (-2/10)/2). split; [apply ex_initk; lra|]. split.
  { cbn [run fold_left run_call]. rewrite ex_resetk by lra. cbn [fst]. apply ex_transk; lra. }
  split; [exact ex_qp_sound|]. do 2 (split; [reflexivity|]). lra.
Qed.
Example C09_ex : sim_init ex_nw (Fin (1/4)) (Fin 100) = Ok ex_sim0 /\
  transition ex_or ex_in (run ex_sim0 ([] ++ [ex_reset_call])) = (ex_sim1 (Fin (50/10 - 1/72)), Ok ex_out) /\ qp_sound 0 (o_qp ex_or) /\
  In ex_stor (nw_dev ex_nw) /\ In (ex_load (2/10)) (nw_dev ex_nw) /\ dev_row_fin (ex_load (2/10)) /\
  (forall x, dget Z.eqb (ti_load ex_in) 1%Z = Some x -> fin x).
Proof.
  split; [exact ex_init|]. split; [exact ex_step|]. split; [exact ex_qp_sound|]. split; [cbn; auto|]. split; [cbn; auto|]. split; [row_fin|].
  intros x E. cbn in E. injection E as <-. apply fin_Fin.
Qed.

(** C32: the injection of a non-slack bus stays within the bounds of the bus, up to the solver
    tolerance for each of its devices. *)
Theorem C32_bus_bounds : forall (nw : network XR) dt lamb s0 b eps cs Or inp s' out rb j,
  sim_init nw dt lamb = Ok s0 -> nw_base nw = Fin b -> 0 <= eps ->
  transition Or inp (run s0 cs) = (s', Ok out) -> qp_sound eps (o_qp Or) ->
  In rb (nw_bus nw) -> br_id rb = Some j -> br_type rb <> Some 0%Z ->
  Forall dev_row_fin (nw_dev nw) -> (forall i x, dget Z.eqb (ti_load inp) i = Some x -> fin x) ->
  exists P lo hi, obs s' "bus_p" "pu" (EId j) = Some (Fin P) /\ bound s0 "bus_p" "pu" (EId j) = Some (lo, hi) /\
    let n := INR (List.length (filter (fun r => optz_eqb (dr_bus r) (Some j)) (nw_dev nw))) in
    xle lo (Fin (P + n * eps)) /\ xle (Fin (P - n * eps)) hi.
Proof. intros nw dt lamb s0 b eps cs Or inp s' out rb j H Eb. exact (C32_lemma nw dt lamb s0 H b Eb eps cs Or inp s' out rb j). Qed.
Example C32_ex : sim_init ex_nw (Fin (1/4)) (Fin 100) = Ok ex_sim0 /\
  transition ex_or ex_in (run ex_sim0 ([] ++ [ex_reset_call])) = (ex_sim1 (Fin (50/10 - 1/72)), Ok ex_out) /\ qp_sound 0 (o_qp ex_or) /\
  In ex_bus1 (nw_bus ex_nw) /\ br_id ex_bus1 = Some 1%Z /\ br_type ex_bus1 <> Some 0%Z /\ Forall dev_row_fin (nw_dev ex_nw) /\
  (forall i x, dget Z.eqb (ti_load ex_in) i = Some x -> fin x) /\
  obs (ex_sim1 (Fin (50/10 - 1/72))) "bus_p" "pu" (EId 1) = Some (Fin (-1/4)).
Proof.
  split; [exact ex_init|]. split; [exact ex_step|]. split; [exact ex_qp_sound|]. split; [cbn; auto|]. split; [reflexivity|]. split; [discriminate|].
  split; [apply ex_rows_fin|]. split; [|reflexivity].
  intros i x E. cbn [ti_load ex_ink dget] in E. destruct (Z.eqb _ _); [injection E as <-; apply fin_Fin|discriminate].
Qed.

Print Assumptions C03_soc_step.
Print Assumptions C03_energy_balance.
Print Assumptions C04_generator_nearest.
Print Assumptions C05_storage_nearest.
Print Assumptions C06_mapping_succeeds.
Print Assumptions C06_solver_exists.
Print Assumptions C06_no_pmax_always_fails.
Print Assumptions C06_eff0_always_fails.
Print Assumptions C06_refuted.
Print Assumptions C07_loads.
Print Assumptions C08_potential.
Print Assumptions C09_flexible_bounds.
Print Assumptions C09_load_bounds.
Print Assumptions C09_refuted.
Print Assumptions C32_bus_bounds.
