(** C67: the MPC agents solve the documented multi-stage DC optimal power flow. *)
From Coq Require Import Reals Lra Sorted Permutation.
From Coquelicot Require Import Complex.
From Verif Require Import Base Num NumXR Devices BusBranch CheckNetwork LoadFlow Simulator EnvArgs Env Mpc LibBase LibNum LibSim LibXR SpecNet ProofNet LibInit SpecSim ProofSim ProofObs SpecDev ProofDev ProofSoc ProofVals
  SpecQp SpecPf LibC ProofBr ProofY ProofBal SpecEnv ProofEnv ProofStep ProofState ProofDraw ProofEnvOk ProofObsEnv PropEnv SpecMpc ProofMpc PropMpc ProofPlan PropPlan PropDc PropExec SpecOpf ProofOpf.
Local Open Scope string_scope.
Local Open Scope list_scope.
Local Open Scope R_scope.
Set Bullet Behavior "Strict Subproofs".

Section Cost.
  Context (nw : network XR) (b d lamb : R) (s0 : sim XR) (H0 : sim_init nw (Fin d) (Fin lamb) = Ok s0) (Eb : nw_base nw = Fin b).
  Context (Hr : Forall branch_row_fin (nw_br nw)) (Hc : contiguous nw) (Hu : Forall unshifted (nw_br nw)).
  Context (I : index) (HI : index_of nw I).
  Context (s : sim XR) (Hs : strip s = strip s0) (asp : box XR) (gam mg : R) (Hm : 0 < mg) (k : nat) (m : mpc XR) (M : mpc_init s asp (Fin gam) (Fin mg) k = Ok m).

  (** the non-renewable generators that the agent counts *)
  Lemma co_nonren : filter (fun g => negb (zmem g (m_rers m))) (m_gens m) = ix_nonren I.
  Proof.
    assert (E : m_gens m = map d_id (filter is_gen (sm_devs s0)) /\ m_rers m = map d_id (filter is_rer (sm_devs s0))).
    { pose proof M as M'. rewrite (mpc_init_static _ _ asp _ _ k Hs) in M'. unfold mpc_init in M'. cbv zeta in M'. apply bind_ok in M' as (? & _ & M'). apply bind_ok in M' as (? & _ & M'). injection M' as <-. auto. }
    destruct E as (-> & ->). destruct HI as (_ & _ & _ & _ & (Sn & Hn) & _). destruct (init_dev_types _ _ _ _ H0) as (Sd & T1 & T2 & T3).
    apply sorted_unique; [|exact Sn|].
    - assert (SS : forall (q : Z -> bool) l, StronglySorted Z.lt l -> StronglySorted Z.lt (filter q l)).
      { intros q l. induction 1 as [|a l S IH Fa]; cbn; [constructor|]. destruct (q a); auto. constructor; auto. rewrite Forall_forall in *. intros x Ix. apply filter_In in Ix as (Ix & _). auto. }
      assert (SM : forall (q : device XR -> bool) l, StronglySorted Z.lt (map d_id l) -> StronglySorted Z.lt (map d_id (filter q l))).
      { intros q l. induction l as [|a l IH]; intros S; cbn; [constructor|]. inversion_clear S as [|? ? S' Fa]. destruct (q a); auto. cbn. constructor; auto. rewrite Forall_forall in *. intros x Ix. apply in_map_iff in Ix as (y & <- & Iy). apply filter_In in Iy as (Iy & _). apply Fa. apply in_map. auto. }
      apply StronglySorted_Sorted, SS, SM, Sorted_StronglySorted; auto. intros x y z; lia.
    - assert (Cl : forall x, In x (sm_devs s0) -> (is_gen x = true /\ is_rer x = false <-> d_type x = 0%Z \/ d_type x = 1%Z)).
      { intros x Ix. destruct (T3 x Ix) as (K1 & K2 & K3 & K4). unfold is_rer. apply zmem_spec in K4. unfold is_load, is_stor, is_gen in *.
        cbn in K4. destruct K4 as [K4|[K4|[K4|[K4|[K4|[]]]]]]; rewrite <- K4 in *; cbn [zmem existsb LOADS STORS] in *; destruct (d_spec x); cbn in *; try discriminate; split; intros; try lia; auto; destruct H; discriminate. }
      assert (ND : NoDup (map d_id (sm_devs s0))) by (apply sorted_lt_nodup; auto).
      intros i. rewrite Hn. rewrite filter_In, in_map_iff. split.
      + intros ((x & <- & Ix) & Q). apply filter_In in Ix as (Ix & Gx). destruct (T1 x Ix) as (r & Ir & Ei & Et). exists r, (d_type x). repeat (split; [auto|]).
        destruct (proj1 (Cl x Ix)) as [->| ->]; cbn; auto. split; auto. apply negb_true_iff in Q. destruct (is_rer x) eqn:Rx; auto. rewrite <- Q. symmetry. apply zmem_spec. apply in_map. apply filter_In; auto.
      + intros (r & t & Ir & Ei & Et & It). destruct (T2 r Ir) as (x & Ix & Ei' & Et'). assert (d_id x = i) by congruence. assert (d_type x = t) by congruence. subst i t.
        destruct (proj2 (Cl x Ix)) as (G1 & G2); [cbn in It; destruct It as [<-|[<-|[]]]; auto|]. split; [exists x; split; auto; apply filter_In; auto|].
        apply negb_true_iff. destruct (zmem (d_id x) (map d_id (filter is_rer (sm_devs s0)))) eqn:Z; auto. exfalso. apply zmem_spec in Z. revert Z. apply not_in_filter; auto.
  Qed.
  Lemma co_stage st : well_shaped I st -> stage_cost m (lift st) = Fin (opf_cost1 nw I b mg lamb st).
  Proof.
    intros W. unfold stage_cost. cbv zeta. cbn [n0 nadd nmul nsub nabs XRnum]. pose proof (agent_inv nw (Fin d) (Fin lamb) s0 s asp _ _ k m H0 Hs M) as Ag.
    assert (C1 : fold_left (fun acc g => if zmem g (m_rers m) then acc else xadd acc (ix (sg_p (lift st)) (dpos m g))) (m_gens m) (Fin 0) = Fin (sumR (map (inject I st) (ix_nonren I)))).
    { assert (In' : incl (ix_nonren I) (ix_all I)). { intros i Ii. destruct HI as ((_ & Ha) & _ & _ & _ & (_ & Hn) & _). apply Ha. apply Hn in Ii as (r & t & I1 & I2 & I3 & I4). exists r, t. repeat (split; auto). cbn in *. tauto. }
      rewrite <- co_nonren in *. revert In'. generalize (m_gens m). intros l In'. transitivity (Fin (0 + sumR (map (inject I st) (filter (fun g => negb (zmem g (m_rers m))) l)))); [|f_equal; lra].
      generalize 0. induction l as [|g l IH]; intros a; cbn [fold_left filter map]; [cbn; f_equal; lra|]. cbn [filter] in In'. destruct (zmem g (m_rers m)); cbn [negb] in *; [apply IH; auto|].
      cbn [map]. rewrite sumR_cons. rewrite (op_p nw d (Fin lamb) s0 H0 I HI s Hs asp _ _ k m M st g W) by (apply In'; left; auto). cbn [xadd]. rewrite IH by (intros x Ix; apply In'; right; auto). f_equal. lra. }
    rewrite C1. rewrite (ag_lamb _ _ _ _ _ _ _ _ Ag), (ag_margin _ _ _ _ _ _ _ _ Ag).
    assert (C2 : fold_left (fun acc pr => xadd acc (np_max (Fin 0) (xsub (xabs (fst pr)) (xmul (Fin mg) (snd pr))))) (combine (p_branch m (lift st)) (m_rate m)) (Fin 0) =
      Fin (sumR (map (fun r => excess b mg r (dc_flow r (angle I st))) (nw_br nw)))).
    { rewrite (op_flows nw b d (Fin lamb) s0 H0 Eb Hr Hc Hu I HI s Hs asp _ _ k m M st W).
      destruct (agent_fields nw (Fin d) (Fin lamb) s0 H0 s Hs asp _ _ k m M) as (_ & _ & _ & _ & _ & _ & _ & _ & _ & _ & _ & _ & _ & _ & _ & _ & F17 & _). rewrite F17.
      destruct (sim_init_built _ _ _ _ H0) as (bs & ds & B). pose proof (base_pos' nw (Fin d) (Fin lamb) s0 H0 b Eb) as Hb. pose proof (bt_brs _ _ _ _ _ _ B) as Er. rewrite Eb in Er. apply mapM_ok in Er.
      assert (Eo : Forall2 (fun r x => ln_rate x = match lr_rate r with Some (Fin y) => Fin (y / b) | _ => PInf end) (nw_br nw) (sm_branches s0)).
      { clear -Er Hr Hb. induction Er as [|r x l l' E Er IH]; constructor; inversion_clear Hr; auto. apply (bo_rate _ _ _ (branch_init_of r b _ x Hb H E)). }
      clear -Eo Hm. transitivity (Fin (0 + sumR (map (fun r => excess b mg r (dc_flow r (angle I st))) (nw_br nw)))); [|f_equal; lra].
      assert (G : forall a, fold_left (fun acc pr => xadd acc (np_max (Fin 0) (xsub (xabs (fst pr)) (xmul (Fin mg) (snd pr))))) (combine (map (fun r => Fin (dc_flow r (angle I st))) (nw_br nw)) (map ln_rate (sm_branches s0))) (Fin a) =
        Fin (a + sumR (map (fun r => excess b mg r (dc_flow r (angle I st))) (nw_br nw)))); [|apply G].
      induction Eo as [|r x l l' E Eo IH]; intros a; [cbn; f_equal; lra|]. cbn [map combine fold_left fst snd]. rewrite sumR_cons, E.
      assert (Q : np_max (Fin 0) (xsub (xabs (Fin (dc_flow r (angle I st)))) (xmul (Fin mg) (match lr_rate r with Some (Fin y) => Fin (y / b) | _ => PInf end))) = Fin (excess b mg r (dc_flow r (angle I st)))).
      { unfold excess. assert (Qi : np_max (Fin 0) (xsub (xabs (Fin (dc_flow r (angle I st)))) (xmul (Fin mg) PInf)) = Fin 0). { cbn [xabs xmul]. unfold inf_sgn. destruct (Rlt_dec 0 mg) as [_|N]; [|contradiction]. reflexivity. }
        destruct (lr_rate r) as [[y| | |]|]; try exact Qi. cbn [xabs xmul xsub]. apply np_max_fin. }
      rewrite Q. cbn [xadd]. rewrite IH. f_equal. lra. }
    rewrite C2. reflexivity.
  Qed.
  Lemma co_plan sts : Forall (well_shaped I) sts -> plan_cost m (map lift sts) = Fin (opf_cost nw I b mg lamb gam sts).
  Proof.
    intros W. unfold plan_cost. rewrite (ag_gamma _ _ _ _ _ _ _ _ (agent_inv nw (Fin d) (Fin lamb) s0 s asp _ _ k m H0 Hs M)).
    assert (P : forall n, npow (Fin gam) n = Fin (gam ^ n)) by (induction n as [|n IH]; [reflexivity|]; cbn [npow nmul XRnum]; rewrite IH; reflexivity).
    assert (G : forall q a, fold_left (fun acc ist => nadd acc (nmul (npow (Fin gam) (fst ist)) (stage_cost m (snd ist)))) (enum_from q (map lift sts)) (Fin a) = Fin (a + gam ^ q * opf_cost nw I b mg lamb gam sts)).
    { induction W as [|st sts W1 W IH]; intros q a; [cbn; f_equal; lra|]. cbn [map enum_from fold_left fst snd opf_cost]. rewrite P, (co_stage st W1). cbn [nadd nmul XRnum xmul xadd]. rewrite IH. f_equal. cbn [pow]. ring. }
    refine (eq_trans (G 0%nat 0) _). f_equal. cbn [pow]. ring.
  Qed.
End Cost.

(** C67.  The agent is built on a simulator with any past and called after any further calls, with forecasts of finite numbers.  On a network
    with bus IDs 0..N-1, without phase shifters, and whose slack device has among the devices the position of its bus among the buses: the
    plans that satisfy the agent's constraints are exactly the plans of the documented optimal power flow, and the agent's objective is the
    documented cost. *)
Theorem C67_problem_partial : forall (nw : network XR) b d lamb s0 cs1 cs2 asp gam mg k m PL PG soc I eff c0 r i sb p,
  sim_init nw (Fin d) (Fin lamb) = Ok s0 -> nw_base nw = Fin b -> Forall branch_row_fin (nw_br nw) -> contiguous nw -> Forall unshifted (nw_br nw) -> index_of nw I ->
  (In r (nw_dev nw) /\ dr_type r = Some 0%Z /\ dr_id r = Some i /\ nth_error (ix_all I) p = Some i /\ nth_error (ix_buses I) p = Some sb) ->
  (forall r i, In r (nw_dev nw) -> dr_id r = Some i -> dr_type r = Some 3%Z -> EFF r = Fin (eff i) /\ 0 < eff i) ->
  mpc_init (run s0 cs1) asp (Fin gam) (Fin mg) k = Ok m -> 0 < mg ->
  let s := run (run s0 cs1) cs2 in params m s (map (map Fin) PL) (map (map Fin) PG) = Ok soc ->
  (forall i, In i (ix_dess I) -> obs s "des_soc" "pu" (EId i) = Some (Fin (c0 i))) ->
  (forall sts, feasible m (map (map Fin) PL) (map (map Fin) PG) soc sts <-> opf_plan nw s0 I d eff c0 sb PL PG k sts) /\
  (forall sts, Forall (well_shaped I) sts -> plan_cost m (map lift sts) = Fin (opf_cost nw I b mg lamb gam sts)).
Proof.
  intros nw b d lamb s0 cs1 cs2 asp gam mg k m PL PG soc I eff c0 r i sb p H0 Eb Hr Hc Hu HI (Ir & Ty & Ei & Pa & Pb) He M Hm s P Hsoc.
  pose proof (strip_run s0 cs1) as Hs.
  pose proof (agent_inv nw (Fin d) (Fin lamb) s0 _ asp _ _ k m H0 Hs M) as Ag. assert (Hd : ids_of nw STORS (ix_dess I)) by apply HI.
  assert (Es : m_slackdev m = i) by (eapply slackdev_is; eauto).
  assert (Sh : forall ids M', shape_ok m ids (map (map Fin) M') = true -> List.length M' = List.length ids /\ Forall (fun row => List.length row = k) M').
  { intros ids M' Q. unfold shape_ok in Q. apply andb_true_iff in Q as (Q1 & Q2). apply Nat.eqb_eq in Q1. rewrite map_length in Q1. split; auto.
    rewrite forallb_forall in Q2. apply Forall_forall. intros row Ir'. specialize (Q2 (map Fin row) (in_map _ _ _ Ir')). apply Nat.eqb_eq in Q2. rewrite map_length, (ag_steps _ _ _ _ _ _ _ _ Ag) in Q2. auto. }
  assert (Q : shape_ok m (m_loads m) (map (map Fin) PL) = true /\ shape_ok m (m_nsgens m) (map (map Fin) PG) = true).
  { pose proof P as P'. unfold params in P'. apply bind_ok in P' as (? & Q1 & P'). apply bind_ok in P' as (? & Q2 & _). destruct (shape_ok m (m_loads m) _); [|discriminate]. destruct (shape_ok m (m_nsgens m) _); [auto|discriminate]. }
  destruct Q as (Q1 & Q2). apply Sh in Q1, Q2.
  rewrite (op_loads nw d (Fin lamb) s0 H0 I HI _ Hs asp _ _ k m M) in Q1. rewrite (op_gens nw d (Fin lamb) s0 H0 I HI _ Hs asp _ _ k m M) in Q2.
  assert (Ec : soc = map (fun x => Fin (c0 x)) (ix_dess I)).
  { pose proof (params_soc _ _ _ _ _ P) as P'. pose proof (fun j i => init_soc_nth m s soc j i P') as N.
    assert (L : List.length soc = List.length (m_dess m)). { unfold init_soc in P'. destruct (sm_state s); [|discriminate]. apply bind_ok in P' as (? & _ & P'). apply bind_ok in P' as (? & _ & P'). apply mapM_length in P'. auto. }
    rewrite (op_dess nw d (Fin lamb) s0 H0 I HI _ Hs asp _ _ k m M) in *. clear -N L Hsoc. revert soc N L Hsoc. induction (ix_dess I) as [|i l IH]; intros [|c soc] N L Hsoc; try discriminate; [reflexivity|]. cbn [map]. f_equal.
    - specialize (N 0%nat i eq_refl). cbn in N. rewrite Hsoc in N by (left; auto). congruence.
    - apply IH; [|cbn in L; lia|intros; apply Hsoc; right; auto]. intros j i' E. apply (N (S j) i' E). }
  split.
  - intros sts. rewrite Ec. eapply op_feasible; eauto.
  - intros sts W. eapply co_plan; eauto.
Qed.

Lemma nodup_app {A} (l m : list A) : NoDup l -> NoDup m -> (forall x, In x l -> ~ In x m) -> NoDup (l ++ m).
Proof.
  intros Nl Nm D. induction Nl as [|x l Nx Nl IH]; [auto|]. cbn [app]. constructor.
  - rewrite in_app_iff. intros [Q|Q]; [auto|]. apply (D x); [left|]; auto.
  - apply IH. intros y Iy. apply D. right. auto.
Qed.
Definition RENEW : list Z := [2]%Z.
(** C67, the cost: in every stage of a plan of the optimal power flow, the injections of the non-renewable generators (the slack included) are
    the forecast demand that neither renewable generators nor storage units cover. *)
Theorem C67_generation_partial : forall (nw : network XR) b d lamb s0 cs asp gam mg k m PL PG soc sts I renew,
  sim_init nw (Fin d) lamb = Ok s0 -> nw_base nw = Fin b -> Forall branch_row_fin (nw_br nw) -> (forall i, In (Some i) (map br_id (nw_bus nw)) -> (0 <= i)%Z) ->
  Forall lossless_or_unshifted (nw_br nw) -> index_of nw I -> ids_of nw RENEW renew ->
  mpc_init (run s0 cs) asp gam mg k = Ok m -> matrix (ix_loads I) k PL -> feasible m (map (map Fin) PL) PG soc sts ->
  forall n st, nth_error sts n = Some st ->
    sumR (map (inject I st) (ix_nonren I)) =
      sumR (map (fun i => - forecast (ix_loads I) PL n i) (ix_loads I)) - sumR (map (inject I st) renew) - sumR (map (inject I st) (ix_dess I)).
Proof.
  intros nw b d lamb s0 cs asp gam mg k m PL PG soc sts I renew H0 Eb Hr Hid Hl HI Hre M ML Fe n st E.
  pose proof (C52_balanced_partial nw b _ lamb s0 cs asp gam mg k m _ PG soc sts H0 Eb Hr Hid Hl M Fe) as Bal.
  pose proof (strip_run s0 cs) as Hs. destruct Fe as (Ls & Sh & Fe). rewrite Forall_forall in Bal, Sh. specialize (Bal st (nth_error_In _ _ E)). specialize (Sh st (nth_error_In _ _ E)).
  pose proof (proj1 (op_shaped nw d lamb s0 H0 I HI _ Hs asp _ _ k m M st) Sh) as W.
  pose proof (proj1 (plan_stage m _ PG sts 0 soc) Fe n st E) as Sok. cbn [Nat.add] in Sok.
  assert (Hn : (n < k)%nat). { rewrite (ag_steps _ _ _ _ _ _ _ _ (agent_inv nw (Fin d) lamb s0 _ asp _ _ k m H0 Hs M)) in Ls. rewrite <- Ls. apply nth_error_Some. congruence. }
  pose proof (proj1 (op_load nw d lamb s0 H0 I HI _ Hs asp _ _ k m M st PL n W ML Hn) (so_loads _ _ _ _ _ Sok)) as Ld.
  destruct HI as (Ha & Hlo & Hg & Hd & Hnr & _).
  assert (NDa : NoDup (ix_all I)) by (apply sorted_lt_nodup; apply Ha).
  rewrite <- (entry_map 0 (ix_all I) (rs_p st) NDa (proj1 (proj2 W))) in Bal. fold (inject I st) in Bal.
  assert (NDt : forall ts l, ids_of nw ts l -> NoDup l) by (intros ts l (S & _); apply sorted_lt_nodup; auto).
  assert (Uid : forall r r' i, In r (nw_dev nw) -> In r' (nw_dev nw) -> dr_id r = Some i -> dr_id r' = Some i -> r = r').
  { destruct (sim_init_built _ _ _ _ H0) as (bs & ds & B). intros r r' i I1 I2 E1 E2. assert (ND : NoDup (map dr_id (nw_dev nw))) by apply (bt_wf _ _ _ _ _ _ B).
    apply In_nth_error in I1 as (a & A). apply In_nth_error in I2 as (c & C). assert (a = c). { apply (NoDup_nth_error (map dr_id (nw_dev nw))); [auto|apply nth_error_Some; rewrite nth_error_map, A; discriminate|]. rewrite !nth_error_map, A, C. cbn. congruence. }
    subst. congruence. }
  assert (Dj : forall ts ts' l l', ids_of nw ts l -> ids_of nw ts' l' -> (forall t, In t ts -> ~ In t ts') -> forall i, In i l -> ~ In i l').
  { intros ts ts' l l' (_ & A) (_ & C) D i Ii Ii'. apply A in Ii as (r & t & I1 & I2 & I3 & I4). apply C in Ii' as (r' & t' & J1 & J2 & J3 & J4). assert (r = r') by (eapply Uid; eauto). subst r'. rewrite I3 in J3. injection J3 as <-. eapply D; eauto. }
  assert (Pm : Permutation (ix_all I) (ix_nonren I ++ ix_loads I ++ renew ++ ix_dess I)).
  { apply NoDup_Permutation; auto.
    - repeat (apply nodup_app; [eauto| |]); eauto; intros i Ii Q; rewrite ?in_app_iff in Q; repeat (destruct Q as [Q|Q]; [revert Q; eapply Dj; try exact Ii; eauto; cbn; intros; lia|]); revert Q; eapply Dj; try exact Ii; eauto; cbn; intros; lia.
    - intros i. rewrite !in_app_iff. rewrite (proj2 Ha), (proj2 Hnr), (proj2 Hlo), (proj2 Hre), (proj2 Hd). split.
      + intros (r & t & I1 & I2 & I3 & I4). cbn in I4. destruct I4 as [I4|[I4|[I4|[I4|[I4|[]]]]]]; subst t; [right; left|left|left|right; right; left|right; right; right]; exists r; eexists; cbn; eauto 10.
      + intros [Q|[Q|[Q|Q]]]; destruct Q as (r & t & I1 & I2 & I3 & I4); exists r, t; cbn in *; repeat (split; auto); tauto. }
  rewrite (sumR_perm _ _ (Permutation_map _ Pm)), !map_app, !sumR_app in Bal.
  assert (EL : sumR (map (fun i => - forecast (ix_loads I) PL n i) (ix_loads I)) = - sumR (map (inject I st) (ix_loads I))).
  { rewrite (map_ext_in _ (fun i => - inject I st i)) by (intros i Ii; rewrite <- Ld; auto). clear. induction (ix_loads I) as [|i l IH]; [cbn; lra|]. cbn [map sumR fold_right]. unfold sumR in *. cbn [map fold_right]. rewrite IH. lra. }
  lra.
Qed.

Lemma optimal_sound solve : opf_optimal solve -> opf_sound solve.
Proof. intros O m PL PG soc p E. destruct (O m PL PG soc p E) as (st & sts & E1 & Fe & _). eauto. Qed.

(** C67, actions: the agent is built from the environment at any time and called at any later time, and the convex optimiser returns the first
    stage of a feasible plan with the least objective.  Then the action that the agent returns sets every generator and storage unit to the
    first stage, in MW, of a plan of the documented optimal power flow, and no plan of that problem costs less. *)
Theorem C67_optimal_partial : forall (G : Type) (nw : network XR) o K b d gamma lamb auxb clip (g : G) e0 (T : task XR G) cs1 cs2 gam mg k m solve PL PG a I eff c0 r i sb p,
  env_init nw o K (Fin d) gamma (Fin lamb) auxb clip g = Ok e0 -> nw_base nw = Fin b -> Forall branch_row_fin (nw_br nw) -> contiguous nw -> Forall unshifted (nw_br nw) -> index_of nw I ->
  (In r (nw_dev nw) /\ dr_type r = Some 0%Z /\ dr_id r = Some i /\ nth_error (ix_all I) p = Some i /\ nth_error (ix_buses I) p = Some sb) ->
  (forall r i, In r (nw_dev nw) -> dr_id r = Some i -> dr_type r = Some 3%Z -> EFF r = Fin (eff i) /\ 0 < eff i) ->
  let e1 := erun T e0 cs1 in let e := erun T e1 cs2 in
  mpc_init (e_sim e1) (e_aspace e1) (Fin gam) (Fin mg) k = Ok m -> 0 < mg -> opf_optimal solve ->
  (forall i, In i (ix_dess I) -> obs (e_sim e) "des_soc" "pu" (EId i) = Some (Fin (c0 i))) ->
  mpc_act solve m (e_sim e) (map (map Fin) PL) (map (map Fin) PG) = Ok a ->
  exists st sts, opf_plan nw (e_sim e0) I d eff c0 sb PL PG k (st :: sts) /\
    (forall sts', opf_plan nw (e_sim e0) I d eff c0 sb PL PG k sts' -> opf_cost nw I b mg lamb gam (st :: sts) <= opf_cost nw I b mg lamb gam sts') /\
    let ng := List.length (ix_gens I) in
    (forall j i, nth_error (ix_gens I) j = Some i -> nth_error a j = Some (Fin (inject I st i * b))) /\
    (forall j i, nth_error (ix_dess I) j = Some i -> nth_error a (2 * ng + j) = Some (Fin (inject I st i * b))).
Proof.
  intros G nw o K b d gamma lamb auxb clip g e0 T cs1 cs2 gam mg k m solve PL PG a I eff c0 r i sb p B Eb Hr Hc Hu HI Hsl He e1 e M Hm So Hsoc A.
  pose proof (good_erun _ _ _ _ _ _ _ _ _ _ T cs1 B) as G1. fold e1 in G1. pose proof (gd_sim0 _ G1) as H0.
  assert (Oa := HI). destruct Oa as (Ha & _ & Hg & Hd & _).
  destruct (C65_action_is_plan G nw o K _ gamma _ auxb clip g e0 T cs1 cs2 (Fin gam) (Fin mg) k m _ _ _ solve _ _ a b B Eb Ha Hg Hd M (optimal_sound _ So) A) as (soc & st0 & sts0 & Ps & Es & _ & H).
  destruct (So _ _ _ _ _ Es) as (st & sts & Ep & Fe & Best). assert (rs_p st = rs_p st0) as Ep'.
  { apply (f_equal (map (fun x => match x with Fin v => v | _ => 0 end))) in Ep. rewrite !map_map, !map_id in Ep. auto. }
  destruct (erun_run T cs1 e0) as (c1 & R1). destruct (erun_run T cs2 e1) as (c2 & R2). fold e1 in R1. fold e in R2.
  change (erun T (erun T e0 cs1) cs2) with e in Ps. rewrite R1 in M, R2. rewrite R2 in Ps, Hsoc.
  destruct (C67_problem_partial nw b d lamb (e_sim e0) c1 c2 _ gam mg k m PL PG soc I eff c0 r i sb p H0 Eb Hr Hc Hu HI Hsl He M Hm Ps Hsoc) as (F & C).
  exists st, sts. split; [apply F; auto|]. split.
  - intros sts' P'. assert (W : Forall (well_shaped I) (st :: sts)) by (apply F in Fe; apply Fe). assert (W' : Forall (well_shaped I) sts') by apply P'.
    apply F in P'. specialize (Best _ P'). rewrite (C _ W), (C _ W') in Best. cbn in Best. apply Rleb_spec in Best. auto.
  - destruct H as (_ & Ag & Ad). unfold inject. rewrite Ep'. split; intros j x E; [apply (Ag j x E)|apply (Ad j x E)].
Qed.

Print Assumptions C67_problem_partial.
Print Assumptions C67_generation_partial.
Print Assumptions C67_optimal_partial.
