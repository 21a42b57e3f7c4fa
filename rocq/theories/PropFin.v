(** C69: what a converged simulator reports is finite. *)
From Coq Require Import Reals Lra Lia.
From Verif Require Import Base Num NumXR Devices BusBranch CheckNetwork LoadFlow Simulator LibBase LibNum LibXR LibSim LibEval SpecNet SpecSim SpecDev SpecQp SpecPf SpecTotal
  ProofSim LibInit ProofObs ProofHist LibQp ProofBr ProofPf ProofLoss ProofTotal ProofFin PropSet PropPf ExNet ExRun.
Local Open Scope string_scope.
Local Open Scope list_scope.
Local Open Scope R_scope.
Set Bullet Behavior "Strict Subproofs".

(** C69.  After a reset with a finite vector that left the states of charge in range, and any number of
    transitions that returned, if the last power flow converged then every value of the
    reported state, of any quantity, unit and element, is an ordinary number (no NaN, no infinity). *)
Theorem C69_state_finite : forall (nw : network XR) d lamb s0 b cs Or init ts,
  sim_init nw (Fin d) lamb = Ok s0 -> nw_base nw = Fin b -> 0 < d -> Forall mappable (nw_dev nw) ->
  Forall branch_row_fin (nw_br nw) -> Forall bus_row_fin (nw_bus nw) -> numbered nw ->
  qp_exact (o_qp Or) -> (reset_size nw <= List.length init)%nat -> Forall fin init ->
  returned (run s0 cs) (CReset Or init) -> soc_reported_ok s0 (run s0 (cs ++ [CReset Or init])) ->
  Forall (exact_transition nw) ts ->
  (forall ts1 t ts2, ts = ts1 ++ t :: ts2 -> returned (run s0 (cs ++ CReset Or init :: ts1)) t) ->
  let s := run s0 (cs ++ CReset Or init :: ts) in
  sm_conv s = Some true -> forall k u i v, obs s k u i = Some v -> exists x, v = Fin x.
Proof.
  intros nw d lamb s0 b cs Or init ts H0 Eb Hd Mp Hr Hk Hn Q L Fi R Soc G Rt s Cv k u i v O.
  induction ts as [|t ts _] using rev_ind.
  - unfold s, run in *. rewrite fold_left_app in *. cbn [fold_left run_call] in *.
    exact (reset_obs_fin nw (Fin d) lamb s0 H0 b Eb d eq_refl Mp Hr Hn Hk Or init _ (strip_run s0 cs) Q L Fi R Cv k u i v O).
  - apply Forall_app in G as [G1 G2]. apply Forall_inv in G2.
    assert (Er : s = run_call (run s0 (cs ++ CReset Or init :: ts)) t).
    { unfold s, run. change (cs ++ CReset Or init :: ts ++ [t]) with (cs ++ (CReset Or init :: ts) ++ [t]). rewrite app_assoc, fold_left_app. reflexivity. }
    assert (Rt' : forall ts1 t' ts2, ts = ts1 ++ t' :: ts2 -> returned (run s0 (cs ++ CReset Or init :: ts1)) t').
    { intros ts1 t' ts2 E. apply (Rt ts1 t' (ts2 ++ [t])). rewrite E, <- app_assoc. reflexivity. }
    pose proof (run_soc_in nw (Fin d) lamb s0 H0 b Eb d eq_refl Mp cs (CReset Or init) ts R Soc G1 Rt') as Si.
    specialize (Rt ts t [] eq_refl). rewrite Er in *. destruct t as [|Or' inp]; [destruct G2|]. destruct G2 as [Q' U]. cbn [run_call returned] in *.
    exact (trans_obs_fin nw (Fin d) lamb s0 H0 b Eb d eq_refl Mp Hr Hn Hk Or' inp _ (strip_run s0 _) Q' U Si Rt Cv k u i v O).
Qed.
(** ... and so are the reward, the energy loss and the penalty returned by a converged transition. *)
Theorem C69_reward_finite : forall (nw : network XR) d l s0 b cs cl ts Or inp s' st rew e pen,
  sim_init nw (Fin d) (Fin l) = Ok s0 -> nw_base nw = Fin b -> 0 < d -> 0 < l -> Forall mappable (nw_dev nw) ->
  Forall branch_row_fin (nw_br nw) -> Forall bus_row_fin (nw_bus nw) -> numbered nw ->
  returned (run s0 cs) cl -> soc_reported_ok s0 (run s0 (cs ++ [cl])) -> Forall (exact_transition nw) ts ->
  (forall ts1 t ts2, ts = ts1 ++ t :: ts2 -> returned (run s0 (cs ++ cl :: ts1)) t) ->
  qp_exact (o_qp Or) -> usable_inputs nw inp ->
  transition Or inp (run s0 (cs ++ cl :: ts)) = (s', Ok (st, rew, e, pen, true)) ->
  exists x y z, rew = Fin x /\ e = Fin y /\ pen = Fin z /\ x = - (y + z).
Proof.
  intros nw d l s0 b cs cl ts Or inp s' st rew e pen H0 Eb Hd Hl Mp Hr Hk Hn R Soc G Rt Q U T.
  pose proof (run_soc_in nw (Fin d) (Fin l) s0 H0 b Eb d eq_refl Mp cs cl ts R Soc G Rt) as Si.
  destruct (tr_fin nw (Fin d) (Fin l) s0 H0 b Eb d eq_refl Mp Hr Hn Or inp _ s' st rew e pen (strip_run s0 _) Q U Si T) as (Fd & V & PS).
  pose proof T as T0. apply transition_ok in T as (_ & Rw & ds & v & i & T).
  assert (S1 : strip s' = strip s0) by (rewrite (tk_strip _ _ _ _ _ _ _ _ T); apply strip_run).
  pose proof (init_dt_lamb nw _ _ s0 H0) as [D1 D2]. pose proof (strip_dt_lamb _ _ S1) as [D3 D4].
  destruct (loss_fin d s' Fd) as (y & Ey); [congruence|].
  unfold compute_reward in Rw. apply bind_ok in Rw as (pn & Pn & Rw). rewrite Ey in Rw. injection Rw as <- <- <-.
  destruct (st_penalty nw (Fin d) (Fin l) s0 H0 b s' V S1 PS d l pn) as (z & -> & _); try congruence; auto.
  exists (- (y + z)), y, z. repeat split; reflexivity.
Qed.

(** The solver of ExRun.v is exact where it returns; the hypotheses are met by a reset followed by a transition. *)
Lemma ex_qp_exact : qp_exact ex_qp.
Proof.
  intros rows u v a c H. unfold ex_qp in H. destruct (forallb _ rows) eqn:Ef; [|discriminate]. injection H as <- <-. exists u, v. split; auto. split; auto.
  split.
  - apply Forall_forall. intros r I. rewrite forallb_forall in Ef. specialize (Ef r I). unfold row_holds.
    destruct (qh r) as [h| | |]; cbn [xadd]; auto. rewrite Rplus_0_r. exact Ef.
  - intros x y _. unfold dist2. replace (u - u) with 0 by ring. replace (v - v) with 0 by ring. pose proof (Rle_0_sqr (x - u)). pose proof (Rle_0_sqr (y - v)). unfold Rsqr in *. lra.
Qed.
Example C69_ex : forall k u i v, obs (run ex_sim0 ([] ++ ex_reset_call :: [CTrans ex_or ex_in])) k u i = Some v -> exists x, v = Fin x.
Proof.
  destruct C06_ex as (E1 & E2 & E3 & E4 & E5).
  refine (C69_state_finite ex_nw (1/4) (Fin 100) ex_sim0 10 [] ex_or (ex_vec 50) [CTrans ex_or ex_in] E1 eq_refl _ E2 _ _ _ ex_qp_exact _ _ E3 E5 _ _ _); try lra.
  - apply ex_br_fin.
  - fin_rows.
  - apply ex_numbered.
  - cbn. lia.
  - repeat constructor; exact (fin_Fin _).
  - apply Forall_cons; [split; [exact ex_qp_exact|exact E4]|apply Forall_nil].
  - intros ts1 t ts2 E. destruct ts1 as [|? [|]]; [|discriminate|discriminate]. injection E as <- <-. cbn [returned]. fold ex_reset_call.
    pose proof ex_step as X. cbn [app] in X |- *. rewrite X. reflexivity.
  - unfold run. cbn [app fold_left run_call]. fold ex_reset_call.
    change (sm_conv (fst (transition ex_or ex_in (run ex_sim0 ([] ++ [ex_reset_call])))) = Some true). rewrite ex_step. reflexivity.
Qed.
Print Assumptions C69_state_finite.
Print Assumptions C69_reward_finite.
