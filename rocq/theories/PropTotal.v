(** C68: when a transition or a reset can raise. *)
From Coq Require Import Reals Lra Lia.
From Verif Require Import Base Num NumXR Devices BusBranch CheckNetwork LoadFlow Simulator LibBase LibNum LibXR LibSim LibEval SpecNet SpecSim SpecDev SpecQp SpecTotal
  ProofSim LibInit ProofObs ProofHist LibQp ProofTotal ProofGap PropSet ExNet ExRun.
From Verif Require Exec.
Notation gauss_solve := Exec.gauss_solve (only parsing).
Local Open Scope string_scope.
Local Open Scope list_scope.
Set Bullet Behavior "Strict Subproofs".

(** C68, in any arithmetic (binary64 included): on a network with contiguous bus IDs, at least two
    buses and a VMIN for the slack bus, once some call has returned, a transition can only raise
    because an input is missing, because the optimiser raised, or because a storage unit divides
    by a zero [dt * efficiency].  The load flow, the update of the network and the reward never
    raise, whether or not the power flow converges. *)
Theorem C68_transition_errors : forall {F} {N : Num F} (nw : network F) dt lamb s0 cs cl cs' Or inp e,
  sim_init nw dt lamb = Ok s0 -> solvable_network nw -> lin_total (o_lin Or) -> returned (run s0 cs) cl ->
  snd (transition Or inp (run s0 (cs ++ cl :: cs'))) = Err e -> fails nw dt Or inp e.
Proof.
  intros F N nw dt lamb s0 cs cl cs' Or inp e H Sv Hl R. apply (trans_fails nw dt lamb s0 H Or inp _ e Sv Hl); [apply strip_run|].
  replace (run s0 (cs ++ cl :: cs')) with (run (run_call (run s0 cs) cl) cs') by (unfold run; rewrite fold_left_app; reflexivity).
  apply run_soc_set. exact (proj2 (call_fresh _ _ R)).
Qed.
(** A reset needs no earlier call, only a vector that is long enough. *)
Theorem C68_reset_errors : forall {F} {N : Num F} (nw : network F) dt lamb s0 cs Or init e,
  sim_init nw dt lamb = Ok s0 -> solvable_network nw -> lin_total (o_lin Or) -> (reset_size nw <= List.length init)%nat ->
  snd (sim_reset Or init (run s0 cs)) = Err e -> exists inp, all_named nw inp /\ fails nw dt Or inp e.
Proof.
  intros F N nw dt lamb s0 cs Or init e H Sv Hl L E. pose proof (strip_run s0 cs) as St.
  destruct (reset_result nw dt lamb s0 H Or init _ St L) as (inp & ds & Em & Es & An & _ & _ & Er). exists inp. split; auto.
  apply Er in E. refine (trans_fails nw dt lamb s0 H Or inp _ e Sv Hl _ _ E); [rewrite strip_set_devs; auto|].
  cbn [sm_devs sim_set_devs]. eapply pre_soc_set; eauto.
Qed.
(** C68, exact arithmetic: with solvers that solve what is solvable and device rows whose limits
    are given, reset never raises ... *)
Theorem C68_reset_never_raises : forall (nw : network XR) d lamb s0 b cs Or init,
  sim_init nw (Fin d) lamb = Ok s0 -> nw_base nw = Fin b -> (0 < d)%R -> Forall mappable (nw_dev nw) -> solvable_network nw ->
  good_oracles Or -> (reset_size nw <= List.length init)%nat -> Forall fin init ->
  is_ok (snd (sim_reset Or init (run s0 cs))) = true.
Proof.
  intros nw d lamb s0 b cs Or init H Eb Hd Mp Sv G L Fi.
  exact (reset_ok_exact nw (Fin d) lamb s0 H b Eb d eq_refl Hd Mp Sv Or init _ (strip_run s0 cs) G L Fi).
Qed.
(** ... and after a call that left the states of charge in range, no sequence of transitions, of
    any length and whatever the set-points, ever raises; the states of charge stay in range. *)
Theorem C68_transitions_never_raise : forall (nw : network XR) d lamb s0 b cs cl ts,
  sim_init nw (Fin d) lamb = Ok s0 -> nw_base nw = Fin b -> (0 < d)%R -> Forall mappable (nw_dev nw) -> solvable_network nw ->
  returned (run s0 cs) cl -> soc_reported_ok s0 (run s0 (cs ++ [cl])) -> Forall (good_transition nw) ts ->
  soc_reported_ok s0 (run s0 (cs ++ cl :: ts)) /\
  forall ts1 t ts2, ts = ts1 ++ t :: ts2 -> returned (run s0 (cs ++ cl :: ts1)) t.
Proof.
  intros nw d lamb s0 b cs cl ts H Eb Hd Mp Sv R Soc G.
  destruct (run_ok nw (Fin d) lamb s0 H b Eb d eq_refl Hd Mp Sv cs cl ts R Soc G) as (Fr & Si & Rt). split; auto.
  apply (fresh_reported nw (Fin d) lamb s0 H _ (strip_run _ _) Fr Si).
Qed.

(** ---- the conditions are needed ---- *)
(** With a single bus every transition and every reset raises ... *)
Lemma single_flow {F} {N : Num F} Or (s : sim F) : List.length (sm_buses s) = 1%nat -> is_ok (snd (solve_load_flow (o_lin Or) xtol_pfe s)) = false.
Proof.
  intros L. unfold solve_load_flow, n_bus. rewrite L. set (pq := pq_vectors (sm_buses s)).
  assert (E : exists e, solve_pfe (o_lin Or) 1 (map fst pq) (map snd pq) (sm_Y s) xtol_pfe = Err e).
  { unfold solve_pfe. change (repeat n0 (1 - 1) ++ repeat n1 (1 - 1)) with (@nil F). unfold newton_raphson, f_pfe, construct_vE.
    cbn [List.length Nat.even bind]. destruct (mat_vecE (sm_Y s) (construct_v [])) as [i|e] eqn:E; [|cbn; eauto]. cbn [bind].
    rewrite !map_length, Nat.eqb_refl. cbn [andb]. destruct (Nat.eqb (S (List.length pq)) _) eqn:E2; [|cbn; eauto]. cbn [negb raise_if bind].
    apply Nat.eqb_eq in E2. assert (List.length pq = 0%nat) by (rewrite (construct_len [] 0 eq_refl) in E2; lia).
    destruct pq; [|discriminate]. cbn [map]. 
    assert (Lm : forall l : list (cplx F), re_im (mismatch (construct_v []) l [] []) = []).
    { intros l. unfold mismatch. cbn [zip_with]. unfold re_im. match goal with |- context [zip_with ?f ?a []] => assert (zip_with f a [] = []) as -> by (destruct a; reflexivity) end. reflexivity. }
    rewrite Lm. cbn. eauto. }
  destruct E as (e & ->). reflexivity.
Qed.
Theorem C68_single_bus_refuted : forall {F} {N : Num F} (nw : network F) dt lamb s0 cs Or,
  sim_init nw dt lamb = Ok s0 -> List.length (nw_bus nw) = 1%nat ->
  (forall inp, is_ok (snd (transition Or inp (run s0 cs))) = false) /\ (forall init, is_ok (snd (sim_reset Or init (run s0 cs))) = false).
Proof.
  intros F N nw dt lamb s0 cs Or H L.
  assert (Lb : forall s, strip s = strip s0 -> List.length (sm_buses s) = 1%nat).
  { intros s S. destruct (sim_init_built _ _ _ _ H) as (bs & ds & B). apply strip_buses in S. apply (f_equal (@List.length _)) in S. rewrite !map_length in S.
    rewrite S, (bt_sbuses _ _ _ _ _ _ B), map_length, (Permutation.Permutation_length (sort_by_perm b_id bs)). pose proof (bt_buses _ _ _ _ _ _ B) as M. apply mapM_length in M. lia. }
  assert (T : forall s inp, strip s = strip s0 -> is_ok (snd (transition Or inp s)) = false).
  { intros s inp S. unfold transition. destruct (devs_transition _ _ _ _ _) as [ds [u|e]]; [|reflexivity].
    match goal with |- context [solve_load_flow ?a ?b ?c] => pose proof (single_flow Or c) as Q; destruct (solve_load_flow a b c) as [s3 [cv|e]] end; [|reflexivity].
    cbn in Q. rewrite map_length in Q. rewrite (Lb s S) in Q. discriminate (Q eq_refl). }
  split; [intros inp; apply T, strip_run|]. intros init. unfold sim_reset.
  destruct (reset_inputs _ _ _ _ _ _ _) as [inp|]; [|reflexivity]. destruct (mapM (dev_pre_soc inp) _) as [ds|] eqn:E; [|reflexivity].
  apply (mapM_proj _ strip_dev strip_dev) in E; [|apply strip_pre_soc].
  match goal with |- context [transition Or inp ?s] => specialize (T s inp); destruct (transition Or inp s) as [s1 [[[[[st r] e] pen] cv]|e]] end; [|reflexivity].
  cbn in T. rewrite strip_set_devs in T by auto. discriminate (T (strip_run _ _)).
Qed.
(** ... and so they do when the slack bus has no VMIN, although the constructor accepts it. *)
Theorem C68_slack_vmin_refuted : forall {F} {N : Num F} (nw : network F) dt lamb s0 cs Or r,
  sim_init nw dt lamb = Ok s0 -> In r (nw_bus nw) -> br_vmin r = None ->
  (forall inp, is_ok (snd (transition Or inp (run s0 cs))) = false) /\ (forall init, is_ok (snd (sim_reset Or init (run s0 cs))) = false).
Proof.
  intros F N nw dt lamb s0 cs Or r H Ir Ev.
  assert (T : forall s inp, strip s = strip s0 -> is_ok (snd (transition Or inp s)) = false).
  { intros s inp S. destruct (transition Or inp s) as [s' [[[[[st re] e] pen] cv]|e]] eqn:Et; [|reflexivity]. exfalso.
    apply transition_ok in Et as (_ & Cr & ds & v & i & T). pose proof (tk_strip _ _ _ _ _ _ _ _ T) as S'. rewrite S in S'.
    destruct (sim_init_built _ _ _ _ H) as (bs & ds0 & B). destruct (bt_bus_row_inv B r Ir) as (b0 & Eb & I0).
    assert (X : exists x, In x (sm_buses s') /\ b_vmin x = None).
    { apply (in_map strip_bus) in I0. rewrite <- (strip_buses _ _ S') in I0. apply in_map_iff in I0 as (x & Ex & Ix). exists x. split; auto.
      apply strip_bus_fields in Ex as (_ & _ & _ & _ & Ex & _). rewrite Ex. cbn. unfold bus_init in Eb. inv_ok. cbn. auto. }
    destruct X as (x & Ix & Ex). unfold compute_reward, penalty_of in Cr. apply bind_ok in Cr as (pn & Cr & _). apply bind_ok in Cr as (a & Cr & _).
    revert Cr. generalize n0. revert Ix. generalize (sm_buses s'). induction l as [|y l IH]; intros I a0; [destruct I|]. cbn [foldM]. destruct I as [->|I].
    - unfold bus_penalty at 1. rewrite Ex. discriminate.
    - intros Q. apply bind_ok in Q as (a1 & _ & Q). eapply IH; eauto. }
  split; [intros inp; apply T, strip_run|]. intros init. unfold sim_reset.
  destruct (reset_inputs _ _ _ _ _ _ _) as [inp|]; [|reflexivity]. destruct (mapM (dev_pre_soc inp) _) as [ds|] eqn:E; [|reflexivity].
  apply (mapM_proj _ strip_dev strip_dev) in E; [|apply strip_pre_soc].
  match goal with |- context [transition Or inp ?s] => specialize (T s inp); destruct (transition Or inp s) as [s1 [[[[[st re] e] pen] cv]|e]] end; [|reflexivity].
  cbn in T. rewrite strip_set_devs in T by auto. discriminate (T (strip_run _ _)).
Qed.

(** ---- examples ---- *)
(** Gaussian elimination is a total linear solver in every arithmetic. *)
Theorem C68_linear_solver_exists : forall {F} {N : Num F}, lin_total (@Exec.gauss_solve F N).
Proof.
  intros F N A b L. unfold Exec.gauss_solve. eexists. split; [reflexivity|].
  assert (Lz : List.length (zip_with (fun r x => r ++ [x]) A b) = List.length b) by (rewrite zip_with_length; lia).
  revert Lz. generalize (zip_with (fun r x => r ++ [x]) A b). generalize (List.length b). clear.
  assert (Br : forall (rows : list (list F)) i bi bv, (bi < i + List.length rows)%nat -> (Exec.best_row rows i bi bv < i + List.length rows)%nat).
  { induction rows as [|r rows IH]; intros i bi bv H; cbn [Exec.best_row List.length] in *; [lia|].
    destruct (nltb bv _); (eapply Nat.lt_le_trans; [apply IH; lia|lia]). }
  induction n as [|n IH]; intros rows Lr; [reflexivity|]. cbn [Exec.gauss].
  destruct (nth_error rows (Exec.best_row rows 0 0 n0)) as [pr|] eqn:E.
  - cbn [List.length]. f_equal. apply IH. rewrite map_length, app_length, firstn_length, skipn_length.
    pose proof (Br rows 0%nat 0%nat n0 ltac:(lia)). lia.
  - apply nth_error_None in E. pose proof (Br rows 0%nat 0%nat n0 ltac:(lia)). lia.
Qed.

Local Open Scope R_scope.
Lemma ex_solvable k w : solvable_network (ex_nwk k w).
Proof.
  split; [|split].
  - intros i. cbn. split; [intros [E|[E|[]]]; injection E as <-; lia|]. intros E. assert (i = 0%Z \/ i = 1%Z) as [->| ->] by lia; auto.
  - cbn. lia.
  - intros r I _. cbn in I. destruct I as [<-|[<-|[]]]; discriminate.
Qed.
(** Every hypothesis is met by the network of ExNet.v: whatever the finite vector of 10 numbers given
    to reset, it returns; with the vector of ExRun.v the whole run that repeats a transition [n] times returns. *)
Example C68_ex : exists Or, good_oracles Or /\
  (forall init, (10 <= List.length init)%nat -> Forall fin init -> is_ok (snd (sim_reset Or init ex_sim0)) = true) /\
  forall n, forall k, (k < n)%nat -> returned (run ex_sim0 (ex_reset_call :: repeat (CTrans Or ex_in) k)) (CTrans Or ex_in).
Proof.
  destruct C06_solver_exists as (qp & _ & Qe & Qc). exists (mkOr qp gauss_solve).
  assert (G : good_oracles (mkOr qp gauss_solve)) by (split; [exact Qe|split; [exact Qc|apply C68_linear_solver_exists]]).
  destruct C06_ex as (E1 & E2 & E3 & E4 & E5). split; auto. split.
  - intros init L Fi. apply (C68_reset_never_raises ex_nw (1/4) (Fin 100) ex_sim0 10 [] _ init); auto; [lra|apply ex_solvable].
  - intros n k Hk.
    destruct (C68_transitions_never_raise ex_nw (1/4) (Fin 100) ex_sim0 10 [] ex_reset_call (repeat (CTrans (mkOr qp gauss_solve) ex_in) n)) as [_ R]; auto; [lra|apply ex_solvable| |].
    + apply Forall_forall. intros c I. apply repeat_spec in I. subst c. split; auto.
    + apply (R (repeat (CTrans (mkOr qp gauss_solve) ex_in) k) _ (repeat (CTrans (mkOr qp gauss_solve) ex_in) (n - k - 1))).
      change (?t :: repeat ?t ?m) with (repeat t (S m)). rewrite <- repeat_app. f_equal. lia.
Qed.
(** A network with a single bus, and one whose slack bus has no VMIN, are accepted. *)
Definition one_bus : network XR := mkNet (Fin 10) [ex_bus0 1] [ex_slack] [].
Definition no_vmin : network XR := mkNet (Fin 10) [ex_bus1; mkBusRow (Some 0%Z) (Some 0%Z) (cell 132) (cell 1) None] [ex_stor; ex_slack; ex_load (2/10); ex_rer] [ex_line].
Example C68_refuted_ex : (exists s0, sim_init one_bus (Fin (1/4)) (Fin 100) = Ok s0) /\ (exists s0, sim_init no_vmin (Fin (1/4)) (Fin 100) = Ok s0).
Proof.
  split.
  - unfold sim_init. assert (check_network_specs one_bus = Ok tt) as -> by (unfold check_network_specs, one_bus; xeval; reflexivity). cbn [bind].
    assert (load_buses (nw_bus one_bus) = Ok [exo_bus0 1 0 0 (xc 0 0) (xc 0 0) 0 0 0 0]) as ->
      by (unfold load_buses; cbn [one_bus nw_bus foldM]; rewrite (ex_bus0_ok 1) by lra; reflexivity). cbn [bind].
    assert (load_devices (nw_dev one_bus) (nw_base one_bus) (map b_id [exo_bus0 1 0 0 (xc 0 0) (xc 0 0) 0 0 0 0]) = Ok [exo_slack 0 0]) as ->.
    { unfold load_devices. cbn [one_bus nw_dev nw_base foldM]. change (dev_class ex_slack) with (Ok CGen). cbn [bind]. unfold ex_slack. xrow. }
    cbn. eauto.
  - unfold sim_init. assert (check_network_specs no_vmin = Ok tt) as -> by (unfold check_network_specs, no_vmin; xeval; reflexivity). cbn [bind].
    assert (exists b0, load_buses (nw_bus no_vmin) = Ok [b0; exo_bus1 0 0 (xc 0 0) (xc 0 0) 0 0 0 0] /\ b_id b0 = 0%Z) as (b0 & -> & E0).
    { unfold load_buses; cbn [no_vmin nw_bus foldM]. rewrite ex_bus1_ok. cbn [bind].
      assert (exists b0, bus_init (mkBusRow (Some 0%Z) (Some 0%Z) (cell 132) (cell 1) None) = Ok b0 /\ b_id b0 = 0%Z) as (b0 & -> & E0).
      { eexists. split; [unfold bus_init, cell; xeval; reflexivity|reflexivity]. }
      cbn [bind]. exists b0. split; auto. rewrite E0. reflexivity. }
    cbn [bind map]. rewrite E0. change (b_id (exo_bus1 0 0 (xc 0 0) (xc 0 0) 0 0 0 0)) with 1%Z.
    change (nw_br no_vmin) with (nw_br (ex_nwk (2/10) 1)). change (nw_dev no_vmin) with (nw_dev (ex_nwk (2/10) 1)). change (nw_base no_vmin) with (Fin 10).
    rewrite ex_load_brs, ex_load_devs. cbn [bind]. rewrite ex_build_Y by auto. cbn [bind]. eauto.
Qed.
Print Assumptions C68_transition_errors.
Print Assumptions C68_reset_errors.
Print Assumptions C68_reset_never_raises.
Print Assumptions C68_transitions_never_raise.
Print Assumptions C68_single_bus_refuted.
Print Assumptions C68_slack_vmin_refuted.
Print Assumptions C68_linear_solver_exists.
