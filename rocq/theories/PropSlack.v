(** C77: the power exchanged with the main grid, whether the power flow converged or not. *)
From Coq Require Import Reals Lra Lia Floats.
From Verif Require Import Base Num NumXR NumFloat Devices BusBranch CheckNetwork LoadFlow Simulator LibBase LibNum LibXR LibSim LibInit SpecNet SpecSim ProofSim ProofSoc ProofHist ProofObs ProofBusP ProofPf.
Local Open Scope string_scope.
Local Open Scope list_scope.
Set Bullet Behavior "Strict Subproofs".

Section Slack.
  Context {F : Type} {N : Num F} (Hinf : nisnan (ninf : F) = false).
  Lemma inf_if_nan_ok (x : F) : nisnan (inf_if_nan x) = false.
  Proof. unfold inf_if_nan. destruct (nisnan x) eqn:E; auto. Qed.
  Lemma bus_update_slack v i (ib : nat * bus F) b' : bus_update v i ib = Ok b' -> b_slack b' = true -> nisnan (b_p b') = false /\ nisnan (b_q b') = false.
  Proof.
    unfold bus_update. intros H S. apply bind_ok in H as (vk & _ & H). apply bind_ok in H as (ik & _ & H).
    destruct (b_slack (bus_set_vi (snd ib) vk ik)) eqn:E.
    - apply bind_ok in H as (v0 & _ & H). apply bind_ok in H as (i0 & _ & H). injection H as <-. cbn. split; apply inf_if_nan_ok.
    - injection H as <-. congruence.
  Qed.
  Lemma pf_slack_bus s0 s1 b : from_pf s0 s1 -> In b (sm_buses s1) -> b_slack b = true -> nisnan (b_p b) = false /\ nisnan (b_q b) = false.
  Proof.
    intros (Or & inp & sp & sq & conv & ds & v & i & _ & T & Eb & _) I S. rewrite Eb in I. pose proof (tk_buses _ _ _ _ _ _ _ _ T) as M. apply mapM_ok in M.
    destruct (Forall2_in_r _ _ _ _ M I) as (ib & _ & E). eapply bus_update_slack; eauto.
  Qed.
  Lemma find_bus_in (bs : list (bus F)) k b : find_bus bs k = Some b -> In b bs /\ b_id b = k.
  Proof. unfold find_bus. intros H. apply find_some in H as (I & E). apply Z.eqb_eq in E. auto. Qed.
  Lemma pf_slack_dev s0 s1 d : from_pf s0 s1 -> In d (sm_devs s1) -> d_slack d = true ->
    exists b, In b (sm_buses s1) /\ b_id b = d_bus d /\ d_p d = b_p b /\ d_q d = b_q b.
  Proof.
    intros (Or & inp & sp & sq & conv & ds & v & i & _ & T & Eb & _ & Ec & _) I S.
    assert (J : In (dev_core d) (map dev_core (sm_devs sq))) by (rewrite <- Ec; apply in_map; auto). apply in_map_iff in J as (d' & E & J).
    unfold dev_core in E. injection E as E1 E2 E3 E4 E5 E6 E7.
    pose proof (tk_sdevs _ _ _ _ _ _ _ _ T) as M. apply mapM_ok in M. destruct (Forall2_in_r _ _ _ _ M J) as (d0 & _ & K).
    assert (Sl : d_slack d' = true) by (unfold d_slack in *; congruence).
    unfold dev_slack_update in K. destruct (d_slack d0) eqn:S0.
    - destruct (find_bus (sm_buses sq) (d_bus d0)) as [b|] eqn:Fb; [|discriminate]. injection K as <-. apply find_bus_in in Fb as (Ib & Ei).
      exists b. rewrite Eb. cbn in *. repeat split; congruence.
    - injection K as <-. congruence.
  Qed.

  Context (nw : network F) (dt lamb : F) (s0 : sim F) (H0 : sim_init nw dt lamb = Ok s0).
  Lemma row_dev s1 r : strip s1 = strip s0 -> In r (nw_dev nw) -> exists d, In d (sm_devs s1) /\ dr_id r = Some (d_id d) /\ dr_type r = Some (d_type d) /\ dr_bus r = Some (d_bus d).
  Proof.
    intros S I. destruct (sim_init_built _ _ _ _ H0) as (bs & ds & B). destruct (bt_dev_row_inv B _ I) as (d & Id & M).
    apply mk_dev_fields in M as (M1 & M2 & M3 & _). destruct (static_dev _ _ _ (eq_sym S) Id) as (d' & Id' & E). apply strip_dev_fields in E as (E1 & E2 & E3 & _).
    exists d'. repeat split; auto; congruence.
  Qed.
  Lemma row_bus s1 r : strip s1 = strip s0 -> In r (nw_bus nw) -> exists b, In b (sm_buses s1) /\ br_id r = Some (b_id b) /\ br_type r = Some (b_type b).
  Proof.
    intros S I. destruct (sim_init_built _ _ _ _ H0) as (bs & ds & B). destruct (bt_bus_row_inv B _ I) as (b0 & M & Ib).
    destruct (static_bus _ _ _ (eq_sym S) Ib) as (b & Ib' & E). apply strip_bus_fields in E as (E1 & E2 & _). cbn in E1, E2.
    pose proof (bus_init_id _ _ M). pose proof (bus_init_type _ _ M). exists b. repeat split; auto; congruence.
  Qed.

  (** what the state says about the slack device is what it says about the slack bus *)
  Lemma slack_same s1 r rb : from_pf s0 s1 -> In r (nw_dev nw) -> slack_dev_row r -> In rb (nw_bus nw) -> slack_bus_row rb ->
    exists d b, In d (sm_devs s1) /\ In b (sm_buses s1) /\ dr_id r = Some (d_id d) /\ br_id rb = Some (b_id b) /\ b_slack b = true /\ d_p d = b_p b /\ d_q d = b_q b.
  Proof.
    intros P I S Ib Sb. pose proof (from_pf_strip _ _ P) as St. destruct (row_dev _ _ St I) as (d & Id & E1 & E2 & E3). destruct (row_bus _ _ St Ib) as (b & Jb & E4 & E5).
    assert (Sl : d_slack d = true) by (unfold d_slack, slack_dev_row in *; apply Z.eqb_eq; congruence).
    destruct (pf_slack_dev _ _ _ P Id Sl) as (b' & Jb' & Ei & Ep & Eq).
    assert (b' = b) as ->.
    { destruct (sim_init_built _ _ _ _ H0) as (bs & ds & B). destruct (bt_wf _ _ _ _ _ _ B) as (_ & _ & _ & W3 & _). pose proof (W3 _ _ Ib Sb I S) as E.
      eapply (nodup_inj b_id (sm_buses s1)); auto; [eapply static_bus_nodup; eauto|]. congruence. }
    exists d, b. repeat split; auto. unfold b_slack. apply Z.eqb_eq. unfold slack_bus_row in Sb. congruence.
  Qed.
End Slack.

(** C77: in every arithmetic whose infinity is not NaN, after any history of resets and transitions, whether power flows converged or not: the slack device and
    the slack bus report the same active and reactive power, in per unit and in MW or MVAr, and in per unit it is never NaN. *)
Theorem C77_slack_power : forall (F : Type) (N : Num F), nisnan (ninf : F) = false -> forall (nw : network F) dt lamb s0 cs r rb i j,
  sim_init nw dt lamb = Ok s0 -> In r (nw_dev nw) -> slack_dev_row r -> dr_id r = Some i -> In rb (nw_bus nw) -> slack_bus_row rb -> br_id rb = Some j ->
  let s := run s0 cs in
  (forall u, In u ["pu"; "MW"] -> obs s "dev_p" u (EId i) = obs s "bus_p" u (EId j)) /\
  (forall u, In u ["pu"; "MVAr"] -> obs s "dev_q" u (EId i) = obs s "bus_q" u (EId j)) /\
  (forall x, obs s "dev_p" "pu" (EId i) = Some x \/ obs s "dev_q" "pu" (EId i) = Some x -> nisnan x = false).
Proof.
  intros F N Hinf nw dt lamb s0 cs r rb i j H0 I S Ei Ib Sb Ej. cbn zeta.
  apply (gathered_obs_pf nw dt lamb s0 cs (fun ob => (forall u, In u ["pu"; "MW"] -> ob "dev_p" u (EId i) = ob "bus_p" u (EId j)) /\
    (forall u, In u ["pu"; "MVAr"] -> ob "dev_q" u (EId i) = ob "bus_q" u (EId j)) /\
    (forall x, ob "dev_p" "pu" (EId i) = Some x \/ ob "dev_q" "pu" (EId i) = Some x -> nisnan x = false)) H0).
  { repeat split; auto. intros x [E|E]; discriminate. }
  intros s1 P _. destruct (slack_same _ _ _ _ H0 s1 r rb P I S Ib Sb) as (d & b & Id & Jb & E1 & E2 & Sl & Ep & Eq).
  destruct (pf_slack_bus Hinf _ _ _ P Jb Sl) as (N1 & N2). pose proof (from_pf_strip _ _ P) as St.
  assert (NDd : NoDup (map d_id (sm_devs s1))) by (eapply static_nodup; eauto). assert (NDb : NoDup (map b_id (sm_buses s1))) by (eapply static_bus_nodup; eauto).
  replace i with (d_id d) by congruence. replace j with (b_id b) by congruence.
  rewrite (read_dev s1 "dev_p" "pu" (fun _ => true) d_p d), (read_dev s1 "dev_q" "pu" (fun _ => true) d_q d) by (cbn; auto 10).
  repeat split.
  - intros u [<-|[<-|[]]].
    + rewrite (read_dev s1 "dev_p" "pu" (fun _ => true) d_p d), (read_bus s1 "bus_p" "pu" b_p b) by (cbn; auto 10). congruence.
    + rewrite (read_dev s1 "dev_p" "MW" (fun _ => true) (fun d => nmul (d_p d) (sm_base s1)) d), (read_bus s1 "bus_p" "MW" (fun b => nmul (b_p b) (sm_base s1)) b) by (cbn; auto 10). congruence.
  - intros u [<-|[<-|[]]].
    + rewrite (read_dev s1 "dev_q" "pu" (fun _ => true) d_q d), (read_bus s1 "bus_q" "pu" b_q b) by (cbn; auto 10). congruence.
    + rewrite (read_dev s1 "dev_q" "MVAr" (fun _ => true) (fun d => nmul (d_q d) (sm_base s1)) d), (read_bus s1 "bus_q" "MVAr" (fun b => nmul (b_q b) (sm_base s1)) b) by (cbn; auto 10). congruence.
  - intros x [E|E]; injection E as <-; congruence.
Qed.
