(** C58: the angles that are reported lie within the ranges that [get_state_space] advertises for them. *)
From Coq Require Import Reals Lra Lia.
From Coquelicot Require Import Complex.
From Verif Require Import Base Num NumXR Devices BusBranch CheckNetwork LoadFlow Simulator LibBase LibNum LibXR LibSim LibInit SpecNet SpecSim SpecDev SpecPf
  ProofSim ProofObs ProofBounds ProofUnits ProofPf ProofBal ProofLoss ProofGap ExNet PropPf PropUnits.
Local Open Scope string_scope.
Local Open Scope list_scope.
Local Open Scope R_scope.
Set Bullet Behavior "Strict Subproofs".

Definition half_turn (u : string) : R := if String.eqb u "rad" then PI else 180.
Lemma angle_bound (nw : network XR) dt lamb s0 u b0 k : sim_init nw dt lamb = Ok s0 -> u = "rad" \/ u = "degree" -> In b0 (sm_buses s0) -> k = "bus_v_ang" \/ k = "bus_i_ang" ->
  bound s0 k u (EId (b_id b0)) = Some (if (String.eqb k "bus_v_ang" && b_slack b0)%bool then (Fin 0, Fin 0) else (Fin (- half_turn u), Fin (half_turn u))).
Proof.
  intros H0 Hu I K. destruct K as [-> | ->].
  - erewrite (bound_bus s0 "bus_v_ang" u); [|reflexivity|eapply init_bus_nodup; eauto|exact I]. cbv beta. cbn [String.eqb Ascii.eqb Bool.eqb andb].
    destruct (b_slack b0), Hu as [-> | ->]; reflexivity.
  - erewrite (bound_bus s0 "bus_i_ang" u); [|reflexivity|eapply init_bus_nodup; eauto|exact I]. cbv beta. cbn [String.eqb Ascii.eqb Bool.eqb andb].
    destruct Hu as [-> | ->]; reflexivity.
Qed.

(** C58, the advertised ranges: [0, 0] for the voltage angle of the slack bus, half a turn to each side for every other angle of a bus. *)
Theorem C58_advertised_ranges : forall (nw : network XR) dt lamb s0 r i u, sim_init nw dt lamb = Ok s0 -> In r (nw_bus nw) -> br_id r = Some i -> u = "rad" \/ u = "degree" ->
  (br_type r = Some 0%Z -> bound s0 "bus_v_ang" u (EId i) = Some (Fin 0, Fin 0)) /\
  (br_type r <> Some 0%Z -> bound s0 "bus_v_ang" u (EId i) = Some (Fin (- half_turn u), Fin (half_turn u))) /\
  bound s0 "bus_i_ang" u (EId i) = Some (Fin (- half_turn u), Fin (half_turn u)).
Proof.
  intros nw dt lamb s0 r i u H0 I Ei Hu. destruct (sim_init_built _ _ _ _ H0) as (bs & ds & B). destruct (bt_bus_row_inv B _ I) as (b0 & E & Ib).
  pose proof (bus_init_id _ _ E) as Ej. pose proof (bus_init_type _ _ E) as Et. assert (Z0 : b_id (bus_with_bounds (sm_devs s0) b0) = i) by (cbn; congruence).
  assert (Sl : b_slack (bus_with_bounds (sm_devs s0) b0) = true <-> br_type r = Some 0%Z).
  { unfold b_slack. cbn. rewrite Et. split; [intros Q; apply Z.eqb_eq in Q; congruence|intros Q; injection Q as ->; reflexivity]. }
  rewrite <- Z0, !(angle_bound nw dt lamb s0 u _ _ H0 Hu Ib) by auto. cbn [String.eqb Ascii.eqb Bool.eqb andb].
  destruct (b_slack (bus_with_bounds (sm_devs s0) b0)); split; [|split; [|reflexivity]| |split; [|reflexivity]]; try reflexivity; intros Q.
  - contradiction Q. apply Sl. reflexivity.
  - apply Sl in Q. discriminate Q.
Qed.

(** C58: after a power flow that converged, every reported angle is NaN or within the advertised range, also that of the slack bus. *)
Theorem C58_within_advertised : forall (nw : network XR) dt lamb s0 b cs k u i v lo hi,
  sim_init nw dt lamb = Ok s0 -> nw_base nw = Fin b -> Forall branch_row_fin (nw_br nw) -> numbered nw ->
  sm_conv (run s0 cs) = Some true -> In k angle_keys -> u = "rad" \/ u = "degree" ->
  obs (run s0 cs) k u i = Some v -> bound s0 k u i = Some (lo, hi) -> v = NaN \/ xle lo v /\ xle v hi.
Proof.
  intros nw dt lamb s0 b cs k u i v lo hi H0 Eb Hr Hn Hc K Hu O Bd.
  assert (Half : forall w, w = v -> w = NaN \/ xle (Fin (- half_turn u)) w /\ xle w (Fin (half_turn u))).
  { intros w ->. destruct Hu as [-> | ->]; [destruct (angles_rad _ _ _ _ cs k i v H0 K O) as [E|(a & -> & A)]|destruct (angles_deg _ _ _ _ cs k i v H0 K O) as [E|(a & -> & A)]]; auto;
      right; unfold half_turn; cbn [String.eqb Ascii.eqb Bool.eqb xle]; split; apply xle_Fin; lra. }
  assert (Es : sm_state (run s0 cs) <> None) by (intros E; unfold obs in O; rewrite E in O; discriminate O).
  destruct (pf_reach nw dt lamb s0 H0 b Eb Hr Hn cs Es Hc) as (s1 & V & E1 & S1 & PS).
  assert (Bus : k = "bus_v_ang" \/ k = "bus_i_ang" -> exists b0, In b0 (sm_buses s0) /\ i = EId (b_id b0)).
  { intros Q. unfold bound, get_state_space in Bd. destruct Q as [-> | ->]; cbn [dget String.eqb Ascii.eqb Bool.eqb] in Bd;
      destruct (dget eid_eqb _ i) as [q|] eqn:D; try discriminate Bd; apply (dget_objs_inv (fun d => EId (b_id d))) in D as (d & Id & Ed & _); exists d; auto. }
  cbn [In angle_keys] in K. destruct K as [<-|[<-|[<-|[]]]].
  - destruct (Bus ltac:(auto)) as (b0 & Ib & ->). rewrite (angle_bound nw dt lamb s0 u b0 _ H0 Hu Ib) in Bd by auto. cbn [String.eqb Ascii.eqb Bool.eqb andb] in Bd.
    destruct (b_slack b0) eqn:Sl; [|injection Bd as <- <-; apply Half; reflexivity]. injection Bd as <- <-.
    rewrite (num_slack nw dt lamb s0 H0 Hn s0 b0 eq_refl Ib) in Sl. apply Z.eqb_eq in Sl. rewrite Sl in O.
    destruct (st_slack_v nw dt lamb s0 H0 b Hn (run s0 cs) s1 V E1 S1 PS) as [_ A]. right.
    destruct Hu as [-> | ->]; [|rewrite (units_angle_state _ _ _ _ cs "bus_v_ang" (EId 0) H0 ltac:(cbn; auto)) in O]; rewrite A in O; injection O as <-.
    + split; apply xle_Fin; lra.
    + assert (E3 : xdiv (xmul (Fin 0) (Fin (IZR 180))) (Fin PI) = Fin 0) by (pose proof PI_RGT_0; cbn [xmul]; rewrite xdiv_Fin by lra; f_equal; field; lra).
      change (xle (Fin 0) (xdiv (xmul (Fin 0) (Fin (IZR 180))) (Fin PI)) /\ xle (xdiv (xmul (Fin 0) (Fin (IZR 180))) (Fin PI)) (Fin 0)). rewrite E3. split; apply xle_Fin; lra.
  - destruct (Bus ltac:(auto)) as (b0 & Ib & ->). rewrite (angle_bound nw dt lamb s0 u b0 _ H0 Hu Ib) in Bd by auto. injection Bd as <- <-. apply Half; reflexivity.
  - assert (E : (lo, hi) = (Fin (- half_turn u), Fin (half_turn u))); [|injection E as -> ->; apply Half; reflexivity].
    unfold bound, get_state_space in Bd. cbn [dget String.eqb Ascii.eqb Bool.eqb] in Bd. destruct (dget eid_eqb _ i) as [q|] eqn:D; [|discriminate Bd].
    apply (dget_objs_inv (fun d => EBr (ln_f d) (ln_t d))) in D as (d & _ & _ & ->). destruct Hu as [-> | ->]; injection Bd as <- <-; reflexivity.
Qed.
(** a converged state of the 2-bus network: the voltage angle of the slack bus is within [0, 0] *)
Example C58_within_ex : exists v, obs (run ex_sim0 ex_calls) "bus_v_ang" "degree" (EId 0) = Some v /\ bound ex_sim0 "bus_v_ang" "degree" (EId 0) = Some (Fin 0, Fin 0) /\
  sm_conv (run ex_sim0 ex_calls) = Some true /\ bound ex_sim0 "bus_v_ang" "degree" (EId 1) = Some (Fin (-180), Fin 180) /\
  sim_init ex_nw (Fin (1/4)) (Fin 100) = Ok ex_sim0 /\ Forall branch_row_fin (nw_br ex_nw) /\ numbered ex_nw.
Proof.
  assert (A : exists v, obs (run ex_sim0 ex_calls) "bus_v_ang" "degree" (EId 0) = Some v) by (rewrite ex_run; eexists; reflexivity). destruct A as (v & A). exists v.
  split; [exact A|]. split; [reflexivity|]. split; [rewrite ex_run; reflexivity|]. split; [|split; [exact ex_init|split; [apply ex_br_fin|apply ex_numbered]]].
  destruct (C58_advertised_ranges ex_nw (Fin (1/4)) (Fin 100) ex_sim0 ex_bus1 1%Z "degree" ex_init ltac:(cbn; auto) eq_refl ltac:(auto)) as (_ & E & _). apply E. discriminate.
Qed.

Print Assumptions C58_advertised_ranges.
Print Assumptions C58_within_advertised.
