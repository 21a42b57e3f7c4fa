(** The 2-bus network of examples/simple_env.py in exact arithmetic (C80, C81): it is accepted, meets the documented conditions, and
    its impedance. *)
From Coq Require Import Reals Lra Lia.
From Coquelicot Require Import Complex.
From Verif Require Import Base Num NumXR Devices BusBranch CheckNetwork LoadFlow Simulator EnvArgs Env Anm6 Examples LibBase LibNum LibSim LibXR LibEval
  SpecSim SpecDev SpecQp SpecPf SpecTotal SpecObs SpecEnv ProofEnv ProofStep ProofState ProofDraw ProofEnvOk ProofArgs PropObs PropReward ProofEasy PropSet PropPf PropEasy PropMake ExNet ProofAnm6
  PropResetIn SpecLight LibC ProofBal ProofY ProofLight.
Local Open Scope string_scope.
Local Open Scope list_scope.
Local Open Scope R_scope.
Set Bullet Behavior "Strict Subproofs".

Notation simplex := (simple_network (F := XR)).
Definition ids2 : list Z := [0; 1]%Z.

Definition sx_devs : list (device XR) := [ax_slack; ax_load 1 1 (1/10)].
Definition srow (k : nat) : dev_row XR := nth k (nw_dev simplex) ex_slack.
Ltac sxrow := unfold srow, simple_network, ids2, nrat; cbn [nth nw_dev]; xeval; unfold ax_slack, ax_load; cbn [n0 n1 XRnum]; xsame.
Lemma sx_row0 : dev_init CGen (srow 0) ids2 (Fin 100) = Ok ax_slack. Proof. sxrow. Qed.
Lemma sx_row1 : dev_init CLoad (srow 1) ids2 (Fin 100) = Ok (ax_load 1 1 (1/10)). Proof. sxrow. Qed.
Lemma sx_load_devs : load_devices (nw_dev simplex) (Fin 100) ids2 = Ok sx_devs.
Proof.
  change (nw_dev simplex) with [srow 0; srow 1]. unfold load_devices. cbn [foldM].
  change (dev_class (srow 0)) with (Ok CGen). change (dev_class (srow 1)) with (Ok CLoad). cbn [bind]. rewrite sx_row0, sx_row1. reflexivity.
Qed.
Definition sbus (k : nat) : bus_row XR := nth k (nw_bus simplex) ex_bus1.
Ltac sbrow := unfold sbus, simple_network, nrat; cbn [nth nw_bus]; xeval; unfold ax_bus; xunfo; xsame.
Lemma sx_bus0 : bus_init (sbus 0) = Ok (ax_bus 0 0 132 1 1). Proof. sbrow. Qed.
Lemma sx_bus1 : bus_init (sbus 1) = Ok (ax_bus 1 1 33 (11/10) (9/10)). Proof. sbrow. Qed.
Definition sx_buses : list (bus XR) := [ax_bus 0 0 132 1 1; ax_bus 1 1 33 (11/10) (9/10)].
Lemma sx_load_buses : load_buses (nw_bus simplex) = Ok sx_buses.
Proof. change (nw_bus simplex) with [sbus 0; sbus 1]. unfold load_buses. cbn [foldM]. rewrite sx_bus0, sx_bus1. reflexivity. Qed.
Definition sline : branch_row XR := nth 0 (nw_br simplex) ex_line.
Lemma sx_br0 : exists b, branch_init sline (Fin 100) ids2 = Ok b /\ ln_f b = 0%Z /\ ln_t b = 1%Z.
Proof. unfold sline, simple_network, ids2, nrat; cbn [nth nw_br]; xeval; eexists; split; [reflexivity|split; reflexivity]. Qed.
Lemma sx_check : check_network_specs simplex = Ok tt.
Proof. unfold check_network_specs, simple_network. cbn -[xleb IZR]. rewrite xleb_f by lra. reflexivity. Qed.
Lemma sx_sim dt lamb : exists s, sim_init simplex dt lamb = Ok s /\ sm_devs s = sx_devs /\ sm_base s = Fin 100.
Proof.
  destruct sx_br0 as (b0 & E0 & F0 & T0).
  unfold sim_init. rewrite sx_check, sx_load_buses. cbn [bind]. change (map b_id sx_buses) with ids2. change (nw_base simplex) with (Fin 100). rewrite sx_load_devs.
  change (nw_br simplex) with [sline]. unfold load_branches. cbn [foldM]. rewrite E0. cbn [bind].
  rewrite F0, T0. cbn [dset zz_eqb fst snd Z.eqb Pos.eqb andb map bind].
  destruct (build_total sx_buses [b0]) as (Y & ->); [discriminate| | |].
  - intros b I. cbn in I. decompose [or] I; try contradiction; subst b; cbn; lia.
  - intros l I. change (map b_id sx_buses) with ids2. cbn [In] in I. unfold ids2. decompose [or] I; try contradiction; subst l; rewrite ?F0, ?T0; cbn; tauto.
  - cbn [bind]. eexists. split; [reflexivity|]. auto.
Qed.

Lemma sx_mappable : Forall mappable (nw_dev simplex).
Proof.
  unfold simple_network. cbn [nw_dev]. rewrite !nrat_XR by lia. repeat apply Forall_cons; try apply Forall_nil; (split; [row_fin|split]);
      try (intros [E|E]; discriminate); try (intros E; discriminate); intros _.
Qed.
Lemma sx_br_fin : Forall branch_row_fin (nw_br simplex).
Proof. unfold simple_network. cbn [nw_br]. rewrite !nrat_XR by lia. fin_rows. Qed.
Lemma sx_bus_fin : Forall bus_row_fin (nw_bus simplex).
Proof. unfold simple_network. cbn [nw_bus]. rewrite !nrat_XR by lia. fin_rows. Qed.
Lemma sx_ids k : In (Some k) (map br_id (nw_bus simplex)) <-> (0 <= k < Z.of_nat (List.length (nw_bus simplex)))%Z.
Proof.
  unfold simple_network. cbn [nw_bus map br_id List.length]. split.
  - intros I. cbn [In] in I. decompose [or] I; try contradiction; match goal with H : Some _ = Some _ |- _ => injection H as <- end; lia.
  - intros H. assert (K : (k = 0 \/ k = 1)%Z) by lia. cbn [In]. decompose [or] K; subst k; tauto.
Qed.
Lemma sx_numbered : numbered simplex.
Proof.
  split; [apply sx_ids|]. intros r I T. unfold simple_network in I. cbn [nw_bus In] in I. decompose [or] I; try contradiction; subst r; cbn in *; congruence.
Qed.
Lemma sx_solvable : solvable_network simplex.
Proof.
  split; [apply sx_ids|split; [cbn; lia|]]. intros r I T. unfold simple_network in I. cbn [nw_bus In] in I. decompose [or] I; try contradiction; subst r; discriminate.
Qed.
Lemma sx_alone : slack_alone simplex.
Proof. intros r I T. unfold simple_network in I. cbn [nw_dev In] in I. decompose [or] I; try contradiction; subst r; cbn in *; congruence. Qed.

(** ---- the line ---- *)
Definition sz : C := (1/100, 1/10).
Lemma sx_z : row_z sline = sz.
Proof. unfold row_z, row_r, row_x, sline, simple_network. cbn [nw_br nth]. rewrite !nrat_XR by lia. reflexivity. Qed.
Lemma sx_plain : Forall plain_line (nw_br simplex).
Proof.
  constructor; [|constructor]. split; unfold row_b, row_t; cbn [lr_b lr_tap lr_shift val_or nofZ XRnum]; [reflexivity|].
  apply C_eq; cbn; rewrite ?Rmult_0_l, ?cos_0, ?sin_0; unfold Rdiv; rewrite ?Rmult_0_l, ?cos_0, ?sin_0; ring.
Qed.
Lemma sx_connected : connected simplex.
Proof.
  intros k I. cbn in I. destruct I as [<-|[<-|[]]]; [constructor|]. eapply (r_from simplex sline 0 1); [left; reflexivity|reflexivity|reflexivity|constructor].
Qed.
Lemma sz_nz : sz <> RtoC 0.
Proof. intros Q. injection Q. intros. lra. Qed.
Lemma sx_current V : current_out simplex V 1%Z = ((V 1%Z - V 0%Z) / sz)%C.
Proof.
  unfold current_out, outflow. change (nw_br simplex) with [sline]. cbn [map]. rewrite sumC_cons, sumC_nil. change (end_of (lr_f sline) 1%Z) with false. change (end_of (lr_t sline) 1%Z) with true. cbv iota.
  unfold pi_to. rewrite sx_z. pose proof sx_plain as P. change (nw_br simplex) with [sline] in P. inversion P as [|? ? (B & T) _]; subst. rewrite B, T. change (vat V (lr_f sline)) with (V 0%Z). change (vat V (lr_t sline)) with (V 1%Z).
  replace (0, 0 / 2)%R with (RtoC 0) by (apply C_eq; cbn; lra). field. split; [apply sz_nz|intros Q; injection Q as Q; lra].
Qed.
Lemma sz_mod : 1/10 <= Cmod sz <= 1005/10000.
Proof.
  unfold Cmod, sz. cbn [fst snd]. split.
  - apply Rsqr_incr_0_var; [rewrite Rsqr_sqrt by nra; unfold Rsqr; nra|apply sqrt_pos].
  - apply Rsqr_incr_0_var; [rewrite Rsqr_sqrt by nra; unfold Rsqr; nra|lra].
Qed.
Lemma sx_impedance : impedance simplex (fun _ _ => sz) (1005/10000).
Proof.
  split.
  - intros V V0 i I. cbn in I. destruct I as [<-|[]]. change (load_ids simplex) with [1%Z]. cbn [map]. rewrite sumC_cons, sumC_nil, sx_current, V0. field. apply sz_nz.
  - intros i I. change (load_ids simplex) with [1%Z]. cbn [map]. rewrite sumR_cons. cbn. pose proof sz_mod. lra.
Qed.
Lemma sx_admits : admits simplex 20.
Proof.
  intros V r HV k I. cbn in I. destruct I as [<-|[]]. rewrite sx_current. rewrite Cmod_div by apply sz_nz. pose proof sz_mod as Z.
  pose proof (HV 0%Z ltac:(left; reflexivity)). pose proof (HV 1%Z ltac:(right; left; reflexivity)).
  assert (T : Cmod (V 1%Z - V 0%Z)%C <= 2 * r). { unfold Cminus. eapply Rle_trans; [apply Cmod_triangle|]. rewrite Cmod_opp. lra. }
  apply Rmult_le_reg_r with (Cmod sz); [lra|]. unfold Rdiv. rewrite Rmult_assoc, Rinv_l, Rmult_1_r by lra.
  pose proof (Cmod_ge_0 (V 0%Z)). nra.
Qed.
Lemma sx_flat : flat_rest simplex.
Proof. intros k I. cbn in I. destruct I as [<-|[]]. rewrite sx_current. field. apply sz_nz. Qed.

(** ---- the load never takes more than 10 MW ---- *)
Section Call.
  Context (dt lamb : XR) (s0 : sim XR) (H0 : sim_init simplex dt lamb = Ok s0).
  Definition sload : dev_row XR := srow 1.
  (** the request for the load is a number *)
  Definition finite_load (c : call XR) : Prop :=
    match c with
    | CReset _ init => forall x, nth_error init 1 = Some x -> fin x
    | CTrans _ inp => forall x, dget Z.eqb (ti_load inp) 1%Z = Some x -> fin x
    end.
  Lemma sx_bound : bound s0 "dev_p" "pu" (EId 1%Z) = Some (Fin (-1/10), Fin 0).
  Proof. destruct (sx_sim dt lamb) as (s & Es & Ed & Eb). rewrite H0 in Es. injection Es as <-. unfold bound, get_state_space. rewrite Ed, Eb. unfold sx_devs, ax_slack, ax_load. cbn. repeat f_equal. lra. Qed.
  Lemma sx_load_row : dr_qp sload = Some (Fin (2/10)).
  Proof. unfold sload, srow, simple_network. cbn [nw_dev nth dr_qp]. rewrite !nrat_XR by lia. reflexivity. Qed.
  Lemma sx_light cs c : returned (run s0 cs) c -> finite_load c -> injections_below simplex (run_call (run s0 cs) c) (1025/10000).
  Proof.
    intros R Fl.
    assert (Q : exists p, obs (run_call (run s0 cs) c) "dev_p" "pu" (EId 1%Z) = Some (Fin p) /\ obs (run_call (run s0 cs) c) "dev_q" "pu" (EId 1%Z) = Some (Fin (p * (2/10))) /\ -1/10 <= p <= 0).
    { assert (I : In sload (nw_dev simplex)) by (right; left; reflexivity).
      destruct c as [Or init|Or inp]; cbn [returned run_call finite_load] in *.
      - destruct (sim_reset Or init (run s0 cs)) as (s', [conv|e]) eqn:E; [|discriminate R]. cbn [fst] in *.
        assert (Ha : ids_of simplex ALL [0; 1]%Z).
        { pose proof (ids_of_ex _ _ _ _ ALL H0) as Ha. destruct (sx_sim dt lamb) as (s & Es & Ed & _). rewrite H0 in Es. injection Es as <-. rewrite Ed in Ha. exact Ha. }
        destruct (C71_reset_loads XR _ _ simplex dt lamb s0 cs Or init s' conv [0; 1]%Z sload 1%Z 1 H0 E Ha I eq_refl eq_refl eq_refl) as (x & qp & lo & hi & p & Ex & Eq & Eb & Ep & Eqq & D).
        rewrite sx_bound in Eb. injection Eb as <- <-. rewrite sx_load_row in Eq. injection Eq as <-. destruct (Fl x Ex) as (xv & ->).
        assert (W : within p (Fin (-1/10)) (Fin 0)).
        { destruct D as [(_ & D)|(D & _)]; auto. exfalso. change (nw_base simplex) with (Fin 100) in D. cbn [ndiv XRnum] in D. rewrite xdiv_Fin in D by lra. rewrite !xisnan_spec in D. destruct D as [D|[D|D]]; discriminate D. }
        destruct W as [W1 W2]. destruct p as [p| | |]; [|exfalso; first [discriminate W1|discriminate W2]..]. exists p. split; auto. split; auto. apply Rleb_spec in W1. apply Rleb_spec in W2. lra.
      - destruct (transition Or inp (run s0 cs)) as (s', [out|e]) eqn:E; [|discriminate R]. cbn [fst] in *.
        assert (Rf : dev_row_fin sload) by (unfold sload, srow, simple_network; cbn [nw_dev nth]; rewrite !nrat_XR by lia; row_fin).
        destruct (C09_load_bounds simplex dt lamb s0 100 cs Or inp s' out sload 1%Z H0 eq_refl E I eq_refl eq_refl Rf Fl) as (p & k & lo & hi & lo' & hi' & E1 & E2 & E3 & _ & Ek & W & _).
        rewrite sx_bound in E3. injection E3 as <- <-. rewrite sx_load_row in Ek. injection Ek as <-. exists p. split; auto. split; auto. destruct W as [W1 W2]. apply Rleb_spec in W1. apply Rleb_spec in W2. lra. }
    destruct Q as (p & E1 & E2 & B). intros k I. cbn in I. destruct I as [<-|[]]. exists p, (p * (2/10)).
    change (rows_at simplex 1%Z) with [sload]. cbn [map]. unfold row_obs. change (dr_id sload) with (Some 1%Z). cbv iota. rewrite E1, E2. cbn.
    split; [f_equal; ring|]. split; [f_equal; ring|]. unfold Cmod. cbn [fst snd].
    apply Rsqr_incr_0_var; [|lra]. rewrite Rsqr_sqrt by nra. unfold Rsqr. nra.
  Qed.
End Call.
