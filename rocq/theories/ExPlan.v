(** Concrete networks for the plans of the MPC agents: cases that meet the hypotheses of C51, C52 and C53, and the networks that refute the
    claims where they fail. *)
From Coq Require Import Reals Lra Sorted.
From Coquelicot Require Import Complex.
From Verif Require Import Base Num NumXR Devices BusBranch CheckNetwork LoadFlow Simulator EnvArgs Env Mpc LibBase LibNum LibXR LibEval SpecNet SpecSim SpecDev SpecQp SpecPf SpecEnv SpecMpc
  ProofSim ProofEnv ExNet ExRun ExTwo PropSet ProofMpc ProofPlan PropPlan PropDc.
Local Open Scope string_scope.
Local Open Scope list_scope.
Local Open Scope R_scope.
Set Bullet Behavior "Strict Subproofs".

Definition pasp : box XR := mkBox [] [] false.
Ltac mval := unfold mpc_init, n_bus, n_device, is_load, is_gen, is_nsgen, is_rer, is_stor, d_pmin, d_pmax; xeval.

(** ** C51: the network of [ex_nw] *)
Definition ex_mpc (k : nat) : mpc XR := mkMpc (Fin (9/10)) (Fin 10) (Fin 100) pasp k (Fin (9/10)) (Fin (1/4)) 2 4
  [1]%Z [0; 2]%Z [2]%Z [2]%Z [3]%Z [(0, 1)]%Z [0; 1; 2; 3]%Z [0; 1]%Z 0%Z [(0, 0); (1, 1); (2, 1); (3, 1)]%Z
  [[Fin 0; Fin 0]; [Fin 0; Fin 0]] [Fin 2] [Fin 0] [Fin 3] [Fin (-5)] [Fin 5] [Fin 0] [Fin 10] [Fin (9/10)].
Lemma ex_mpc_ok k : mpc_init ex_sim0 pasp (Fin (9/10)) (Fin (9/10)) k = Ok (ex_mpc k).
Proof. unfold ex_simk. mval. reflexivity. Qed.
Definition ex_PL : list (list XR) := [[Fin (-1/2); Fin (-1/2)]].
Definition ex_PG : list (list XR) := [[Fin 1; Fin 2]].
(** the unit stores the surplus of the generator, then feeds the load alone *)
Definition ex_plan : list rstage :=
  [mkRstage [0; 1] [0; -1/2; 1; -1/2] [1/2] [0]; mkRstage [0; -1] [0; -1/2; 0; 1/2] [0] [1/2]].
Lemma pi3 : 3 < PI.
Proof. pose proof PI2_3_2. lra. Qed.
Ltac sats := repeat match goal with
  | |- Forall _ _ => constructor
  | |- sat (CEq (Fin _) (Fin _)) => apply xeqb_t
  | |- sat (CLe (Fin _) (Fin _)) => apply xleb_t
  end; try (pose proof pi3; lra).
Ltac plan_ok := split; [reflexivity|]; split; [repeat constructor; reflexivity|];
  unfold plan_constraints, stage_constraints, p_dc, p_bus, new_socs, eqs, les, enumerate, column, Bix, bpos, dpos, ix; xeval; sats.
Lemma ex_plan_ok : feasible (ex_mpc 2) ex_PL ex_PG [Fin (50/10)] ex_plan.
Proof. unfold ex_PL, ex_PG, ex_plan, ex_mpc. plan_ok. Qed.
Lemma ex_ids ts l : Sorted Z.lt l -> (forall i, In i l <-> In i (map d_id (filter (fun d => zmem (d_type d) ts) (sm_devs ex_sim0)))) -> ids_of ex_nw ts l.
Proof. intros H E. pose proof (ids_of_ex _ _ _ _ ts ex_init) as (_ & K). split; [auto|]. intros i. rewrite E. apply K. Qed.
Ltac idso := apply ex_ids; [repeat constructor|intros; cbn; tauto].
Example C51_ex : sim_init ex_nw (Fin (1/4)) (Fin 100) = Ok ex_sim0 /\ ids_of ex_nw ALL [0; 1; 2; 3]%Z /\ ids_of ex_nw STORS [3]%Z /\
  mpc_init (run ex_sim0 []) pasp (Fin (9/10)) (Fin (9/10)) 2 = Ok (ex_mpc 2) /\ params (ex_mpc 2) (run (run ex_sim0 []) ([] ++ [ex_reset_call])) ex_PL ex_PG = Ok [Fin (50/10)] /\
  feasible (ex_mpc 2) ex_PL ex_PG [Fin (50/10)] ex_plan /\ In ex_stor (nw_dev ex_nw) /\ EFF ex_stor = Fin (9/10) /\
  obs (run (run ex_sim0 []) ([] ++ [ex_reset_call])) "des_soc" "pu" (EId 3) = Some (Fin (50/10)) /\ bound ex_sim0 "des_soc" "pu" (EId 3) = Some (Fin 0, Fin 10).
Proof.
  split; [exact ex_init|]. split; [idso|]. split; [idso|]. split; [apply ex_mpc_ok|]. split.
  { change (run (run ex_sim0 []) ([] ++ [ex_reset_call])) with (run ex_sim0 ([] ++ [ex_reset_call])). rewrite (proj2 ex_reset_ret). unfold params.
    match goal with |- context [init_soc ?a ?b] => assert (E : init_soc a b = Ok [Fin (50/10)]) by reflexivity; rewrite E end. unfold ex_PL, ex_PG, shape_ok, nonneg, ex_mpc, nrat. xeval. reflexivity. }
  split; [exact ex_plan_ok|]. split; [cbn; auto|]. split; [reflexivity|]. split; [|reflexivity].
  change (run (run ex_sim0 []) ([] ++ [ex_reset_call])) with (run ex_sim0 ([] ++ [ex_reset_call])). rewrite (proj2 ex_reset_ret). reflexivity.
Qed.

(** ** C52 and C53 on the two-bus network with a purely reactive line: the generator feeds 0.3 p.u. to the slack *)
Definition tg_mpc (k : nat) : mpc XR := mkMpc (Fin (9/10)) (Fin 10) (Fin 100) pasp k (Fin (9/10)) (Fin (1/4)) 2 2
  []%Z [0; 1]%Z [1]%Z []%Z []%Z [(0, 1)]%Z [0; 1]%Z [0; 1]%Z 0%Z [(0, 0); (1, 1)]%Z
  [[Fin (-1); Fin 1]; [Fin 1; Fin (-1)]] [Fin (1/10)] [Fin 0] [Fin 3] [] [] [] [] [].
Lemma tg_mpc_ok k : mpc_init tg_sim pasp (Fin (9/10)) (Fin (9/10)) k = Ok (tg_mpc k).
Proof. unfold tg_sim. mval. reflexivity. Qed.
Definition tg_plan : list rstage := [mkRstage [0; 3/10] [-3/10; 3/10] [] []; mkRstage [0; 0] [0; 0] [] []].
Lemma tg_plan_ok : feasible (tg_mpc 2) [] [[Fin 1; Fin 1]] [] tg_plan.
Proof. unfold tg_plan, tg_mpc. plan_ok. Qed.
Example C52_ex : sim_init tg_nw (Fin (1/4)) (Fin 100) = Ok tg_sim /\ Forall branch_row_fin (nw_br tg_nw) /\ (forall i, In (Some i) (map br_id (nw_bus tg_nw)) -> (0 <= i)%Z) /\
  Forall lossless_or_unshifted (nw_br tg_nw) /\ mpc_init (run tg_sim []) pasp (Fin (9/10)) (Fin (9/10)) 2 = Ok (tg_mpc 2) /\ feasible (tg_mpc 2) [] [[Fin 1; Fin 1]] [] tg_plan.
Proof.
  split; [exact tg_init|]. split; [repeat constructor; row_fin|]. split; [cbn; intros i [E|[E|[]]]; injection E as <-; lia|].
  split; [constructor; [left; reflexivity|constructor]|]. split; [apply tg_mpc_ok|apply tg_plan_ok].
Qed.
Lemma tg_ids ts l : Sorted Z.lt l -> (forall i, In i l <-> In i (map d_id (filter (fun d => zmem (d_type d) ts) (sm_devs tg_sim)))) -> ids_of tg_nw ts l.
Proof. intros H E. pose proof (ids_of_ex _ _ _ _ ts tg_init) as (_ & K). split; [auto|]. intros i. rewrite E. apply K. Qed.
Example C53_ex : ids_of tg_nw ALL [0; 1]%Z /\ Sorted Z.lt [0; 1]%Z /\ (forall x, In x [0; 1]%Z <-> In (Some x) (map br_id (nw_bus tg_nw))) /\
  In (tb_slack 0) (nw_dev tg_nw) /\ nth_error [0; 1]%Z 0 = dr_id (tb_slack 0) /\ nth_error [0; 1]%Z 0 = dr_bus (tb_slack 0).
Proof.
  split; [apply tg_ids; [repeat constructor|intros; cbn; tauto]|]. split; [repeat constructor|]. split; [|cbn; auto].
  intros x. cbn. split; [intros [<-|[<-|[]]]; auto|intros [E|[E|[]]]; injection E as <-; auto].
Qed.

(** ** C52 refuted: a resistive branch with a phase shift of 90 degrees *)
Definition sh_nw : network XR := mkNet (Fin 10) [tb_busS 0; tb_busO 1] [tb_slack 0; tb_gen 1]
  [mkBranchRow (Some 0%Z) (Some 1%Z) (cell 1) (cell 0) (cell 0) (cell 20) (cell 1) (cell 90)].
Lemma sh_check : check_network_specs sh_nw = Ok tt.
Proof. unfold sh_nw. unfold check_network_specs. xeval. reflexivity. Qed.
Definition sh_br : branch XR := mkBranch 0 1 (Fin 1) (Fin 0) (Fin 0) (Fin 2) (Fin 1) (Fin (PI / 2)) (xc 1 0) (xc 0 0) (xc 0 1)
  (xc 0 0) (xc 0 0) (Fin 0) (Fin 0) (Fin 0) (Fin 0) (Fin 0).
Lemma sh_line_ok : branch_init (mkBranchRow (Some 0%Z) (Some 1%Z) (cell 1) (cell 0) (cell 0) (cell 20) (cell 1) (cell 90)) (Fin 10) [0; 1]%Z = Ok sh_br.
Proof.
  unfold branch_init, series_of, shunt_of, tap_of, cell. xeval.
  unfold sh_br, cexpi, cscale. cbn [ncos nsin XRnum xfun re im].
  replace (90 * PI / 180) with (PI / 2) by lra. rewrite cos_PI2, sin_PI2. xeval. xunfo. xsame.
Qed.
Definition sh_Y : list (list (cplx XR)) := [[xc 1 0; xc 0 (-1)]; [xc 0 1; xc 1 0]].
Lemma sh_Yok (b0 b1 : bus XR) : b_id b0 = 0%Z -> b_id b1 = 1%Z -> build_Y [b0; b1] [sh_br] = Ok sh_Y.
Proof.
  intros E0 E1. unfold build_Y. cbn [map]. rewrite E0, E1. unfold y_add_branch, mset, sh_br, xc. xeval. unfold sh_Y. xunfo.
  unfold tap2, cabs, cnorm2. xeval. rewrite (sqrt_val _ 1) by lra. xeval. xsame.
Qed.
Definition sh_mpc (k : nat) : mpc XR := mkMpc (Fin (9/10)) (Fin 10) (Fin 100) pasp k (Fin (9/10)) (Fin (1/4)) 2 2
  []%Z [0; 1]%Z [1]%Z []%Z []%Z [(0, 1)]%Z [0; 1]%Z [0; 1]%Z 0%Z [(0, 0); (1, 1)]%Z
  [[Fin 0; Fin (-1)]; [Fin 1; Fin 0]] [Fin 2] [Fin 0] [Fin 3] [] [] [] [] [].
Lemma pl_buses : load_buses [tb_busS 0; tb_busO 1] = Ok [to_busS 0 0 0 zz zz 0 0 0 0; to_busO 1 0 0 zz zz 0 0 0 0].
Proof. unfold load_buses. cbn [foldM]. rewrite tb_busS_ok, tb_busO_ok. reflexivity. Qed.
(** [sim_init] up to the derived bus bounds, which the agent does not read *)
Lemma pl_init devs line ds ln Y : let nw := mkNet (Fin 10) [tb_busS 0; tb_busO 1] devs [line] in
  check_network_specs nw = Ok tt -> branch_init line (Fin 10) [0; 1]%Z = Ok ln -> load_devices devs (Fin 10) [0; 1]%Z = Ok ds ->
  (forall b0 b1 : bus XR, b_id b0 = 0%Z -> b_id b1 = 1%Z -> build_Y [b0; b1] [ln] = Ok Y) ->
  exists bs, map b_id bs = [0; 1]%Z /\ sim_init nw (Fin (1/4)) (Fin 100) = Ok (mkSim (Fin (1/4)) (Fin 100) (Fin 10) bs [ln] ds Y None None).
Proof.
  intros nw C L D B. eexists. split; [|unfold sim_init; rewrite C; cbn [bind]; unfold nw at 1 2 3 4 5; cbn [nw_bus nw_dev nw_br nw_base]; rewrite pl_buses; cbn [bind];
    change (map b_id _) with [0; 1]%Z; unfold load_branches; cbn [foldM]; rewrite L; cbn [bind]; rewrite D; cbn [bind];
    match goal with |- context [build_Y _ ?l] => change l with [ln] end; rewrite B by reflexivity; cbn [bind]; reflexivity]. reflexivity.
Qed.
Lemma sh_init : exists s0, sim_init sh_nw (Fin (1/4)) (Fin 100) = Ok s0 /\ forall k, mpc_init s0 pasp (Fin (9/10)) (Fin (9/10)) k = Ok (sh_mpc k).
Proof.
  destruct (pl_init [tb_slack 0; tb_gen 1] _ _ _ _ sh_check sh_line_ok (tg_load_devs 0 1 [0; 1]%Z eq_refl eq_refl) sh_Yok) as (bs & B & I).
  eexists. split; [exact I|]. intros k. destruct bs as [|b0 [|b1 [|b2 bs]]]; try discriminate B. injection B as B0 B1. mval. rewrite B0, B1. reflexivity.
Qed.
Definition sh_plan : list rstage := [mkRstage [0; 1/2] [1/2; 1/2] [] []].
Lemma sh_plan_ok : feasible (sh_mpc 1) [] [[Fin 1]] [] sh_plan.
Proof. unfold sh_plan, sh_mpc. plan_ok. Qed.
(** the injections of a feasible plan sum to 1 p.u.: the plan consumes nothing, and both devices feed 0.5 p.u. *)
Theorem C52_balanced_refuted : ~ (forall (nw : network XR) b dt lamb s0 cs asp gam mg k m PL PG soc sts,
  sim_init nw dt lamb = Ok s0 -> nw_base nw = Fin b -> Forall branch_row_fin (nw_br nw) -> (forall i, In (Some i) (map br_id (nw_bus nw)) -> (0 <= i)%Z) ->
  mpc_init (run s0 cs) asp gam mg k = Ok m -> feasible m PL PG soc sts -> Forall (fun st => sumR (rs_p st) = 0) sts).
Proof.
  intros H. destruct sh_init as (s0 & I & M). specialize (H sh_nw 10 _ _ s0 [] pasp (Fin (9/10)) (Fin (9/10)) 1%nat (sh_mpc 1) [] [[Fin 1]] [] sh_plan I eq_refl). cbn [run fold_left] in H.
  assert (A1 : Forall branch_row_fin (nw_br sh_nw)) by (repeat constructor; row_fin).
  assert (A2 : forall i, In (Some i) (map br_id (nw_bus sh_nw)) -> (0 <= i)%Z) by (cbn; intros i [E|[E|[]]]; injection E as <-; lia).
  specialize (H A1 A2 (M 1%nat) sh_plan_ok). inversion H as [|x l K _]; subst. cbn in K. lra.
Qed.

(** ** C53 refuted: a load with ID 0 at bus 1 and the slack device with ID 1 at bus 0 *)
Definition rl (i b : Z) : dev_row XR := mkDevRow (Some i) (Some b) (Some (-1)%Z) (cell 0) (cell 0) (cell (-10)) None None None None None None None None None.
Definition rs (i b : Z) : dev_row XR := mkDevRow (Some i) (Some b) (Some 0%Z) None (cell 200) (cell (-200)) (cell 200) (cell (-200)) None None None None None None None.
Definition ol (i b : Z) : device XR := mkDev i b (-1) (SLoad (mkLoad (Fin 0) (Fin (-1)) (Fin 0) (Fin 0) (Fin 0))) (Fin 0) (Fin 0) (Fin 0) None.
Definition os (i b : Z) : device XR := mkDev i b 0
  (SGen (mkGen (Fin (-20)) (Fin 20) (Fin (-20)) (Fin 20) (Fin 20) (Fin 20) (Fin (-20)) (Fin 0) (Fin 0) (Fin 20) (Fin (-20)))) (Fin 0) (Fin 0) (Fin 20) None.
Lemma rl_ok i b ids : zmem b ids = true -> dev_init CLoad (rl i b) ids (Fin 10) = Ok (ol i b).
Proof. intros E. unfold dev_init. cbn [rl dr_bus]. rewrite E. unfold rl, ol. trow. Qed.
Lemma rs_ok i b ids : zmem b ids = true -> dev_init CGen (rs i b) ids (Fin 10) = Ok (os i b).
Proof. intros E. unfold dev_init. cbn [rs dr_bus]. rewrite E. unfold rs, os. trow. Qed.
Definition sw_nw : network XR := mkNet (Fin 10) [tb_busS 0; tb_busO 1] [rl 0 1; rs 1 0] [tb_line 0 1 0 1 1].
Lemma sw_check : check_network_specs sw_nw = Ok tt.
Proof. unfold sw_nw, check_network_specs. xeval. reflexivity. Qed.
Lemma sw_devs : load_devices [rl 0 1; rs 1 0] (Fin 10) [0; 1]%Z = Ok [ol 0 1; os 1 0].
Proof.
  unfold load_devices. cbn [foldM]. change (dev_class (rl 0 1)) with (Ok CLoad). change (dev_class (rs 1 0)) with (Ok CGen). cbn [bind].
  rewrite rl_ok, rs_ok by auto. reflexivity.
Qed.
Definition sw_mpc (k : nat) : mpc XR := mkMpc (Fin (9/10)) (Fin 10) (Fin 100) pasp k (Fin (9/10)) (Fin (1/4)) 2 2
  [0]%Z [1]%Z []%Z []%Z []%Z [(0, 1)]%Z [0; 1]%Z [0; 1]%Z 1%Z [(0, 1); (1, 0)]%Z
  [[Fin (-1); Fin 1]; [Fin 1; Fin (-1)]] [Fin (1/10)] [] [] [] [] [] [] [].
Lemma sw_init : exists s0, sim_init sw_nw (Fin (1/4)) (Fin 100) = Ok s0 /\ forall k, mpc_init s0 pasp (Fin (9/10)) (Fin (9/10)) k = Ok (sw_mpc k).
Proof.
  destruct (pl_init [rl 0 1; rs 1 0] _ _ _ _ sw_check tb_lineX_ok sw_devs tg_Yok) as (bs & B & I).
  eexists. split; [exact I|]. intros k. destruct bs as [|b0 [|b1 [|b2 bs]]]; try discriminate B. injection B as B0 B1. mval. rewrite B0, B1. reflexivity.
Qed.
Definition sw_plan : list rstage := [mkRstage [3/10; 0] [-3/10; 3/10] [] []].
Lemma sw_plan_ok : feasible (sw_mpc 1) [[Fin (-3/10)]] [] [] sw_plan.
Proof. unfold sw_plan, sw_mpc. plan_ok. Qed.
Theorem C53_reference_refuted : ~ (forall (nw : network XR) dt lamb s0 cs asp gam mg k m PL PG soc sts buses r j,
  sim_init nw dt lamb = Ok s0 -> mpc_init (run s0 cs) asp gam mg k = Ok m -> feasible m PL PG soc sts ->
  Sorted Z.lt buses -> (forall x, In x buses <-> In (Some x) (map br_id (nw_bus nw))) ->
  In r (nw_dev nw) -> dr_type r = Some 0%Z -> dr_bus r = Some j -> Forall (fun st => entry 0 buses (rs_ang st) j = 0) sts).
Proof.
  intros H. destruct sw_init as (s0 & I & M). specialize (H sw_nw _ _ s0 [] pasp (Fin (9/10)) (Fin (9/10)) 1%nat (sw_mpc 1) [[Fin (-3/10)]] [] [] sw_plan [0; 1]%Z (rs 1 0) 0%Z I (M 1%nat) sw_plan_ok).
  assert (K : Forall (fun st => entry 0 [0; 1]%Z (rs_ang st) 0 = 0) sw_plan).
  { apply H; auto; [repeat constructor| |cbn; auto]. intros x. cbn. split; [intros [<-|[<-|[]]]; auto|intros [E|[E|[]]]; injection E as <-; auto]. }
  inversion K as [|x l Q _]; subst. cbn in Q. lra.
Qed.

(** ** C53: with two loads before the slack device, on two buses, the agent cannot be used at all *)
Definition ie_nw : network XR := mkNet (Fin 10) [tb_busS 0; tb_busO 1] [rl 0 1; rl 1 1; rs 2 0] [tb_line 0 1 0 1 1].
Lemma ie_check : check_network_specs ie_nw = Ok tt.
Proof. unfold ie_nw, check_network_specs. xeval. reflexivity. Qed.
Lemma ie_devs : load_devices [rl 0 1; rl 1 1; rs 2 0] (Fin 10) [0; 1]%Z = Ok [ol 0 1; ol 1 1; os 2 0].
Proof.
  unfold load_devices. cbn [foldM]. change (dev_class (rl 0 1)) with (Ok CLoad). change (dev_class (rl 1 1)) with (Ok CLoad). change (dev_class (rs 2 0)) with (Ok CGen). cbn [bind].
  rewrite !rl_ok, rs_ok by auto. reflexivity.
Qed.
Example C53_unusable_ex : exists s0 m, sim_init ie_nw (Fin (1/4)) (Fin 100) = Ok s0 /\ mpc_init (run s0 []) pasp (Fin (9/10)) (Fin (9/10)) 3 = Ok m /\ ids_of ie_nw ALL [0; 1; 2]%Z /\
  In (rs 2 0) (nw_dev ie_nw) /\ nth_error [0; 1; 2]%Z 2 = dr_id (rs 2 0) /\ List.length (nw_bus ie_nw) = 2%nat.
Proof.
  destruct (pl_init [rl 0 1; rl 1 1; rs 2 0] _ _ _ _ ie_check tb_lineX_ok ie_devs tg_Yok) as (bs & B & I).
  destruct bs as [|b0 [|b1 [|b2 bs]]]; try discriminate B.
  eexists. eexists. split; [exact I|]. split.
  { cbn [run fold_left]. mval. reflexivity. }
  split; [|cbn; auto]. pose proof (ids_of_ex _ _ _ _ ALL I) as K. exact K.
Qed.

(** ** C64 *)
Example C64_ex : contiguous tg_nw /\ Forall unshifted (nw_br tg_nw) /\ dc_sus (tb_line 0 1 0 1 1) = 1.
Proof.
  split; [|split; [constructor; [right; reflexivity|constructor]|unfold dc_sus; cbn; field]].
  intros k. cbn. split; [intros [E|[E|[]]]; injection E as <-; lia|]. intros H. assert (E : (k = 0 \/ k = 1)%Z) by lia. destruct E as [-> | ->]; auto.
Qed.
(** A line between the buses 0 (slack) and 2 *)
Definition gp_nw : network XR := mkNet (Fin 10) [tb_busS 0; tb_busO 2] [tb_slack 0; tb_load 2] [tb_line 0 2 0 1 1].
Lemma gp_check : check_network_specs gp_nw = Ok tt.
Proof. unfold gp_nw, check_network_specs. xeval. reflexivity. Qed.
Lemma gp_buses : load_buses [tb_busS 0; tb_busO 2] = Ok [to_busS 0 0 0 zz zz 0 0 0 0; to_busO 2 0 0 zz zz 0 0 0 0].
Proof. unfold load_buses. cbn [foldM]. rewrite tb_busS_ok, tb_busO_ok. reflexivity. Qed.
Definition gp_line : branch XR := to_line 0 2 0 1 (1/10) (xc 0 (-1)) (xc 0 0) (xc 0 0) 0 0 0 0 0.
Lemma gp_line_ok : branch_init (tb_line 0 2 0 1 1) (Fin 10) [0; 2]%Z = Ok gp_line.
Proof.
  unfold tb_line, branch_init, series_of, shunt_of, tap_of, cell. xeval.
  unfold gp_line, to_line, cexpi, cscale. cbn [ncos nsin XRnum xfun re im].
  replace (0 * PI / 180) with 0 by lra. rewrite cos_0, sin_0. xeval. xunfo. xsame.
Qed.
Definition gp_Y : list (list (cplx XR)) := [[xc 0 (-1); xc 0 0; xc 0 1]; [xc 0 0; xc 0 0; xc 0 0]; [xc 0 1; xc 0 0; xc 0 (-1)]].
Lemma gp_Yok (b0 b1 : bus XR) : b_id b0 = 0%Z -> b_id b1 = 2%Z -> build_Y [b0; b1] [gp_line] = Ok gp_Y.
Proof.
  intros E0 E1. unfold build_Y. cbn [map]. rewrite E0, E1. unfold y_add_branch, mset, gp_line, to_line, xc. xeval. unfold gp_Y. xunfo.
  unfold tap2, cabs, cnorm2. xeval. rewrite (sqrt_val _ 1) by lra. xeval. xsame.
Qed.
Definition gp_mpc asp gam mg (k : nat) : mpc XR := mkMpc mg (Fin 10) (Fin 100) asp k gam (Fin (1/4)) 2 2
  [1]%Z [0]%Z []%Z []%Z []%Z [(0, 2)]%Z [0; 1]%Z [0; 2]%Z 0%Z [(0, 0); (1, 2)]%Z
  [[Fin (-1); Fin 0]; [Fin 0; Fin 0]] [Fin (1/10)] [] [] [] [] [] [] [].
Lemma gp_init : exists s0, sim_init gp_nw (Fin (1/4)) (Fin 100) = Ok s0 /\ ids_of gp_nw ALL [0; 1]%Z /\ forall asp gam mg k, mpc_init s0 asp gam mg k = Ok (gp_mpc asp gam mg k).
Proof.
  assert (H : exists bs, map b_id bs = [0; 2]%Z /\ sim_init gp_nw (Fin (1/4)) (Fin 100) = Ok (mkSim (Fin (1/4)) (Fin 100) (Fin 10) bs [gp_line] [to_slack 0 0 0; to_load 2 0 0] gp_Y None None)).
  { eexists. split; [|unfold sim_init; rewrite gp_check; unfold gp_nw; cbn [bind nw_bus nw_dev nw_br nw_base]; rewrite gp_buses; cbn [bind]; change (map b_id _) with [0; 2]%Z; unfold load_branches; cbn [foldM]; rewrite gp_line_ok; cbn [bind];
      rewrite tb_load_devs by reflexivity; cbn [bind]; match goal with |- context [build_Y _ ?l] => change l with [gp_line] end; rewrite gp_Yok by reflexivity; cbn [bind]; reflexivity]. reflexivity. }
  destruct H as (bs & B & I). eexists. split; [exact I|]. split; [exact (ids_of_ex _ _ _ _ ALL I)|].
  intros asp gam mg k. destruct bs as [|b0 [|b1 [|b2 bs]]]; try discriminate B. injection B as B0 B1. mval. rewrite B0, B1. reflexivity.
Qed.
Definition gp_plan : list rstage := [mkRstage [0; 1] [0; 0] [] []].
Lemma gp_plan_ok : feasible (gp_mpc pasp (Fin (9/10)) (Fin (9/10)) 1) [[Fin 0]] [] [] gp_plan.
Proof. unfold gp_plan, gp_mpc. plan_ok. Qed.
(** The claim without the condition on the IDs is false: *)
Theorem C64_dc_flow_refuted : ~ (forall (nw : network XR) b dt lamb s0 cs asp gam mg k m PL PG soc sts all buses,
  sim_init nw dt lamb = Ok s0 -> nw_base nw = Fin b -> Forall branch_row_fin (nw_br nw) -> Forall unshifted (nw_br nw) -> ids_of nw ALL all ->
  Sorted Z.lt buses -> (forall x, In x buses <-> In (Some x) (map br_id (nw_bus nw))) -> (forall x, In x buses -> (0 <= x)%Z) ->
  mpc_init (run s0 cs) asp gam mg k = Ok m -> feasible m PL PG soc sts ->
  Forall (fun st => forall i, In i buses -> planned_at nw all (rs_p st) i = dc_out nw (entry 0 buses (rs_ang st)) i) sts).
Proof.
  intros H. destruct gp_init as (s0 & I & Ia & M).
  specialize (H gp_nw 10 _ _ s0 [] pasp (Fin (9/10)) (Fin (9/10)) 1%nat (gp_mpc pasp (Fin (9/10)) (Fin (9/10)) 1) [[Fin 0]] [] [] gp_plan [0; 1]%Z [0; 2]%Z I eq_refl).
  assert (K : Forall (fun st => forall i, In i [0; 2]%Z -> planned_at gp_nw [0; 1]%Z (rs_p st) i = dc_out gp_nw (entry 0 [0; 2]%Z (rs_ang st)) i) gp_plan).
  { apply H; auto; [repeat constructor; row_fin|constructor; [right; reflexivity|constructor]|repeat constructor| | |exact gp_plan_ok].
    - intros x. cbn. split; [intros [<-|[<-|[]]]; auto|intros [E|[E|[]]]; injection E as <-; auto].
    - intros x [<-|[<-|[]]]; lia. }
  inversion K as [|x l Q _]; subst. specialize (Q 0%Z (or_introl eq_refl)). unfold planned_at, dc_out, dc_sus in Q. cbn in Q. lra.
Qed.
(** Worse: this network has a line, but whatever is forecast for the load other than 0 the agent's problem has no solution. *)
Theorem C64_gap_infeasible : exists s0, sim_init gp_nw (Fin (1/4)) (Fin 100) = Ok s0 /\
  forall cs asp gam mg k m x l PG soc sts, mpc_init (run s0 cs) asp gam mg (S k) = Ok m -> x <> 0 -> ~ feasible m [Fin x :: l] PG soc sts.
Proof.
  destruct gp_init as (s0 & I & _ & M). exists s0. split; [exact I|]. intros cs asp gam mg k m x l PG soc sts Mi Hx (Ls & Sh & Fe).
  rewrite (mpc_init_static _ _ asp gam mg (S k) (strip_run s0 cs)), M in Mi. injection Mi as <-.
  destruct sts as [|st sts]; [discriminate Ls|]. inversion_clear Sh as [|? ? Sh1 _]. pose proof (proj1 (plan_stage _ _ _ _ 0 _) Fe 0%nat st eq_refl) as Sok.
  destruct st as [ang p pc pd]. destruct Sh1 as (L1 & L2 & _). cbn in L1, L2. destruct ang as [|a0 [|a1 [|]]]; try discriminate L1. destruct p as [|p0 [|p1 [|]]]; try discriminate L2.
  pose proof (so_loads _ _ _ _ _ Sok) as A1. pose proof (so_balance _ _ _ _ _ Sok) as A2. cbn in A1. inversion_clear A1 as [|? ? A3 _]. apply xeqb_Fin in A3.
  unfold p_dc, p_bus, Bix, bpos, dpos, ix in A2. cbn in A2. inversion_clear A2 as [|? ? _ A4]. inversion_clear A4 as [|? ? A5 _]. apply xeqb_Fin in A5. lra.
Qed.
Print Assumptions C64_dc_flow_refuted.
Print Assumptions C64_gap_infeasible.
Print Assumptions C52_balanced_refuted.
Print Assumptions C53_reference_refuted.
