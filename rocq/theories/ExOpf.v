(** Concrete cases for C67. *)
From Coq Require Import Reals Lra Sorted.
From Verif Require Import Base Num NumXR Devices BusBranch CheckNetwork LoadFlow Simulator EnvArgs Env Mpc LibBase LibNum LibSim LibXR LibEval
  SpecNet SpecSim SpecDev SpecQp ProofSim SpecPf SpecEnv ProofEnv ProofStep ProofState ProofDraw ProofEnvOk SpecMpc ProofMpc ProofPlan PropPlan PropExec PropSet SpecOpf ProofOpf PropOpf
  ExNet ExRun ExTwo ExEnv ExPlan ExExec.
Local Open Scope string_scope.
Local Open Scope list_scope.
Local Open Scope R_scope.
Set Bullet Behavior "Strict Subproofs".

(** ** Two buses, a generator and a line of 1 MVA: exporting 0.3 p.u. exceeds the rating and costs 21; exporting 0.05 p.u. costs nothing *)
Definition tg_I : index := mkIndex [0; 1]%Z [0; 1]%Z [] [1]%Z [] [0; 1]%Z.
Lemma tg_index : index_of tg_nw tg_I.
Proof.
  unfold index_of. cbn [tg_I ix_all ix_buses ix_loads ix_gens ix_dess ix_nonren]. repeat (split; [apply tg_ids; [repeat constructor|intros; cbn; tauto]|]). split; apply C53_ex.
Qed.
Example C67_ex : index_of tg_nw tg_I /\
  (In (tb_slack 0) (nw_dev tg_nw) /\ dr_type (tb_slack 0) = Some 0%Z /\ dr_id (tb_slack 0) = Some 0%Z /\ nth_error (ix_all tg_I) 0 = Some 0%Z /\ nth_error (ix_buses tg_I) 0 = Some 0%Z) /\
  (forall r i, In r (nw_dev tg_nw) -> dr_id r = Some i -> dr_type r = Some 3%Z -> EFF r = Fin 1 /\ 0 < 1) /\
  opf_plan tg_nw tg_sim tg_I (1/4) (fun _ => 1) (fun _ => 0) 0%Z [] [[1]] 1 [mkRstage [0; 3/10] [-3/10; 3/10] [] []] /\
  opf_plan tg_nw tg_sim tg_I (1/4) (fun _ => 1) (fun _ => 0) 0%Z [] [[1]] 1 [mkRstage [0; 1/20] [-1/20; 1/20] [] []] /\
  opf_cost tg_nw tg_I 10 (9/10) 100 (9/10) [mkRstage [0; 3/10] [-3/10; 3/10] [] []] = 21 /\
  opf_cost tg_nw tg_I 10 (9/10) 100 (9/10) [mkRstage [0; 1/20] [-1/20; 1/20] [] []] = 0.
Proof.
  split; [exact tg_index|]. split; [cbn; auto 10|].
  split. { intros r i [<-|[<-|[]]] _ T; discriminate T. }
  assert (F : forall x, 0 <= x <= 1 -> opf_plan tg_nw tg_sim tg_I (1/4) (fun _ => 1) (fun _ => 0) 0%Z [] [[1]] 1 [mkRstage [0; x] [- x; x] [] []]).
  { intros x Hx. split; [reflexivity|]. split; [repeat constructor|]. intros [|[|n]] st E; try discriminate. injection E as <-. pose proof pi3. constructor.
    - intros k [<-|[<-|[]]]; unfold planned_at, dc_out, rows_at, dc_sus, row_x, row_r, angle; cbn; lra.
    - intros k [<-|[<-|[]]]; cbn; lra.
    - reflexivity.
    - intros i [].
    - intros i [<-|[]]. split; [exists (Fin 0), (Fin 3); split; [reflexivity|split; apply xleb_t; cbn; lra]|]. cbn. lra.
    - intros i []. }
  split; [replace (-3/10) with (- (3/10)) by lra; apply F; lra|]. split; [replace (-1/20) with (- (1/20)) by lra; apply F; lra|].
  unfold opf_cost, opf_cost1, excess, dc_flow, dc_sus, row_x, row_r, angle. cbn. split.
  - rewrite Rabs_left by lra. rewrite Rmax_right by lra. lra.
  - rewrite Rabs_left by lra. rewrite Rmax_left by lra. lra.
Qed.

(** ** The environment of ExExec.v: every plan that satisfies the constraints of the agent costs 0, so that its optimiser returns a least one *)
Definition xx_I : index := mkIndex [0; 1; 2; 3]%Z [0; 1]%Z [1]%Z [2]%Z [3]%Z [0]%Z.
Lemma xx_index w : index_of (ex_nwk 0 w) xx_I.
Proof.
  destruct (xx_ids w) as (D1 & D2 & D3 & D4). repeat (split; [assumption|]). split; [|split; [repeat constructor; lia|]].
  - split; [repeat constructor|]. intros i. cbn. split.
    + intros [<-|[]]. exists ex_slack. eexists. cbn. auto 10.
    + intros (r & t & [<-|[<-|[<-|[<-|[]]]]] & E1 & E2 & E3); cbn in E1, E2; injection E1 as <-; injection E2 as <-; cbn in E3; intuition lia.
  - intros k. cbn. split; [intros [<-|[<-|[]]]; auto|intros [E|[E|[]]]; injection E as <-; auto].
Qed.
Lemma xx_cost asp sts : feasible (xx_mpc asp) xx_PL xx_PG [Fin 5] sts -> plan_cost (xx_mpc asp) (map lift sts) = Fin 0.
Proof.
  intros (L & Sh & Fe). destruct sts as [|st [|? ?]]; try discriminate L. inversion_clear Sh as [|? ? (S1 & S2 & S3 & S4) _]. destruct st as [an p pc pd]. cbn in S1, S2, S3, S4.
  destruct an as [|a1 [|a2 [|? ?]]]; try discriminate S1. destruct p as [|p0 [|p1 [|p2 [|p3 [|? ?]]]]]; try discriminate S2. destruct pc as [|c [|? ?]]; try discriminate S3. destruct pd as [|dd [|? ?]]; try discriminate S4.
  revert Fe. unfold plan_constraints, stage_constraints, p_dc, p_bus, new_socs, eqs, les, enumerate, column, Bix, bpos, dpos, ix, xx_PL, xx_PG, xx_mpc. xeval. intros Fe.
  inversion_clear Fe as [|? ? E _]. 
  unfold plan_cost, stage_cost, p_branch, enumerate, Bix, bpos, dpos, ix. xeval.
  apply xeqb_Fin_iff in E. rewrite Rmult_0_l, Rabs_R0. rewrite xleb_t by lra. cbn [orb]. f_equal. lra.
Qed.
Lemma xx_optimal asp : opf_optimal (xx_solve asp).
Proof.
  intros m PL PG soc p. unfold xx_solve. destruct (mpc_dec _ _) as [->|]; [|discriminate]. destruct (list_eq_dec _ PL _) as [->|]; [|discriminate].
  destruct (list_eq_dec _ PG _) as [->|]; [|discriminate]. destruct (list_eq_dec _ soc _) as [->|]; [|discriminate].
  intros E. injection E as <-. exists xx_stage, []. split; [reflexivity|]. split; [apply xx_feasible|]. intros sts' Fe.
  rewrite (xx_cost asp _ (xx_feasible asp)), (xx_cost asp _ Fe). apply xleb_t. lra.
Qed.
(** The other hypotheses of C67_optimal_partial and of C67_generation_partial are those of [C66_ex]. *)
Example C67_ex_env : exists e0, env_init (ex_nwk 0 1) ObsState 1 (Fin (1/4)) (Fin (9/10)) (Fin 100) None (Some (Some (Fin 1), Some (Fin 100))) 0%nat = Ok e0 /\
  Forall branch_row_fin (nw_br (ex_nwk 0 1)) /\ contiguous (ex_nwk 0 1) /\ Forall unshifted (nw_br (ex_nwk 0 1)) /\ index_of (ex_nwk 0 1) xx_I /\ ids_of (ex_nwk 0 1) RENEW [2]%Z /\
  (In ex_slack (nw_dev (ex_nwk 0 1)) /\ dr_type ex_slack = Some 0%Z /\ dr_id ex_slack = Some 0%Z /\ nth_error (ix_all xx_I) 0 = Some 0%Z /\ nth_error (ix_buses xx_I) 0 = Some 0%Z) /\
  (forall r i, In r (nw_dev (ex_nwk 0 1)) -> dr_id r = Some i -> dr_type r = Some 3%Z -> EFF r = Fin (9/10) /\ 0 < 9/10) /\
  let e := run_ecall xx_task e0 (EReset ex_or None) in let m := xx_mpc (e_aspace e0) in
  mpc_init (e_sim e0) (e_aspace e0) (Fin (9/10)) (Fin (9/10)) 1 = Ok m /\ opf_optimal (xx_solve (e_aspace e0)) /\
  (forall i, In i (ix_dess xx_I) -> obs (e_sim e) "des_soc" "pu" (EId i) = Some (Fin 5)) /\
  mpc_act (xx_solve (e_aspace e0)) m (e_sim e) (map (map Fin) [[-1/4]]) (map (map Fin) [[1/4]]) = Ok xx_plan_act.
Proof.
  destruct C66_ex as (e0 & e' & ob & r & B & H). cbv zeta in H. destruct H as (_ & _ & _ & _ & M & _ & A & _ & _ & _ & D). exists e0. split; [exact B|].
  split; [repeat constructor; row_fin|]. split.
  { intros k. cbn. split; [intros [E|[E|[]]]; injection E as <-; lia|]. intros H. assert (E : (k = 0 \/ k = 1)%Z) by lia. destruct E as [-> | ->]; auto. }
  split; [constructor; [right; reflexivity|constructor]|]. split; [apply xx_index|]. split.
  { split; [repeat constructor|]. intros i. cbn. split.
    - intros [<-|[]]. exists ex_rer. eexists. cbn. auto 10.
    - intros (r0 & t & [<-|[<-|[<-|[<-|[]]]]] & E1 & E2 & E3); cbn in E1, E2; injection E1 as <-; injection E2 as <-; cbn in E3; intuition lia. }
  split; [cbn; auto 10|]. split; [intros r0 i [<-|[<-|[<-|[<-|[]]]]] _ T; try discriminate T; split; [reflexivity|lra]|].
  split; [exact M|]. split; [apply xx_optimal|]. split; [intros i [<-|[]]; apply D|exact A].
Qed.
