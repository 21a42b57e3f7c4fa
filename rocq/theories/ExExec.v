(** A concrete environment in which a plan of the MPC agent is executed: the network of ExNet.v with a load of unit power factor. *)
From Coq Require Import Reals Lra Sorted.
From Verif Require Import Base Num NumXR Devices BusBranch CheckNetwork LoadFlow Simulator EnvArgs Env Mpc LibBase LibNum LibSim LibXR LibEval
  SpecNet SpecSim SpecDev SpecQp ProofSim SpecEnv ProofStep ProofState ProofDraw ProofEnvOk SpecObs ProofArgs ProofObs ProofLive ProofReset PropReward SpecMpc ProofMpc ProofPlan PropPlan PropExec PropSet
  ExNet ExRun ExEnv ExPlan.
Local Open Scope string_scope.
Local Open Scope list_scope.
Local Open Scope R_scope.
Set Bullet Behavior "Strict Subproofs".

Ltac xx_reset_start :=
  unfold sim_reset, n_device, n_des, n_nsgen, ex_veck; cbn [ex_simk sm_devs List.length filter is_stor is_nsgen is_gen exo_slack exo_load exo_rer exo_stor d_spec d_slack d_type andb negb Z.eqb
    firstn skipn slice Nat.mul Nat.add app];
  unfold slice; cbn [firstn skipn Nat.add Nat.mul];
  match goal with |- context [reset_inputs ?a ?b ?c ?d ?e ?f ?g] => 
    let E1 := fresh in assert (E1 : reset_inputs a b c d e f g = Ok (ex_ink 0)) by reflexivity; rewrite E1; clear E1 end;
  match goal with |- context [mapM ?a ?b] => 
    let E2 := fresh in assert (E2 : mapM a b = Ok [exo_slack 0 0; exo_load 0 0 0; exo_rer 0 0 3; exo_stor 0 0 (Some (Fin 10))])
      by (unfold dev_pre_soc, dgetE; cbn [ex_ink ti_p]; xeval; reflexivity); rewrite E2; clear E2 end;
  unfold sim_set_devs, sim_set_state; cbn [ex_simk sm_dt sm_lamb sm_base sm_buses sm_branches sm_devs sm_Y sm_state sm_conv].

Lemma xx_reset_aux w soc aux : sim_reset ex_or (ex_veck 0 soc ++ aux) (ex_simk 0 w) = (ex_sim1k 0 w (Fin (soc / 10)), Ok true).
Proof.
  xx_reset_start.
  rewrite ex_trans_gen by lra. cbn [ex_sim1k ex_simpf sm_devs ex_devs set_socs is_stor exo_slack exo_load exo_rer exo_stor d_spec fst snd].
  unfold ex_sim1k, ex_simpf, d_set_soc. cbn [ndiv XRnum sm_dt sm_lamb sm_base sm_buses sm_branches sm_devs sm_Y sm_state sm_conv d_id d_bus d_type d_spec d_p d_q d_ppot]. rewrite xdiv_Fin by lra. reflexivity.
Qed.
(** The k-th draw gives the auxiliary variable k. *)
Definition xx_task : task XR nat := mkTask Z.to_nat
  (fun g => (Ok (ex_veck 0 50 ++ [Fin (INR g)]), S g)) (fun _ g => (Ok [Fin (-5); Fin (5/2); Fin (INR g)], S g)).
Notation exx_args w q c1 c2 := (env_init (ex_nwk 0 w) ObsState 1 (Fin (1/4)) (Fin q) (Fin 100) None (Some (Some (Fin c1), Some (Fin c2))) 0%nat).
Definition xx_plan_act : list XR := [Fin 2; Fin (5 * 0); Fin (1/2); Fin 0].

Lemma xx_ids w : ids_of (ex_nwk 0 w) ALL [0; 1; 2; 3]%Z /\ ids_of (ex_nwk 0 w) LOADS [1]%Z /\
  ids_of (ex_nwk 0 w) GENS [2]%Z /\ ids_of (ex_nwk 0 w) STORS [3]%Z.
Proof.
  repeat split; try (repeat constructor; lia).
  all: try (intros I; cbn in I; repeat destruct I as [<-|I]; try destruct I;
    [..]; match goal with |- exists r t, _ /\ dr_id r = Some ?i /\ _ =>
      match i with 0%Z => exists ex_slack | 1%Z => exists (ex_load 0) | 2%Z => exists ex_rer | 3%Z => exists ex_stor end end;
    eexists; cbn; repeat split; auto 10).
  all: intros (r & t & I & E1 & E2 & It); cbn in I; repeat destruct I as [<-|I]; try destruct I; cbn in E1, E2; injection E1 as <-; injection E2 as <-; cbn in *; intuition discriminate.
Qed.

Lemma xx_requested w : Forall2 (fun t r => requested (ex_simk 0 w) 1 t = Some r) state_tuples ex_reqs.
Proof. repeat constructor. Qed.
Lemma xx_built w q c1 c2 : 0 <= w -> 0 <= q <= 1 -> exists e0, exx_args w q c1 c2 = Ok e0.
Proof.
  intros Hw Hq. unfold env_init. rewrite (ex_initk Hw). cbn [bind].
  destruct (args_cases (ex_simk 0 w) 1 (Fin (1/4)) (Fin q) (Fin 100) (@ObsState XR) None) as (_ & _ & A). rewrite (A (ex_args_ok q Hq)).
  cbn [bind]. eexists. reflexivity.
Qed.

Section ExX.
  Variables (w q c1 c2 : R) (e0 : env XR nat).
  Hypotheses (Hw : 0 <= w) (Hq : 0 <= q <= 1) (built : exx_args w q c1 c2 = Ok e0).
  Notation xxgood := (good (ex_nwk 0 w) ObsState 1 (Fin (1/4)) (Fin q) (Fin 100) None (Some (Some (Fin c1), Some (Fin c2))) 0%nat e0).

  Lemma xxe_sim : e_sim e0 = ex_simk 0 w.
  Proof.
    pose proof (good_erun _ _ _ _ _ _ _ _ _ _ xx_task [] built) as Hg. pose proof (gd_sim0 _ Hg) as H. rewrite (ex_initk Hw) in H. congruence.
  Qed.

  Lemma xxe_action (e : env XR nat) : xxgood e -> valid_action e xx_plan_act.
  Proof.
    intros Hg. unfold valid_action. rewrite (gd_aspace _ Hg), xxe_sim. unfold build_action_space, get_action_space, ex_simk, box_contains. xeval. 
    reflexivity.
  Qed.

  Lemma xxe_bounds : ordered_bounds None e0 ex_reqs.
  Proof.
    unfold ordered_bounds. rewrite xxe_sim. intros r b I E. cbn [ex_reqs List.concat app map] in I.
    cbn [In] in I. repeat destruct I as [<-|I]; try destruct I; unfold req_bound in E; cbn [String.eqb Ascii.eqb Bool.eqb] in E;
      unfold bound, get_state_space, ex_simk in E; cbn in E; injection E as <-; xeval; try reflexivity.
  Qed.

  (** what is read in the simulators of the example *)
  Lemma xxe_reads (s : sim XR) soc r : s = ex_sim1k 0 w (Fin soc) \/ s = ex_sim1k 0 w (Fin soc) -> In r (List.concat ex_reqs) ->
    match r with (key, Some u, n) => exists x, SpecSim.obs s key u n = Some (Fin x) | (_, None, _) => True end.
  Proof.
    intros Hs I. cbn [ex_reqs List.concat app map In] in I. repeat destruct I as [<-|I]; try destruct I; try exact Logic.I;
      destruct Hs as [-> | ->]; eexists; reflexivity.
  Qed.
  Lemma xxe_no_nan (e' : env XR nat) st soc x : e_sim e' = ex_sim1k 0 w (Fin soc) \/ e_sim e' = ex_sim1k 0 w (Fin soc) -> e_K e' = 1%nat -> e_state e' = Some st ->
    state_layout [0; 1; 2; 3]%Z [2]%Z [3]%Z 1 (e_sim e') [Fin x] st -> no_nan ex_reqs e' /\ List.length st = 11%nat.
  Proof.
    intros Hs HK Hst (_ & Ly). pose proof (f_equal (@List.length _) Ly) as Ll. unfold reads in Ll. rewrite !app_length, !map_length in Ll. cbn [List.length Nat.add] in Ll.
    split; [|exact Ll]. intros st' r v Est I Ev. rewrite Hst in Est. injection Est as <-.
    pose proof (xxe_reads _ soc r Hs I) as Q. destruct r as ((key, u), n). unfold req_value in Ev.
    destruct u as [u|].
    - destruct Q as (y & Q). destruct (String.eqb key "aux") eqn:Ek.
      { exfalso. apply String.eqb_eq in Ek. subst key. cbn [ex_reqs List.concat app map In] in I. intuition discriminate. }
      rewrite Q in Ev. injection Ev as <-. destruct (nisnan _) eqn:Q2; [apply xisnan_spec in Q2; discriminate|reflexivity].
    - assert (E : key = "aux" /\ n = EId 0) by (cbn [ex_reqs List.concat app map In] in I; repeat destruct I as [I|I]; try discriminate I; try contradiction; injection I as <- <-; auto).
      destruct E as (-> & ->). cbn [String.eqb Ascii.eqb Bool.eqb] in Ev. rewrite Ll, HK in Ev. cbn [Nat.sub Z.to_nat] in Ev.
      assert (Ev2 : nth_error st 10 = Some v) by (clear -Ev Ll; do 11 (destruct st as [|? st]; [discriminate Ll|]); exact Ev).
      apply (f_equal (fun l => nth_error l 10)) in Ly. rewrite nth_error_map, Ev2 in Ly. cbn in Ly. injection Ly as ->. 
      destruct (nisnan _) eqn:Q2; [apply xisnan_spec in Q2; discriminate|reflexivity].
  Qed.

  Definition xxlive (soc : R) (e : env XR nat) : Prop :=
    (exists cs, e = erun xx_task e0 cs) /\ e_sim e = ex_sim1k 0 w (Fin soc) /\ e_term e = Some false /\ exists st, e_state e = Some st /\ (1 <= List.length st)%nat.

  Lemma xxe_K cs : e_K (erun xx_task e0 cs) = 1%nat.
  Proof. pose proof (good_erun _ _ _ _ _ _ _ _ _ _ xx_task cs built) as Hg. apply (gd_K _ Hg). Qed.

  Lemma xxe_reset cs seed : exists e' ob, env_reset ex_or xx_task seed (erun xx_task e0 cs) = (e', Ok ob) /\ xxlive 5 e'.
  Proof.
    pose proof (good_erun _ _ _ _ _ _ _ _ _ _ xx_task cs built) as Hg. destruct (xx_ids w) as (D1 & D2 & D3 & D4).
    set (e := erun xx_task e0 cs) in *.
    assert (Ha : forall k, attempt ex_or (e_sim e0) (state_size e0) (draw xx_task (gen_at xx_task seed e) k) true).
    { intros k. assert (P : exists g', fst (draw xx_task (gen_at xx_task seed e) k) = Ok (ex_veck 0 50 ++ [Fin (INR g')])).
      { generalize (gen_at xx_task seed e). induction k; intros g; cbn [draw]; [exists g; reflexivity|apply IHk]. }
      destruct P as (g' & P). exists (ex_veck 0 50 ++ [Fin (INR g')]). split; [exact P|]. split.
      - unfold state_size. rewrite xxe_sim. pose proof (xxe_K []) as Ek. cbn [erun fold_left] in Ek. rewrite Ek. reflexivity.
      - rewrite xxe_sim, xx_reset_aux. reflexivity. }
    assert (H0 : (1 < 100)%nat) by lia.
    assert (Hb : forall j, (j < 0)%nat -> attempt ex_or (e_sim e0) (state_size e0) (draw xx_task (gen_at xx_task seed e) j) false) by (intros j L; exfalso; lia).
    destruct (gd_reset ex_or xx_task seed e 0 _ _ _ Hg H0 Hb (Ha 0%nat) D1 D3 D4)
      as (init & e' & st & A1 & A2 & A3 & A4 & A5 & A6 & A7).
    assert (Ei : init = ex_veck 0 50 ++ [Fin (INR (gen_at xx_task seed e))]).
    { assert (Q : Ok init = Ok (ex_veck 0 50 ++ [Fin (INR (gen_at xx_task seed e))])) by exact (eq_sym (f_equal fst A2)). congruence. }
    rewrite Ei in A4, A6. clear Ei. rewrite xxe_sim, xx_reset_aux in A4. cbn [fst] in A4.
    assert (Ee : e' = erun xx_task e0 (cs ++ [EReset ex_or seed])).
    { unfold erun. rewrite fold_left_app. cbn [fold_left run_ecall]. symmetry. exact A1. }
    change (Z.to_nat 1) with 1%nat in A6. cbn [List.length ex_veck app Nat.sub skipn] in A6.
    destruct (xxe_no_nan e' st (50/10) (INR (gen_at xx_task seed e)) (or_introl A4)) as (Nn & Ls); auto; [rewrite Ee; apply xxe_K|].
    destruct (C62_step_returns (ex_nwk 0 w) ObsState 1 (Fin (1/4)) (Fin q) (Fin 100) None (Some (Some (Fin c1), Some (Fin c2))) 0%nat e0 xx_task cs built state_tuples ex_reqs eq_refl) 
      with (loads := [1]%Z) (gens := [2]%Z) (dess := [3]%Z) as (_ & R); auto.
    { rewrite xxe_sim. apply xx_requested. } { apply ex_no_default. } { apply xxe_bounds. }
    destruct (R ex_or seed 0%nat H0) as (ob & Ob).
    { exact Hb. } { apply Ha. } { fold e. rewrite A1. exact Nn. }
    exists e', ob. split; [rewrite <- A1; fold e in Ob; rewrite <- Ob; destruct (env_reset _ _ _ _); reflexivity|].
    split; [eauto|]. split; [rewrite A4; replace (50/10) with 5 by lra; reflexivity|]. split.
    - pose proof (env_reset_const ex_or xx_task seed e) as Q. destruct (env_reset ex_or xx_task seed e) as (e1, r1). cbn in A1. subst e1. destruct (Q _ _ eq_refl) as (_ & _ & Qt & _). exact Qt.
    - exists st. split; auto. lia.
  Qed.

  Lemma xx_layout x : layout [1]%Z [2]%Z [3]%Z [Fin (-5); Fin (5/2); x] xx_plan_act (ex_ink 0).
  Proof.
    split; [|split].
    - intros [|[|k]] i E; try discriminate E. injection E as <-. reflexivity.
    - intros [|[|k]] i E; try discriminate E. injection E as <-. repeat split.
    - intros [|[|k]] i E; try discriminate E. injection E as <-. repeat split.
  Qed.

  Lemma xxe_step e : xxlive 5 e ->
    exists e' ob r, env_step ex_or xx_task xx_plan_act e = (e', Ok (mkOut ob r false false)) /\ e_sim e' = ex_sim1k 0 w (Fin (5 - 1/72)).
  Proof.
    intros ((cs & ->) & Fm & Ht & st & Hst & Ls).
    pose proof (good_erun _ _ _ _ _ _ _ _ _ _ xx_task cs built) as Hg. destruct (xx_ids w) as (D1 & D2 & D3 & D4).
    set (e := erun xx_task e0 cs) in *. assert (V : valid_action e xx_plan_act) by (apply xxe_action; auto).
    assert (H0 : -1 <= 0 <= 1) by lra. assert (H5 : 1 <= 5 <= 10) by lra. pose proof (ex_transk 0 w 5 H0 H5) as Tr. rewrite <- Fm in Tr.
    assert (Hn : t_next xx_task st (e_rng e) = (Ok [Fin (-5); Fin (5/2); Fin (INR (e_rng e))], S (e_rng e))) by reflexivity.
    destruct (step_after ex_or xx_task xx_plan_act e st _ _ (ex_ink 0) _ _ _ _ _ _ _ _ _ Hg V Ht Hst Hn D2 D3 D4 eq_refl (xx_layout _) Ls Tr) as (S1 & S2 & S3 & S4 & S5 & S6 & _).
    destruct (S6 eq_refl) as (st' & T1 & T2 & T3 & T4 & T5 & T6). clear S6.
    destruct (C62_step_returns (ex_nwk 0 w) ObsState 1 (Fin (1/4)) (Fin q) (Fin 100) None (Some (Some (Fin c1), Some (Fin c2))) 0%nat e0 xx_task cs built state_tuples ex_reqs eq_refl) 
      with (loads := [1]%Z) (gens := [2]%Z) (dess := [3]%Z) as (R & _); auto.
    { rewrite xxe_sim. apply xx_requested. } { apply ex_no_default. } { apply xxe_bounds. }
    destruct (R ex_or xx_plan_act st _ _ (ex_ink 0) _ _ _ _ _ _ V Ht Hst Ls Hn eq_refl (xx_layout _) Tr) as (_ & _ & _ & R1 & _).
    fold e in R1. set (e' := fst (env_step ex_or xx_task xx_plan_act e)) in *.
    assert (Ee : e' = erun xx_task e0 (cs ++ [EStep ex_or xx_plan_act])).
    { unfold erun. rewrite fold_left_app. reflexivity. }
    specialize (T5 _ D1). cbn [List.length Nat.add skipn] in T5. change (Z.to_nat 1) with 1%nat in T5. rewrite <- S1 in T5.
    destruct (xxe_no_nan e' st' (5 - 1/72) (INR (e_rng e)) (or_intror S1)) as (Nn & Ls'); auto; [rewrite Ee; apply xxe_K|].
    destruct (R1 eq_refl Nn) as (ob & r & Er). exists e', ob, r. split; [|exact S1].
    transitivity (e', snd (env_step ex_or xx_task xx_plan_act e)); [unfold e'; destruct (env_step _ _ _ _); reflexivity|rewrite Er; reflexivity].
  Qed.
End ExX.

(** ** The agent, and an optimiser that knows this one plan *)
Lemma XR_dec (a b : XR) : {a = b} + {a <> b}.
Proof. decide equality. apply Req_EM_T. Qed.
Lemma box_dec (a b : box XR) : {a = b} + {a <> b}.
Proof. decide equality; try apply Bool.bool_dec; apply list_eq_dec, XR_dec. Qed.
Lemma mpc_dec (a b : mpc XR) : {a = b} + {a <> b}.
Proof. decide equality; try apply XR_dec; try apply box_dec; try apply Z.eq_dec; try apply Nat.eq_dec; repeat (apply list_eq_dec; intros); try apply XR_dec; try apply Z.eq_dec; decide equality; apply Z.eq_dec. Qed.
Definition xx_mpc (asp : box XR) : mpc XR := mkMpc (Fin (9/10)) (Fin 10) (Fin 100) asp 1 (Fin (9/10)) (Fin (1/4)) 2 4
  [1]%Z [0; 2]%Z [2]%Z [2]%Z [3]%Z [(0, 1)]%Z [0; 1; 2; 3]%Z [0; 1]%Z 0%Z [(0, 0); (1, 1); (2, 1); (3, 1)]%Z
  [[Fin 0; Fin 0]; [Fin 0; Fin 0]] [Fin 2] [Fin 0] [Fin 3] [Fin (-5)] [Fin 5] [Fin 0] [Fin 10] [Fin (9/10)].
Lemma xx_mpc_ok w asp : mpc_init (ex_simk 0 w) asp (Fin (9/10)) (Fin (9/10)) 1 = Ok (xx_mpc asp).
Proof. unfold ex_simk. mval. reflexivity. Qed.
(** the forecasts are wrong: the load draws 0.5 p.u., not 0.25 *)
Definition xx_PL : list (list XR) := [[Fin (-1/4)]].
Definition xx_PG : list (list XR) := [[Fin (1/4)]].
Definition xx_stage : rstage := mkRstage [0; 0] [0; -1/4; 1/5; 1/20] [0] [1/20].
Lemma xx_feasible asp : feasible (xx_mpc asp) xx_PL xx_PG [Fin 5] [xx_stage].
Proof. unfold xx_PL, xx_PG, xx_stage, xx_mpc. plan_ok. Qed.
Definition xx_solve (asp : box XR) : opf_solver := fun m PL PG soc =>
  if mpc_dec m (xx_mpc asp) then if list_eq_dec (list_eq_dec XR_dec) PL xx_PL then if list_eq_dec (list_eq_dec XR_dec) PG xx_PG then
  if list_eq_dec XR_dec soc [Fin 5] then Ok (map Fin (rs_p xx_stage)) else Err ValueError else Err ValueError else Err ValueError else Err ValueError.
Lemma xx_sound asp : opf_sound (xx_solve asp).
Proof.
  intros m PL PG soc p. unfold xx_solve. destruct (mpc_dec _ _) as [->|]; [|discriminate]. destruct (list_eq_dec _ PL _) as [->|]; [|discriminate].
  destruct (list_eq_dec _ PG _) as [->|]; [|discriminate]. destruct (list_eq_dec _ soc _) as [->|]; [|discriminate].
  intros E. injection E as <-. exists xx_stage, []. split; [reflexivity|apply xx_feasible].
Qed.
Lemma xx_solves asp : xx_solve asp (xx_mpc asp) xx_PL xx_PG [Fin 5] = Ok (map Fin (rs_p xx_stage)).
Proof. unfold xx_solve. destruct (mpc_dec _ _); [|congruence]. do 2 (destruct (list_eq_dec _ _ _); [|congruence]). destruct (list_eq_dec _ _ _); congruence. Qed.
(** Also for C65, whose hypotheses are among these. The agent plans 2 MW for the generator and discharges the unit at 0.5 MW; the environment executes the plan. *)
Example C66_ex : exists e0 e' ob r, env_init (ex_nwk 0 1) ObsState 1 (Fin (1/4)) (Fin (9/10)) (Fin 100) None (Some (Some (Fin 1), Some (Fin 100))) 0%nat = Ok e0 /\
  let e := run_ecall xx_task e0 (EReset ex_or None) in let m := xx_mpc (e_aspace e0) in
  ids_of (ex_nwk 0 1) ALL [0; 1; 2; 3]%Z /\ ids_of (ex_nwk 0 1) GENS [2]%Z /\ ids_of (ex_nwk 0 1) STORS [3]%Z /\
  live_call xx_task e0 (EReset ex_or None) /\ mpc_init (e_sim e0) (e_aspace e0) (Fin (9/10)) (Fin (9/10)) 1 = Ok m /\ opf_sound (xx_solve (e_aspace e0)) /\
  mpc_act (xx_solve (e_aspace e0)) m (e_sim e) xx_PL xx_PG = Ok xx_plan_act /\ env_step ex_or xx_task xx_plan_act e = (e', Ok (mkOut ob r false false)) /\ qp_exact (o_qp ex_or) /\
  (In ex_rer (nw_dev (ex_nwk 0 1)) /\ dr_id ex_rer = Some 2%Z /\ dr_type ex_rer = Some 2%Z /\ dev_row_fin ex_rer /\ gen_limits_given ex_rer /\ zero_q_allowed ex_rer /\
   obs (e_sim e') "gen_p_max" "pu" (EId 2) = Some (Fin (1/4)) /\ obs (e_sim e') "dev_p" "pu" (EId 2) = Some (Fin (2/10))) /\
  (In ex_stor (nw_dev (ex_nwk 0 1)) /\ dr_id ex_stor = Some 3%Z /\ dr_type ex_stor = Some 3%Z /\ dev_row_fin ex_stor /\ stor_limits_given ex_stor /\ zero_q_allowed ex_stor /\
   EFF ex_stor = Fin (9/10) /\ obs (e_sim e) "des_soc" "pu" (EId 3) = Some (Fin 5) /\ bound (e_sim e0) "des_soc" "pu" (EId 3) = Some (Fin 0, Fin 10) /\
   entry 0 [3]%Z (rs_pc xx_stage) 3 = 0 /\ obs (e_sim e') "des_soc" "pu" (EId 3) = Some (Fin (5 - 1/72))).
Proof.
  assert (H1 : 0 <= 1) by lra. assert (Hq : 0 <= 9/10 <= 1) by lra. destruct (xx_built 1 (9/10) 1 100 H1 Hq) as (e0 & B).
  destruct (xxe_reset 1 (9/10) 1 100 e0 H1 Hq B [] None) as (e & ob0 & Er & Lv). cbn [erun fold_left] in Er.
  destruct (xxe_step 1 (9/10) 1 100 e0 H1 Hq B e Lv) as (e' & ob & r & Es & Ss). exists e0, e', ob, r. split; [exact B|].
  assert (Ee : run_ecall xx_task e0 (EReset ex_or None) = e) by (cbn [run_ecall]; rewrite Er; reflexivity).   pose proof (xxe_sim 1 (9/10) 1 100 e0 H1 B) as S0. destruct Lv as (_ & Sm & _).
  intros e1 m. unfold e1. rewrite Ee. clear e1. destruct (xx_ids 1) as (D1 & _ & D3 & D4). do 3 (split; [assumption|]). split; [cbn [live_call]; rewrite Er; reflexivity|]. split; [rewrite S0; apply xx_mpc_ok|]. split; [apply xx_sound|].
  split.
  { unfold mpc_act. change (m_steps m) with 1%nat. change (Nat.leb (m_nbus m) (dpos m (m_slackdev m))) with false. cbn [Nat.eqb raise_if bind].
    assert (P : params m (e_sim e) xx_PL xx_PG = Ok [Fin 5]).
    { rewrite Sm. unfold params. match goal with |- context [init_soc ?a ?b] => assert (E : init_soc a b = Ok [Fin 5]) by reflexivity; rewrite E end.
      unfold xx_PL, xx_PG, shape_ok, nonneg, m, xx_mpc, nrat. xeval. reflexivity. }
    rewrite P. cbn [bind]. unfold m. rewrite xx_solves. cbn [bind]. change (m_aspace _) with (e_aspace e0).
    pose proof (good_erun _ _ _ _ _ _ _ _ _ _ xx_task [] B) as Hg. cbn [erun fold_left] in Hg. rewrite (gd_aspace _ Hg), S0.
    unfold build_action_space, get_action_space, ex_simk, xx_plan_act, action_of, clip_vec, xx_mpc, xx_stage. xeval. xsame. }
  split; [exact Es|]. split; [exact ex_qp_exact|]. split.
  - split; [cbn; auto|]. split; [reflexivity|]. split; [reflexivity|]. split; [row_fin|]. split; [split; [discriminate|right; split; discriminate]|]. split; [split; apply xleb_t; lra|]. rewrite Ss. split; reflexivity.
  - split; [cbn; auto|]. split; [reflexivity|]. split; [reflexivity|]. split; [row_fin|]. split; [split; [discriminate|split; [discriminate|right; split; discriminate]]|]. split; [split; apply xleb_t; lra|]. rewrite Ss, Sm, S0. repeat (split; [reflexivity|]). reflexivity.
Qed.
