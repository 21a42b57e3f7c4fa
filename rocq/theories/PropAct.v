(** C83: the MPC agents always find an action on the 6-bus task.  The optimal power flow has a solution as soon as it has a feasible plan, and it has one at
    every point of every episode. *)
From Coq Require Import Reals Lra Sorted Permutation ClassicalEpsilon.
From Coquelicot Require Import Complex.
From Verif Require Import Base Num NumXR Devices BusBranch CheckNetwork LoadFlow Simulator EnvArgs Env Anm6 Mpc Scripts LibBase LibNum LibSim LibXR LibEval SpecNet ProofNet LibInit SpecSim ProofSim ProofObs ProofHist ProofSoc ProofReset ProofUnits SpecDev ProofDev ProofVals
  SpecQp SpecPf LibC ProofBr ProofY ProofBal ProofPf SpecTotal ProofTotal PropSet PropTotal SpecEnv ProofEnv ProofStep ProofState ProofDraw ProofEnvOk ProofObsEnv ProofArgs PropEnv ProofLive SpecEpisode ProofEpisode SpecAnm6 ProofEasy PropEasy PropEasy2 PropEasy3 ProofAnm6 PropEasy4
  SpecMpc ProofMpc PropMpc ProofPlan PropPlan PropDc PropExec SpecOpf ProofOpf PropOpf ProofAtt ProofAtt2 ProofAtt3 ProofAct.
Local Open Scope string_scope.
Local Open Scope list_scope.
Local Open Scope R_scope.
Set Bullet Behavior "Strict Subproofs".

(** A plan that satisfies the constraints of the agent and costs no more than any other that does. *)
Definition least_plan (m : mpc XR) (PL PG : list (list XR)) (soc : list XR) (sts : list rstage) : Prop :=
  feasible m PL PG soc sts /\ forall sts', feasible m PL PG soc sts' -> xleb (plan_cost m (map lift sts)) (plan_cost m (map lift sts')) = true.
(** An optimiser that returns whenever there is something to return. *)
Definition opf_complete (solve : opf_solver (F := XR)) : Prop :=
  forall m PL PG soc, (exists st sts, least_plan m PL PG soc (st :: sts)) -> exists p, solve m PL PG soc = Ok p.

(** ---- C83: a problem that has a feasible plan has a best one ---- *)
(** On networks where generators and storage units have finite limits and storage units an efficiency below 1, and with the agent's other conditions as in C67.
    Any forecasts, any horizon, any discount factor (even negative). *)
Theorem C83_attained : forall (nw : network XR) b d lamb s0 cs1 cs2 asp gam mg k m PL PG soc I eff c0 r i sb p,
  sim_init nw (Fin d) (Fin lamb) = Ok s0 -> 0 < d -> nw_base nw = Fin b -> Forall branch_row_fin (nw_br nw) -> contiguous nw -> Forall unshifted (nw_br nw) -> index_of nw I ->
  (In r (nw_dev nw) /\ dr_type r = Some 0%Z /\ dr_id r = Some i /\ dr_bus r = Some sb /\ nth_error (ix_all I) p = Some i /\ nth_error (ix_buses I) p = Some sb) ->
  (forall r i, In r (nw_dev nw) -> dr_id r = Some i -> dr_type r = Some 3%Z -> EFF r = Fin (eff i) /\ 0 < eff i < 1) ->
  (forall i, In i (ix_gens I) \/ In i (ix_dess I) -> exists lo hi, bound s0 "dev_p" "pu" (EId i) = Some (Fin lo, Fin hi)) ->
  (forall i, In i (ix_dess I) -> exists lo hi, bound s0 "des_soc" "pu" (EId i) = Some (Fin lo, Fin hi)) ->
  mpc_init (run s0 cs1) asp (Fin gam) (Fin mg) k = Ok m -> 0 < mg ->
  let s := run (run s0 cs1) cs2 in params m s (map (map Fin) PL) (map (map Fin) PG) = Ok soc ->
  (forall i, In i (ix_dess I) -> obs s "des_soc" "pu" (EId i) = Some (Fin (c0 i))) ->
  (exists sts, feasible m (map (map Fin) PL) (map (map Fin) PG) soc sts) -> exists sts, least_plan m (map (map Fin) PL) (map (map Fin) PG) soc sts.
Proof.
  intros nw b d lamb s0 cs1 cs2 asp gam mg k m PL PG soc I eff c0 r i sb p H0 Hd Eb Hr Hc Hu HI (Ir & Ty & Ei & Eb' & Pa & Pb) He Hl Hs M Hm s P Hsoc (sts0 & F0).
  destruct (C67_problem_partial nw b d lamb s0 cs1 cs2 asp gam mg k m PL PG soc I eff c0 r i sb p H0 Eb Hr Hc Hu HI) as (Fe & Co); auto.
  { intros r' i' A1 A2 A3. destruct (He r' i' A1 A2 A3) as (E1 & E2). split; [auto|lra]. }
  destruct (opf_attained nw s0 I d eff c0 sb i PL PG k HI Hd Hl Hs) with (base := b) (margin := mg) (lamb := lamb) (gam := gam) as (sts & Ps & Ls).
  - intros j Ij. assert (Q := proj1 (proj2 (proj1 (proj2 (proj2 (proj2 HI)))) j) Ij). destruct Q as (r' & t & A1 & A2 & A3 & A4). cbn in A4. destruct A4 as [<-|[]]. apply (He r' j A1 A2 A3).
  - eauto.
  - eapply nth_error_In; eauto.
  - intros r' i' A1 A2 A3. destruct (sim_init_built _ _ _ _ H0) as (bs & ds & B). destruct (bt_wf _ _ _ _ _ _ B) as (_ & _ & (l1 & a & l2 & El & _ & Fn) & _). rewrite Forall_forall in Fn.
    assert (U : forall x, In x (nw_dev nw) -> dr_type x = Some 0%Z -> x = a). { intros x Ix Tx. rewrite El in Ix. apply in_app_or in Ix as [Ix|[Ix|Ix]]; auto; exfalso; apply (Fn x); auto; apply in_or_app; auto. }
    rewrite (U r Ir Ty) in Ei. rewrite (U r' A1 A2) in A3. congruence.
  - exists sts0. apply Fe. exact F0.
  - exists sts. split; [apply Fe; auto|]. intros sts' F'. apply Fe in F'. rewrite !Co by (apply Ps || apply F'). cbn [xleb]. apply Rleb_spec. apply Ls. exact F'.
Qed.

(** Such optimisers exist. *)
Theorem C83_solver : exists solve, opf_optimal solve /\ opf_complete solve.
Proof.
  set (Q := fun m PL PG soc (p : list XR) => exists st sts, p = map Fin (rs_p st) /\ least_plan m PL PG soc (st :: sts)).
  exists (fun m PL PG soc => match excluded_middle_informative (exists p, Q m PL PG soc p) with left H => Ok (proj1_sig (constructive_indefinite_description _ H)) | right _ => Err TypeErr end). split.
  - intros m PL PG soc p H. destruct (excluded_middle_informative _) as [X|]; [|discriminate]. injection H as <-. destruct (constructive_indefinite_description _ X) as (p & st & sts & E & F & L). cbn [proj1_sig]. exists st, sts. auto.
  - intros m PL PG soc (st & sts & L). destruct (excluded_middle_informative _) as [X|N]; [eauto|]. exfalso. apply N. exists (map Fin (rs_p st)). exists st, sts. auto.
Qed.

(** ---- on the 6-bus network ---- *)
Section Six.
  Context (s0 : sim XR) (Hs0 : sim_init anm6x (Fin (1/4)) (Fin 100) = Ok s0) (l : list (call XR)).
  Notation s := (run s0 l).
  Context (asp : box XR) (gam mg : R) (Hm : 0 < mg) (k : nat) (Hk : (1 <= k)%nat) (m : mpc XR) (M : mpc_init s0 asp (Fin gam) (Fin mg) k = Ok m).
  Context (c : R) (Hc : 0 <= c <= 1) (Oc : obs s "des_soc" "pu" (EId 6) = Some (Fin c)).
  Context (r1 r3 r5 r2 r4 : list R) (Hl : Forall (fun r => List.length r = k /\ Forall (fun x => -3/10 <= x <= 0) r) [r1; r3; r5]) (Hg : Forall (fun r => List.length r = k /\ Forall (fun x => 0 <= x) r) [r2; r4]).
  Notation PL := (map (map Fin) [r1; r3; r5]).
  Notation PG := (map (map Fin) [r2; r4]).

  Lemma six_agent : agent_of anm6x (Fin (1/4)) (Fin 100) asp (Fin gam) (Fin mg) k m.
  Proof. exact (agent_inv _ _ _ _ s0 _ _ _ _ _ Hs0 eq_refl M). Qed.
  Lemma six_ids : m_devs m = [0; 1; 2; 3; 4; 5; 6]%Z /\ m_loads m = [1; 3; 5]%Z /\ m_nsgens m = [2; 4]%Z /\ m_dess m = [6]%Z /\ m_nbus m = 6%nat /\ m_steps m = k /\ m_slackdev m = 0%Z.
  Proof.
    destruct (anm6_ids (F := XR)) as (D1 & D2 & D3 & D4). pose proof six_agent as A. split; [apply (ag_devs _ _ _ _ _ _ _ _ A _ D1)|]. split; [apply (ag_loads _ _ _ _ _ _ _ _ A _ D2)|].
    split; [apply (ag_gens _ _ _ _ _ _ _ _ A _ D3)|]. split; [apply (ag_dess _ _ _ _ _ _ _ _ A _ D4)|]. split; [apply (ag_nbus _ _ _ _ _ _ _ _ A)|]. split; [apply (ag_steps _ _ _ _ _ _ _ _ A)|].
    apply (slackdev_is anm6x _ _ s0 [] asp (Fin gam) (Fin mg) k m _ 0%Z Hs0 M (or_introl eq_refl) eq_refl eq_refl).
  Qed.
  Lemma six_params : params m s PL PG = Ok [Fin c].
  Proof.
    destruct six_ids as (_ & I1 & I2 & I3 & _ & I4 & _). unfold params, shape_ok. rewrite I1, I2, I4.
    assert (S : forall L, Forall (fun r : list R => List.length r = k) L -> forallb (fun row : list XR => Nat.eqb (List.length row) k) (map (map Fin) L) = true).
    { intros L H. apply forallb_forall. intros x I. apply in_map_iff in I as (y & <- & I). rewrite map_length. rewrite Forall_forall in H. apply Nat.eqb_eq. auto. }
    rewrite (S [r1; r3; r5]) by (eapply Forall_impl; [|exact Hl]; intros ? Q; apply Q). rewrite (S [r2; r4]) by (eapply Forall_impl; [|exact Hg]; intros ? Q; apply Q). cbn [map List.length Nat.eqb andb negb raise_if bind].
    assert (Nn : forall x, 0 <= x -> nonneg (Fin x) = true). { intros x Hx. unfold nonneg. rewrite nrat_XR by lia. cbn [nleb XRnum xleb]. apply Rleb_spec. lra. }
    assert (NG : forallb (forallb nonneg) [map Fin r2; map Fin r4] = true).
    { apply forallb_forall. intros x I. apply forallb_forall. intros y J. rewrite Forall_forall in Hg. destruct I as [<-|[<-|[]]]; apply in_map_iff in J as (z & <- & J); apply Nn.
      - destruct (Hg r2 (or_introl eq_refl)) as (_ & F). rewrite Forall_forall in F. auto.
      - destruct (Hg r4 (or_intror (or_introl eq_refl))) as (_ & F). rewrite Forall_forall in F. auto. }
    rewrite NG. cbn [negb raise_if bind]. 
    assert (E : init_soc m s = Ok [Fin c]).
    { unfold init_soc. rewrite I3. unfold obs, read in Oc. destruct (sm_state s) as [st|]; [|discriminate]. unfold dgetE at 1. destruct (dget String.eqb st "des_soc") as [q|]; [|discriminate]. cbn [bind].
      unfold dgetE at 1. destruct (dget String.eqb q "pu") as [dd|]; [|discriminate]. cbn [bind mapM]. unfold dgetE. rewrite Oc. reflexivity. }
    rewrite E. cbn [bind forallb]. rewrite Nn by lra. reflexivity.
  Qed.
  Lemma six_least : exists st sts, least_plan m PL PG [Fin c] (st :: sts).
  Proof.
    destruct (a6_bounds s0 (1/4) (Fin 100) Hs0) as (B2 & B4 & B6 & Bs).
    assert (Sl : In (nth 0 (nw_dev anm6x) (row6 0)) (nw_dev anm6x)) by (left; reflexivity).
    assert (He : forall r i, In r (nw_dev anm6x) -> dr_id r = Some i -> dr_type r = Some 3%Z -> EFF r = Fin (9/10) /\ 0 < 9/10 < 1).
    { intros r i I E T. split; [|lra]. cbn in I. decompose [or] I; try contradiction; subst r; try discriminate T. change (nrat 9 10 = Fin (9/10)). apply nrat_XR; lia. }
    assert (Hsoc : forall i, In i (ix_dess a6_I) -> obs (run (run s0 []) l) "des_soc" "pu" (EId i) = Some (Fin c)) by (intros i [<-|[]]; exact Oc).
    assert (Fb : forall n i, (n < k)%nat -> In i [1; 3; 5]%Z -> -3/10 <= forecast [1; 3; 5]%Z [r1; r3; r5] n i <= 0).
    { intros n i Hn Ii. assert (Q : exists r, forecast [1; 3; 5]%Z [r1; r3; r5] n i = nth n r 0 /\ In r [r1; r3; r5]) by (cbn in Ii; decompose [or] Ii; try contradiction; subst i; (eexists; split; [reflexivity|cbn; auto])).
      destruct Q as (r & -> & Ir). rewrite Forall_forall in Hl. destruct (Hl r Ir) as (Lr & Fr). rewrite Forall_forall in Fr. apply Fr. apply nth_In. lia. }
    assert (Gb : forall n i, (n < k)%nat -> In i [2; 4]%Z -> 0 <= forecast [2; 4]%Z [r2; r4] n i).
    { intros n i Hn Ii. assert (Q : exists r, forecast [2; 4]%Z [r2; r4] n i = nth n r 0 /\ In r [r2; r4]) by (cbn in Ii; decompose [or] Ii; try contradiction; subst i; (eexists; split; [reflexivity|cbn; auto])).
      destruct Q as (r & -> & Ir). rewrite Forall_forall in Hg. destruct (Hg r Ir) as (Lr & Fr). rewrite Forall_forall in Fr. apply Fr. apply nth_In. lia. }
    destruct (C83_attained anm6x 100 (1/4) 100 s0 [] l asp gam mg k m [r1; r3; r5] [r2; r4] [Fin c] a6_I (fun _ => 9/10) (fun _ => c) _ 0%Z 0%Z 0%nat Hs0 ltac:(lra) eq_refl ax_br_fin a6_contiguous a6_unshifted a6_index
      (conj Sl (conj eq_refl (conj eq_refl (conj eq_refl (conj eq_refl eq_refl))))) He) as (sts & L); auto.
    - intros i Ii. cbn in Ii. decompose [or] Ii; try contradiction; subst i; eauto.
    - intros i Ii. cbn in Ii. decompose [or] Ii; try contradiction; subst i; eauto.
    - exact six_params.
    - exists (idle_plan [r1; r3; r5] k).
      assert (He' : forall r i, In r (nw_dev anm6x) -> dr_id r = Some i -> dr_type r = Some 3%Z -> EFF r = Fin (9/10) /\ 0 < 9/10). { intros r i I E T. destruct (He r i I E T) as (X & _). split; [exact X|lra]. }
      apply (proj1 (C67_problem_partial anm6x 100 (1/4) 100 s0 [] l asp gam mg k m [r1; r3; r5] [r2; r4] [Fin c] a6_I (fun _ => 9/10) (fun _ => c) _ 0%Z 0%Z 0%nat Hs0 eq_refl ax_br_fin a6_contiguous a6_unshifted a6_index
        (conj Sl (conj eq_refl (conj eq_refl (conj eq_refl eq_refl)))) He' M Hm six_params Hsoc)).
      apply (idle_opf s0 (1/4) (Fin 100) Hs0 (fun _ => 9/10) (fun _ => c) [r1; r3; r5] [r2; r4] k Fb Gb Hc).
    - destruct L as (F & L). pose proof (proj1 F) as Ln. destruct six_ids as (_ & _ & _ & _ & _ & I4 & _). rewrite I4 in Ln. destruct sts as [|st sts]; [cbn in Ln; lia|]. exists st, sts. split; auto.
  Qed.

  Context (solve : opf_solver (F := XR)) (So : opf_optimal solve) (Sc : opf_complete solve) (Ha : asp = build_action_space s0).
  Lemma six_act : exists act, mpc_act solve m s PL PG = Ok act /\ Forall fin act /\ box_contains asp (mkObs true act) = true.
  Proof.
    destruct six_ids as (J1 & _ & _ & _ & I5 & I4 & I6). destruct (Sc _ _ _ _ six_least) as (p & Ep). destruct (So _ _ _ _ _ Ep) as (st & sts & -> & Fe & _).
    unfold mpc_act. rewrite I4, I5, I6. unfold dpos. rewrite J1. destruct (Nat.eqb_spec k 0); [lia|]. change (Nat.leb 6 (pos_of [0; 1; 2; 3; 4; 5; 6]%Z 0)) with false. cbn [raise_if bind]. rewrite six_params. cbn [bind]. rewrite Ep. cbn [bind].
    eexists. split; [reflexivity|].
    destruct (anm6_ids (F := XR)) as (D1 & D2 & D3 & D4). rewrite (action_planned _ _ _ _ _ _ _ _ _ _ _ _ six_agent D1 D3 D4), (ag_asp _ _ _ _ _ _ _ _ six_agent).
    set (raw := planned_action _ _ _ _ _). assert (Fr : Forall fin raw).
    { assert (Lp : List.length (rs_p st) = 7%nat). { destruct Fe as (_ & Sh & _). apply Forall_inv in Sh. destruct Sh as (_ & Q & _). rewrite Q. apply (ag_devs _ _ _ _ _ _ _ _ six_agent _ D1). }
      destruct (rs_p st) as [|x0 [|x1 [|x2 [|x3 [|x4 [|x5 [|x6 [|]]]]]]]]; try discriminate Lp. unfold raw, planned_action, entry. cbn. repeat (apply Forall_cons; [eexists; reflexivity|]). constructor. }
    destruct (action_space_bounds _ _ _ _ _ _ Hs0 D3 D4) as (Bs & EB & Es). 
    assert (Ad : sm_devs s0 = ax_devs /\ sm_base s0 = Fin 100). { destruct (ax_sim (Fin (1/4)) (Fin 100)) as (s' & Es' & Ed & Eb & _). rewrite Es' in Hs0. injection Hs0 as <-. auto. }
    assert (Hb : List.length Bs = 6%nat /\ Forall (fun b => fin (fst b) /\ fin (snd b) /\ nleb (fst b) (snd b) = true) Bs).
    { assert (Eb : mkBox (map fst Bs) (map snd Bs) false = build_action_space s0) by auto. unfold build_action_space, get_action_space in Eb. rewrite (proj1 Ad), (proj2 Ad) in Eb. cbn -[nleb] in Eb. injection Eb as E1 E2. clear -E1 E2.
      do 6 (destruct Bs as [|(?, ?) Bs]; [discriminate E1|]). destruct Bs; [|discriminate E1]. cbn [map fst snd] in E1, E2. injection E1 as -> -> -> -> -> ->. injection E2 as -> -> -> -> -> ->.
      split; [reflexivity|]. repeat (apply Forall_cons; [cbn [fst snd]; split; [eexists; reflexivity|split; [eexists; reflexivity|cbn [nleb XRnum xleb]; apply Rleb_spec; lra]]|]). constructor. }
    destruct Hb as (Lb & Hb). assert (Lr : List.length raw = List.length Bs) by (rewrite Lb; unfold raw; rewrite planned_length; reflexivity).
    rewrite Ha, Es. cbn [bx_lo bx_hi]. split.
    - clearbody raw. clear -Fr Hb Lr. revert raw Lr Fr. induction Hb as [|b Bs (F1 & F2 & _) Hb IH]; intros [|x raw] Lr Fr; try discriminate Lr; [constructor|]. cbn [map]. rewrite clip_vec_cons. inversion Fr as [|? ? Fx Fr']; subst. constructor; [|apply IH; auto].
      destruct F1 as (u & ->), F2 as (v & ->), Fx as (w & ->). unfold np_clip, np_min, np_max. cbn. repeat match goal with |- context [if ?q then _ else _] => destruct q end; eexists; reflexivity.
    - apply clip_in_space; auto; [eapply Forall_impl; [|exact Hb]; intros ? Q; apply Q|]. eapply Forall_impl; [|exact Fr]. intros x (v & ->). destruct (nisnan (Fin v)) eqn:E; [|reflexivity]. apply xisnan_spec in E. discriminate E.
  Qed.
End Six.

(** ---- along an episode of ANM6Easy ---- *)
(** calls within an episode *)
Definition no_reset (c : call6 XR) : Prop := match c with E6Reset _ _ _ => False | _ => True end.
Section Episode.
  Context {G : Type} (ro : rng_ops XR G) (sf : Z -> G) (g : G) (a0 : anm6 XR G) (Rs : rng_sound ro) (B : easy_make g = Ok a0).
  Context (cs : list (call6 XR)) (Or0 : oracles XR) (Go : good_oracles Or0) (seed date : option Z) (a1 : anm6 XR G) (ob : list XR) (H : easy_reset Or0 ro sf seed date (run6 ro sf a0 cs) = (a1, Ok ob)).
  Notation alive1 := (ProofEpisode.alive anm6x 1).
  Notation kept a := (reach6 g (a_env a0) a /\ simrun (e_sim (a_env a0)) a /\ forall sp, e_ospace (a_env a0) = Some sp -> e_ospace (a_env a) = Some sp).
  Definition during (a : anm6 XR G) : Prop := kept a /\ alive1 (a_env a) /\ a_date a <> None /\ a_date_init a <> None /\
    fresh (e_sim (a_env a)) /\ ProofTotal.soc_in (sm_devs (e_sim (a_env a))) /\ (exists kk, (kk < 96)%nat /\ easy_day (e_sim (a_env a)) kk) /\
    (e_term (a_env a) = Some false -> exists n, stepping ro sf SpecAnm6.alive n a1 a) /\ (e_term (a_env a) = Some true -> exists n, e_state (a_env a) = Some (repeat (Fin 0) n)).
  Lemma during_start : during a1.
  Proof.
    pose proof (kept_run ro sf g a0 cs _ (kept_start g a0 B)) as K. pose proof (kept_reset ro sf g a0 Or0 seed date _ K) as K1.
    pose proof (easy_reset_returns ro sf g a0 Rs B Or0 seed date _ K Go) as R0. rewrite H in R0, K1. cbn [fst snd] in R0, K1. destruct R0 as (Al & [(ob' & _ & d & D1 & D2)|(E & _)]); [|discriminate].
    split; [exact K1|]. split; [exact Al|]. split; [congruence|]. split; [congruence|].
    assert (Q : fresh (e_sim (a_env a1)) /\ e_term (a_env a1) = Some false).
    { destruct K as ((Hg & _) & _). unfold easy_reset, anm6_reset in H. destruct (env_reset Or0 _ seed _) as (e', [ob2|x]) eqn:E; [|discriminate].
      destruct (anm6_ids (F := XR)) as (I1 & I2 & I3 & I4). destruct (gd_reset_inv _ _ _ _ _ _ _ _ _ Hg E I1 I3 I4) as (q & init & st & _ & _ & At & D & _ & Si & Es & Ly & _). apply env_reset_const in E.
      assert (Ee : e_sim (a_env a1) = e_sim e' /\ e_term (a_env a1) = e_term e').
      { clear -H Es. destruct date as [d|]; [|destruct (random_date ro 0 (e_rng e')) as (d, gr)]; cbn in H; rewrite Es in H; destruct (xtrunc (last st (Fin 0))); try discriminate H; injection H as <- _; split; reflexivity. }
      destruct Ee as (Ee & Et). rewrite Ee, Et, Si. split; [|tauto]. destruct At as (init' & A1 & _ & A3). rewrite D in A1. cbn [fst] in A1. injection A1 as <-. apply (call_fresh (e_sim (a_env a0)) (CReset Or0 init)). cbn [returned]. rewrite A3. reflexivity. }
    destruct Q as (Fr & Te). split; [exact Fr|]. split. { destruct Al as [Al|(_ & st & _ & _ & _ & Sc)]; [congruence|exact Sc]. }
    split. { destruct (C63_reset_values G ro sf g a0 cs Or0 seed date a1 ob Rs B H) as (t0 & Ht & _ & D). exists (Z.to_nat t0). split; [lia|exact D]. }
    split; [intros _; exists 0%nat; constructor|congruence].
  Qed.
  Lemma during_call a c : during a -> careful6 (a_env a0) c -> no_reset c -> during (run_call6 ro sf a c).
  Proof.
    intros (K & Al & D1 & D2 & Fr & Sc & Dd & Q1 & Q2) C N. split; [apply kept_call; auto|]. destruct c as [Or sd dt|Or act|human skip started up|]; cbn [careful6 no_reset run_call6] in *; [destruct N| | |].
    - destruct C as (Go' & Fa & Va). destruct (easy_step_returns ro sf g a0 Rs B Or act a K Go' Fa Va Al D1 D2) as (X1 & (out & X2) & X3 & X4). split; [exact X1|]. split; [exact X3|]. split; [exact X4|]. clear X3 X4.
      assert (Sc' : e_term (a_env a) = Some false -> ProofTotal.soc_in (sm_devs (e_sim (fst (env_step Or (easy_task ro sf (e_sim (a_env a))) act (a_env a)))))) by (intros Te; apply (e6_soc ro sf g a0 Rs B); tauto).
      destruct (easy_step Or ro sf act a) as (a2, r) eqn:Es. cbn [fst snd] in *. subst r. assert (Es' := Es).
      unfold easy_step, anm6_step in Es. destruct (env_step Or _ act (a_env a)) as (e', [o|x]) eqn:Ev; [|discriminate]. cbn [fst] in Sc'.
      assert (Ea : a_env a2 = e' /\ o = out) by (destruct (a_date a); [destruct (a_date_init a)|]; injection Es as <- E'; try discriminate; split; auto; congruence). destruct Ea as (Ea & ->).
      rewrite Ea. destruct K as ((Hg & _) & _).
      destruct (gd_step_inv _ _ _ _ _ _ Hg Ev) as [(Tt & _ & -> & _)|(st & vars & el & pen & conv & L)].
      { split; [exact Fr|]. split; [exact Sc|]. split; [exact Dd|]. split; [congruence|exact Q2]. }
      pose proof (lv_term _ _ _ _ _ _ _ _ _ _ _ L) as Te. pose proof (lv_term' _ _ _ _ _ _ _ _ _ _ _ L) as T'. destruct (Q1 Te) as (n & St).
      split. { destruct (lv_trans _ _ _ _ _ _ _ _ _ _ _ L) as (fl & rr & Tr). apply transition_ok in Tr as (_ & _ & ds' & v & i & T1). eapply trans_fresh; eauto. }
      split; [exact (Sc' Te)|]. split.
      { destruct (live_step_values G ro sf g a0 cs Or0 seed date a1 ob Rs B H) as (t0 & Ht & _ & Dy). rewrite <- Ea. eexists. split; [|eapply Dy; eauto].
        assert (0 <= (t0 + Z.of_nat n + 1) mod 96 < 96)%Z by (apply Z.mod_pos_bound; lia). lia. }
      rewrite T'. split.
      + intros [= Cv]. destruct conv; [|discriminate Cv]. destruct (lv_conv _ _ _ _ _ _ _ _ _ _ _ L eq_refl) as (_ & _ & st2 & ov & sp & _ & _ & _ & _ & Eo & _).
        assert (Tf : so_terminated out = false) by (rewrite Eo; reflexivity). exists (S n). eapply SStep; eauto.
      + intros [= Cv]. destruct conv; [discriminate Cv|]. destruct (lv_coll _ _ _ _ _ _ _ _ _ _ _ L eq_refl) as (_ & _ & E0 & _). eexists. exact E0.
    - destruct (render_keeps human skip started up a) as (A1 & _ & A2 & A3 & _). rewrite A1, A2, A3. do 6 (split; [auto|]). split; [|exact Q2]. intros Te. destruct (Q1 Te) as (n & St). exists n; apply SRender; auto.
    - do 6 (split; [assumption|]). split; [|exact Q2]. intros Te. destruct (Q1 Te) as (n & St). exists n; apply SClose; auto.
  Qed.
  Lemma during_run cs1 : Forall (careful6 (a_env a0)) cs1 -> Forall no_reset cs1 -> during (run6 ro sf a1 cs1).
  Proof.
    intros Fc Fn. assert (W : forall a, during a -> during (run6 ro sf a cs1)); [|apply W, during_start].
    revert Fc Fn. induction cs1 as [|c cs1 IH]; intros Fc Fn a D; [exact D|]. inversion_clear Fc. inversion_clear Fn. change (run6 ro sf a (c :: cs1)) with (run6 ro sf (run_call6 ro sf a c) cs1). apply IH; auto. apply during_call; auto.
  Qed.

  (** what the agent reads *)
  Lemma during_values a : during a -> let s := e_sim (a_env a) in
    (exists c, 0 <= c <= 1 /\ obs s "des_soc" "pu" (EId 6) = Some (Fin c)) /\
    (forall i, In i [1; 3; 5]%Z -> exists x, -3/10 <= x <= 0 /\ obs s "dev_p" "pu" (EId i) = Some (Fin x)) /\
    (forall i, In i [2; 4]%Z -> exists x, 0 <= x /\ obs s "gen_p_max" "pu" (EId i) = Some (Fin x)).
  Proof.
    intros ((R & (l & El) & _) & _ & _ & _ & Fr & Sc & (kk & Hkk & Dy) & _) s.
    destruct (start_facts clock_XR g a0 B) as (e0 & _ & E0 & Hs & _). rewrite <- E0 in Hs. clear e0 E0.
    assert (St : strip s = strip (e_sim (a_env a0))) by (unfold s; rewrite El; apply strip_run).
    split; [|].
    - fold s in Sc, Fr.
      assert (ND : NoDup (map d_id (sm_devs s))) by (eapply static_nodup; eauto).
      assert (Dv : exists dv t, In dv (sm_devs s) /\ d_id dv = 6%Z /\ d_spec dv = SStor t /\ s_socmin t = Fin 0 /\ s_socmax t = Fin 1).
      { destruct (e6_find g a0 B s 6 _ St eq_refl) as (dv & Fd & Sd). unfold find_dev in Fd. destruct (find (fun d => Z.eqb (d_id d) 6) (sm_devs s)) as [d'|] eqn:Ff; [|discriminate]. injection Fd as ->.
        apply find_some in Ff as (I & Ez). apply Z.eqb_eq in Ez. exists dv. eexists. split; [exact I|]. split; [exact Ez|]. split; [exact Sd|]. split; reflexivity. }
      destruct Dv as (dv & t & I & Ei & Sp & Lo & Hi). destruct (Sc dv t I Sp) as (c & Ec & C1 & C2). rewrite Lo in C1. rewrite Hi in C2. exists c.
      split; [split; [apply xle_Fin in C1; exact C1|apply xle_Fin in C2; exact C2]|].
      unfold obs. rewrite (proj1 Fr). rewrite <- Ei. rewrite read_soc_some; auto; [|unfold is_stor; rewrite Sp; auto]. unfold soc_of. rewrite Ec. reflexivity.
    - assert (Un : forall key i x, In (key, "MW") power_units -> obs s key "MW" (EId i) = Some (Fin x) -> obs s key "pu" (EId i) = Some (Fin (x / 100)%R)).
      { intros key i x I E. unfold s in *. rewrite El in *. rewrite (units_power_state _ _ _ _ _ _ _ _ Hs I) in E. destruct (obs _ key "pu" (EId i)) as [y|]; [|discriminate E]. cbn in E. injection E as E.
        change (nw_base (anm6_network (F := XR))) with (Fin 100) in E. f_equal. destruct y as [y| | |]; cbn in E; try solve [unfold inf_sgn in E; repeat match type of E with context [if ?b then _ else _] => destruct b end; discriminate E].
        injection E as <-. f_equal. field. }
      destruct Dy as (Dl & (x4 & T4 & O4) & (x2 & T2 & O2)). destruct (C46_series_partial kk Hkk) as (Cl & _ & (y2 & lo2 & hi2 & Y2 & L2 & B2 & _) & (y4 & lo4 & hi4 & Y4 & L4 & B4)).
      rewrite T2 in Y2. injection Y2 as <-. rewrite T4 in Y4. injection Y4 as <-.
      assert (Lo : forall i lo hi, (i = 2 \/ i = 4)%Z -> limits i lo hi -> lo = 0). { intros i lo hi Hi (row & Ir & Ei & E1 & _). cbn in Ir. decompose [or] Ir; try contradiction; subst row; cbn in Ei; injection Ei as <-; try lia; cbn in E1; injection E1 as <-; reflexivity. }
      rewrite (Lo _ _ _ (or_introl eq_refl) L2) in B2. rewrite (Lo _ _ _ (or_intror eq_refl) L4) in B4. split.
      + intros i Ii. assert (Z3 : exists s1 s2 s3, In (i, (s1, s2, s3)) [(1, (-1, -5, -2)); (3, (-4, -10, -20)); (5, (0, -25, 0))]%Z /\ (-30 <= s1 <= 0)%Z /\ (-30 <= s2 <= 0)%Z /\ (-30 <= s3 <= 0)%Z).
        { cbn in Ii. decompose [or] Ii; try contradiction; subst i; do 3 eexists; (split; [cbn; auto|lia]). }
        destruct Z3 as (s1 & s2 & s3 & I3 & Z1 & Z2 & Z3). destruct (Dl i s1 s2 s3 I3) as (O & _). eexists. split; [|apply Un; [cbn; tauto|exact O]].
        assert (W : forall z, (-30 <= z <= 0)%Z -> -30 <= IZR z <= 0) by (intros z (V1 & V2); apply IZR_le in V1, V2; lra).
        pose proof (scenario_bounds (IZR s1) (IZR s2) (IZR s3) (-30) 0 kk Hkk (W _ Z1) (W _ Z2) (W _ Z3)). lra.
      + intros i [<-|[<-|[]]]; (eexists; split; [|apply Un; [cbn; tauto|eassumption]]); [|lra]. pose proof (Rmin_glb x2 30 0 B2 ltac:(lra)). lra.
  Qed.
End Episode.

Lemma map_repeat' {A C} (f : A -> C) x n : map f (repeat x n) = repeat (f x) n.
Proof. induction n; cbn; congruence. Qed.
(** the rows of the perfect forecast *)
Lemma fin_rows (P : R -> Prop) : forall row : list XR, (forall j, (j < List.length row)%nat -> exists x, nth_error row j = Some (Fin x) /\ P x) -> exists r, row = map Fin r /\ Forall P r.
Proof.
  induction row as [|y row IH]; intros Q; [exists []; split; [reflexivity|constructor]|]. destruct (Q 0%nat ltac:(cbn; lia)) as (x & E & Px). cbn in E. injection E as ->.
  destruct IH as (r & -> & F). { intros j Hj. apply (Q (S j)). cbn. lia. } exists (x :: r). split; [reflexivity|constructor; auto].
Qed.
Lemma perfect_rows (m : mpc XR) t k : m_base m = Fin 100 -> m_steps m = k ->
  exists r1 r3 r5 r2 r4, map (forecast_row m t) P_loads = map (map Fin) [r1; r3; r5] /\ map (forecast_row m t) P_maxs = map (map Fin) [r2; r4] /\
    Forall (fun r => List.length r = k /\ Forall (fun x => -3/10 <= x <= 0) r) [r1; r3; r5] /\ Forall (fun r => List.length r = k /\ Forall (fun x => 0 <= x) r) [r2; r4].
Proof.
  intros Eb Es. pose proof (series_len (F := XR)) as SL. rewrite Forall_forall in SL.
  assert (W : forall i lo hi (P : R -> Prop), In (table i) (P_loads ++ P_maxs) -> (forall kk, (kk < 96)%nat -> exists x, nth_error (table i) kk = Some (Fin x) /\ lo <= x /\ (x <= 0 \/ hi = false)) -> (forall x, lo <= x -> (x <= 0 \/ hi = false) -> P (x / 100)) ->
    exists r, forecast_row m t (table i) = map Fin r /\ List.length r = k /\ Forall P r).
  { intros i lo hi P I Q QP. pose proof (SL _ I) as L. pose proof (forecast_row_length m t (table i) ltac:(rewrite L; lia)) as Lr. rewrite Es in Lr.
    destruct (fin_rows P (forecast_row m t (table i))) as (r & E & F).
    - intros j Hj. rewrite Lr in Hj. rewrite forecast_row_nth by (rewrite ?L, ?Es; lia). rewrite L, Eb. destruct (Q ((S t + j) mod 96)%nat) as (x & Ex & X1 & X2); [apply Nat.mod_upper_bound; lia|]. rewrite Ex. cbn [option_map ndiv XRnum]. rewrite xdiv_Fin by lra. eauto.
    - exists r. split; [exact E|]. split; [|exact F]. rewrite <- Lr, E, map_length. reflexivity. }
  assert (Wl : forall i, In i [1; 3; 5]%Z -> In (table i) (P_loads ++ P_maxs) -> exists r, forecast_row m t (table i) = map Fin r /\ List.length r = k /\ Forall (fun x => -3/10 <= x <= 0) r).
  { intros i Ii I. apply (W i (-30) true); [exact I| |].
    - intros kk Hk. destruct (C46_series_partial kk Hk) as (Cl & _).
      assert (Z3 : exists s1 s2 s3, In (i, (s1, s2, s3)) [(1, (-1, -5, -2)); (3, (-4, -10, -20)); (5, (0, -25, 0))]%Z /\ (-30 <= s1 <= 0)%Z /\ (-30 <= s2 <= 0)%Z /\ (-30 <= s3 <= 0)%Z).
      { cbn in Ii. decompose [or] Ii; try contradiction; subst i; do 3 eexists; (split; [cbn; auto|lia]). }
      destruct Z3 as (s1 & s2 & s3 & I3 & Z1 & Z2 & Z3). destruct (Cl i s1 s2 s3 I3) as (E & _). eexists. split; [exact E|].
      assert (V : forall z, (-30 <= z <= 0)%Z -> -30 <= IZR z <= 0) by (intros z (V1 & V2); apply IZR_le in V1, V2; lra).
      pose proof (scenario_bounds (IZR s1) (IZR s2) (IZR s3) (-30) 0 kk Hk (V _ Z1) (V _ Z2) (V _ Z3)). lra.
    - intros x X1 [X2|X2]; [lra|discriminate]. }
  assert (Lo : forall i lo hi, (i = 2 \/ i = 4)%Z -> limits i lo hi -> lo = 0). { intros i lo hi Hi (row & Ir & Ei & E1 & _). cbn in Ir. decompose [or] Ir; try contradiction; subst row; cbn in Ei; injection Ei as <-; try lia; cbn in E1; injection E1 as <-; reflexivity. }
  assert (Wg : forall i, In i [2; 4]%Z -> In (table i) (P_loads ++ P_maxs) -> exists r, forecast_row m t (table i) = map Fin r /\ List.length r = k /\ Forall (fun x => 0 <= x) r).
  { intros i Ii I. apply (W i 0 false); [exact I| |intros; lra]. intros kk Hk. destruct (C46_series_partial kk Hk) as (_ & _ & (y2 & lo2 & hi2 & Y2 & L2 & B2 & _) & (y4 & lo4 & hi4 & Y4 & L4 & B4)).
    rewrite (Lo _ _ _ (or_introl eq_refl) L2) in B2. rewrite (Lo _ _ _ (or_intror eq_refl) L4) in B4. destruct Ii as [<-|[<-|[]]]; eexists; (split; [eassumption|]); split; [lra|auto|lra|auto]. }
  assert (EL : P_loads = [table 1; table 3; table 5]) by reflexivity. assert (EG : P_maxs = [table 2; table 4]) by reflexivity.
  assert (IT : forall i, In i [1; 3; 5; 2; 4]%Z -> In (table i) (P_loads ++ P_maxs)). { intros i Ii. rewrite EL, EG. cbn [app]. cbn in Ii. decompose [or] Ii; try contradiction; subst i; cbn [In]; auto 10. }
  destruct (Wl 1%Z) as (r1 & E1 & A1); [cbn; auto|apply IT; cbn; auto|]. destruct (Wl 3%Z) as (r3 & E3 & A3); [cbn; auto|apply IT; cbn; auto|]. destruct (Wl 5%Z) as (r5 & E5 & A5); [cbn; auto|apply IT; cbn; auto|].
  destruct (Wg 2%Z) as (r2 & E2 & A2); [cbn; auto|apply IT; cbn; auto|]. destruct (Wg 4%Z) as (r4 & E4 & A4); [cbn; auto|apply IT; cbn; auto 6|].
  exists r1, r3, r5, r2, r4. rewrite EL, EG. cbn [map]. rewrite E1, E2, E3, E4, E5. repeat split; repeat constructor; try apply A1; try apply A2; try apply A3; try apply A4; try apply A5.
Qed.

(** ---- C83 ---- *)
(** The agent can be built at any time. *)
Theorem C83_agent_built : forall (G : Type) (ro : rng_ops XR G) sf g a0 cs gam mg k, easy_make g = Ok a0 -> let a := run6 ro sf a0 cs in
  exists m, mpc_init (e_sim (a_env a)) (e_aspace (a_env a)) (Fin gam) (Fin mg) k = Ok m.
Proof.
  intros G ro sf g a0 cs gam mg k B a. destruct (start_facts clock_XR g a0 B) as (e0 & _ & E0 & Hs & Sr). rewrite <- E0 in *. destruct (sr_run6 _ ro sf cs _ Sr) as (l & El). fold a in El.
  rewrite (mpc_init_static _ (e_sim (a_env a0))) by (rewrite El; apply strip_run). destruct (e6_devs g a0 B) as (Ed & _).
  destruct (num_Y anm6x _ _ _ Hs 100 eq_refl ax_br_fin ax_numbered) as (Mx & EY & _).
  assert (LY : List.length (sm_Y (e_sim (a_env a0))) = 6%nat) by (rewrite EY; apply tab_length).
  assert (Nb : n_bus (e_sim (a_env a0)) = 6%nat).
  { destruct (sim_init_built _ _ _ _ Hs) as (bs & ds & Bt). unfold n_bus. rewrite <- (map_length b_id), (bt_bus_ids Bt), map_length, (Permutation_length (sort_by_perm b_id bs)). pose proof (bt_buses _ _ _ _ _ _ Bt) as E. apply mapM_length in E. rewrite E; reflexivity. }
  unfold mpc_init. cbv zeta. rewrite Ed, Nb, LY. eexists. reflexivity.
Qed.

Section Never.
  Context {G : Type} (ro : rng_ops XR G) (sf : Z -> G) (g : G) (a0 : anm6 XR G) (Rs : rng_sound ro) (B : easy_make g = Ok a0).
  Context (cs : list (call6 XR)) (Or0 : oracles XR) (Go : good_oracles Or0) (seed date : option Z) (a1 : anm6 XR G) (ob : list XR) (H : easy_reset Or0 ro sf seed date (run6 ro sf a0 cs) = (a1, Ok ob)).
  Context (cs' : list (call6 XR)) (gam mg : R) (Hm : 0 < mg) (k : nat) (Hk : (1 <= k)%nat) (m : mpc XR).
  Context (M : mpc_init (e_sim (a_env (run6 ro sf a0 cs'))) (e_aspace (a_env (run6 ro sf a0 cs'))) (Fin gam) (Fin mg) k = Ok m).
  Context (solve : opf_solver (F := XR)) (So : opf_optimal solve) (Sc : opf_complete solve) (perfect : bool).

  Lemma never_fails a : during ro sf g a0 a1 a ->
    exists act, mpc_action perfect solve m a = Ok act /\ Forall fin act /\ valid_action (a_env a0) act /\ forall Or, good_oracles Or -> exists out, snd (easy_step Or ro sf act a) = Ok out.
  Proof.
    intros D. destruct (during_values ro sf g a0 B a1 a D) as ((c & Hc & Oc) & Ol & Og).
    destruct D as (K & Al & D1 & D2 & Fr & _ & _ & Q1 & Q2).
    destruct (start_facts clock_XR g a0 B) as (e0 & R0 & E0 & Hs & Sr). rewrite <- E0 in *. clear e0 E0. assert (Hs' : sim_init anm6x (Fin (1/4)) (Fin 100) = Ok (e_sim (a_env a0))) by (rewrite quarter; exact Hs).
    set (s0 := e_sim (a_env a0)) in *. destruct K as (Rg & (l & El) & Ksp). 
    assert (M' : mpc_init s0 (build_action_space s0) (Fin gam) (Fin mg) k = Ok m).
    { destruct (sr_run6 _ ro sf cs' _ Sr) as (l' & El'). rewrite (mpc_init_static _ s0) in M by (rewrite El'; apply strip_run). pose proof (run6_reach g _ ro sf cs' a0 R0) as (Hg & _). rewrite (gd_aspace _ Hg) in M. exact M. }
    assert (Act : forall r1 r3 r5 r2 r4, Forall (fun r => List.length r = k /\ Forall (fun x => -3/10 <= x <= 0) r) [r1; r3; r5] -> Forall (fun r => List.length r = k /\ Forall (fun x => 0 <= x) r) [r2; r4] ->
      exists act, mpc_act solve m (e_sim (a_env a)) (map (map Fin) [r1; r3; r5]) (map (map Fin) [r2; r4]) = Ok act /\ Forall fin act /\ valid_action (a_env a0) act /\ forall Or, good_oracles Or -> exists out, snd (easy_step Or ro sf act a) = Ok out).
    { intros r1 r3 r5 r2 r4 HL HG. rewrite El in Oc. destruct (six_act s0 Hs' l (build_action_space s0) gam mg Hm k Hk m M' c Hc Oc r1 r3 r5 r2 r4 HL HG solve So Sc eq_refl) as (act & A1 & A2 & A3).
      exists act. rewrite El. split; [exact A1|]. split; [exact A2|].
      assert (Va : valid_action (a_env a0) act) by (unfold valid_action; rewrite (gd_aspace _ (proj1 R0)); exact A3). split; [exact Va|].
      intros Or Go'. apply (easy_step_returns ro sf g a0 Rs B Or act a (conj Rg (conj (ex_intro _ l El) Ksp)) Go' A2 Va Al D1 D2). }
    pose proof (six_agent s0 Hs' _ gam mg k m M') as Ag. unfold mpc_action. destruct perfect.
    - assert (Pf : exists st t, e_state (a_env a) = Some st /\ forecast_perfect m P_loads P_maxs st = Ok (map (forecast_row m t) P_loads, map (forecast_row m t) P_maxs)).
      { destruct Al as [Te|(Te & _)].
        - destruct (Q2 Te) as (n & Es). exists (repeat (Fin 0) n), 0%nat. split; [exact Es|]. unfold forecast_perfect.
          assert (L0 : forall n', last (repeat (Fin 0) n') n0 = Fin 0). { induction n' as [|n' IH]; [reflexivity|]. cbn [repeat last]. destruct n'; [reflexivity|exact IH]. }
          rewrite L0. assert (T0 : ntrunc (Fin 0) = Some 0%Z). { cbn [ntrunc XRnum xtrunc]. f_equal. apply (rtrunc_IZR 0); lia. } rewrite T0. reflexivity.
        - destruct (Q1 Te) as (n & St). destruct (C49_perfect_forecast XR G _ ro sf g a0 cs Or0 seed date a1 ob n a cs' _ _ _ k m clock_XR Rs B H St M) as (st & PL & PG & Es & Ef & _). exists st.
          unfold forecast_perfect in Ef |- *. destruct (ntrunc (last st n0)) as [t|]; [|discriminate]. exists (Z.to_nat t). split; [exact Es|reflexivity]. }
      destruct Pf as (st & t & Es & Ef). rewrite Es, Ef. cbn [bind fst snd].
      destruct (perfect_rows m t k (ag_base _ _ _ _ _ _ _ _ Ag) (ag_steps _ _ _ _ _ _ _ _ Ag)) as (r1 & r3 & r5 & r2 & r4 & -> & -> & HL & HG). exact (Act r1 r3 r5 r2 r4 HL HG).
    - destruct (anm6_ids (F := XR)) as (I1 & I2 & I3 & I4). 
      destruct (C50_constant_forecast anm6x _ _ s0 [] l _ _ _ k m _ _ Hs' I2 I3 M') as (PL & PG & Ef & FL & FG). { change (run s0 []) with s0. rewrite <- El, (proj1 Fr). discriminate. }
      change (run s0 []) with s0 in Ef, FL, FG. rewrite <- El in Ef, FL, FG. rewrite Ef. cbn [bind fst snd].
      destruct (Ol 1%Z ltac:(cbn; auto)) as (x1 & X1 & O1). destruct (Ol 3%Z ltac:(cbn; auto)) as (x3 & X3 & O3). destruct (Ol 5%Z ltac:(cbn; auto)) as (x5 & X5 & O5).
      destruct (Og 2%Z ltac:(cbn; auto)) as (x2 & X2 & O2). destruct (Og 4%Z ltac:(cbn; auto)) as (x4 & X4 & O4).
      assert (Rp : forall x (P : R -> Prop), P x -> List.length (repeat x k) = k /\ Forall P (repeat x k)) by (intros x P Px; split; [apply repeat_length|apply Forall_forall; intros y I; apply repeat_spec in I; subst; auto]).
      destruct (Act (repeat x1 k) (repeat x3 k) (repeat x5 k) (repeat x2 k) (repeat x4 k)) as (act & A1 & A2).
      { repeat (apply Forall_cons; [apply Rp; auto|]). constructor. } { repeat (apply Forall_cons; [apply (Rp _ (fun x => 0 <= x)); auto|]). constructor. }
      exists act. split; [|exact A2]. rewrite <- A1. f_equal.
      + repeat match goal with F : Forall2 _ (_ :: _) _ |- _ => inversion F; clear F; subst | F : Forall2 _ [] _ |- _ => inversion F; clear F; subst end.
        repeat match goal with E : exists x, _ /\ _ |- _ => destruct E as (? & ? & ?) end. cbn [map]. rewrite !map_repeat'. congruence.
      + repeat match goal with F : Forall2 _ (_ :: _) _ |- _ => inversion F; clear F; subst | F : Forall2 _ [] _ |- _ => inversion F; clear F; subst end.
        repeat match goal with E : exists x, _ /\ _ |- _ => destruct E as (? & ? & ?) end. cbn [map]. rewrite !map_repeat'. congruence.
  Qed.
End Never.

(** An ANM6Easy environment with any past, a reset that returned, then any calls of the same episode (with finite actions of the action space and with solvers that
    behave as documented), whether or not the episode has ended.  An agent built from the environment at any time, with either forecast, any horizon, any positive safety margin
    and any discount factor.  Its optimiser returns a plan that is feasible and costs the least, if there is one.  Then the agent returns an action; the action is
    made of finite numbers, lies in the action space, and the step that takes it returns. *)
Theorem C83_mpc_never_fails : forall (G : Type) (ro : rng_ops XR G) sf g a0 cs Or0 seed date a1 ob cs1 cs' gam mg k m solve perfect,
  rng_sound ro -> easy_make g = Ok a0 -> good_oracles Or0 -> easy_reset Or0 ro sf seed date (run6 ro sf a0 cs) = (a1, Ok ob) ->
  Forall (careful6 (a_env a0)) cs1 -> Forall no_reset cs1 -> let a := run6 ro sf a1 cs1 in
  let b := run6 ro sf a0 cs' in mpc_init (e_sim (a_env b)) (e_aspace (a_env b)) (Fin gam) (Fin mg) k = Ok m -> 0 < mg -> (1 <= k)%nat -> opf_optimal solve -> opf_complete solve ->
  exists act, mpc_action perfect solve m a = Ok act /\ Forall fin act /\ valid_action (a_env a0) act /\
    forall Or, good_oracles Or -> exists out, snd (easy_step Or ro sf act a) = Ok out.
Proof.
  intros G ro sf g a0 cs Or0 seed date a1 ob cs1 cs' gam mg k m solve perfect Rs B Go H Fc Fn a b M Hm Hk So Sc.
  apply (never_fails ro sf g a0 Rs B cs Or0 seed date a1 ob H cs' gam mg Hm k Hk m M solve So Sc perfect). apply (during_run ro sf g a0 Rs B cs Or0 Go seed date a1 ob H); auto.
Qed.

(** An episode driven by an MPC agent, until it ends or the list of solver behaviours (one per step) is exhausted. *)
Fixpoint drive {G} (ro : rng_ops XR G) (sf : Z -> G) (perfect : bool) (solve : opf_solver (F := XR)) (m : mpc XR) (ors : list (oracles XR)) (a : anm6 XR G) : res (anm6 XR G) :=
  match ors with
  | [] => Ok a
  | Or :: ors' => match e_term (a_env a) with
                  | Some false => let* act := mpc_action perfect solve m a in
                                  match easy_step Or ro sf act a with (a', Ok _) => drive ro sf perfect solve m ors' a' | (_, Err x) => Err x end
                  | _ => Ok a
                  end
  end.
(** ... raises nothing, whatever its length. *)
Theorem C83_closed_loop : forall (G : Type) (ro : rng_ops XR G) sf g a0 cs Or0 seed date a1 ob cs' gam mg k m solve perfect ors,
  rng_sound ro -> easy_make g = Ok a0 -> good_oracles Or0 -> easy_reset Or0 ro sf seed date (run6 ro sf a0 cs) = (a1, Ok ob) ->
  let b := run6 ro sf a0 cs' in mpc_init (e_sim (a_env b)) (e_aspace (a_env b)) (Fin gam) (Fin mg) k = Ok m -> 0 < mg -> (1 <= k)%nat -> opf_optimal solve -> opf_complete solve ->
  Forall good_oracles ors -> exists a, drive ro sf perfect solve m ors a1 = Ok a /\ (e_term (a_env a) = Some false \/ e_term (a_env a) = Some true).
Proof.
  intros G ro sf g a0 cs Or0 seed date a1 ob cs' gam mg k m solve perfect ors Rs B Go H b M Hm Hk So Sc Fo.
  assert (W : forall a, during ro sf g a0 a1 a -> exists a', drive ro sf perfect solve m ors a = Ok a' /\ (e_term (a_env a') = Some false \/ e_term (a_env a') = Some true)); [|apply W, (during_start ro sf g a0 Rs B cs Or0 Go seed date a1 ob H)].
  induction Fo as [|Or ors Go' Fo IH]; intros a D; assert (Ta : e_term (a_env a) = Some false \/ e_term (a_env a) = Some true) by (destruct D as (_ & [T|(T & _)] & _); auto); cbn [drive]; [eauto|].
  destruct Ta as [Te|Te]; rewrite Te; [|eauto].
  destruct (never_fails ro sf g a0 Rs B cs Or0 seed date a1 ob H cs' gam mg Hm k Hk m M solve So Sc perfect a D) as (act & E & Fa & Va & Rt). rewrite E. cbn [bind]. destruct (Rt Or Go') as (out & Eo).
  pose proof (during_call ro sf g a0 Rs B cs Or0 seed date a1 ob H a (E6Step Or act) D (conj Go' (conj Fa Va)) I) as D'. cbn [run_call6] in D'. destruct (easy_step Or ro sf act a) as (a', r). cbn [fst snd] in *. subst r. exact (IH a' D').
Qed.

(** The hypotheses are met: solvers, optimisers, generators and agents exist; whatever the history before it, once a reset returned, an agent with a horizon of 16
    steps drives the episode for as long as one likes.  ExEasy.v has a binary64 run in which the reset returns. *)
Example C83_ex : exists (a0 : anm6 XR nat) Or solve m, easy_make 0%nat = Ok a0 /\ good_oracles Or /\ opf_optimal solve /\ opf_complete solve /\
  mpc_init (e_sim (a_env a0)) (e_aspace (a_env a0)) (Fin (995/1000)) (Fin (9/10)) 16 = Ok m /\
  forall sf cs date a1 ob perfect n, easy_reset Or low_rng sf None date (run6 low_rng sf a0 cs) = (a1, Ok ob) ->
    exists a, drive low_rng sf perfect solve m (repeat Or n) a1 = Ok a.
Proof.
  destruct C06_solver_exists as (qp & _ & Qe & Qc). destruct (C74_constructed nat 0%nat) as (a0 & B). destruct C83_solver as (solve & So & Sc).
  destruct (C83_agent_built nat low_rng (fun _ => 0%nat) 0%nat a0 [] (995/1000) (9/10) 16 B) as (m & M). cbn [run6 fold_left] in M.
  assert (Go : good_oracles (mkOr qp gauss_solve)) by (split; [exact Qe|split; [exact Qc|apply C68_linear_solver_exists]]).
  exists a0, (mkOr qp gauss_solve), solve, m. do 5 (split; [assumption|]). intros sf cs date a1 ob perfect n H.
  destruct (C83_closed_loop nat low_rng sf 0%nat a0 cs (mkOr qp gauss_solve) None date a1 ob [] (995/1000) (9/10) 16%nat m solve perfect (repeat (mkOr qp gauss_solve) n) low_sound B Go H M ltac:(lra) ltac:(lia) So Sc) as (a & E & _); [|eauto].
  apply Forall_forall. intros x I. apply repeat_spec in I. subst. exact Go.
Qed.

Print Assumptions C83_attained.
Print Assumptions C83_solver.
Print Assumptions C83_agent_built.
Print Assumptions C83_mpc_never_fails.
Print Assumptions C83_closed_loop.
