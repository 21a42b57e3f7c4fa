(** The plans of the MPC agents: their limits, the action read from them (C65) and its execution by the environment (C66). *)
From Coq Require Import Reals Lra Sorted.
From Verif Require Import Base Num NumXR Devices BusBranch CheckNetwork LoadFlow Simulator EnvArgs Env Mpc LibBase LibNum LibSim LibXR SpecNet ProofNet LibInit SpecSim ProofSim ProofObs SpecDev ProofDev ProofSoc ProofHist ProofVals
  SpecQp LibQp ProofDevs PropUnits SpecPf SpecEnv ProofEnv ProofStep ProofState ProofDraw ProofEnvOk ProofObsEnv PropEnv SpecMpc ProofMpc PropMpc ProofPlan PropPlan.
Local Open Scope string_scope.
Local Open Scope list_scope.
Local Open Scope R_scope.
Set Bullet Behavior "Strict Subproofs".

Lemma params_shapes {F} {N : Num F} (m : mpc F) s PL PG soc : params m s PL PG = Ok soc ->
  List.length PL = List.length (m_loads m) /\ Forall (fun row => List.length row = m_steps m) PL /\
  List.length PG = List.length (m_nsgens m) /\ Forall (fun row => List.length row = m_steps m) PG.
Proof.
  unfold params. intros H. apply bind_ok in H as (u1 & H1 & H). apply bind_ok in H as (u2 & H2 & _).
  assert (S : forall ids M, raise_if (negb (shape_ok m ids M)) ValueError = Ok u1 \/ raise_if (negb (shape_ok m ids M)) ValueError = Ok u2 -> List.length M = List.length ids /\ Forall (fun row => List.length row = m_steps m) M).
  { intros ids M E. destruct (shape_ok m ids M) eqn:Es; [|destruct E; discriminate]. unfold shape_ok in Es. apply andb_true_iff in Es as (A & B). apply Nat.eqb_eq in A. split; auto.
    rewrite forallb_forall in B. apply Forall_forall. intros x I. apply Nat.eqb_eq. auto. }
  destruct (S _ _ (or_introl H1)), (S _ _ (or_intror H2)). auto.
Qed.

Section Limits.
  Context (nw : network XR) (dt lamb : XR) (s0 : sim XR) (H0 : sim_init nw dt lamb = Ok s0).
  Context (s : sim XR) (Hs : strip s = strip s0) (asp : box XR) (gam mg : XR) (k : nat) (m : mpc XR) (M : mpc_init s asp gam mg k = Ok m).
  Context (all loads gens dess : list Z) (Ha : ids_of nw ALL all) (Hl : ids_of nw LOADS loads) (Hg : ids_of nw GENS gens) (Hd : ids_of nw STORS dess).
  Context (PL PG : list (list XR)) (soc : list XR) (sts : list rstage) (Fe : feasible m PL PG soc sts).

  Lemma sub_all ts l i : ids_of nw ts l -> incl ts ALL -> In i l -> In i all.
  Proof. intros (_ & E) J I. apply (proj2 Ha). apply E in I as (r & t & I1 & I2 & I3 & I4). exists r, t. auto. Qed.
  Lemma stage_p st i : shaped m st -> In i all -> ix (sg_p (lift st)) (dpos m i) = Fin (entry 0 all (rs_p st) i).
  Proof.
    intros (_ & L & _) I. pose proof (agent_inv _ _ _ s0 _ asp gam mg k m H0 Hs M) as Ag. destruct (ag_devs _ _ _ _ _ _ _ _ Ag _ Ha) as (Ed & En).
    cbn [lift sg_p]. unfold dpos. rewrite Ed, ix_fin; [f_equal; apply entry_pos; auto|]. rewrite L, En. apply pos_of_in. auto.
  Qed.
  Lemma stage_pd st ids j i : shaped m st -> incl ids all -> nth_error ids j = Some i ->
    nth_error (map (fun d => ix (sg_p (lift st)) (dpos m d)) ids) j = Some (Fin (entry 0 all (rs_p st) i)).
  Proof. intros Sh J E. rewrite nth_error_map, E. cbn [option_map]. rewrite stage_p; auto. apply J. eapply nth_error_In; eauto. Qed.
  Lemma dev_lim p i j : nth_error (map d_id (filter p (sm_devs s0))) j = Some i ->
    exists lo hi, bound s0 "dev_p" "pu" (EId i) = Some (lo, hi) /\ nth_error (map d_pmin (filter p (sm_devs s0))) j = Some lo /\ nth_error (map d_pmax (filter p (sm_devs s0))) j = Some hi.
  Proof.
    rewrite !nth_error_map. destruct (nth_error (filter p (sm_devs s0)) j) as [d|] eqn:E; [|discriminate]. intros Q. injection Q as <-. cbn [option_map].
    apply nth_error_In, filter_In in E as (I & _). rewrite (bound_dev_p s0 d (init_nodup _ _ _ _ H0) I). eauto.
  Qed.

  Lemma plan_limits s' : params m s' PL PG = Ok soc -> forall n st, nth_error sts n = Some st ->
    let inject i := entry 0 all (rs_p st) i in
    (forall j i, nth_error loads j = Some i -> exists row, nth_error PL j = Some row /\ nth_error row n = Some (Fin (inject i))) /\
    (forall j i, nth_error gens j = Some i -> exists row f lo hi, nth_error PG j = Some row /\ nth_error row n = Some f /\
       bound s0 "dev_p" "pu" (EId i) = Some (lo, hi) /\ within (Fin (inject i)) lo hi /\ xle (Fin (inject i)) f) /\
    (forall i, In i dess -> exists lo hi, bound s0 "dev_p" "pu" (EId i) = Some (lo, hi) /\ within (Fin (inject i)) lo hi).
  Proof.
    intros P n st E inject. destruct Fe as (Ls & Sh & Fc). pose proof (proj1 (plan_stage m PL PG sts 0 soc) Fc n st E) as St. cbn [Nat.add] in St.
    rewrite Forall_forall in Sh. specialize (Sh st (nth_error_In _ _ E)). pose proof (params_shapes _ _ _ _ _ P) as (L1 & L2 & L3 & L4).
    pose proof (agent_inv _ _ _ s0 _ asp gam mg k m H0 Hs M) as Ag. rewrite (ag_loads _ _ _ _ _ _ _ _ Ag _ Hl) in L1. rewrite (ag_gens _ _ _ _ _ _ _ _ Ag _ Hg) in L3.
    assert (Hn : (n < m_steps m)%nat) by (rewrite <- Ls; apply nth_error_Some; congruence).
    assert (Row : forall T : list (list XR), Forall (fun row => List.length row = m_steps m) T -> forall j, (j < List.length T)%nat ->
      exists row f, nth_error T j = Some row /\ nth_error row n = Some f /\ nth_error (column T n) j = Some f).
    { intros T HT j Hj. destruct (nth_error T j) as [row|] eqn:Er; [|apply nth_error_None in Er; lia]. rewrite Forall_forall in HT. pose proof (HT _ (nth_error_In _ _ Er)) as Lr.
      destruct (nth_error row n) as [f|] eqn:Ef; [|apply nth_error_None in Ef; lia]. exists row, f. split; auto. split; auto. unfold column. rewrite nth_error_map, Er. cbn. unfold ix. f_equal. apply nth_error_nth. auto. }
    destruct (agent_fields nw dt lamb s0 H0 s Hs asp gam mg k m M) as (F1 & _ & _ & _ & _ & _ & _ & _ & _ & _ & F11 & F12 & F13 & F14 & F15 & F16 & _).
    pose proof (ag_loads _ _ _ _ _ _ _ _ Ag _ Hl) as El. pose proof (ag_gens _ _ _ _ _ _ _ _ Ag _ Hg) as Eg. pose proof (ag_dess _ _ _ _ _ _ _ _ Ag _ Hd) as Ed.
    assert (Sl : incl loads all) by (intros i; apply (sub_all LOADS); auto; intros x; cbn; tauto).
    assert (Sg : incl gens all) by (intros i; apply (sub_all GENS); auto; intros x; cbn; tauto).
    assert (Sd : incl dess all) by (intros i; apply (sub_all STORS); auto; intros x; cbn; tauto).
    split; [|split].
    - intros j i Ej. assert (Hj : (j < List.length PL)%nat) by (rewrite L1; apply nth_error_Some; congruence). destruct (Row PL L2 j Hj) as (row & f & A & B & C). exists row. split; auto. rewrite B.
      pose proof (so_loads _ _ _ _ _ St) as Q. rewrite El in Q. pose proof (eqs_nth _ _ j _ _ Q (stage_pd st loads j i Sh Sl Ej) C) as X. destruct f; try discriminate X. apply xeqb_Fin in X. unfold inject. rewrite X. reflexivity.
    - intros j i Ej. assert (Hj : (j < List.length PG)%nat) by (rewrite L3; apply nth_error_Some; congruence). destruct (Row PG L4 j Hj) as (row & f & A & B & C).
      assert (Ei : nth_error (map d_id (filter is_nsgen (sm_devs s0))) j = Some i) by (rewrite <- F11, Eg; auto). destruct (dev_lim _ _ _ Ei) as (lo & hi & Bd & Q1 & Q2).
      exists row, f, lo, hi. split; auto. split; auto. split; auto. pose proof (stage_pd st gens j i Sh Sg Ej) as X.
      pose proof (so_gmin _ _ _ _ _ St) as K1. pose proof (so_gmax _ _ _ _ _ St) as K2. pose proof (so_pot _ _ _ _ _ St) as K3. rewrite F13, Eg in K1. rewrite F14, Eg in K2. rewrite Eg in K3.
      split; [split; [exact (les_nth _ _ j _ _ K1 Q1 X)|exact (les_nth _ _ j _ _ K2 X Q2)]|exact (les_nth _ _ j _ _ K3 X C)].
    - intros i Ii. apply In_nth_error in Ii as (j & Ej).
      assert (Ei : nth_error (map d_id (filter is_stor (sm_devs s0))) j = Some i) by (rewrite <- F1, Ed; auto). destruct (dev_lim _ _ _ Ei) as (lo & hi & Bd & Q1 & Q2).
      exists lo, hi. split; auto. pose proof (stage_pd st dess j i Sh Sd Ej) as X. pose proof (so_dmin _ _ _ _ _ St) as K1. pose proof (so_dmax _ _ _ _ _ St) as K2. rewrite F15, Ed in K1. rewrite F16, Ed in K2.
      split; [exact (les_nth _ _ j _ _ K1 Q1 X)|exact (les_nth _ _ j _ _ K2 X Q2)].
  Qed.
End Limits.

(** C65, plans.  The agent is built on a simulator with any past and called after any further calls.  In every plan that satisfies the
    constraints, at every stage [n], every load injects its forecast, every non-slack generator injects at least its PMIN, at most its PMAX
    and at most its forecast potential, and every storage unit injects a value between its PMIN and PMAX (all in p.u.). *)
Theorem C65_plan_limits : forall (nw : network XR) dt lamb s0 cs1 cs2 asp gam mg k m PL PG soc sts all loads gens dess,
  sim_init nw dt lamb = Ok s0 -> ids_of nw ALL all -> ids_of nw LOADS loads -> ids_of nw GENS gens -> ids_of nw STORS dess ->
  mpc_init (run s0 cs1) asp gam mg k = Ok m -> params m (run (run s0 cs1) cs2) PL PG = Ok soc -> feasible m PL PG soc sts ->
  forall n st, nth_error sts n = Some st -> let inject i := entry 0 all (rs_p st) i in
    (forall j i, nth_error loads j = Some i -> exists row, nth_error PL j = Some row /\ nth_error row n = Some (Fin (inject i))) /\
    (forall j i, nth_error gens j = Some i -> exists row f lo hi, nth_error PG j = Some row /\ nth_error row n = Some f /\
       bound s0 "dev_p" "pu" (EId i) = Some (lo, hi) /\ within (Fin (inject i)) lo hi /\ xle (Fin (inject i)) f) /\
    (forall i, In i dess -> exists lo hi, bound s0 "dev_p" "pu" (EId i) = Some (lo, hi) /\ within (Fin (inject i)) lo hi).
Proof.
  intros nw dt lamb s0 cs1 cs2 asp gam mg k m PL PG soc sts all loads gens dess H0 Ha Hl Hg Hd M P Fe.
  exact (plan_limits nw dt lamb s0 H0 _ (strip_run s0 cs1) asp gam mg k m M all loads gens dess Ha Hl Hg Hd PL PG soc sts Fe _ P).
Qed.

Lemma clip_vec_nth (x lo hi : list XR) j v l h : nth_error x j = Some v -> nth_error lo j = Some l -> nth_error hi j = Some h -> nth_error (clip_vec x lo hi) j = Some (np_clip v l h).
Proof. revert x lo hi. induction j as [|j IH]; intros [|a x] [|b lo] [|c hi] A B C; cbn in *; try discriminate; [congruence|]. apply IH; auto. Qed.
Lemma xle_scale b x y : 0 < b -> xle x y -> xle (xmul x (Fin b)) (xmul y (Fin b)).
Proof.
  intros Hb H. assert (P : inf_sgn b = PInf) by (unfold inf_sgn; repeat destruct (Rlt_dec _ _); auto; try lra; destruct (Req_EM_T b 0); auto; lra).
  assert (Q : inf_sgn (- b) = NInf) by (unfold inf_sgn; repeat destruct (Rlt_dec _ _); auto; try lra; destruct (Req_EM_T (- b) 0); auto; lra).
  unfold xle in *. destruct x as [x| | |], y as [y| | |]; cbn [xmul]; rewrite ?P, ?Q; auto.
  cbn in *. apply Rleb_spec in H. apply Rleb_spec. nra.
Qed.

(** C65, actions.  The agent is built from the environment at any time and called at any later time, whatever the forecasts; [solve] returns
    feasible plans.  The P entries of the returned action are the planned injections of the first stage in MW: the clipping to the action
    space never changes them.  The Q entries are 0 for the devices whose Q range contains 0. *)
Theorem C65_action_is_plan : forall (G : Type) (nw : network XR) o K dt gamma lamb auxb clip (g : G) e0 (T : task XR G) cs1 cs2 gam mg k m all gens dess solve PL PG a b,
  env_init nw o K dt gamma lamb auxb clip g = Ok e0 -> nw_base nw = Fin b -> ids_of nw ALL all -> ids_of nw GENS gens -> ids_of nw STORS dess ->
  let e1 := erun T e0 cs1 in let e := erun T e1 cs2 in
  mpc_init (e_sim e1) (e_aspace e1) gam mg k = Ok m -> opf_sound solve -> mpc_act solve m (e_sim e) PL PG = Ok a ->
  exists soc st sts, params m (e_sim e) PL PG = Ok soc /\ solve m PL PG soc = Ok (map Fin (rs_p st)) /\ feasible m PL PG soc (st :: sts) /\
    let ng := List.length gens in let nd := List.length dess in let MW i := entry 0 all (rs_p st) i * b in
    let q_zero i := forall lo hi, bound (e_sim e0) "dev_q" "pu" (EId i) = Some (lo, hi) -> within (Fin 0) lo hi in
    List.length a = (2 * (ng + nd))%nat /\
    (forall j i, nth_error gens j = Some i -> nth_error a j = Some (Fin (MW i)) /\ (q_zero i -> nth_error a (ng + j) = Some (Fin 0))) /\
    (forall j i, nth_error dess j = Some i -> nth_error a (2 * ng + j) = Some (Fin (MW i)) /\ (q_zero i -> nth_error a (2 * ng + nd + j) = Some (Fin 0))).
Proof.
  intros G nw o K dt gamma lamb auxb clip g e0 T cs1 cs2 gam mg k m all gens dess solve PL PG a b B Eb Ha Hg Hd e1 e M So A.
  pose proof (good_erun _ _ _ _ _ _ _ _ _ _ T cs1 B) as G1. fold e1 in G1.
  pose proof (gd_sim0 _ G1) as H0. pose proof (base_pos nw dt lamb (e_sim e0) H0 b Eb) as Hb.
  pose proof (agent_inv nw dt lamb (e_sim e0) _ _ _ _ _ _ H0 (gd_strip _ G1) M) as Ag.
  destruct (action_space_bounds nw dt lamb (e_sim e0) gens dess H0 Hg Hd) as (Bs & EB & Es).
  unfold mpc_act in A. apply bind_ok in A as (u1 & _ & A). apply bind_ok in A as (u2 & _ & A). apply bind_ok in A as (soc & Ps & A). apply bind_ok in A as (p & Ep & A). injection A as A.
  destruct (So _ _ _ _ _ Ep) as (st & sts & -> & Fe). exists soc, st, sts. split; [exact Ps|]. split; [exact Ep|]. split; [exact Fe|].
  rewrite (action_planned _ _ _ _ _ _ _ _ _ _ _ _ Ag Ha Hg Hd), (ag_asp _ _ _ _ _ _ _ _ Ag), (gd_aspace _ G1), Es, Eb in A. cbn [bx_lo bx_hi] in A.
  set (raw := planned_action _ _ _ _ _) in *. intros ng nd MW q_zero.
  assert (L : List.length raw = (2 * (ng + nd))%nat) by apply planned_length.
  assert (Lb : List.length Bs = (2 * (ng + nd))%nat).
  { apply (f_equal (@List.length _)) in EB. rewrite map_length in EB. rewrite EB. unfold bounds_of. rewrite !app_length, !map_length. unfold ng, nd. lia. }
  assert (La : List.length a = (2 * (ng + nd))%nat). { rewrite <- A, clip_vec_length; rewrite !map_length; congruence. }
  split; [exact La|].
  destruct (plan_limits nw dt lamb (e_sim e0) H0 _ (gd_strip _ G1) _ gam mg k m M all _ gens dess Ha (ids_of_ex _ _ _ _ LOADS H0) Hg Hd PL PG soc _ Fe _ Ps 0%nat st eq_refl) as (_ & Lg & Ld).
  assert (Sub : forall i, In i gens \/ In i dess -> In i all).
  { intros i [I|I]; [apply (sub_all nw all Ha GENS gens)|apply (sub_all nw all Ha STORS dess)]; auto; intros x; cbn; tauto. }
  assert (Ent : forall i, In i gens \/ In i dess -> entry n0 all (map Fin (rs_p st)) i = Fin (entry 0 all (rs_p st) i)).
  { intros i I. apply Sub in I. destruct Fe as (_ & Sh & _). inversion_clear Sh as [|? ? Sh1 _]. destruct (ag_devs _ _ _ _ _ _ _ _ Ag _ Ha) as (Ed & _).
    rewrite <- (stage_p nw dt lamb (e_sim e0) H0 _ (gd_strip _ G1) _ gam mg k m M all Ha st i Sh1 I). unfold dpos. rewrite Ed. cbn [lift sg_p]. unfold ix. symmetry. apply entry_pos. auto. }
  (* one position *)
  assert (Pos : forall j v key u i lo hi, In (key, u) power_units -> key <> "gen_p_max" -> nth_error raw j = Some (xmul (Fin v) (Fin b)) -> nth_error (map Some Bs) j = Some (bound (e_sim e0) key u (EId i)) ->
    bound (e_sim e0) key "pu" (EId i) = Some (lo, hi) -> within (Fin v) lo hi -> nth_error a j = Some (Fin (v * b))).
  { intros j v key u i lo hi I Ne Er EBj Bd (W1 & W2). rewrite (C31_bound_power_units nw dt lamb (e_sim e0) b key u (EId i) H0 Eb I Ne), Bd in EBj. cbn [option_map fst snd] in EBj.
    rewrite nth_error_map in EBj. destruct (nth_error Bs j) as [bd|] eqn:Ej; [|discriminate]. injection EBj as ->. rewrite <- A.
    rewrite (clip_vec_nth raw (map fst Bs) (map snd Bs) j _ (xmul lo (Fin b)) (xmul hi (Fin b)) Er).
    - rewrite np_clip_id; [reflexivity| |]; [exact (xle_scale b _ _ Hb W1)|exact (xle_scale b _ _ Hb W2)].
    - rewrite nth_error_map, Ej. reflexivity.
    - rewrite nth_error_map, Ej. reflexivity. }
  assert (N1 : forall (X Y : Type) (f : X -> Y) (l : list X) (r : list Y) j x, nth_error l j = Some x -> nth_error (map f l ++ r) j = Some (f x)).
  { intros X Y f l r j x E. rewrite nth_error_app1; [rewrite nth_error_map, E; reflexivity|]. rewrite map_length. apply nth_error_Some. congruence. }
  assert (N2 : forall (X : Type) (l r : list X) n j, List.length l = n -> nth_error (l ++ r) (n + j) = nth_error r j).
  { intros X l r n j E. rewrite nth_error_app2 by lia. f_equal. lia. }
  assert (Zq : forall j i, q_zero i -> nth_error raw j = Some (Fin 0) -> nth_error (map Some Bs) j = Some (bound (e_sim e0) "dev_q" "MVAr" (EId i)) -> nth_error a j = Some (Fin 0)).
  { intros j i Q Er EBj. destruct (bound (e_sim e0) "dev_q" "pu" (EId i)) as [(lo, hi)|] eqn:Bd.
    - specialize (Q lo hi Bd). replace (Fin 0) with (Fin (0 * b)) by (f_equal; ring). eapply (Pos j 0 "dev_q" "MVAr" i); eauto; [cbn; tauto|discriminate|]. rewrite Er. cbn. do 2 f_equal. ring.
    - rewrite (C31_bound_power_units nw dt lamb (e_sim e0) b "dev_q" "MVAr" (EId i) H0 Eb) in EBj by (cbn; first [tauto|discriminate]). rewrite Bd in EBj. cbn in EBj. rewrite nth_error_map in EBj. destruct (nth_error Bs j); discriminate EBj. }
  assert (Dbl : (2 * ng = ng + ng)%nat) by lia.
  split.
  - intros j i Ej. pose proof (or_introl (In i dess) (nth_error_In _ _ Ej)) as Ii. destruct (Lg j i Ej) as (row & f & lo & hi & _ & _ & Bd & W & _). split.
    + apply (Pos j _ "dev_p" "MW" i lo hi); auto; [cbn; tauto|discriminate| |].
      * unfold raw, planned_action. rewrite (N1 _ _ _ _ _ _ _ Ej), (Ent i Ii). reflexivity.
      * rewrite EB. unfold bounds_of. rewrite (N1 _ _ _ _ _ _ _ Ej). reflexivity.
    + intros Q. apply (Zq _ i Q).
      * unfold raw, planned_action. rewrite N2 by apply map_length. rewrite (N1 _ _ _ _ _ _ _ Ej). reflexivity.
      * rewrite EB. unfold bounds_of. rewrite N2 by apply map_length. rewrite (N1 _ _ _ _ _ _ _ Ej). reflexivity.
  - intros j i Ej. pose proof (or_intror (In i gens) (nth_error_In _ _ Ej)) as Ii. destruct (Ld i (nth_error_In _ _ Ej)) as (lo & hi & Bd & W). split.
    + rewrite Dbl, <- Nat.add_assoc. apply (Pos _ _ "dev_p" "MW" i lo hi); auto; [cbn; tauto|discriminate| |].
      * unfold raw, planned_action. rewrite !N2 by apply map_length. rewrite (N1 _ _ _ _ _ _ _ Ej), (Ent i Ii). reflexivity.
      * rewrite EB. unfold bounds_of. rewrite !N2 by apply map_length. rewrite (N1 _ _ _ _ _ _ _ Ej). reflexivity.
    + intros Q. rewrite Dbl, <- !Nat.add_assoc. apply (Zq _ i Q).
      * unfold raw, planned_action. rewrite !N2 by apply map_length. rewrite nth_error_map, Ej. reflexivity.
      * rewrite EB. unfold bounds_of. rewrite !N2 by apply map_length. rewrite nth_error_map, Ej. reflexivity.
Qed.


(** ---- C66: executing the first stage ---- *)
Lemma live_fresh {G} (nw : network XR) o K dt gamma lamb auxb clip (g : G) e0 (T : task XR G) e c : good nw o K dt gamma lamb auxb clip g e0 e -> live_call T e c ->
  fresh (e_sim (run_ecall T e c)).
Proof.
  intros Hg L. destruct c as [Or seed|Or a]; cbn [live_call run_ecall] in *.
  - destruct (env_reset Or T seed e) as (e', [ob|x]) eqn:E; [|discriminate]. pose proof (gd_sim0 _ Hg) as H0.
    destruct (gd_reset_inv Or T seed e e' ob _ _ _ Hg E (ids_of_ex _ _ _ _ ALL H0) (ids_of_ex _ _ _ _ GENS H0) (ids_of_ex _ _ _ _ STORS H0)) as (n & init & st & _ & _ & (init' & A1 & _ & A2) & A3 & _ & A4 & _).
    rewrite A3 in A1. injection A1 as <-. cbn [fst]. rewrite A4. apply (call_fresh (e_sim e0) (CReset Or init)). cbn. rewrite A2. reflexivity.
  - destruct L as (out & Eo & Nt). destruct (env_step Or T a e) as (e', r) eqn:E. cbn [snd fst] in *. subst r.
    destruct (gd_step_inv _ _ _ _ _ _ Hg E) as [(_ & _ & _ & sp & _ & ->)|(st & vars & el & pen & conv & Lv)]; [discriminate|].
    destruct (lv_trans _ _ _ _ _ _ _ _ _ _ _ Lv) as (fl & rr & Tr). pose proof (call_fresh (e_sim e) (CTrans Or (step_inputs e vars a))) as Q. cbn in Q. rewrite Tr in Q. apply Q. reflexivity.
Qed.
Lemma cut_below X1 Y1 X2 Y2 p : xle (Fin p) X2 -> xle (Fin 0) Y2 -> xle Y2 Y1 -> cut below X1 Y1 X2 Y2 p 0.
Proof.
  intros P Q1 Q2 x1 y1 x2 y2 -> -> -> -> L. apply xle_Fin in P, Q1, Q2. unfold below.
  enough (0 <= y2 * (p - x1) + y1 * (x2 - p)) by nra. destruct (Rle_dec x1 p); [assert (0 <= y2 * (p - x1)) by (apply Rmult_le_pos; lra); assert (0 <= y1 * (x2 - p)) by (apply Rmult_le_pos; lra); lra|].
  assert (y2 * (x1 - p) <= y1 * (x2 - p)) by (apply Rmult_le_compat; lra). lra.
Qed.
Lemma cut_above X1 Y1 X2 Y2 p : xle (Fin p) X2 -> xle Y2 (Fin 0) -> xle Y1 Y2 -> cut above X1 Y1 X2 Y2 p 0.
Proof.
  intros P Q1 Q2 x1 y1 x2 y2 -> -> -> -> L. apply xle_Fin in P, Q1, Q2. unfold above. pose proof (cut_below (Fin x1) (Fin (- y1)) (Fin x2) (Fin (- y2)) p) as C.
  specialize (C (proj2 (xle_Fin _ _) P) ltac:(apply xle_Fin; lra) ltac:(apply xle_Fin; lra) x1 (- y1) x2 (- y2) eq_refl eq_refl eq_refl eq_refl L). unfold below in C. nra.
Qed.
(** ... and the edges on the charging side *)
Lemma cut_below_l X1 Y1 X2 Y2 p : xle X1 (Fin p) -> xle (Fin 0) Y1 -> xle Y1 Y2 -> cut below X1 Y1 X2 Y2 p 0.
Proof.
  intros P Q1 Q2 x1 y1 x2 y2 -> -> -> -> L. apply xle_Fin in P, Q1, Q2. unfold below. pose proof (cut_below (Fin (- x2)) (Fin y2) (Fin (- x1)) (Fin y1) (- p)) as C.
  specialize (C ltac:(apply xle_Fin; lra) ltac:(apply xle_Fin; lra) ltac:(apply xle_Fin; lra) (- x2) y2 (- x1) y1 eq_refl eq_refl eq_refl eq_refl ltac:(lra)). unfold below in C. nra.
Qed.
Lemma cut_above_l X1 Y1 X2 Y2 p : xle X1 (Fin p) -> xle Y1 (Fin 0) -> xle Y2 Y1 -> cut above X1 Y1 X2 Y2 p 0.
Proof.
  intros P Q1 Q2 x1 y1 x2 y2 -> -> -> -> L. apply xle_Fin in P, Q1, Q2. unfold above. pose proof (cut_below_l (Fin x1) (Fin (- y1)) (Fin x2) (Fin (- y2)) p) as C.
  specialize (C ltac:(apply xle_Fin; lra) ltac:(apply xle_Fin; lra) ltac:(apply xle_Fin; lra) x1 (- y1) x2 (- y2) eq_refl eq_refl eq_refl eq_refl L). unfold below in C. nra.
Qed.
Lemma plan_net nw dt lamb s0 s asp gam mg k m PL PG soc sts all dess i n st : sim_init nw dt lamb = Ok s0 -> strip s = strip s0 -> mpc_init s asp gam mg k = Ok m ->
  ids_of nw ALL all -> ids_of nw STORS dess -> feasible m PL PG soc sts -> In i dess -> nth_error sts n = Some st ->
  0 <= entry 0 dess (rs_pc st) i /\ 0 <= entry 0 dess (rs_pd st) i /\ entry 0 all (rs_p st) i = entry 0 dess (rs_pd st) i - entry 0 dess (rs_pc st) i.
Proof.
  intros H0 Hs M Ha Hd (_ & Sh & Fe) Ii E. pose proof (agent_inv _ _ _ s0 _ asp gam mg k m H0 Hs M) as Ag. pose proof (ag_dess _ _ _ _ _ _ _ _ Ag _ Hd) as Ed.
  pose proof (proj1 (plan_stage m PL PG sts 0 soc) Fe n st E) as St. rewrite Forall_forall in Sh. specialize (Sh st (nth_error_In _ _ E)).
  assert (Ia : In i all) by (apply (sub_all nw all Ha STORS dess); auto; intros x; cbn; tauto).
  destruct (pos_of_in dess i Ii) as (Hj & Ej). set (j := pos_of dess i) in *.
  assert (Hj' : (j < List.length (m_dess m))%nat) by (rewrite Ed; auto).
  pose proof (so_pc _ _ _ _ _ St j Hj') as A1. pose proof (so_pd _ _ _ _ _ St j Hj') as A2. assert (Ej' : nth_error (m_dess m) j = Some i) by (rewrite Ed; auto). pose proof (so_net _ _ _ _ _ St j i Ej') as A3.
  rewrite (stage_p nw dt lamb s0 H0 s Hs asp gam mg k m M all Ha st i Sh Ia) in A3. destruct Sh as (_ & _ & L1 & L2). cbn [lift sg_pc sg_pd] in *.
  rewrite ix_fin in A1, A2 by lia. rewrite !ix_fin in A3 by lia. cbn [xsub] in A3. apply xle_Fin in A1. apply xle_Fin in A2. apply xeqb_Fin in A3. rewrite <- (entry_pos 0 dess (rs_pc st) i Ii), <- (entry_pos 0 dess (rs_pd st) i Ii). fold j. auto.
Qed.
Lemma pu_fin b x y : 0 < b -> x = Fin y -> xdiv x (Fin b) = Fin (y / b).
Proof. intros Hb ->. apply xdiv_Fin. lra. Qed.

(** C66.  The agent is built from the environment at any time; at a later time, right after a call that returned and left the episode alive,
    it is asked for an action, whatever the forecasts, and the action is given to the environment.  If the step returns, then it executes the
    first stage of a feasible plan: every generator whose actual potential allows the planned injection injects exactly it, without reactive
    power, and every storage unit that the plan does not charge and discharge at once injects exactly the planned power, without reactive
    power, and ends with exactly the planned state of charge (p.u.). *)
Theorem C66_plan_executed : forall (G : Type) (nw : network XR) o K d gamma lamb auxb clip (g : G) e0 (T : task XR G) cs1 cs2 c gam mg k m all gens dess solve PL PG a b Or e' out,
  env_init nw o K (Fin d) gamma lamb auxb clip g = Ok e0 -> nw_base nw = Fin b -> 0 < d -> ids_of nw ALL all -> ids_of nw GENS gens -> ids_of nw STORS dess ->
  let e1 := erun T e0 cs1 in let e2 := erun T e1 cs2 in let e := run_ecall T e2 c in live_call T e2 c ->
  mpc_init (e_sim e1) (e_aspace e1) gam mg k = Ok m -> opf_sound solve -> mpc_act solve m (e_sim e) PL PG = Ok a ->
  env_step Or T a e = (e', Ok out) -> qp_exact (o_qp Or) ->
  exists soc st sts, params m (e_sim e) PL PG = Ok soc /\ solve m PL PG soc = Ok (map Fin (rs_p st)) /\ feasible m PL PG soc (st :: sts) /\
    let planned i := entry 0 all (rs_p st) i in
    (forall r i, In r (nw_dev nw) -> dr_id r = Some i -> dr_type r = Some 1%Z \/ dr_type r = Some 2%Z -> dev_row_fin r -> gen_limits_given r -> zero_q_allowed r ->
       (forall pot, obs (e_sim e') "gen_p_max" "pu" (EId i) = Some pot -> xle (Fin (planned i)) pot) ->
       obs (e_sim e') "dev_p" "pu" (EId i) = Some (Fin (planned i)) /\ obs (e_sim e') "dev_q" "pu" (EId i) = Some (Fin 0)) /\
    (forall r i eff c0, In r (nw_dev nw) -> dr_id r = Some i -> dr_type r = Some 3%Z -> dev_row_fin r -> stor_limits_given r -> zero_q_allowed r -> EFF r = Fin eff -> 0 < eff ->
       obs (e_sim e) "des_soc" "pu" (EId i) = Some (Fin c0) -> (forall lo hi, bound (e_sim e0) "des_soc" "pu" (EId i) = Some (lo, hi) -> within (Fin c0) lo hi) ->
       let charge := entry 0 dess (rs_pc st) i in let discharge := entry 0 dess (rs_pd st) i in charge = 0 \/ discharge = 0 ->
       obs (e_sim e') "dev_p" "pu" (EId i) = Some (Fin (planned i)) /\ obs (e_sim e') "dev_q" "pu" (EId i) = Some (Fin 0) /\
       obs (e_sim e') "des_soc" "pu" (EId i) = Some (Fin (planned_soc eff d c0 [(charge, discharge)]))).
Proof.
  intros G nw o K d gamma lamb auxb clip g e0 T cs1 cs2 c gam mg k m all gens dess solve PL PG a b Or e' out B Eb Hdt Ha Hg Hd e1 e2 e Lc M So A Es Qp.
  assert (Ee2 : e2 = erun T e0 (cs1 ++ cs2)) by (unfold e2, e1, erun; rewrite fold_left_app; reflexivity).
  pose proof (good_erun _ _ _ _ _ _ _ _ _ _ T cs1 B) as G1. fold e1 in G1.
  pose proof (good_erun _ _ _ _ _ _ _ _ _ _ T (cs1 ++ cs2) B) as G2. rewrite <- Ee2 in G2.
  assert (Ee : e = erun T e1 (cs2 ++ [c])) by (unfold e, e2, erun; rewrite fold_left_app; reflexivity).
  assert (Ee0 : e = erun T e0 (cs1 ++ cs2 ++ [c])) by (rewrite Ee; unfold e1, erun; rewrite <- fold_left_app; reflexivity).
  pose proof (good_erun _ _ _ _ _ _ _ _ _ _ T (cs1 ++ cs2 ++ [c]) B) as G3. rewrite <- Ee0 in G3.
  pose proof (gd_sim0 _ G1) as H0. pose proof (base_pos nw (Fin d) lamb (e_sim e0) H0 b Eb) as Hb.
  pose proof (live_fresh _ _ _ _ _ _ _ _ _ _ T e2 c G2 Lc) as Fr. fold e in Fr.
  (* the episode is alive *)
  assert (Te : e_term e = Some false).
  { unfold e. clear -Lc G2. destruct c as [Or seed|Or a]; cbn [live_call run_ecall] in *.
    - destruct (env_reset Or T seed e2) as (e', r) eqn:E. apply env_reset_const in E. cbn. tauto.
    - destruct Lc as (out & Eo & Nt). destruct (env_step Or T a e2) as (e', r) eqn:E. cbn [snd fst] in *. subst r.
      destruct (gd_step_inv _ _ _ _ _ _ G2 E) as [(_ & _ & _ & sp & _ & ->)|(st & vars & el & pen & conv & Lv)]; [discriminate|]. rewrite (lv_term' _ _ _ _ _ _ _ _ _ _ _ Lv).
      destruct conv; [reflexivity|]. destruct (lv_coll _ _ _ _ _ _ _ _ _ _ _ Lv eq_refl) as (_ & _ & _ & rw & sp & _ & _ & ->). discriminate. }
  rewrite Ee in A.
  destruct (C65_action_is_plan G nw o K (Fin d) gamma lamb auxb clip g e0 T cs1 (cs2 ++ [c]) gam mg k m all gens dess solve PL PG a b B Eb Ha Hg Hd M So A) as (soc & st & sts & Ps & Ep & Fe & La & Ag & Ad).
  fold e1 in Ps. rewrite <- Ee in Ps, A. exists soc, st, sts. split; [exact Ps|]. split; [exact Ep|]. split; [exact Fe|]. intros planned.
  destruct (gd_step_inv _ _ _ _ _ _ G3 Es) as [(Q & _)|(st0 & vars & el & pen & conv & Lv)]; [congruence|]. destruct (lv_trans _ _ _ _ _ _ _ _ _ _ _ Lv) as (fl & rr & Tr).
  set (inp := step_inputs e vars a) in *.
  assert (Ly : layout (map d_id (filter is_load (sm_devs (e_sim e)))) gens dess vars a inp).
  { pose proof (ids_of_ex _ _ _ _ LOADS H0) as Hl. destruct (gd_lists _ G3 _ _ _ _ Ha Hl Hg Hd) as (_ & _ & A3 & A4 & _). rewrite A3, A4. apply step_inputs_layout. eapply static_nodup; [exact H0|apply (gd_strip _ G3)]. }
  destruct Ly as (_ & Yg & Yd).
  destruct (erun_run T cs1 e0) as (l1 & E1). fold e1 in E1. destruct (erun_run T (cs2 ++ [c]) e1) as (l2 & E2). rewrite <- Ee in E2.
  assert (E3 : e_sim e = run (e_sim e0) (l1 ++ l2)) by (rewrite run_app, <- E1; auto).
  rewrite E3 in Tr. destruct (plan_limits nw (Fin d) lamb (e_sim e0) H0 _ (gd_strip _ G1) _ gam mg k m M all _ gens dess Ha (ids_of_ex _ _ _ _ LOADS H0) Hg Hd PL PG soc _ Fe _ Ps 0%nat st eq_refl) as (_ & Lg & Ld).
  assert (Val : forall r i t, In r (nw_dev nw) -> dr_id r = Some i -> dr_type r = Some t -> (t = 1 \/ t = 2 \/ t = 3)%Z -> dev_row_fin r -> zero_q_allowed r ->
    xle (QMIN r) (QMINUS r) /\ xle (QPLUS r) (QMAX r) /\ xle (QMIN r) (Fin 0) /\ xle (Fin 0) (QMAX r)).
  { intros r i t Ir Ei Et Ht Hf (Z1 & Z2). destruct (init_dev_of_row nw (Fin d) lamb (e_sim e0) H0 b Eb r Ir) as (dv & _ & Mk & _). pose proof (proj1 (dev_init_iff b Hb r _ Hf) (ex_intro _ dv Mk)) as (_ & V).
    assert (X : xle (QMIN r) (QMINUS r) /\ xle (QPLUS r) (QMAX r)).
    { rewrite Et in V. destruct V as [(Q & _)|[(Q & _)|[(_ & V)|[(_ & V)|(_ & V)]]]]; [injection Q as Q; lia|injection Q as Q; lia| | |]; unfold gen_valid, stor_valid in V; tauto. }
    destruct X as (X1 & X2). split; auto. split; auto. split; eapply xle_trans; eauto. }
  assert (Zq : forall x, xle x (Fin 0) -> xle (xdiv x (Fin b)) (Fin 0)). { intros x X. unfold xle in *. replace (Fin 0) with (xdiv (Fin 0) (Fin b)) by apply (xdiv_inf b Hb). rewrite xdiv_pos_le; auto. }
  assert (Zq' : forall x, xle (Fin 0) x -> xle (Fin 0) (xdiv x (Fin b))). { intros x X. unfold xle in *. replace (Fin 0) with (xdiv (Fin 0) (Fin b)) by apply (xdiv_inf b Hb). rewrite xdiv_pos_le; auto. }
  assert (Pu : forall x y, xle x y -> xle (xdiv x (Fin b)) (xdiv y (Fin b))). { intros x y X. unfold xle in *. rewrite xdiv_pos_le; auto. }
  assert (Back : forall x, x * b / b = x) by (intros x; field; lra). assert (Zb : 0 / b = 0) by (field; lra).
  split.
  - intros r i Ir Ei Ty Hf Lim Zr Pot. destruct (C10_lemma nw (Fin d) lamb (e_sim e0) H0 b Eb r i Ir Ei) as (_ & C2 & _).
    assert (Ig : In i gens). { apply (proj2 Hg). destruct Ty as [Ty|Ty]; eexists r, _; repeat split; eauto; cbn; tauto. }
    apply In_nth_error in Ig as (j & Ej). destruct (Ag j i Ej) as (P1 & P2). destruct (Lg j i Ej) as (row & f & lo & hi & _ & _ & Bd & (W1 & W2) & _). destruct (Yg j i Ej) as (_ & Y1 & Y2).
    destruct C2 as (C2 & C3); [tauto|]. rewrite C2 in Bd. injection Bd as <- <-.
    assert (Val' : xle (QMIN r) (QMINUS r) /\ xle (QPLUS r) (QMAX r) /\ xle (QMIN r) (Fin 0) /\ xle (Fin 0) (QMAX r)) by (destruct Ty as [Ty|Ty]; eapply Val; eauto).
    destruct Val' as (V1 & V2 & V3 & V4). destruct Zr as (Z1 & Z2).
    rewrite P2 in Y2; [|intros lo hi Bq; rewrite C3 in Bq; injection Bq as <- <-; split; [apply Zq; auto|apply Zq'; auto]]. rewrite P1 in Y1. fold (planned i) in Y1, W1, W2.
    destruct (C04_lemma nw (Fin d) lamb (e_sim e0) H0 b Eb (l1 ++ l2) Or inp (e_sim e') _ Tr r i Ir Ei _ _ Qp Hf Lim Ty Y1 Y2) as (pot & p & q & O1 & O2 & O3 & _ & _ & Ex).
    rewrite Back, Zb in Ex. destruct Ex as (-> & ->); [|auto]. fold (planned i).
    replace (if optz_eqb (dr_type r) (Some 0%Z) then NInf else Fin 0) with (Fin 0) in W1 by (destruct Ty as [-> | ->]; reflexivity).
    unfold gen_region. split; [exact W1|]. split; [exact W2|]. split; [apply Pot; auto|]. split; [apply Zq; auto|]. split; [apply Zq'; auto|].
    split; [apply cut_below; auto|apply cut_above; auto].
  - intros r i eff c0 Ir Ei Ty Hf Lim Zr Ef He Oc Wc charge discharge Hcd. destruct (C10_lemma nw (Fin d) lamb (e_sim e0) H0 b Eb r i Ir Ei) as (_ & _ & C3).
    destruct (C3 Ty) as (Cp & Cq & sm & Esm & Cs).
    assert (Ig : In i dess). { apply (proj2 Hd). eexists r, _; repeat split; eauto; cbn; tauto. }
    pose proof Ig as Ig'. apply In_nth_error in Ig' as (j & Ej). destruct (Ad j i Ej) as (P1 & P2). destruct (Ld i Ig) as (lo & hi & Bd & (W1 & W2)). destruct (Yd j i Ej) as (Y1 & Y2).
    rewrite Cp in Bd. injection Bd as <- <-. destruct (Val r i 3%Z Ir Ei Ty ltac:(tauto) Hf Zr) as (V1 & V2 & V3 & V4). destruct Zr as (Z1 & Z2).
    rewrite P2 in Y2; [|intros lo hi Bq; rewrite Cq in Bq; injection Bq as <- <-; split; [apply Zq; auto|apply Zq'; auto]]. rewrite P1 in Y1. fold (planned i) in Y1, W1, W2.
    rewrite E3 in Fr, Oc.
    destruct (C05_lemma nw (Fin d) lamb (e_sim e0) H0 b Eb (l1 ++ l2) Or inp (e_sim e') _ Tr r i Ir Ei _ _ c0 eff d Qp Hf Lim Ty eq_refl Hdt Ef He Fr Oc Wc Y1 Y2) as (p & q & O1 & O2 & _ & _ & Ex & O3).
    destruct (plan_net nw (Fin d) lamb (e_sim e0) _ _ gam mg k m PL PG soc _ all dess i 0%nat st H0 (gd_strip _ G1) M Ha Hd Fe Ig eq_refl) as (N1 & N2 & N3). fold charge in N1, N3. fold discharge in N2, N3. fold (planned i) in N3.
    assert (Sm : exists lo hi, xdiv (SOCMIN r) (Fin b) = Fin lo /\ xdiv sm (Fin b) = Fin hi).
    { unfold dev_row_fin in Hf. rewrite Forall_forall in Hf.
      assert (Fm : fin sm) by (apply (Hf (dr_socmax r)); [cbn; auto 20|exact Esm]). destruct Fm as (x & ->).
      assert (Ce : cell_fin (dr_socmin r)) by (apply Hf; cbn; auto 20). assert (Fl : fin (SOCMIN r)) by (unfold SOCMIN, or_else; destruct (dr_socmin r) as [y|]; [apply Ce; reflexivity|eexists; reflexivity]). destruct Fl as (y & ->).
      exists (y / b), (x / b). split; apply xdiv_Fin; lra. }
    destruct Sm as (lo & hi & S1 & S2). rewrite S1, S2 in Cs.
    rewrite E1 in M. rewrite <- E3, E2, E1 in Oc. rewrite E2, E1 in Ps.
    destruct (C51_plan_soc nw b d lamb (e_sim e0) l1 l2 _ gam mg k m PL PG soc (st :: sts) all dess r i eff c0 lo hi H0 Eb Hdt Ha Hd M Ps Fe Ir Ei Ty Ef He Oc Cs) as (Lk & C51).
    specialize (C51 1%nat ltac:(cbn in Lk; lia)). cbv zeta in C51. cbn [firstn map] in C51. fold charge discharge in C51. destruct C51 as (C51 & _).
    assert (Sa : soc_after eff d c0 (planned i) = planned_soc eff d c0 [(charge, discharge)]) by (rewrite N3, no_waste; auto).
    rewrite Back, Zb in Ex. destruct Ex as (-> & ->); [|split; [exact O1|split; [exact O2|rewrite O3; fold (planned i); rewrite Sa; reflexivity]]]. fold (planned i).
    unfold stor_region. split; [exact W1|]. split; [exact W2|]. split; [apply Zq; auto|]. split; [apply Zq'; auto|].
    split; [apply cut_below; auto|]. split; [apply cut_above; auto|]. split; [apply cut_above_l; auto|]. split; [apply cut_below_l; auto|].
    rewrite Sa, S1. split; [apply xle_Fin; lra|]. exists sm. split; [exact Esm|]. rewrite S2. apply xle_Fin. lra.
Qed.
Print Assumptions C65_plan_limits.
Print Assumptions C65_action_is_plan.
Print Assumptions C66_plan_executed.
