(** The MPC agents: the action (C48) and the forecasts (C49, C50). *)
From Coq Require Import Reals Lra Sorted.
From Verif Require Import Base Num NumXR Devices BusBranch CheckNetwork LoadFlow Simulator EnvArgs Env Anm6 Mpc LibBase LibNum LibSim LibXR ProofNet LibInit SpecSim ProofSim ProofObs ProofUnits ProofDevs SpecEnv ProofEnv ProofStep ProofState ProofDraw ProofObsEnv ProofLive PropEnv
  SpecAnm6 ProofEasy PropEasy PropEasy2 SpecMpc ProofMpc.
Local Open Scope string_scope.
Local Open Scope list_scope.
Local Open Scope num_scope.
Set Bullet Behavior "Strict Subproofs".

Section Generic.
  Context {F G : Type} {N : Num F}.

  (** ---- C48 ---- *)
  Lemma action_planned (nw : network F) dt lamb asp gam mg k m all gens dess p : agent_of nw dt lamb asp gam mg k m ->
    ids_of nw ALL all -> ids_of nw GENS gens -> ids_of nw STORS dess -> action_of m p = planned_action (nw_base nw) all gens dess p.
  Proof.
    intros A Ha Hg Hd. unfold action_of, planned_action. rewrite (ag_gens _ _ _ _ _ _ _ _ A _ Hg), (ag_dess _ _ _ _ _ _ _ _ A _ Hd), (ag_base _ _ _ _ _ _ _ _ A).
    destruct (ag_devs _ _ _ _ _ _ _ _ A _ Ha) as (Ed & _).
    assert (P : forall ts l, ids_of nw ts l -> incl ts ALL -> map (fun d => ix p (dpos m d) * nw_base nw) l = map (fun i => entry n0 all p i * nw_base nw) l).
    { intros ts l (_ & Hl) Hi. apply map_ext_in. intros i I. unfold ix, dpos. rewrite Ed. f_equal. apply entry_pos. apply (proj2 Ha). apply Hl in I.
      destruct I as (r & t & I1 & I2 & I3 & I4). exists r, t. auto. }
    rewrite (P GENS gens Hg), (P STORS dess Hd) by (intros x I; cbn in *; tauto).
    assert (C : forall l : list Z, repeat (n0 : F) (List.length l) = map (fun _ => n0) l) by (intros l; induction l; cbn; f_equal; auto). rewrite !C. reflexivity.
  Qed.
  Lemma planned_length base all gens dess (p : list F) : List.length (planned_action base all gens dess p) = (2 * (List.length gens + List.length dess))%nat.
  Proof. unfold planned_action. rewrite !app_length, !map_length. lia. Qed.

  (** C48.  The agent is built from the environment at any time and called at any later time.  Whatever the forecasts, and whatever the
      optimiser returns ([p]: the planned injections), if the call returns then the action has one entry per entry of the action space, each
      the documented entry moved to the nearest admissible value; if no planned set-point is NaN (and lower bounds do not exceed upper
      bounds), the environment accepts the action. *)
  Theorem C48_action {NO : NumOrd F} : forall (nw : network F) o K dt gamma lamb auxb clip (g : G) e0 (T : task F G) cs1 cs2 gam mg k m all gens dess solve PL PG a,
    env_init nw o K dt gamma lamb auxb clip g = Ok e0 -> ids_of nw ALL all -> ids_of nw GENS gens -> ids_of nw STORS dess ->
    let e1 := erun T e0 cs1 in let e := erun T e1 cs2 in
    mpc_init (e_sim e1) (e_aspace e1) gam mg k = Ok m -> mpc_act solve m (e_sim e) PL PG = Ok a ->
    exists soc p B, solve m PL PG soc = Ok p /\
      map Some B = bounds_of (e_sim e0) "dev_p" "MW" gens ++ bounds_of (e_sim e0) "dev_q" "MVAr" gens ++
                   bounds_of (e_sim e0) "dev_p" "MW" dess ++ bounds_of (e_sim e0) "dev_q" "MVAr" dess /\
      let raw := planned_action (nw_base nw) all gens dess p in
      List.length a = List.length B /\
      (Forall (fun b => nleb (fst b) (snd b) = true) B -> Forall (fun x => nisnan x = false) raw ->
         Forall2 (fun xb v => clamped (fst xb) (fst (snd xb)) (snd (snd xb)) v) (combine raw B) a /\ valid_action e a).
  Proof.
    intros nw o K dt gamma lamb auxb clip g e0 T cs1 cs2 gam mg k m all gens dess solve PL PG a B Ha Hg Hd e1 e M A.
    pose proof (good_erun _ _ _ _ _ _ _ _ _ _ T cs1 B) as G1. fold e1 in G1.
    assert (Ee : e = erun T e0 (cs1 ++ cs2)) by (unfold e, e1, erun; rewrite fold_left_app; reflexivity).
    pose proof (good_erun _ _ _ _ _ _ _ _ _ _ T (cs1 ++ cs2) B) as G2. rewrite <- Ee in G2.
    pose proof (agent_inv nw dt lamb (e_sim e0) _ _ _ _ _ _ (gd_sim0 _ G1) (gd_strip _ G1) M) as Ag.
    destruct (action_space_bounds nw dt lamb (e_sim e0) gens dess (gd_sim0 _ G1) Hg Hd) as (Bs & EB & Es).
    unfold mpc_act in A. apply bind_ok in A as (u1 & _ & A). apply bind_ok in A as (u2 & _ & A). apply bind_ok in A as (soc & _ & A). apply bind_ok in A as (p & Ep & A). injection A as A.
    rewrite (action_planned _ _ _ _ _ _ _ _ _ _ _ p Ag Ha Hg Hd), (ag_asp _ _ _ _ _ _ _ _ Ag), (gd_aspace _ G1), Es in A. cbn [bx_lo bx_hi] in A.
    set (raw := planned_action _ _ _ _ _) in *.
    assert (L : List.length raw = List.length Bs).
    { unfold raw. rewrite planned_length. apply (f_equal (@List.length _)) in EB. rewrite map_length in EB. rewrite EB. unfold bounds_of. rewrite !app_length, !map_length. lia. }
    exists soc, p, Bs. split; [exact Ep|]. split; [exact EB|]. cbv zeta. fold raw.
    split. { rewrite <- A. unfold clip_vec. clearbody raw. clear -L. revert Bs L. induction raw as [|x raw IH]; intros [|b Bs] L; try discriminate; [reflexivity|]. cbn in *. f_equal. apply IH. lia. }
    intros Hb Hn. split.
    - rewrite <- A. clearbody raw. clear -NO L Hb Hn. revert raw L Hn. induction Hb as [|b Bs Hb HB IH]; intros [|x raw] L Hn; try discriminate; [constructor|]. inversion_clear Hn. cbn [map combine]. rewrite clip_vec_cons. constructor; [|apply IH; auto].
      cbn [fst snd]. apply clip_clamped; auto.
    - unfold valid_action. rewrite (gd_aspace _ G2), Es, <- A. apply clip_in_space; auto.
  Qed.

  (** ---- C50 ---- *)
  Lemma get_forecast (s : sim F) st key ids : sm_state s = Some st ->
    forall l, (let* q := dgetE String.eqb st key in let* d := dgetE String.eqb q "pu" in mapM (fun i => dgetE eid_eqb d (EId i)) ids) = Ok l ->
    Forall2 (fun i x => obs s key "pu" (EId i) = Some x) ids l.
  Proof.
    intros Hs l H. apply bind_ok in H as (q & Hq & H). apply bind_ok in H as (d & Hd & H). apply mapM_ok in H.
    unfold obs, read. rewrite Hs. unfold dgetE in Hq, Hd. destruct (dget String.eqb st key) as [q'|]; [|discriminate]. injection Hq as ->.
    destruct (dget String.eqb q "pu") as [d'|]; [|discriminate]. injection Hd as ->. clear -H. induction H as [|i x ids l H HF IH]; constructor; auto.
    unfold dgetE in H. destruct (dget eid_eqb d (EId i)); congruence.
  Qed.
  Lemma get_total (s : sim F) st key ids : sm_state s = Some st -> Forall (fun i => obs s key "pu" (EId i) <> None) ids -> (exists q d, dget String.eqb st key = Some q /\ dget String.eqb q "pu" = Some d) ->
    exists l, (let* q := dgetE String.eqb st key in let* d := dgetE String.eqb q "pu" in mapM (fun i => dgetE eid_eqb d (EId i)) ids) = Ok l.
  Proof.
    intros Hs H (q & d & Hq & Hd). unfold obs, read in H. rewrite Hs, Hq, Hd in H. unfold dgetE at 1. rewrite Hq. cbn [bind]. unfold dgetE at 1. rewrite Hd. cbn [bind].
    clear -H. induction ids as [|i ids IH]; [exists []; reflexivity|]. inversion_clear H as [|? ? H1 H2]. destruct (IH H2) as (l & E). cbn [mapM]. unfold dgetE at 1.
    destruct (dget eid_eqb d (EId i)) as [x|]; [|congruence]. cbn [bind]. rewrite E. cbn [bind]. eauto.
  Qed.
  (** C50.  The agent is built on a simulator with any past, and asked for a forecast after any further calls: if the simulator has a state,
      the forecast has a row per load, resp. per non-slack generator, in the order of the IDs, that repeats [planning_steps] times the current
      injection, resp. the current potential, in p.u. *)
  Theorem C50_constant_forecast : forall (nw : network F) dt lamb s0 cs1 cs2 asp gam mg k m loads gens,
    sim_init nw dt lamb = Ok s0 -> ids_of nw LOADS loads -> ids_of nw GENS gens -> mpc_init (run s0 cs1) asp gam mg k = Ok m ->
    let s := run (run s0 cs1) cs2 in sm_state s <> None ->
    exists PL PG, forecast_constant m s = Ok (PL, PG) /\
      Forall2 (fun i row => exists x, obs s "dev_p" "pu" (EId i) = Some x /\ row = repeat x k) loads PL /\
      Forall2 (fun i row => exists x, obs s "gen_p_max" "pu" (EId i) = Some x /\ row = repeat x k) gens PG.
  Proof.
    intros nw dt lamb s0 cs1 cs2 asp gam mg k m loads gens H Hl Hg M s Hs.
    pose proof (agent_inv nw dt lamb s0 _ _ _ _ _ _ H (strip_run s0 cs1) M) as Ag.
    assert (Es : s = run s0 (cs1 ++ cs2)) by (unfold s, run; rewrite fold_left_app; reflexivity).
    pose proof (gathered_run nw dt lamb s0 (cs1 ++ cs2) H) as Gt. rewrite <- Es in Gt. destruct Gt as [Gt|(s1 & Pf & Gs & _)]; [congruence|].
    pose proof (from_pf_strip _ _ Pf) as S1. pose proof (static_nodup _ _ _ _ _ H S1) as ND. destruct (ids_lists nw dt lamb s0 s1 H S1) as (_ & Al & Ag' & _).
    assert (Rd : forall key p f ids, In (key, "pu", (p, f)) (dev_quants (sm_base s1)) -> ids = map d_id (filter p (sm_devs s1)) -> Forall (fun i => obs s key "pu" (EId i) <> None) ids).
    { intros key p f ids I ->. apply Forall_forall. intros i Ii. apply in_map_iff in Ii as (d & <- & Id). apply filter_In in Id as (Id & Ip).
      unfold obs. rewrite Gs. rewrite (read_dev s1 key "pu" p f d) by auto. discriminate. }
    assert (Rl : Forall (fun i => obs s "dev_p" "pu" (EId i) <> None) loads).
    { rewrite (Al _ Hl). apply Forall_forall. intros i Ii. apply in_map_iff in Ii as (d & <- & Id). apply filter_In in Id as (Id & Ip).
      unfold obs. rewrite Gs. rewrite (read_dev s1 "dev_p" "pu" (fun _ => true) d_p d); auto; [discriminate|cbn; auto]. }
    assert (Rg : Forall (fun i => obs s "gen_p_max" "pu" (EId i) <> None) gens) by (apply (Rd "gen_p_max" is_nsgen d_ppot); [cbn; tauto|auto]).
    destruct (get_total s _ "dev_p" loads Gs Rl) as (pl & Epl); [repeat eexists; reflexivity|].
    destruct (get_total s _ "gen_p_max" gens Gs Rg) as (pg & Epg); [repeat eexists; reflexivity|].
    exists (map (fun x => repeat x k) pl), (map (fun x => repeat x k) pg). split; [|split].
    - unfold forecast_constant. rewrite Gs. cbv zeta. rewrite (ag_loads _ _ _ _ _ _ _ _ Ag _ Hl), (ag_gens _ _ _ _ _ _ _ _ Ag _ Hg), (ag_steps _ _ _ _ _ _ _ _ Ag), Epl. cbn [bind]. rewrite Epg. reflexivity.
    - pose proof (get_forecast s _ "dev_p" loads Gs pl Epl) as P. clear -P. induction P; cbn; constructor; eauto.
    - pose proof (get_forecast s _ "gen_p_max" gens Gs pg Epg) as P. clear -P. induction P; cbn; constructor; eauto.
  Qed.
End Generic.

(** ---- C49 ---- *)
Section Forecast.
  Context {F G : Type} {N : Num F}.
  Lemma extend_nth fuel t_end (day cur : list F) c : (0 < List.length day)%nat -> List.length cur = (c * List.length day)%nat ->
    (forall j, (j < List.length cur)%nat -> nth_error cur j = nth_error day (j mod List.length day)) -> (t_end <= fuel + List.length cur)%nat ->
    (t_end <= List.length (extend fuel t_end day cur))%nat /\
    forall j, (j < List.length (extend fuel t_end day cur))%nat -> nth_error (extend fuel t_end day cur) j = nth_error day (j mod List.length day).
  Proof.
    intros Hd. revert cur c. induction fuel as [|fuel IH]; intros cur c Lc Hc Hf; cbn [extend]; [split; [lia|auto]|].
    destruct (Nat.ltb_spec (List.length cur) t_end) as [Lt|Ge]; [|split; [lia|auto]]. apply (IH (cur ++ day) (S c)).
    - rewrite app_length. lia.
    - intros j Hj. rewrite app_length in Hj. destruct (Nat.lt_ge_cases j (List.length cur)) as [H|H]; [rewrite nth_error_app1 by auto; auto|].
      rewrite nth_error_app2 by auto. rewrite Lc in *. f_equal. replace j with ((j - c * List.length day) + c * List.length day)%nat at 2 by lia.
      rewrite Nat.mod_add by lia. symmetry. apply Nat.mod_small. lia.
    - rewrite app_length. lia.
  Qed.
  Lemma forecast_row_nth (m : mpc F) t day j : (0 < List.length day)%nat -> (j < m_steps m)%nat ->
    nth_error (forecast_row m t day) j = option_map (fun x => x / m_base m) (nth_error day ((S t + j) mod List.length day)).
  Proof.
    intros Hd Hj. unfold forecast_row. set (te := (S t + m_steps m)%nat).
    destruct (extend_nth te te day day 1 Hd ltac:(lia)) as (L & E); [|lia|].
    - intros i Hi. rewrite Nat.mod_small by auto. reflexivity.
    - rewrite nth_error_map, nth_slice by auto. rewrite E by (unfold te in *; lia). reflexivity.
  Qed.
  Lemma forecast_row_length (m : mpc F) t day : (0 < List.length day)%nat -> List.length (forecast_row m t day) = m_steps m.
  Proof.
    intros Hd. unfold forecast_row, slice. set (te := (S t + m_steps m)%nat). destruct (extend_nth te te day day 1 Hd ltac:(lia)) as (L & _); [|lia|].
    - intros i Hi. rewrite Nat.mod_small by auto. reflexivity.
    - rewrite map_length, firstn_length, skipn_length. unfold te in *. lia.
  Qed.
  Lemma last_nth (l : list F) d : l <> [] -> nth_error l (List.length l - 1) = Some (last l d).
  Proof.
    intros H. induction l as [|x l IH]; [congruence|]. destruct l as [|y l]; [reflexivity|]. replace (List.length (x :: y :: l) - 1)%nat with (S (List.length (y :: l) - 1)) by (cbn; lia). cbn [nth_error]. rewrite IH by discriminate. reflexivity.
  Qed.
End Forecast.
(** C49.  In an ANM6Easy environment (the agent being built at any time), [n] steps after a reset, the forecast has a row per load and per generator, of [planning_steps] entries;
    its column [j] holds, divided by the base power, what [next_vars] returns [j] steps later (that is, what the environment will use for the
    step number [n + j + 1]), for any horizon. *)
Theorem C49_perfect_forecast : forall (F G : Type) (N : Num F) (ro : rng_ops F G) sf g a0 cs Or seed date a1 ob n a cs' asp gam mg k m,
  clock_ok -> rng_sound ro -> easy_make g = Ok a0 -> easy_reset Or ro sf seed date (run6 ro sf a0 cs) = (a1, Ok ob) -> stepping ro sf alive n a1 a ->
  mpc_init (e_sim (a_env (run6 ro sf a0 cs'))) asp gam mg k = Ok m ->
  exists st PL PG, e_state (a_env a) = Some st /\ forecast_perfect m P_loads P_maxs st = Ok (PL, PG) /\
    List.length PL = 3%nat /\ List.length PG = 2%nat /\ Forall (fun row => List.length row = k) (PL ++ PG) /\
    forall j a', (j < k)%nat -> stepping ro sf alive (n + j) a1 a' ->
      exists l1 l3 l5 m2 m4 t, sampled ro sf a' = Some (Ok [l1; l3; l5; m2; m4; t]) /\
        map (fun row => nth_error row j) PL = [Some (l1 / nofZ 100); Some (l3 / nofZ 100); Some (l5 / nofZ 100)] /\
        map (fun row => nth_error row j) PG = [Some (m2 / nofZ 100); Some (m4 / nofZ 100)].
Proof.
  intros F G N ro sf g a0 cs Or seed date a1 ob n a cs' asp gam mg k m Hc Rs B H St M.
  destruct (C44_time_index F G N ro sf g a0 cs Or seed date a1 ob Hc Rs B H) as (t0 & Ht & A).
  destruct (start_facts Hc g a0 B) as (e0 & R0 & E0 & Hs & Sr).
  destruct (sr_run6 _ ro sf cs' _ Sr) as (l & El). rewrite El in M. pose proof (agent_inv _ _ _ (e_sim e0) _ _ _ _ _ _ Hs (strip_run _ l) M) as Ag.
  destruct (A n a St) as (Ti & _). unfold time_index in Ti. destruct (e_state (a_env a)) as [st|]; [|discriminate].
  assert (Ne : st <> []) by (intros ->; discriminate). rewrite (last_nth st n0 Ne) in Ti. injection Ti as Ti.
  set (t := ((t0 + Z.of_nat n) mod 96)%Z) in *. assert (Tb : (0 <= t < 96)%Z) by (apply Z.mod_pos_bound; lia).
  assert (Et : ntrunc (last st n0) = Some t) by (rewrite Ti; apply Hc; auto).
  exists st. unfold forecast_perfect. rewrite Et. eexists. eexists. split; [reflexivity|]. split; [reflexivity|].
  pose proof (series_len (F := F)) as SL. split; [reflexivity|]. split; [reflexivity|]. split.
  - rewrite <- map_app, Forall_map. eapply Forall_impl; [|exact SL]. intros day L. cbv beta in L. rewrite <- (ag_steps _ _ _ _ _ _ _ _ Ag). apply forecast_row_length. rewrite L. lia.
  - intros j a' Hj St'. destruct (A (n + j)%nat a' St') as (_ & v & Sv & l1 & l3 & l5 & m2 & m4 & -> & Av & Bv).
    exists l1, l3, l5, m2, m4. eexists. split; [exact Sv|].
    assert (Ix : forall day, List.length day = 96%nat -> nth_error (forecast_row m (Z.to_nat t) day) j = option_map (fun x => x / nofZ 100) (nth_error day (Z.to_nat ((t0 + Z.of_nat (n + j) + 1) mod 96)))).
    { intros day L. rewrite forecast_row_nth by (rewrite ?(ag_steps _ _ _ _ _ _ _ _ Ag); lia). rewrite (ag_base _ _ _ _ _ _ _ _ Ag), L. cbn [nw_base anm6_network].
      f_equal. f_equal. apply Nat2Z.inj. rewrite Nat2Z.inj_mod, Z2Nat.id by (apply Z.mod_pos_bound; lia). rewrite !Nat2Z.inj_add, Nat2Z.inj_succ, Z2Nat.id by lia. unfold t.
      replace (Z.succ ((t0 + Z.of_nat n) mod 96) + Z.of_nat j)%Z with ((t0 + Z.of_nat n) mod 96 + (Z.of_nat j + 1))%Z by lia. rewrite Zplus_mod_idemp_l. f_equal. lia. }
    apply Forall_app in SL as (SL1 & SL2).
    assert (Q : forall L : list (list F), Forall (fun row => List.length row = 96%nat) L -> map (fun row => nth_error row j) (map (forecast_row m (Z.to_nat t)) L) = map (option_map (fun x => x / nofZ 100)) (map (fun row => nth_error row (Z.to_nat ((t0 + Z.of_nat (n + j) + 1) mod 96))) L)).
    { intros L HL. rewrite !map_map. apply map_ext_in. intros day I. rewrite Forall_forall in HL. apply Ix. auto. }
    rewrite (Q _ SL1), (Q _ SL2), Av, Bv. split; reflexivity.
Qed.

(** ... and, in exact arithmetic, the step number [n + j + 1] leaves in the simulator the forecast demands and the forecast potentials, in p.u.
    (the PV potential cut at the installed 30 MW). *)
Local Open Scope R_scope.
Theorem C49_forecast_happens : forall (G : Type) (ro : rng_ops XR G) sf g a0 cs Or seed date a1 ob n a cs' asp gam mg k m st PL PG,
  rng_sound ro -> easy_make g = Ok a0 -> easy_reset Or ro sf seed date (run6 ro sf a0 cs) = (a1, Ok ob) -> stepping ro sf alive n a1 a ->
  mpc_init (e_sim (a_env (run6 ro sf a0 cs'))) asp gam mg k = Ok m -> e_state (a_env a) = Some st -> forecast_perfect m P_loads P_maxs st = Ok (PL, PG) ->
  forall j a' Or' act a2 out, (j < k)%nat -> stepping ro sf alive (n + j) a1 a' -> easy_step Or' ro sf act a' = (a2, Ok out) -> so_terminated out = false ->
  exists f1 f3 f5 f2 f4, map (fun row => nth_error row j) PL = [Some (Fin f1); Some (Fin f3); Some (Fin f5)] /\
    map (fun row => nth_error row j) PG = [Some (Fin f2); Some (Fin f4)] /\
    let s := e_sim (a_env a2) in
    obs s "dev_p" "pu" (EId 1) = Some (Fin f1) /\ obs s "dev_p" "pu" (EId 3) = Some (Fin f3) /\ obs s "dev_p" "pu" (EId 5) = Some (Fin f5) /\
    obs s "gen_p_max" "pu" (EId 4) = Some (Fin f4) /\ obs s "gen_p_max" "pu" (EId 2) = Some (Fin (Rmin f2 (3 / 10)%R)).
Proof.
  intros G ro sf g a0 cs Or seed date a1 ob n a cs' asp gam mg k m st PL PG Rs B H St M Es Fp j a' Or' act a2 out Hj St' Hstep Ht.
  destruct (C49_perfect_forecast XR G _ ro sf g a0 cs Or seed date a1 ob n a cs' asp gam mg k m clock_XR Rs B H St M) as (st' & PL' & PG' & Es' & Fp' & _ & _ & _ & Fc).
  rewrite Es in Es'. injection Es' as <-. rewrite Fp in Fp'. injection Fp' as <- <-. destruct (Fc j a' Hj St') as (l1 & l3 & l5 & m2 & m4 & t & Sm & EL & EG). clear Fc.
  destruct (C44_time_index XR G _ ro sf g a0 cs Or seed date a1 ob clock_XR Rs B H) as (t0 & Ht0 & A).
  destruct (C63_step_values G ro sf g a0 cs Or seed date a1 ob Rs B H) as (t1 & Ht1 & Ti & C).
  assert (E01 : t1 = t0).
  { destruct (A 0%nat a1 (SNone _ _ _ a1)) as (K & _). rewrite Z.add_0_r, Z.mod_small in K by lia. rewrite K in Ti. cbn in Ti. injection Ti as Ti. symmetry. apply eq_IZR. exact Ti. }
  subst t1. destruct (A (n + j)%nat a' St') as (_ & v & Sv & Av). rewrite Sm in Sv. injection Sv as <-.
  specialize (C (n + j)%nat a' Or' act a2 out St' Hstep Ht). set (kk := ((t0 + Z.of_nat (n + j) + 1) mod 96)%Z) in *. cbv zeta in C.
  assert (Hk : (0 <= kk < 96)%Z) by (apply Z.mod_pos_bound; lia). destruct (at_index_tables _ _ Hk Av) as (x1 & x3 & x5 & y2 & y4 & Ex & T1 & T3 & T5 & T2 & T4). injection Ex as <- <- <- <- <- _.
  assert (Hk' : (Z.to_nat kk < 96)%nat) by lia. destruct (C46_series_partial _ Hk') as (Ld & _ & _ & _). destruct C as (Cl & (w4 & Cw4 & C4) & (w2 & Cw2 & C2)).
  rewrite T4 in Cw4. injection Cw4 as ->. rewrite T2 in Cw2. injection Cw2 as ->.
  destruct (start_facts clock_XR g a0 B) as (e0 & _ & _ & Hs & Sr).
  assert (Sr1 : simrun (e_sim e0) a1). { pose proof (sr_reset (e_sim e0) Or ro sf seed date _ (sr_run6 _ ro sf cs _ Sr)) as S1. rewrite H in S1. exact S1. }
  assert (Sr2 : simrun (e_sim e0) a2). { pose proof (sr_step (e_sim e0) Or' ro sf act _ (sr_stepping _ ro sf alive _ a1 a' St' Sr1)) as S1. rewrite Hstep in S1. exact S1. }
  destruct Sr2 as (l & El).
  assert (Un : forall key i x, In (key, "MW") power_units -> obs (e_sim (a_env a2)) key "MW" (EId i) = Some (Fin x) -> obs (e_sim (a_env a2)) key "pu" (EId i) = Some (Fin (x / 100)%R)).
  { intros key i x I E. rewrite El in *. rewrite (units_power_state _ _ _ _ _ _ _ _ Hs I) in E. destruct (obs _ key "pu" (EId i)) as [y|]; [|discriminate E]. cbn in E. injection E as E.
    change (nw_base (anm6_network (F := XR))) with (Fin 100) in E. f_equal. destruct y as [y| | |]; cbn in E; try solve [unfold inf_sgn in E; repeat match type of E with context [if ?b then _ else _] => destruct b end; discriminate E].
    injection E as <-. f_equal. field. }
  assert (Q : forall i s1 s2 s3 x, In (i, (s1, s2, s3)) [(1, (-1, -5, -2)); (3, (-4, -10, -20)); (5, (0, -25, 0))]%Z -> nth_error (table i) (Z.to_nat kk) = Some x ->
    exists f, x = Fin f /\ obs (e_sim (a_env a2)) "dev_p" "pu" (EId i) = Some (Fin (f / 100)%R)).
  { intros i s1 s2 s3 x I E. destruct (Ld i s1 s2 s3 I) as (E' & _). rewrite E in E'. injection E' as ->. eexists. split; [reflexivity|].
    apply Un; [cbn; tauto|]. apply (Cl i s1 s2 s3 I). }
  destruct (Q 1%Z _ _ _ l1 (or_introl eq_refl) T1) as (f1 & -> & O1). destruct (Q 3%Z _ _ _ l3 (or_intror (or_introl eq_refl)) T3) as (f3 & -> & O3).
  destruct (Q 5%Z _ _ _ l5 (or_intror (or_intror (or_introl eq_refl))) T5) as (f5 & -> & O5).
  cbn [ndiv nofZ XRnum] in EL, EG. rewrite (xdiv_Fin f1), (xdiv_Fin f3), (xdiv_Fin f5) in EL by lra. rewrite (xdiv_Fin w2), (xdiv_Fin w4) in EG by lra. exists (f1 / 100)%R, (f3 / 100)%R, (f5 / 100)%R, (w2 / 100)%R, (w4 / 100)%R.
  split; [exact EL|]. split; [exact EG|]. cbv zeta. split; [exact O1|]. split; [exact O3|]. split; [exact O5|]. split; [apply Un; [cbn; tauto|exact C4]|].
  apply Un in C2; [|cbn; tauto]. rewrite C2. do 2 f_equal. unfold Rmin. destruct (Rle_dec w2 30%R), (Rle_dec (w2 / 100)%R (3 / 10)%R); lra.
Qed.
Print Assumptions C48_action.
Print Assumptions C50_constant_forecast.
Print Assumptions C49_perfect_forecast.
Print Assumptions C49_forecast_happens.
