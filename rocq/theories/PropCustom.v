(** C82: the environment of examples/custom_anm6.py (the calendar and the rendering that ANM6 adds do not change it, C75). *)
From Coq Require Import Reals Lra Lia.
From Verif Require Import Base Num NumXR Devices BusBranch CheckNetwork LoadFlow Simulator EnvArgs Env Anm6 Examples LibBase LibNum LibSim LibXR LibEval
  SpecNet SpecSim ProofSim ProofSoc SpecEnv ProofEnv ProofStep ProofState ProofDraw ProofEnvOk SpecObs ProofArgs ProofUnits ProofDev SpecDev ProofVals ProofBounds ProofDevs ProofReset ProofObs LibInit SpecQp SpecPf SpecTotal SpecAnm6 PropSet PropObs PropUnits PropReward
  ProofEasy PropEasy PropEasy2 PropMake ExNet ProofAnm6.
Local Open Scope string_scope.
Local Open Scope list_scope.
Local Open Scope R_scope.
Set Bullet Behavior "Strict Subproofs".

(** [n] steps that returned and did not end the episode lead from [e] to [e']. *)
Inductive under_way {G} (T : task XR G) : nat -> env XR G -> env XR G -> Prop :=
| UNone e : under_way T 0 e e
| UStep n e e1 e2 Or a out : under_way T n e e1 -> env_step Or T a e1 = (e2, Ok out) -> so_terminated out = false -> under_way T (S n) e e2.

Notation c_auxb := (Some [(n0, nofZ 10)] : option (list (XR * XR))).
Notation c_clip := (Some (Some n1, Some (nofZ 100)) : option (option XR * option XR)).
Lemma cx_env {G} (g : G) : custom_env (F := XR) g = env_init anm6x ObsState 1 easy_dt (Fin (9/10)) (Fin 100) c_auxb c_clip g.
Proof. unfold custom_env, easy_dt. rewrite !nrat_XR by lia. reflexivity. Qed.
Lemma cx_args : ~ bad_args 1 (easy_dt : XR) (Fin (9/10)) (Fin 100) (@ObsState XR) c_auxb.
Proof.
  unfold easy_dt. rewrite nrat_XR by lia.
  intros [B|[B|[B|[B|[B|[B|(l & B & B')]]]]]]; try discriminate B; try lia.
  - cbn [nleb n0 n1 XRnum] in B. rewrite xleb_f in B by lra. discriminate.
  - cbn [nltb n0 n1 XRnum nofZ] in B. rewrite xltb_f in B by lra. discriminate.
  - cbn [nltb n0 n1 XRnum nofZ] in B. rewrite xltb_f in B by lra. discriminate.
  - cbn [nltb n0 n1 XRnum nofZ] in B. rewrite xltb_f in B by lra. discriminate.
  - injection B as <-. apply B'. reflexivity.
Qed.

Section Custom.
  Context {G : Type} (ro : rng_ops XR G) (sf : Z -> G) (Rs : rng_sound ro) (g : G) (e0 : env XR G) (built : custom_env g = Ok e0).
  Let s0 := e_sim e0.
  Let T := custom_task ro sf s0.
  Lemma cx_built : env_init anm6x ObsState 1 easy_dt (Fin (9/10)) (Fin 100) c_auxb c_clip g = Ok e0.
  Proof. rewrite <- cx_env. exact built. Qed.
  Lemma cx_sim0 : sim_init anm6x easy_dt (Fin 100) = Ok s0.
  Proof. exact (gd_sim0 _ (good_erun _ _ _ _ _ _ _ _ _ _ T [] cx_built)). Qed.
  Lemma cx_s0 : sm_devs s0 = ax_devs /\ sm_base s0 = Fin 100.
  Proof. destruct (ax_sim easy_dt (Fin 100)) as (s & Es & Ed & Eb & _). rewrite cx_sim0 in Es. injection Es as <-. auto. Qed.
  Lemma rand_between gr : exists x, fst (rand1 ro gr) = Fin x /\ 0 <= x <= 1.
  Proof. exact (unif_between ro 0 1 gr Rs ltac:(lra)). Qed.
  Lemma cx_vars st gr vars g' : custom_next ro st gr = (Ok vars, g') -> exists u1 u2 u3 u4 u5 k, 0 <= u1 <= 1 /\ 0 <= u2 <= 1 /\ 0 <= u3 <= 1 /\ 0 <= u4 <= 1 /\ 0 <= u5 <= 1 /\
    ntrunc (nmod (nadd (last st n0) n1) (ndiv (nofZ 24) easy_dt)) = Some k /\
    vars = [Fin (-10 * u1); Fin (30 * u2); Fin (-30 * u3); Fin (50 * u4); Fin (-30 * u5); Fin (IZR k)].
  Proof.
    unfold custom_next. destruct (rand_between gr) as (u1 & E1 & B1). destruct (rand1 ro gr) as (x1, g1). cbn [fst] in E1. subst x1.
    destruct (rand_between g1) as (u2 & E2 & B2). destruct (rand1 ro g1) as (x2, g2). cbn [fst] in E2. subst x2.
    destruct (rand_between g2) as (u3 & E3 & B3). destruct (rand1 ro g2) as (x3, g3). cbn [fst] in E3. subst x3.
    destruct (rand_between g3) as (u4 & E4 & B4). destruct (rand1 ro g3) as (x4, g4). cbn [fst] in E4. subst x4.
    destruct (rand_between g4) as (u5 & E5 & B5). destruct (rand1 ro g4) as (x5, g5). cbn [fst] in E5. subst x5.
    destruct st as [|s st]; [discriminate|]. unfold easy_dt. destruct (ntrunc _) as [k|] eqn:Ek; [|discriminate]. intros H. apply (f_equal fst) in H. cbn [fst] in H. injection H as <-.
    exists u1, u2, u3, u4, u5, k. repeat (split; [assumption|]). split; reflexivity.
  Qed.

  (** a load whose request is not negative takes nothing, a generator whose potential is not positive has none *)
  Lemma cx_load3 z Or inp s1 out x : strip z = strip s0 -> transition Or inp z = (s1, Ok out) -> dget Z.eqb (ti_load inp) 3%Z = Some (Fin x) -> 0 <= x -> obs s1 "dev_p" "pu" (EId 3%Z) = Some (Fin 0).
  Proof.
    intros Sz Tr D Hx.
    assert (Q : exists r, In r (nw_dev anm6x) /\ dr_id r = Some 3%Z /\ dr_type r = Some (-1)%Z /\ dr_pmin r = Some (Fin (-30)) /\ dr_pmax r = Some (Fin 0)).
    { eexists; unshelve (once (split; [pick|split; [reflexivity|split; [reflexivity|split; reflexivity]]])). }
    destruct Q as (r & Ir & Ei & Ety & Elo & Ehi).
    destruct (C07_any _ _ _ _ cx_sim0 Or inp z _ _ r 3%Z Sz Tr Ir Ei Ety) as (x' & kq & lo' & hi' & p & P1 & P2 & P3 & P4 & P5 & P6). rewrite D in P1. injection P1 as <-.
    destruct (C10_lemma _ _ _ _ cx_sim0 100 eq_refl r 3%Z Ir Ei) as (C & _). specialize (C Ety). unfold PMIN in C. rewrite Elo, Ehi in C. cbn [or_else] in C.
    rewrite xdiv_Fin in C by lra. rewrite P3 in C. injection C as -> ->. rewrite P4. f_equal.
    change (nw_base anm6x) with (Fin 100) in P6. cbn [ndiv XRnum] in P6. rewrite xdiv_Fin in P6 by lra.
    destruct P6 as [(_ & [P6|[P6|P6]])|(_ & (P6 & _ & P7) & _)]; try (apply xisnan_spec in P6; discriminate).
    destruct (Req_dec x 0) as [->|Nx].
    - rewrite P6; [f_equal; lra|]. split; apply Rleb_spec; lra.
    - apply P7, Rltb_spec. lra.
  Qed.
  Lemma cx_gen4 z Or inp s1 out x : strip z = strip s0 -> transition Or inp z = (s1, Ok out) -> dget Z.eqb (ti_pot inp) 4%Z = Some (Fin x) -> x <= 0 -> obs s1 "gen_p_max" "pu" (EId 4%Z) = Some (Fin 0).
  Proof.
    intros Sz Tr D Hx.
    assert (Q : exists r, In r (nw_dev anm6x) /\ dr_id r = Some 4%Z /\ dr_type r = Some 2%Z /\ dr_pmin r = Some (Fin 0) /\ dr_pmax r = Some (Fin 50)).
    { eexists; unshelve (once (split; [pick|split; [reflexivity|split; [reflexivity|split; reflexivity]]])). }
    destruct Q as (r & Ir & Ei & Ety & Elo & Ehi). destruct (row_stepped_any _ _ _ _ cx_sim0 _ _ _ _ _ _ _ Sz Tr Ir Ei) as (d0 & d & d1 & d' & R).
    destruct (gen_step _ _ _ _ _ _ _ _ _ _ _ _ R (or_intror Ety)) as (gs & y & u & w & G1 & _ & G3 & G4 & _ & _ & G7 & _).
    rewrite D in G4. injection G4 as <-. rewrite (rs_pot _ _ _ _ _ _ _ _ _ _ _ _ R G3), G7. change (nw_base anm6x) with (Fin 100) in *.
    apply (gen_check_vals 100 ltac:(lra)) in G1. destruct G1 as [V1 V2 _ _ _ _ _ _ _ _ _]. unfold PMIN in V1. unfold PMAX in V2. rewrite Elo in V1. rewrite Ehi in V2. cbn [or_else] in V1, V2.
    rewrite V1, V2. cbn [ndiv XRnum]. rewrite !xdiv_Fin by lra. replace (0 / 100) with 0 by lra.
    assert (Cl : np_clip (Fin (x / 100)) (Fin 0) (Fin (50 / 100)) = Fin 0).
    { destruct (clip_clamped (Fin (x / 100)) (Fin 0) (Fin (50 / 100))) as (_ & C1 & C2 & _); [apply Rleb_spec; lra|apply xisnan_false; discriminate|].
      destruct (Req_dec x 0) as [->|Nx]; [rewrite C1; [f_equal; lra|split; apply Rleb_spec; lra]|apply C2, Rltb_spec; lra]. }
    rewrite Cl, np_clip_id; [reflexivity| |]; apply Rleb_spec; lra.
  Qed.

  Lemma cx_step cs Or a e' out : env_step Or T a (erun T e0 cs) = (e', Ok out) -> so_terminated out = false ->
    exists st vars k, e_state (erun T e0 cs) = Some st /\ ntrunc (nmod (nadd (last st n0) n1) (ndiv (nofZ 24) easy_dt)) = Some k /\
      obs (e_sim e') "dev_p" "MW" (EId 3%Z) = Some (Fin 0) /\ obs (e_sim e') "gen_p_max" "MW" (EId 4%Z) = Some (Fin 0) /\
      exists st2, e_state e' = Some st2 /\ state_layout [0; 1; 2; 3; 4; 5; 6]%Z [2; 4]%Z [6]%Z 1 (e_sim e') (skipn 5 vars) st2 /\ nth_error vars 5 = Some (Fin (IZR k)).
  Proof.
    intros E Tf. pose proof (good_erun _ _ _ _ _ _ _ _ _ _ T cs cx_built) as Hg. set (e := erun T e0 cs) in *.
    destruct (gd_step_inv _ _ _ _ _ _ Hg E) as [(_ & _ & _ & sp & _ & ->)|(st & vars & el & pen & conv & L)]; [discriminate Tf|].
    pose proof (lv_next _ _ _ _ _ _ _ _ _ _ _ L) as Nx. change (custom_next ro st (e_rng e) = (Ok vars, e_rng e')) in Nx.
    destruct (cx_vars _ _ _ _ Nx) as (u1 & u2 & u3 & u4 & u5 & k & B1 & B2 & B3 & B4 & B5 & Ek & Ev). exists st, vars, k. split; [apply L|]. split; [exact Ek|].
    destruct (lv_trans _ _ _ _ _ _ _ _ _ _ _ L) as (fl & rr & Tr).
    destruct (anm6_ids (F := XR)) as (D1 & D2 & D3 & D4). destruct (gd_lists _ Hg _ _ _ _ D1 D2 D3 D4) as (A1 & A2 & A3 & A4 & A5 & A6 & _).
    assert (Sz : strip (e_sim e) = strip s0) by apply (gd_strip _ Hg).
    assert (Ly : layout [1; 3; 5]%Z [2; 4]%Z [6]%Z vars a (step_inputs e vars a)).
    { rewrite A2, A3, A4. apply step_inputs_layout. eapply static_nodup; [exact cx_sim0|exact Sz]. }
    destruct Ly as (Y1 & Y2 & _).
    assert (L3 : dget Z.eqb (ti_load (step_inputs e vars a)) 3%Z = Some (Fin (30 * u2))) by (rewrite (Y1 1%nat 3%Z) by reflexivity; rewrite Ev; reflexivity).
    assert (P4 : dget Z.eqb (ti_pot (step_inputs e vars a)) 4%Z = Some (Fin (-30 * u5))) by (rewrite (proj1 (Y2 1%nat 4%Z eq_refl)); rewrite Ev; reflexivity).
    pose proof (cx_load3 _ _ _ _ _ _ Sz Tr L3 ltac:(lra)) as O3. pose proof (cx_gen4 _ _ _ _ _ _ Sz Tr P4 ltac:(lra)) as O4.
    assert (Sr : exists l, e_sim e' = run s0 l).
    { destruct (erun_sim e0 T cs) as (scs & Es). fold e in Es. exists (scs ++ [CTrans Or (step_inputs e vars a)]). unfold run. rewrite fold_left_app. cbn [fold_left run_call]. fold s0 in Es. fold (run s0 scs). rewrite <- Es, Tr. reflexivity. }
    destruct Sr as (l & Sr).
    assert (Un : forall key u i, In (key, u) power_units -> obs (e_sim e') key u i = option_map (fun x => xmul x (Fin 100)) (obs (e_sim e') key "pu" i)).
    { intros key u i I. rewrite Sr. apply (units_power_state _ _ _ _ _ _ _ _ cx_sim0 I). }
    split; [rewrite (Un "dev_p" "MW"), O3 by (cbn; tauto); cbn; repeat f_equal; lra|]. split; [rewrite (Un "gen_p_max" "MW"), O4 by (cbn; tauto); cbn; repeat f_equal; lra|].
    destruct conv.
    - destruct (lv_conv _ _ _ _ _ _ _ _ _ _ _ L eq_refl) as (_ & _ & st2 & ov & sp & S2 & _ & _ & _ & _ & Ly). exists st2. split; [exact S2|]. split; [|rewrite Ev; reflexivity].
      specialize (Ly _ _ _ D1 D3 D4). replace 5%nat with (n_load (e_sim e) + n_nsgen (e_sim e))%nat; [exact Ly|].
      unfold n_load, n_nsgen. rewrite <- (map_length d_id (filter is_load _)), <- A2, <- (map_length d_id (filter is_nsgen _)), <- A3. reflexivity.
    - destruct (lv_coll _ _ _ _ _ _ _ _ _ _ _ L eq_refl) as (_ & _ & _ & rw & sp & _ & _ & ->). discriminate Tf.
  Qed.

  (** the time index after [n] steps *)
  Lemma layout_last (s : sim XR) (x : XR) st : state_layout [0; 1; 2; 3; 4; 5; 6]%Z [2; 4]%Z [6]%Z 1 s [x] st -> List.length st = 18%nat /\ nth_error st 17 = Some x /\ last st n0 = x.
  Proof.
    intros (_ & E). pose proof (f_equal (@List.length _) E) as Ls. rewrite map_length, !app_length in Ls. unfold reads in Ls. rewrite !map_length in Ls. cbn [List.length] in Ls. split; [lia|].
    unfold reads in E. cbn [map app] in E. do 18 (destruct st as [|? st]; [discriminate Ls|]). destruct st; [|cbn in Ls; lia]. cbn [map] in E.
    assert (Q : nth_error (map Some [x0; x1; x2; x3; x4; x5; x6; x7; x8; x9; x10; x11; x12; x13; x14; x15; x16; x17]) 17 = Some (Some x)) by (cbn [map]; rewrite E; reflexivity).
    cbn in Q. injection Q as <-. split; reflexivity.
  Qed.
  Lemma uw_erun cs n e1 : under_way T n (erun T e0 cs) e1 -> exists cs', e1 = erun T e0 cs'.
  Proof.
    remember (erun T e0 cs) as e. intros U. revert Heqe. induction U as [e|n e e1 e2 Or a out U IH E Tf]; intros ->; [eauto|]. destruct IH as (cs' & ->); auto.
    exists (cs' ++ [EStep Or a]). unfold erun. rewrite fold_left_app. cbn [fold_left run_ecall]. fold (erun T e0 cs'). rewrite E. reflexivity.
  Qed.
  Definition index (e : env XR G) (k : Z) : Prop := exists st, e_state e = Some st /\ nth_error st 17 = Some (Fin (IZR k)) /\ last st n0 = Fin (IZR k) /\ List.length st = 18%nat.
  Lemma cx_reset cs Or seed e1 ob : env_reset Or T seed (erun T e0 cs) = (e1, Ok ob) -> index e1 0.
  Proof.
    intros E. pose proof (good_erun _ _ _ _ _ _ _ _ _ _ T cs cx_built) as Hg. destruct (anm6_ids (F := XR)) as (D1 & D2 & D3 & D4).
    destruct (gd_reset_inv _ _ _ _ _ _ _ _ _ Hg E D1 D3 D4) as (k & init & st & _ & _ & _ & Dr & Ln & _ & Es & Ly & _).
    assert (Q : exists xs, init = xs ++ [n0]).
    { clear -Dr. assert (D : forall k gr, match fst (draw T gr k) with Ok i => exists xs, i = xs ++ [n0] | Err _ => True end).
      { induction k0 as [|k0 IH]; intros gr; cbn [draw]; [|apply IH]. unfold T. cbn [t_init custom_task]. unfold custom_init. destruct (randn _ _ gr) as (xs, g1). cbn. eauto. }
      specialize (D k (gen_at T seed (erun T e0 cs))). rewrite Dr in D. exact D. }
    destruct Q as (xs & ->). rewrite app_length in Ly. cbn [List.length] in Ly. change (Z.to_nat 1) with 1%nat in Ly. replace (List.length xs + 1 - 1)%nat with (List.length xs + 0)%nat in Ly by lia.
    rewrite skipn_app in Ly. rewrite Nat.add_0_r, skipn_all, Nat.sub_diag in Ly. cbn [app skipn] in Ly. apply layout_last in Ly as (C & A & B). exists st. auto.
  Qed.
  Lemma cx_index cs n e : under_way T n (erun T e0 cs) e -> index (erun T e0 cs) 0 -> index e (Z.of_nat n mod 96).
  Proof.
    remember (erun T e0 cs) as e1. intros U. revert Heqe1. induction U as [e|n e e1 e2 Or a out U IH E Tf]; intros He I; [exact I|]. subst e.
    destruct (IH eq_refl I) as (st & S1 & _ & S3 & _). destruct (uw_erun _ _ _ U) as (cs' & ->).
    destruct (cx_step cs' Or a e2 out E Tf) as (st' & vars & k & E1 & Ek & _ & _ & st2 & E2 & Ly & Ev). rewrite S1 in E1. injection E1 as <-. rewrite S3 in Ek.
    change (Fin (IZR (Z.of_nat n mod 96))) with (nofZ (Num := XRnum) (Z.of_nat n mod 96)) in Ek. rewrite (proj1 clock_XR) in Ek by (apply Z.mod_pos_bound; lia). injection Ek as <-.
    assert (Sk : skipn 5 vars = [Fin (IZR ((Z.of_nat n mod 96 + 1) mod 96))]).
    { destruct Ly as (Ly & _). rewrite skipn_length in Ly. do 6 (destruct vars as [|? vars]; [discriminate Ev|]). destruct vars; [|cbn in Ly; lia]. cbn in Ev. injection Ev as ->. reflexivity. }
    rewrite Sk in Ly. apply layout_last in Ly as (C & A & B). replace ((Z.of_nat n mod 96 + 1) mod 96)%Z with (Z.of_nat (S n) mod 96)%Z in A, B by (rewrite Nat2Z.inj_succ, Zplus_mod_idemp_l; reflexivity).
    exists st2. auto.
  Qed.
  Lemma nth_error_skipn0 {A} n (l : list A) : nth_error (skipn n l) 0 = nth_error l n.
  Proof. revert l. induction n as [|n IH]; intros [|x l]; auto. apply IH. Qed.
  Lemma cx_shown cs Or a e' out k : env_step Or T a (erun T e0 cs) = (e', Ok out) -> so_terminated out = false -> index e' k -> (0 <= k)%Z -> nth_error (so_obs out) 17 = Some (Fin (IZR (Z.min k 10))).
  Proof.
    intros E Tf (st & S1 & S2 & _ & S4) Hk.
    assert (K1 : e_K e' = 1%nat).
    { destruct (uw_erun cs 1 e') as (cs' & ->); [econstructor; [apply UNone|exact E|exact Tf]|]. exact (gd_K _ (good_erun _ _ _ _ _ _ _ _ _ _ T cs' cx_built)). }
    destruct (C40_observation_list_partial anm6x ObsState 1 easy_dt (Fin (9/10)) (Fin 100) c_auxb c_clip g s0 state_tuples ax_reqs cx_sim0 cx_args eq_refl (ax_requested s0 (proj1 cx_s0)))
      as (e0' & B & E0 & _ & _ & EB & Sh). { intros t I. cbn [state_tuples In] in I. decompose [or] I; try contradiction; subst t; unfold i_magn_default; intros (? & H); discriminate. }
    rewrite cx_built in E0. injection E0 as <-. destruct (Sh T cs) as (_ & St). destruct (St Or a e' out E Tf) as (st' & X & S1' & EX & (Lo & LB & Sw)). rewrite S1 in S1'. injection S1' as <-.
    assert (Ne : nth_error B 17 = Some (Fin 0, Fin 10)). { apply (f_equal (fun l => nth_error l 17)) in EB. rewrite nth_error_map in EB. destruct (nth_error B 17); cbn in EB; [injection EB as ->; reflexivity|discriminate EB]. }
    assert (Nx : nth_error X 17 = Some (Fin (IZR k))).
    { apply (f_equal (fun l => nth_error l 17)) in EX. rewrite nth_error_map in EX. destruct (nth_error X 17) as [x17|]; cbn [option_map] in EX; [|discriminate EX]. cbn [ax_reqs List.concat map app nth_error] in EX. unfold req_value in EX at 1. cbn [String.eqb Ascii.eqb Bool.eqb] in EX.
      rewrite K1, S4 in EX. change (18 - 1)%nat with 17%nat in EX. change (Z.to_nat 0) with 0%nat in EX.
      rewrite nth_error_skipn0 in EX. rewrite S2 in EX. injection EX as ->. reflexivity. }
    assert (No : exists v, nth_error (so_obs out) 17 = Some v). { destruct (nth_error (so_obs out) 17) eqn:Q; eauto. apply nth_error_None in Q. assert (nth_error X 17 <> None) by congruence. apply nth_error_Some in H. lia. }
    destruct No as (v & Nv). specialize (Sw 17%nat _ _ _ Ne Nx Nv). unfold shown in Sw. destruct (nisnan (Fin (IZR k))) eqn:Q; [apply xisnan_spec in Q; discriminate|].
    destruct Sw as (W1 & _ & W3); [apply Rleb_spec; cbn; lra|]. rewrite Nv. f_equal. cbn [fst snd] in *. apply IZR_le in Hk. destruct (Z.le_gt_cases k 10) as [K|K].
    - rewrite Z.min_l by lia. apply W1. apply IZR_le in K. split; apply Rleb_spec; lra.
    - rewrite Z.min_r by lia. apply IZR_lt in K. apply W3, Rltb_spec. lra.
  Qed.
End Custom.

(** C82 (refuted).  next_vars samples a demand in [-30, 0] MW for the industrial complex (device 3) and a potential in [0, 50] MW for the
    wind farm (device 4), but returns them in the wrong places: after every step the industrial complex draws nothing and the wind farm has
    no wind. *)
Theorem C82_devices_refuted : forall (G : Type) (ro : rng_ops XR G) sf g e0, rng_sound ro -> custom_env g = Ok e0 ->
  let T := custom_task ro sf (e_sim e0) in
  forall cs Or a e' out, env_step Or T a (erun T e0 cs) = (e', Ok out) -> so_terminated out = false ->
    obs (e_sim e') "dev_p" "MW" (EId 3%Z) = Some (Fin 0) /\ obs (e_sim e') "gen_p_max" "MW" (EId 4%Z) = Some (Fin 0).
Proof.
  intros G ro sf g e0 Rs B T cs Or a e' out E Tf. destruct (cx_step ro sf Rs g e0 B cs Or a e' out E Tf) as (st & vars & k & _ & _ & A1 & A2 & _). auto.
Qed.

(** C82 (refuted).  The last entry of the state is the time of day, the number of steps since the reset modulo 96, but what the agent is
    shown never goes above 10, although the environment is said to be fully observable. *)
Theorem C82_time_refuted : forall (G : Type) (ro : rng_ops XR G) sf g e0, rng_sound ro -> custom_env g = Ok e0 ->
  let T := custom_task ro sf (e_sim e0) in
  forall cs Or0 seed e1 ob n e Or a e' out,
    env_reset Or0 T seed (erun T e0 cs) = (e1, Ok ob) -> under_way T n e1 e -> env_step Or T a e = (e', Ok out) -> so_terminated out = false ->
    let k := (Z.of_nat (S n) mod 96)%Z in
    exists st, e_state e' = Some st /\ List.length st = 18%nat /\ nth_error st 17 = Some (Fin (IZR k)) /\ nth_error (so_obs out) 17 = Some (Fin (IZR (Z.min k 10))).
Proof.
  intros G ro sf g e0 Rs B T cs Or0 seed e1 ob n e Or a e' out E0 U E Tf k.
  assert (Ee : e1 = erun T e0 (cs ++ [EReset Or0 seed])). { unfold erun. rewrite fold_left_app. cbn [fold_left run_ecall]. fold (erun T e0 cs). rewrite E0. reflexivity. }
  pose proof (cx_reset ro sf g e0 B cs Or0 seed e1 ob E0) as I0. rewrite Ee in I0, U.
  assert (I1 : index e' k). { eapply (cx_index ro sf Rs g e0 B); [|exact I0]. eapply UStep; [exact U|exact E|exact Tf]. }
  destruct (uw_erun ro sf e0 _ _ _ U) as (cs' & ->).
  pose proof (cx_shown ro sf g e0 B cs' Or a e' out k E Tf I1 ltac:(apply Z.mod_pos_bound; lia)) as Sh.
  destruct I1 as (st & A1 & A2 & _ & A3). exists st. auto.
Qed.
(** the environment is built *)
Theorem C82_built : forall (G : Type) (g : G), exists e0 : env XR G, custom_env g = Ok e0.
Proof.
  intros G g. destruct (ax_sim easy_dt (Fin 100)) as (s & Es & Ed & Eb & _).
  destruct (C40_observation_list_partial anm6x ObsState 1 easy_dt (Fin (9/10)) (Fin 100) c_auxb c_clip g s state_tuples ax_reqs Es cx_args eq_refl (ax_requested s Ed))
    as (e0 & B & E0 & _). { intros t I. cbn [state_tuples In] in I. decompose [or] I; try contradiction; subst t; unfold i_magn_default; intros (? & H); discriminate. }
  exists e0. rewrite cx_env. exact E0.
Qed.
Print Assumptions C82_devices_refuted.
Print Assumptions C82_time_refuted.
Print Assumptions C82_built.
