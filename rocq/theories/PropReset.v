(** Properties of the environment: argument checks, resets, determinism. *)
From Verif Require Import Base Num Devices BusBranch CheckNetwork LoadFlow Simulator EnvArgs Env LibBase LibNum LibSim
  SpecNet ProofNet LibInit SpecSim ProofSim ProofObs ProofHist ProofReset ProofDevs SpecEnv ProofEnv ProofStep ProofState ProofDraw ProofEnvOk
  SpecObs ProofObsList ProofObsEnv ProofArgs PropObs.
Local Open Scope string_scope.
Local Open Scope list_scope.
Local Open Scope num_scope.

Section PropReset.
  Context {F G : Type} {N : Num F}.
  Variables (nw : network F) (o : obs_arg F) (K : Z) (dt gamma lamb : F) (auxb : option (list (F * F)))
            (clip : option (option F * option F)).

  (** C59.  Validation of the arguments, for a valid network. *)
  Theorem C59_argument_checks : forall (g : G) s0, sim_init nw dt lamb = Ok s0 ->
    (** wrong arguments are rejected, with ArgsError if the observation list is itself in order *)
    (bad_args K dt gamma lamb o auxb -> exists x, env_init nw o K dt gamma lamb auxb clip g = Err x) /\
    (bad_args K dt gamma lamb o auxb -> (forall l, o = ObsList l -> forall t, In t l -> requested s0 K t <> None) ->
       env_init nw o K dt gamma lamb auxb clip g = Err ArgsError) /\
    (** ArgsError means wrong arguments *)
    (env_init nw o K dt gamma lamb auxb clip g = Err ArgsError -> bad_args K dt gamma lamb o auxb) /\
    (** without an observation list the other arguments are all accepted *)
    (~ bad_args K dt gamma lamb o auxb -> (forall l, o <> ObsList l) -> exists e0, env_init nw o K dt gamma lamb auxb clip g = Ok e0) /\
    (** an observation list is rejected by the check if a tuple is neither documented nor one of the listed oddities *)
    (forall l, o = ObsList l -> ~ bad_args K dt gamma lamb o auxb -> (exists t, In t l /\ requested s0 K t = None /\ ~ quirk s0 K t) ->
       exists x, env_init nw o K dt gamma lamb auxb clip g = Err x /\ In x [ObsSpaceError; ObsNotSupportedError; UnitsNotSupportedError; TypeErr]).
  Proof.
    intros g s0 Hs. destruct (args_cases s0 K dt gamma lamb o auxb) as (A1 & A2 & A3).
    assert (Le : forall x, check_env_args K dt lamb gamma o auxb (get_state_space s0) = Err x -> env_init nw o K dt gamma lamb auxb clip g = Err x).
    { intros x E. unfold env_init. rewrite Hs. cbn [bind]. rewrite E. reflexivity. }
    split; [|split; [|split; [|split]]].
    - intros B. destruct (A1 B) as (x & E). eauto.
    - intros B Hl. apply Le, A2; auto. intros l ->. apply (foldM_unit (check_obs_tuple (get_state_space s0) K)), Forall_forall. intros t I. apply tuple_iff. left. eauto.
    - intros E. destruct (check_env_args K dt lamb gamma o auxb (get_state_space s0)) as [[]|x] eqn:Ec.
      + exfalso. unfold env_init in E. rewrite Hs in E. cbn [bind] in E. rewrite Ec in E. cbn [bind] in E.
        assert (Ev : expand_all s0 (Z.to_nat K) state_items = Ok (svals_of s0 (Z.to_nat K))) by reflexivity. rewrite Ev in E. cbn [bind] in E.
        apply bind_err in E as [E|((ov, off) & _ & E)].
        * revert E. apply build_no.
        * apply bind_err in E as [E|(os & _ & E)]; [|discriminate]. revert E. apply bounds_no.
      + rewrite (Le _ eq_refl) in E. injection E as ->. destruct (bad_dec K dt gamma lamb o auxb) as [B|B]; auto. exfalso. specialize (A3 B). clear Ec. symmetry in A3. rename A3 into Ec.
        destruct o as [|l|f|]; try discriminate.
        apply (foldM_unit_err (check_obs_tuple (get_state_space s0) K)) in Ec as (t & _ & Et). apply tuple_errs in Et. cbn in Et. intuition discriminate.
    - intros B Hl. destruct o as [|l|f|] eqn:Eo; [|exfalso; apply (Hl l); auto| |exfalso; apply B; unfold bad_args; tauto].
      + apply (state_ok nw K dt gamma lamb auxb clip g s0 Hs B).
      + exists (mkEnv (Z.to_nat K) gamma (clip_arg clip) auxb s0 (svals_of s0 (Z.to_nat K)) None (Some f) (build_action_space s0) None None 0 n0 n0 None g).
        unfold env_init. rewrite Hs. cbn [bind]. rewrite (A3 B). reflexivity.
    - intros l -> B (t & I & Hr & Hq). specialize (A3 B). cbv beta iota in A3.
      destruct (check_observation_vars l (get_state_space s0) K) as [[]|x] eqn:Ec.
      + exfalso. apply (foldM_unit (check_obs_tuple (get_state_space s0) K)) in Ec. rewrite Forall_forall in Ec. specialize (Ec t I). apply tuple_iff in Ec. tauto.
      + exists x. split; [apply Le; auto|]. apply (foldM_unit_err (check_obs_tuple (get_state_space s0) K)) in Ec as (t' & _ & Et). eapply tuple_errs; eauto.
  Qed.

  (** C40 refuted, 1: branch_i_magn without its unit is a documented request, passes the checks, and the constructor raises KeyError, on every
      network with a branch. *)
  Theorem C40_branch_i_magn_refuted : forall (g : G) s0, sim_init nw dt lamb = Ok s0 -> nw_br nw <> [] ->
    o = ObsList [OT2 "branch_i_magn" NAll] -> ~ bad_args K dt gamma lamb o auxb ->
    requested s0 K (OT2 "branch_i_magn" NAll) <> None /\ check_env_args K dt lamb gamma o auxb (get_state_space s0) = Ok tt /\
    env_init nw o K dt gamma lamb auxb clip g = Err KeyError.
  Proof.
    intros g s0 Hs Hb -> B. split; [discriminate|].
    assert (Ec : check_env_args K dt lamb gamma (ObsList [OT2 "branch_i_magn" NAll]) auxb (get_state_space s0) = Ok tt).
    { destruct (args_cases s0 K dt gamma lamb (ObsList [OT2 "branch_i_magn" NAll]) auxb) as (_ & _ & A). rewrite (A B). reflexivity. }
    split; auto. unfold env_init. rewrite Hs. cbn [bind]. rewrite Ec. cbn [bind].
    assert (Ev : expand_all s0 (Z.to_nat K) state_items = Ok (svals_of s0 (Z.to_nat K))) by reflexivity. rewrite Ev. cbn [bind].
    destruct (sm_branches s0) as [|b bl] eqn:Eb.
    { exfalso. apply Hb. destruct (sim_init_built _ _ _ _ Hs) as (bs & ds & Bt). pose proof (bt_brs _ _ _ _ _ _ Bt) as E. rewrite Eb in E.
      destruct (nw_br nw) as [|r l]; auto. exfalso. apply mapM_length in E. discriminate. }
    assert (En : elements s0 K "branch_i_magn" = EBr (ln_f b) (ln_t b) :: map (fun x => EBr (ln_f x) (ln_t x)) bl).
    { unfold elements. cbn [String.eqb Ascii.eqb Bool.eqb get_state_space dget]. rewrite map_map, Eb. reflexivity. }
    cbn [build_observation mapM add_default_unit dget STATE_VARIABLES String.eqb Ascii.eqb Bool.eqb default_unit bind].
    unfold expand_all. cbn [mapM]. rewrite (expand_nall s0 K "branch_i_magn" [Some "pu"]) by (cbn; tauto). cbn [bind]. rewrite En.
    cbn [observation_bounds mapM item_nodes oi_nodes bind]. unfold entry_bounds at 1. cbn [oi_key oi_unit String.eqb Ascii.eqb Bool.eqb].
    unfold dgetE at 1. cbn [get_state_space dget String.eqb Ascii.eqb Bool.eqb bind]. rewrite Eb. cbn [map]. unfold dgetE at 1. cbn [dget].
    replace (eid_eqb (EBr (ln_f b) (ln_t b)) (EBr (ln_f b) (ln_t b))) with true by (symmetry; apply eid_eqb_iff; auto). cbn. reflexivity.
  Qed.

  (** C40/C59 refuted, 2: a negative index of an auxiliary variable is accepted although no such variable exists, and the
      observation shows an entry of the state vector that is not an auxiliary variable. *)
  Theorem C40_negative_aux_refuted {NO : NumOrd F} : forall (g : G) s0, sim_init nw dt lamb = Ok s0 -> auxb = None -> nw_dev nw <> [] ->
    o = ObsList [OT2 "aux" (NList [EId (-1)])] -> ~ bad_args K dt gamma lamb o auxb ->
    requested s0 K (OT2 "aux" (NList [EId (-1)])) = None /\
    exists e0, env_init nw o K dt gamma lamb auxb clip g = Ok e0 /\
      forall (T : task F G) cs Or seed e' ob, env_reset Or T seed (erun T e0 cs) = (e', Ok ob) ->
        exists st v, e_state e' = Some st /\ nth_error st (List.length st - Z.to_nat K - 1) = Some v /\ ob = [np_clip v nninf ninf].
  Proof.
    intros g s0 Hs -> Hd -> B. split.
    { unfold requested. cbn [doc_units dget String.eqb Ascii.eqb Bool.eqb forallb]. destruct (existsb (eid_eqb (EId (-1))) (elements s0 K "aux")) eqn:E; [|reflexivity].
      apply existsb_eid in E. apply aux_element in E as (i & E & L & _). injection E as <-. lia. }
    assert (HK : (0 <= K)%Z) by (destruct (Z.lt_ge_cases K 0); [exfalso; apply B; left; auto|auto]).
    assert (Ec : check_env_args K dt lamb gamma (ObsList [OT2 "aux" (NList [EId (-1)])]) None (get_state_space s0) = Ok tt).
    { destruct (args_cases s0 K dt gamma lamb (ObsList [OT2 "aux" (NList [EId (-1)])]) None) as (_ & _ & A). rewrite (A B). cbn.
      replace (K <=? -1)%Z with false by (symmetry; apply Z.leb_gt; lia). reflexivity. }
    pose (e0 := mkEnv (Z.to_nat K) gamma (clip_arg clip) None s0 (svals_of s0 (Z.to_nat K)) (Some [mkItem "aux" (NList [EId (-1)]) None]) None (build_action_space s0)
                  (Some (mkBox [nninf] [ninf] false)) None 0 n0 n0 None g).
    assert (E0 : env_init nw (ObsList [OT2 "aux" (NList [EId (-1)])]) K dt gamma lamb None clip g = Ok e0).
    { unfold env_init. rewrite Hs. cbn [bind]. rewrite Ec. cbn [bind]. reflexivity. }
    exists e0. split; [exact E0|]. intros T cs Or seed e' ob H.
    pose proof (good_erun _ _ _ _ _ _ _ _ _ _ T cs E0) as Hg.
    assert (Es : e_ospace (erun T e0 cs) = Some (mkBox [nninf] [ninf] false)) by (apply erun_ospace; reflexivity).
    destruct (ids_ex _ _ _ _ Hs) as (devs & loads & gens & dess & D1 & D2 & D3 & D4).
    pose proof (env_reset_const _ _ _ _ _ _ H) as (C & Sp & _). specialize (Sp _ Es).
    destruct (gd_reset_inv _ _ _ _ _ _ devs gens dess Hg H D1 D3 D4) as (k & init & st & _ & _ & (init' & A1 & _ & A3) & A4 & _ & A6 & A7 & A8 & A9).
    rewrite A4 in A1. cbn in A1. injection A1 as ->. exists st.
    assert (Fr : sm_state (e_sim e') = Some (gather_state (e_sim e'))).
    { rewrite A6. apply (call_fresh (e_sim e0) (CReset Or init')). cbn [returned]. change (e_sim e0) with s0 in *. rewrite A3. auto. }
    assert (HC : econst e' = econst e0) by (rewrite C; apply Hg). apply econst_inv in HC as (C0 & _ & _ & _ & _ & _ & C1 & C2 & _).
    assert (Len : (Z.to_nat K + 1 <= List.length st)%nat).
    { destruct A8 as (La & M). pose proof (f_equal (@List.length _) M) as Ml. rewrite !app_length, !map_length in Ml. unfold reads in Ml. rewrite !map_length in Ml.
      assert (Ld : (1 <= List.length devs)%nat); [|lia]. destruct (nw_dev nw) as [|r l] eqn:En; [congruence|].
      destruct (init_dev_types _ _ _ _ Hs) as (_ & _ & T2 & T3). destruct (T2 r) as (d & Id & Ei & Et); [rewrite En; left; auto|].
      assert (I : In (d_id d) devs). { apply D1. exists r, (d_type d). rewrite En. repeat split; auto; [left; auto|]. apply zmem_spec. apply (T3 d Id). }
      destruct devs; [destruct I|cbn; lia]. }
    destruct (nth_error st (List.length st - Z.to_nat K - 1)) as [v|] eqn:Ev; [|apply nth_error_None in Ev; lia].
    exists v. repeat split; auto. unfold observed in A9. rewrite Sp in A9. unfold observe in A9. rewrite C2, C1, Sp in A9. cbn [e_ofun e_ovals e0] in A9.
    unfold extract_vars in A9. cbn [mapM item_nodes oi_nodes bind] in A9. unfold extract_entry in A9. rewrite Fr in A9. cbn [oi_key] in A9.
    change (dget String.eqb (gather_state (e_sim e')) "aux") with (@None (list (string * list (eid * F)))) in A9. cbn [String.eqb Ascii.eqb Bool.eqb] in A9. rewrite A7, C0 in A9.
    assert (Pn : py_nth st (-1 - Z.of_nat (Z.to_nat K)) = Ok v).
    { unfold py_nth, py_index.
      replace ((0 <=? -1 - Z.of_nat (Z.to_nat K)) && (-1 - Z.of_nat (Z.to_nat K) <? Z.of_nat (List.length st)))%Z with false by (symmetry; apply andb_false_intro1, Z.leb_gt; lia).
      replace ((- Z.of_nat (List.length st) <=? -1 - Z.of_nat (Z.to_nat K)) && (-1 - Z.of_nat (Z.to_nat K) <? 0))%Z with true by (symmetry; apply andb_true_intro; split; [apply Z.leb_le|apply Z.ltb_lt]; lia).
      unfold nth_res. replace (Z.to_nat _) with (List.length st - Z.to_nat K - 1)%nat by lia. rewrite Ev. auto. }
    change (e_K e0) with (Z.to_nat K) in A9. rewrite Pn in A9. cbn [bind List.concat app] in A9. cbn [bx_lo bx_hi] in A9.
    destruct (box_contains _ _); [|discriminate]. injection A9 as <-. reflexivity.
  Qed.

  Section Hist.
    Variables (g : G) (e0 : env F G) (T : task F G) (cs : list (ecall F)).
    Hypothesis built : env_init nw o K dt gamma lamb auxb clip g = Ok e0.
    Let e := erun T e0 cs.
    Lemma HgR : good nw o K dt gamma lamb auxb clip g e0 e. Proof. apply good_erun, built. Qed.

    (** C41 (partial).  The samples are drawn one after the other from the generator; the reset uses the first one
        for which the power flow converges, if it is among the first 99; it returns only in that case; if none of the 100 converges the reset raises, having
        drawn exactly 100 samples. *)
    Theorem C41_reset_sampling_partial : forall Or seed,
      let sample := draw T (gen_at T seed e) in let tried k := attempt Or (e_sim e0) (state_size e0) (sample k) in
      (forall k, (S k < 100)%nat -> (forall j, (j < k)%nat -> tried j false) -> tried k true ->
         exists init e' st, fst (env_reset Or T seed e) = e' /\ sample k = (Ok init, e_rng e') /\
           e_sim e' = fst (sim_reset Or init (e_sim e0)) /\ e_state e' = Some st /\ snd (env_reset Or T seed e) = observed e' st) /\
      (forall e' ob, env_reset Or T seed e = (e', Ok ob) ->
         exists k, (S k < 100)%nat /\ (forall j, (j < k)%nat -> tried j false) /\ tried k true /\ e_rng e' = snd (sample k)) /\
      ((forall j, (j < 100)%nat -> tried j false) ->
         exists e' x, env_reset Or T seed e = (e', Err x) /\ e_rng e' = snd (sample 99%nat)).
    Proof.
      intros Or seed sample tried. destruct (ids_ex _ _ _ _ (gd_sim0 _ HgR)) as (devs & loads & gens & dess & D1 & D2 & D3 & D4). split; [|split].
      - intros k L Hb Ht. destruct (gd_reset Or T seed e k devs gens dess HgR L Hb Ht D1 D3 D4) as (init & e' & st & A). exists init, e', st. tauto.
      - intros e' ob H. destruct (gd_reset_inv _ _ _ _ _ _ devs gens dess HgR H D1 D3 D4) as (k & init & st & A1 & A2 & A3 & A4 & _).
        exists k. unfold sample. rewrite A4. auto.
      - intros Hb. destruct (resetting_const T seed e) as (R1 & _). assert (Hg1 : good nw o K dt gamma lamb auxb clip g e0 (resetting T seed e)) by (eapply good_const; eauto using HgR).
        destruct (loop_none Or T (e_sim e0) (state_size e0) 99 (resetting T seed e)) as (e' & E & Rn).
        + apply (gd_strip _ Hg1).
        + apply state_size_static, Hg1.
        + intros j Lj. rewrite resetting_rng. apply Hb. lia.
        + exists e', AttributeError. rewrite env_reset_eq, E. split; auto. rewrite Rn, resetting_rng. reflexivity.
    Qed.
    (** C41 refuted: whatever happens with the hundredth sample, after 99 failures the reset raises AttributeError. *)
    Theorem C41_hundredth : forall Or seed,
      let sample := draw T (gen_at T seed e) in let tried k := attempt Or (e_sim e0) (state_size e0) (sample k) in
      (forall j, (j < 99)%nat -> tried j false) -> (exists b, tried 99%nat b) -> snd (env_reset Or T seed e) = Err AttributeError.
    Proof.
      intros Or seed sample tried Hb (b & Ht). destruct (resetting_const T seed e) as (R1 & _).
      assert (Hg1 : good nw o K dt gamma lamb auxb clip g e0 (resetting T seed e)) by (eapply good_const; eauto using HgR). rewrite env_reset_eq. destruct b.
      - destruct (loop_first Or T (e_sim e0) (state_size e0) 99 100 (resetting T seed e)) as (init & e1 & E & _).
        + apply (gd_strip _ Hg1).
        + apply state_size_static, Hg1.
        + lia.
        + rewrite resetting_rng. auto.
        + rewrite resetting_rng. auto.
        + rewrite E. reflexivity.
      - destruct (loop_none Or T (e_sim e0) (state_size e0) 99 (resetting T seed e)) as (e' & E & Rn).
        + apply (gd_strip _ Hg1).
        + apply state_size_static, Hg1.
        + intros j Lj. rewrite resetting_rng. assert (D : (j < 99)%nat \/ j = 99%nat) by lia. destruct D as [D| ->]; [apply Hb; auto|auto].
        + rewrite E. reflexivity.
    Qed.

    (** C61.  With a callable observation whose value is a float64 array (as every numpy expression of the state vector is), no reset ever succeeds. *)
    Theorem C61_callable_refuted : forall f, o = ObsFun f -> (forall st, ov_f64 (f st) = true) ->
      forall Or seed e' ob, env_reset Or T seed e <> (e', Ok ob).
    Proof.
      intros f Eo Hf Or seed e' ob H. destruct (built_fun (gd_init _ _ _ _ _ _ _ _ _ _ _ HgR) f Eo) as (B1 & B2 & B3).
      assert (Fs : fun_space f (e_ospace e)) by (apply erun_fun_space; [auto|left; auto]).
      rewrite env_reset_eq in H. destruct (resetting_const T seed e) as (R1 & R2 & _).
      destruct (reset_loop Or T 100 (resetting T seed e)) as (e1, [u|x]) eqn:L; [|discriminate]. pose proof (reset_loop_const _ _ _ _ _ _ L) as (L1 & L2 & _).
      destruct (construct_state e1) as [st|x]; [|discriminate].
      assert (Ef : e_ofun e1 = Some f) by (pose proof (gd_ofun _ HgR) as Q; apply econst_inv in L1; apply econst_inv in R1; intuition congruence).
      unfold finish_obs, observe in H. cbn [e_ofun e_ospace env_set_state] in H. rewrite Ef in H.
      rewrite <- R2, <- L2 in Fs. destruct Fs as [Fs|(st' & Fs)]; rewrite Fs in H; cbn [e_ospace env_set_ospace] in H; rewrite ?Fs in H;
        unfold box_contains in H; cbn [bx_f32] in H; rewrite Hf in H; cbn in H; apply (f_equal snd) in H; cbn in H; rewrite ?Fs in H; cbn in H; rewrite ?Hf in H; cbn in H; discriminate H.
    Qed.
  End Hist.

  (** C60.  Two environments built with the same arguments, in any state (whatever was called on them before), reset with the same seed and
      then given the same calls, return the same things; a callable observation is assumed to give arrays of one size. *)
  Lemma outputs_app (T : task F G) l l' : forall e : env F G, outputs T e (l ++ l') = outputs T e l ++ outputs T (erun T e l) l'.
  Proof. induction l as [|c l IH]; intros e; [reflexivity|]. cbn [outputs app erun fold_left]. rewrite IH. reflexivity. Qed.
  Theorem C60_seeded : forall (g g' : G) e0 e0' (T : task F G) cs cs',
    env_init nw o K dt gamma lamb auxb clip g = Ok e0 -> env_init nw o K dt gamma lamb auxb clip g' = Ok e0' ->
    (forall f, o = ObsFun f -> exists n, forall st, List.length (ov_vec (f st)) = n) ->
    let e := erun T e0 cs in let e' := erun T e0' cs' in
    forall Or z, snd (env_reset Or T (Some z) e) = snd (env_reset Or T (Some z) e') /\
    forall ob, snd (env_reset Or T (Some z) e) = Ok ob ->
      forall later, outputs T e (EReset Or (Some z) :: later) = outputs T e' (EReset Or (Some z) :: later).
  Proof.
    intros g g' e0 e0' T cs cs' B B' Hf e e' Or z.
    pose proof (good_erun _ _ _ _ _ _ _ _ _ _ T cs B) as Hg. pose proof (good_erun _ _ _ _ _ _ _ _ _ _ T cs' B') as Hg'.
    assert (C0 : econst e0 = econst e0' /\ e_ospace e0 = e_ospace e0').
    { unfold env_init in B, B'. apply bind_ok in B as (s & Hs & B). rewrite Hs in B'. cbn [bind] in B'. apply bind_ok in B as (u & Hc & B). rewrite Hc in B'. cbn [bind] in B'.
      apply bind_ok in B as (sv & Hv & B). rewrite Hv in B'. cbn [bind] in B'. apply bind_ok in B as ((ov, off) & Ho & B). rewrite Ho in B'. cbn [bind] in B'.
      apply bind_ok in B as (os & Hos & B). rewrite Hos in B'. cbn [bind] in B'. injection B as <-. injection B' as <-. split; reflexivity. }
    destruct C0 as (C0 & S0).
    assert (C : econst e = econst e') by (unfold e, e'; rewrite (gd_const _ _ _ _ _ _ _ _ _ _ _ Hg), (gd_const _ _ _ _ _ _ _ _ _ _ _ Hg'); auto).
    destruct (reset_same Or T z e e' C) as (P & Q).
    { destruct (tuples_of o) as [l|] eqn:Et.
      - left. destruct (built_in (gd_init _ _ _ _ _ _ _ _ _ _ _ Hg) ltac:(congruence)) as (items & sp & _ & _ & E & _).
        unfold e, e'. rewrite (erun_ospace T cs e0 sp E), (erun_ospace T cs' e0' sp) by congruence. auto.
      - destruct o as [|l|f|] eqn:Eo; try discriminate.
        + right. destruct (Hf f eq_refl) as (n & Hn). destruct (built_fun (gd_init _ _ _ _ _ _ _ _ _ _ _ Hg) f eq_refl) as (B1 & B2 & B3).
          destruct (built_fun (gd_init _ _ _ _ _ _ _ _ _ _ _ Hg') f eq_refl) as (B1' & B2' & B3').
          exists f, n. split; [unfold e; rewrite (gd_ofun _ Hg); auto|]. split; auto. split; apply erun_fun_space; auto; left; auto.
        + exfalso. pose proof (ei_args _ _ _ _ _ _ _ _ _ _ (gd_init _ _ _ _ _ _ _ _ _ _ _ Hg)) as A.
          destruct (args_cases (e_sim e0) K dt gamma lamb ObsOther auxb) as (A1 & _). destruct A1 as (x & A1); [unfold bad_args; tauto|]. congruence. }
    split; auto. intros ob H later. cbn [outputs run_ecall]. rewrite P, (Q ob H). reflexivity.
  Qed.
End PropReset.
