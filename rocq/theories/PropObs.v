(** Properties of the environment: observations, argument checks, resets, determinism. *)
From Verif Require Import Base Num Devices BusBranch CheckNetwork LoadFlow Simulator EnvArgs Env LibBase LibNum LibSim
  SpecNet ProofNet LibInit SpecSim ProofSim ProofObs ProofHist ProofReset ProofDevs SpecEnv ProofEnv ProofStep ProofState ProofDraw ProofEnvOk
  SpecObs ProofObsList ProofObsEnv ProofArgs.
Local Open Scope string_scope.
Local Open Scope list_scope.
Local Open Scope num_scope.

Section PropObs.
  Context {F G : Type} {N : Num F}.
  Variables (nw : network F) (o : obs_arg F) (K : Z) (dt gamma lamb : F) (auxb : option (list (F * F)))
            (clip : option (option F * option F)).

  (** C39.  With a built-in observation, in any number type with the usual order laws (in particular IEEE
      floats and extended reals). *)
  Theorem C39_in_space {NO : NumOrd F} : forall (g : G) e0 (T : task F G) cs, env_init nw o K dt gamma lamb auxb clip g = Ok e0 -> tuples_of o <> None ->
    let e := erun T e0 cs in
    exists sp, e_ospace e = Some sp /\
    (** returned observations are inside *)
    (forall Or seed e' ob, env_reset Or T seed e = (e', Ok ob) -> inside sp ob) /\
    (forall Or a e' out, env_step Or T a e = (e', Ok out) -> so_terminated out = false -> inside sp (so_obs out)) /\
    (** the assertion fires only on NaN, if lower bounds do not exceed upper bounds *)
    (Forall2 (fun lo hi => nleb lo hi = true) (bx_lo sp) (bx_hi sp) ->
       (forall Or seed e', env_reset Or T seed e = (e', Err AssertionError) ->
          (exists k, fst (draw T (gen_at T seed e) k) = Err AssertionError) \/ (exists init s, snd (sim_reset Or init s) = Err AssertionError) \/
          (exists st ov v, e_state e' = Some st /\ observe e' st = Ok ov /\ In v (ov_vec ov) /\ nisnan v = true)) /\
       (forall Or a e', env_step Or T a e = (e', Err AssertionError) -> valid_action e a ->
          (exists st, e_state e = Some st /\ fst (t_next T st (e_rng e)) = Err AssertionError) \/ (exists inp, snd (transition Or inp (e_sim e)) = Err AssertionError) \/
          (exists st ov v, e_state e' = Some st /\ observe e' st = Ok ov /\ In v (ov_vec ov) /\ nisnan v = true))).
  Proof.
    intros g e0 T cs built Ho e. pose proof (good_erun _ _ _ _ _ _ _ _ _ _ T cs built) as Hg. fold e in Hg.
    destruct (built_in (gd_init _ _ _ _ _ _ _ _ _ _ _ Hg) Ho) as (items & sp & O1 & O2 & O3 & O4 & O5 & O6).
    assert (Es : e_ospace e = Some sp) by (apply erun_ospace; auto). exists sp. split; auto.
    assert (Hin : forall v, box_contains sp v = true -> inside sp (ov_vec v)) by (intros v Hv; apply contains_inside in Hv; [tauto|congruence]).
    (* an observation that is not inside has a NaN *)
    assert (Nan : Forall2 (fun lo hi => nleb lo hi = true) (bx_lo sp) (bx_hi sp) -> forall e1 : env F G, econst e1 = econst e0 -> e_ospace e1 = Some sp -> forall st ov, observe e1 st = Ok ov -> box_contains sp ov = false ->
      exists v, In v (ov_vec ov) /\ nisnan v = true).
    { intros Hb e1 C E st ov Ob B. apply econst_inv in C as (_ & _ & _ & _ & _ & _ & C1 & C2 & _).
      unfold observe in Ob. rewrite C2, O2, C1, O1, E in Ob. apply bind_ok in Ob as (x & Ex & Ob). injection Ob as <-.
      apply extract_length in Ex. destruct (existsb nisnan (clip_vec x (bx_lo sp) (bx_hi sp))) eqn:En; [apply existsb_exists in En as (v & I & Nv); eauto|exfalso].
      assert (Hn : forall v, In v (clip_vec x (bx_lo sp) (bx_hi sp)) -> nisnan v = false).
      { intros v I. destruct (nisnan v) eqn:Ev; auto. assert (existsb nisnan (clip_vec x (bx_lo sp) (bx_hi sp)) = true) by (apply existsb_exists; eauto). congruence. }
      destruct (clip_inside x (bx_lo sp) (bx_hi sp)) as (P & Q); auto; try congruence.
      assert (T1 : box_contains sp (mkObs true (clip_vec x (bx_lo sp) (bx_hi sp))) = true); [|congruence].
      apply contains_inside; [congruence|]. cbn. rewrite O6. split; auto. split; auto. }
    split; [|split; [|intros Hb; split]].
    - intros Or seed e' ob H. pose proof (env_reset_const _ _ _ _ _ _ H) as (_ & Sp & _). specialize (Sp sp Es).
      rewrite env_reset_eq in H. destruct (reset_loop Or T 100 (resetting T seed e)) as (e1, [u|x]); [|discriminate].
      destruct (construct_state e1) as [st|x]; [|discriminate].
      pose proof (finish_observed (env_set_state e1 (Some st)) st) as P. rewrite H in P. cbn [fst snd] in P. unfold observed in P. rewrite Sp in P.
      destruct (observe e' st) as [ov|]; [|discriminate]. destruct (box_contains sp ov) eqn:B; [|discriminate]. injection P as ->. auto.
    - intros Or a e' out H Ht. destruct (gd_step_inv _ _ _ _ _ _ Hg H) as [(_ & _ & _ & sp' & _ & ->)|(st & vars & el & pen & conv & L)]; [discriminate|].
      destruct conv.
      + destruct (lv_conv _ _ _ _ _ _ _ _ _ _ _ L eq_refl) as (_ & _ & st2 & ov & sp' & _ & _ & E & B & -> & _). cbn.
        pose proof (stepped_const _ _ _ _ _ _ (env_stepped Or T a e)) as (_ & Sp & _). rewrite H in Sp. cbn in Sp. apply Hin. congruence.
      + destruct (lv_coll _ _ _ _ _ _ _ _ _ _ _ L eq_refl) as (_ & _ & _ & rw & sp' & _ & _ & ->). discriminate.
    - intros Or seed e' H. pose proof (env_reset_const _ _ _ _ _ _ H) as (C & Sp & _). specialize (Sp sp Es).
      apply reset_errs in H as [H|[H|[H|[H|(_ & st & ov & sp' & A & B & D & E)]]]]; [cbn in H; intuition discriminate|discriminate|auto|auto|].
      right; right. rewrite Sp in D. injection D as <-. destruct (Nan Hb e') with (st := st) (ov := ov) as (v & I & V); auto; [|eauto 8].
      rewrite C. apply Hg.
    - intros Or a e' H V. pose proof (stepped_const _ _ _ _ _ _ (env_stepped Or T a e)) as (C & Sp & _).
      assert (H' : snd (env_step Or T a e) = Err AssertionError) by (rewrite H; auto).
      apply step_errs in H' as [H'|[H'|[H'|(_ & st & ov & sp' & A & B & D & E)]]]; auto; [cbn in H'; intuition discriminate|].
      rewrite H in *. cbn [fst] in *. right; right. rewrite Sp, Es in D. injection D as <-.
      destruct (Nan Hb e') with (st := st) (ov := ov) as (v & I & Nv); auto; [|congruence|eauto 8].
      rewrite C. apply Hg.
  Qed.

  Lemma shows_clip {NO : NumOrd F} (B : list (F * F)) X : List.length B = List.length X -> shows B X (clip_vec X (map fst B) (map snd B)).
  Proof.
    intros L. split; [rewrite clip_vec_length; rewrite ?map_length; auto|]. split; auto.
    revert X L. induction B as [|b B IH]; intros [|x X] L [|k] b' x' v Hb Hx Hv; try discriminate.
    - cbn in Hb, Hx, Hv. injection Hb as <-. injection Hx as <-. injection Hv as <-. unfold shown. destruct (nisnan x) eqn:E; [apply np_clip_nan; auto|].
      intros Le. apply clip_clamped; auto.
    - cbn in Hb, Hx, Hv. injection L as L. apply (IH X L k); auto.
  Qed.

  (** C40, for one environment *)
  Lemma observation_list_at {NO : NumOrd F} : forall (g : G) s0 l rs, sim_init nw dt lamb = Ok s0 -> ~ bad_args K dt gamma lamb o auxb ->
    tuples_of o = Some l -> Forall2 (fun t r => requested s0 K t = Some r) l rs -> (forall t, In t l -> ~ i_magn_default t) ->
    exists e0 B, env_init nw o K dt gamma lamb auxb clip g = Ok e0 /\ e_sim e0 = s0 /\
      e_ospace e0 = Some (mkBox (map fst B) (map snd B) false) /\ map Some B = map (req_bound s0 auxb) (List.concat rs) /\
      forall (T : task F G) e, good nw o K dt gamma lamb auxb clip g e0 e -> e_ospace e = Some (mkBox (map fst B) (map snd B) false) ->
        (forall Or seed e' ob, env_reset Or T seed e = (e', Ok ob) ->
           exists st X, e_state e' = Some st /\ map Some X = map (req_value e' st) (List.concat rs) /\ shows B X ob) /\
        (forall Or a e' out, env_step Or T a e = (e', Ok out) -> so_terminated out = false ->
           exists st X, e_state e' = Some st /\ map Some X = map (req_value e' st) (List.concat rs) /\ shows B X (so_obs out)).
  Proof.
    intros g s0 l rs Hs Hb Hl Hr Hd.
    destruct (tuples_items s0 K l rs Hr Hd) as (l1 & items & I1 & I2 & I3 & I4).
    assert (Ha : forall lb, auxb = Some lb -> List.length lb = Z.to_nat K).
    { intros lb ->. destruct (Z.eq_dec (Z.of_nat (List.length lb)) K) as [E|E]; [lia|]. exfalso. apply Hb. unfold bad_args. do 6 right. eauto. }
    destruct (items_bounds s0 K auxb items I3 Ha) as (B & B1 & B2).
    assert (Hc : check_env_args K dt lamb gamma o auxb (get_state_space s0) = Ok tt).
    { destruct (args_cases s0 K dt gamma lamb o auxb) as (_ & _ & A). rewrite (A Hb). destruct o as [|lo|f|]; auto. cbn in Hl. injection Hl as ->.
      unfold check_observation_vars. apply (foldM_unit (check_obs_tuple (get_state_space s0) K)). apply Forall_forall. intros t It. apply tuple_iff. left.
      clear -Hr It. induction Hr; [destruct It|]. destruct It as [<-|It]; auto. congruence. }
    assert (Hbo : build_observation s0 (Z.to_nat K) (svals_of s0 (Z.to_nat K)) o = Ok (Some items, None)).
    { destruct o as [|lo|f|]; try discriminate; cbn in Hl; injection Hl as <-.
      - cbn [mapM state_tuples add_default_unit bind] in I1. injection I1 as <-. cbn [build_observation].
        assert (Ev : expand_all s0 (Z.to_nat K) state_items = Ok (svals_of s0 (Z.to_nat K))) by reflexivity. unfold state_items in Ev. rewrite Ev in I2. injection I2 as <-. reflexivity.
      - cbn [build_observation]. rewrite I1. cbn [bind]. rewrite I2. reflexivity. }
    pose (e0 := mkEnv (Z.to_nat K) gamma (clip_arg clip) auxb s0 (svals_of s0 (Z.to_nat K)) (Some items) None (build_action_space s0) (Some (mkBox (map fst B) (map snd B) false)) None 0 n0 n0 None g).
    assert (E0 : env_init nw o K dt gamma lamb auxb clip g = Ok e0).
    { unfold env_init. rewrite Hs. cbn [bind]. rewrite Hc. cbn [bind].
      assert (Ev : expand_all s0 (Z.to_nat K) state_items = Ok (svals_of s0 (Z.to_nat K))) by reflexivity. rewrite Ev. cbn [bind]. rewrite Hbo. cbn [bind]. rewrite B1. reflexivity. }
    exists e0, B. split; [exact E0|]. split; [reflexivity|]. split; [reflexivity|]. split; [rewrite B2, I4; reflexivity|].
    intros T e Hg Es.
    destruct (ids_ex _ _ _ _ Hs) as (devs & loads & gens & dess & D1 & D2 & D3 & D4).
    (* a fresh simulator shows the requested entries *)
    assert (Show : forall (e' : env F G) st ov, econst e' = econst e0 -> e_ospace e' = Some (mkBox (map fst B) (map snd B) false) -> sm_state (e_sim e') = Some (gather_state (e_sim e')) -> e_state e' = Some st ->
      (Z.to_nat K <= List.length st)%nat -> observe e' st = Ok ov -> exists X, map Some X = map (req_value e' st) (List.concat rs) /\ shows B X (ov_vec ov)).
    { intros e' st ov C Es' Hf Hst L Ob. pose proof (econst_strip _ _ C) as S. apply econst_inv in C as (C0 & _ & _ & _ & _ & _ & C1 & C2 & _).
      destruct (items_values s0 (e_sim e') K e' st items I3 S Hf Hst C0 L) as (X & X1 & X2).
      exists X. split; [rewrite X2, I4; auto|]. unfold observe in Ob. rewrite C2, C1, Es' in Ob. cbn [e_ofun e_ovals e0 bx_lo bx_hi] in Ob. rewrite X1 in Ob. cbn [bind] in Ob.
      injection Ob as <-. cbn [ov_vec]. apply shows_clip. pose proof (f_equal (@List.length _) X2) as LX. pose proof (f_equal (@List.length _) B2) as LB. rewrite !map_length in LX, LB. congruence. }
    split.
    - intros Or seed e' ob H. pose proof (env_reset_const _ _ _ _ _ _ H) as (C & Sp & _). specialize (Sp _ Es).
      destruct (gd_reset_inv _ _ _ _ _ _ devs gens dess Hg H D1 D3 D4) as (k & init & st & _ & _ & (init' & A1 & _ & A3) & A4 & _ & A6 & A7 & A8 & A9).
      rewrite A4 in A1. cbn in A1. injection A1 as ->.
      exists st. unfold observed in A9. rewrite Sp in A9. destruct (observe e' st) as [ov|] eqn:Ob; [|discriminate]. destruct (box_contains _ ov); [|discriminate]. injection A9 as <-.
      destruct (Show e' st ov) as (X & X1 & X2); eauto.
      + rewrite C. apply Hg.
      + rewrite A6. apply (call_fresh (e_sim e0) (CReset Or init')). cbn [returned]. change (e_sim e0) with s0. cbn [e_sim e0] in A3. rewrite A3. auto.
      + destruct A8 as (La & M). pose proof (f_equal (@List.length _) M) as Ml. rewrite !app_length, !map_length in Ml. lia.
    - intros Or a e' out H Ht. destruct (gd_step_inv _ _ _ _ _ _ Hg H) as [(_ & _ & _ & sp' & _ & ->)|(st0 & vars & el & pen & conv & L)]; [discriminate|].
      destruct conv.
      + destruct (lv_conv _ _ _ _ _ _ _ _ _ _ _ L eq_refl) as (_ & _ & st & ov & sp' & A & Ob & E & Bc & -> & Ly). cbn [so_obs].
        pose proof (stepped_const _ _ _ _ _ _ (env_stepped Or T a e)) as (C & Sp & _). rewrite H in C, Sp. cbn [fst] in C, Sp.
        exists st. destruct (Show e' st ov) as (X & X1 & X2); eauto.
        * rewrite C. apply Hg.
        * congruence.
        * destruct (lv_trans _ _ _ _ _ _ _ _ _ _ _ L) as (fl & rr & Tr). apply transition_ok in Tr as (_ & _ & ds & v & i & T1). apply trans_fresh in T1. apply T1.
        * destruct (Ly _ _ _ D1 D3 D4) as (La & M). pose proof (f_equal (@List.length _) M) as Ml. rewrite !app_length, !map_length in Ml. lia.
      + destruct (lv_coll _ _ _ _ _ _ _ _ _ _ _ L eq_refl) as (_ & _ & _ & rw & sp' & _ & _ & ->). discriminate.
  Qed.
  (** C40 (partial: see the refutations below).  A list of documented tuples, none of which leaves out the unit of branch_i_magn, is
      accepted; the observation space is made of the advertised bounds of the requested entries, and every
      observation shows the requested entries. *)
  Theorem C40_observation_list_partial {NO : NumOrd F} : forall (g : G) s0 l rs, sim_init nw dt lamb = Ok s0 -> ~ bad_args K dt gamma lamb o auxb ->
    tuples_of o = Some l -> Forall2 (fun t r => requested s0 K t = Some r) l rs -> (forall t, In t l -> ~ i_magn_default t) ->
    exists e0 B, env_init nw o K dt gamma lamb auxb clip g = Ok e0 /\ e_sim e0 = s0 /\
      e_ospace e0 = Some (mkBox (map fst B) (map snd B) false) /\ map Some B = map (req_bound s0 auxb) (List.concat rs) /\
      forall (T : task F G) cs, let e := erun T e0 cs in
        (forall Or seed e' ob, env_reset Or T seed e = (e', Ok ob) ->
           exists st X, e_state e' = Some st /\ map Some X = map (req_value e' st) (List.concat rs) /\ shows B X ob) /\
        (forall Or a e' out, env_step Or T a e = (e', Ok out) -> so_terminated out = false ->
           exists st X, e_state e' = Some st /\ map Some X = map (req_value e' st) (List.concat rs) /\ shows B X (so_obs out)).
  Proof.
    intros g s0 l rs Hs Hb Hl Hr Hd. destruct (observation_list_at g s0 l rs Hs Hb Hl Hr Hd) as (e0 & B & E0 & A1 & A2 & A3 & A). exists e0, B. split; [exact E0|]. do 3 (split; [assumption|]).
    intros T cs e. apply A; [apply (good_erun _ _ _ _ _ _ _ _ _ _ T cs E0)|apply erun_ospace; exact A2].
  Qed.
End PropObs.
