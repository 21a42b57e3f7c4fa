(** The environment: what successful calls establish. *)
From Coq Require Import Permutation Sorted.
From Verif Require Import Base Num Devices BusBranch CheckNetwork LoadFlow Simulator EnvArgs Env LibBase LibNum LibSim
  SpecNet ProofNet LibInit SpecSim ProofSim ProofObs ProofHist ProofReset SpecEnv ProofEnv ProofStep ProofState ProofDraw.
Local Open Scope string_scope.
Local Open Scope list_scope.
Local Open Scope num_scope.

Section EnvOk.
  Context {F G : Type} {N : Num F}.
  Notation env := (env F G).
  Notation task := (task F G).
  Context {nw : network F} {o : obs_arg F} {K : Z} {dt gamma lamb : F} {auxb : option (list (F * F))} {clip : option (option F * option F)} {g : G} {e0 : env}.
  Notation good := (good nw o K dt gamma lamb auxb clip g e0).

  Lemma finish_observed (e : env) st : snd (finish_obs e st) = observed (fst (finish_obs e st)) st.
  Proof.
    unfold finish_obs, observed. destruct (observe e st) as [ov|x] eqn:E.
    - destruct (e_ospace e) as [sp|] eqn:Es; cbn [e_ospace env_set_ospace].
      + rewrite Es. destruct (box_contains sp ov) eqn:B; cbn [fst snd]; rewrite E, Es, B; auto.
      + assert (E' : forall b, observe (env_set_ospace e b) st = Ok ov).
        { intros b. unfold observe in *. cbn. destruct (e_ofun e); [auto|]. rewrite Es in E. destruct (e_ovals e); discriminate. }
        destruct (box_contains _ ov) eqn:B; cbn [fst snd]; rewrite E'; cbn [e_ospace env_set_ospace]; rewrite B; auto.
    - cbn [fst snd]. rewrite E. auto.
  Qed.

  Lemma gd_reset Or (T : task) seed e k devs gens dess : good e -> (S k < 100)%nat ->
    (forall j, (j < k)%nat -> attempt Or (e_sim e0) (state_size e0) (draw T (gen_at T seed e) j) false) ->
    attempt Or (e_sim e0) (state_size e0) (draw T (gen_at T seed e) k) true ->
    ids_of nw ALL devs -> ids_of nw GENS gens -> ids_of nw STORS dess ->
    exists init e' st, fst (env_reset Or T seed e) = e' /\ draw T (gen_at T seed e) k = (Ok init, e_rng e') /\ List.length init = state_size e0 /\
      e_sim e' = fst (sim_reset Or init (e_sim e0)) /\ e_state e' = Some st /\
      state_layout devs gens dess (Z.to_nat K) (e_sim e') (skipn (List.length init - Z.to_nat K) init) st /\
      snd (env_reset Or T seed e) = observed e' st.
  Proof.
    intros Hg Lk Hb Ht I1 I3 I4. rewrite env_reset_eq.
    destruct (resetting_const T seed e) as (R1 & _ & R3 & _).
    assert (Hg1 : good (resetting T seed e)) by (eapply good_const; eauto).
    destruct (loop_first Or T (e_sim e0) (state_size e0) k 100 (resetting T seed e)) as (init & e1 & E & C & D & St & Si).
    - apply (gd_strip _ Hg1).
    - apply state_size_static, Hg1.
    - lia.
    - rewrite resetting_rng. auto.
    - rewrite resetting_rng. auto.
    - rewrite resetting_rng in D. rewrite E. replace (Nat.eqb (S k) 100) with false by (symmetry; apply Nat.eqb_neq; lia).
      assert (Hg2 : good e1) by (eapply good_const; eauto).
      destruct Ht as (init' & A1 & A2 & A3). rewrite D in A1. cbn in A1. injection A1 as <-.
      assert (Fr : fresh (e_sim e1)).
      { rewrite Si. apply (call_fresh (e_sim e0) (CReset Or init)). cbn. rewrite A3. auto. }
      destruct (gd_construct e1 init Hg2 (proj1 Fr) St) with (devs := devs) (gens := gens) (dess := dess) as (st & Cs & L); auto.
      { rewrite A2, (gd_K _ Hg2). unfold state_size. rewrite (ei_K _ _ _ _ _ _ _ _ _ _ (gd_init _ _ _ _ _ _ _ _ _ _ _ Hg)). lia. }
      rewrite Cs. rewrite finish_observed. destruct (finish_obs (env_set_state e1 (Some st)) st) as (e', r) eqn:Ef.
      pose proof (finish_obs_const _ _ _ _ Ef) as (_ & _ & _ & _ & _ & F6 & F7 & F8 & _). cbn [fst].
      exists init, e', st. rewrite F7, F8, F6. cbn. repeat split; auto; apply L.
  Qed.

  Lemma gd_reset_inv Or (T : task) seed e e' ob devs gens dess : good e -> env_reset Or T seed e = (e', Ok ob) ->
    ids_of nw ALL devs -> ids_of nw GENS gens -> ids_of nw STORS dess ->
    exists k init st, (S k < 100)%nat /\ (forall j, (j < k)%nat -> attempt Or (e_sim e0) (state_size e0) (draw T (gen_at T seed e) j) false) /\
      attempt Or (e_sim e0) (state_size e0) (draw T (gen_at T seed e) k) true /\
      draw T (gen_at T seed e) k = (Ok init, e_rng e') /\ List.length init = state_size e0 /\
      e_sim e' = fst (sim_reset Or init (e_sim e0)) /\ e_state e' = Some st /\
      state_layout devs gens dess (Z.to_nat K) (e_sim e') (skipn (List.length init - Z.to_nat K) init) st /\
      observed e' st = Ok ob.
  Proof.
    intros Hg H I1 I3 I4. destruct (resetting_const T seed e) as (R1 & _ & R3 & _).
    assert (Hg1 : good (resetting T seed e)) by (eapply good_const; eauto).
    pose proof H as H'. rewrite env_reset_eq in H'. destruct (reset_loop Or T 100 (resetting T seed e)) as (e1, [[]|x]) eqn:E; [|discriminate].
    destruct (loop_inv Or T (e_sim e0) (state_size e0) _ _ _ (gd_strip _ Hg1) (state_size_static _ _ (gd_const _ _ _ _ _ _ _ _ _ _ _ Hg1)) E) as (k & Lk & Hb & Ht).
    rewrite resetting_rng in Hb, Ht.
    destruct (gd_reset Or T seed e k devs gens dess Hg Lk Hb Ht I1 I3 I4) as (init & e2 & st & A1 & A2 & A3 & A4 & A5 & A6 & A7).
    rewrite H in A1, A7. cbn [fst snd] in A1, A7. subst e2. exists k, init, st. auto 12.
  Qed.

  Lemma write_aux_skip (st aux st1 : list F) n : List.length aux = n -> write_aux st aux n = Ok st1 ->
    (n <= List.length st)%nat /\ List.length st1 = List.length st /\ skipn (List.length st1 - n) st1 = aux.
  Proof.
    intros L. unfold write_aux. destruct (Nat.leb_spec n (List.length st)); [|discriminate]. intros E. injection E as <-.
    assert (Ll : List.length (firstn (List.length st - n) st) = (List.length st - n)%nat) by (rewrite firstn_length; lia).
    rewrite app_length, Ll, L. split; [auto|]. split; [lia|].
    replace (List.length st - n + n - n)%nat with (List.length (firstn (List.length st - n) st)) by lia.
    rewrite skipn_app, skipn_all, Nat.sub_diag. reflexivity.
  Qed.
  Lemma gd_items e : good e -> items_len (e_svals e) = state_size e.
  Proof.
    intros H. rewrite (gd_svals _ H). unfold items_len, svals_of, state_size. cbn [map item_len oi_nodes list_sum fold_right].
    rewrite !map_length, seq_length. destruct (strip_counts _ _ (gd_strip _ H)) as (-> & -> & ->). unfold n_device, n_des, n_nsgen. lia.
  Qed.

  (** What a successful, non-absorbed step did. *)
  Record live_step Or (T : task) a (e e' : env) (out : step_out F) st vars el pen (conv : bool) : Prop := mkLive {
    lv_valid : valid_action e a;
    lv_term : e_term e = Some false;
    lv_state : e_state e = Some st;
    lv_next : t_next T st (e_rng e) = (Ok vars, e_rng e');
    lv_size : List.length vars = (n_load (e_sim e) + n_nsgen (e_sim e) + e_K e)%nat;
    lv_trans : exists fl rr, transition Or (step_inputs e vars a) (e_sim e) = (e_sim e', Ok (fl, rr, el, pen, conv));
    lv_time : e_time e' = (e_time e + 1)%Z;
    lv_term' : e_term e' = Some (negb conv);
    lv_conv : conv = true -> e_eloss e' = clip_eloss e el /\ e_pen e' = clip_pen e pen /\
      exists st2 ov sp, e_state e' = Some st2 /\ observe e' st2 = Ok ov /\ e_ospace e' = Some sp /\ box_contains sp ov = true /\
        out = mkOut (ov_vec ov) (- (e_eloss e' + e_pen e')) false false /\
        forall devs gens dess, ids_of nw ALL devs -> ids_of nw GENS gens -> ids_of nw STORS dess ->
          state_layout devs gens dess (Z.to_nat K) (e_sim e') (skipn (n_load (e_sim e) + n_nsgen (e_sim e)) vars) st2;
    lv_coll : conv = false -> e_eloss e' = fst (e_clip e) /\ e_pen e' = snd (e_clip e) /\ e_state e' = Some (repeat n0 (state_size e0)) /\
      exists rw sp, pydiv (- snd (e_clip e)) (n1 - e_gamma e) = Ok rw /\ e_ospace e' = Some sp /\
        out = mkOut (repeat n0 (List.length (bx_lo sp))) rw true false }.

  Lemma gd_step_inv Or (T : task) a e e' out : good e -> env_step Or T a e = (e', Ok out) ->
    (e_term e = Some true /\ valid_action e a /\ e' = e /\ exists sp, e_ospace e = Some sp /\ out = mkOut (repeat n0 (List.length (bx_lo sp))) n0 true false) \/
    (exists st vars el pen conv, live_step Or T a e e' out st vars el pen conv).
  Proof.
    intros Hg H. pose proof (env_stepped Or T a e) as P. rewrite H in P. cbn [fst snd] in P.
    remember (Ok out) as r eqn:Er. destruct P; try discriminate.
    - left. unfold observation_N in H2. destruct (e_ospace e) as [sp|]; [|discriminate]. injection H2 as <-. injection Er as <-. eauto 6.
    - right. exists st, vars, el, pen, true.
      destruct (write_aux st _ (e_K e)) as [st1|x] eqn:W; [|destruct H7; congruence].
      assert (La : List.length (skipn (n_load (e_sim e) + n_nsgen (e_sim e)) vars) = e_K e) by (rewrite skipn_length; lia).
      destruct (write_aux_skip _ _ _ _ La W) as (W1 & W2 & W3).
      destruct (construct_state (env_set_state e1 (Some st1))) as [st2|x] eqn:Cs; [|destruct H7; congruence].
      destruct (observe (env_set_state e1 (Some st2)) st2) as [ov|x] eqn:Ob; [|destruct (e_ospace e); destruct H7; congruence].
      destruct (e_ospace e) as [sp|] eqn:Es; [|destruct H7; congruence].
      destruct (box_contains sp ov) eqn:B; destruct H7 as (-> & ->); [|discriminate]. injection Er as <-.
      assert (Hs : e_sim (env_set_time (env_set_state e1 (Some st2)) (e_time e + 1)) = s') by (subst e1; reflexivity).
      assert (Hg1 : good (env_set_state e1 (Some st1))).
      { eapply good_const; [exact Hg|]. subst e1. unfold econst; cbn. rewrite <- (strip_transition Or (step_inputs e vars a) (e_sim e)), H5. auto. }
      constructor; auto.
      + rewrite H3. subst e1. auto.
      + rewrite H5, Hs. eauto.
      + subst e1. auto.
      + intros _. split; [subst e1; auto|]. split; [subst e1; auto|]. exists st2, ov, sp.
        split; [reflexivity|]. split; [exact Ob|]. split; [subst e1; exact Es|]. split; [auto|]. split; [subst e1; reflexivity|].
        intros devs gens dess I1 I3 I4.
        destruct (gd_construct (env_set_state e1 (Some st1)) st1 Hg1) with (devs := devs) (gens := gens) (dess := dess) as (st3 & C3 & L3); auto.
        * subst e1. cbn. apply transition_ok in H5 as (_ & _ & ds & v & i & T1). apply trans_fresh in T1. apply T1.
        * subst e1. cbn. lia.
        * assert (st3 = st2) by congruence. subst st3. rewrite Hs. replace s' with (e_sim (env_set_state e1 (Some st1))) by (subst e1; reflexivity).
          rewrite <- (gd_K _ Hg) in *. rewrite W3 in L3. exact L3.
      + discriminate.
    - right. exists st, vars, el, pen, false. subst e1.
      destruct (pydiv (- snd (e_clip e)) (n1 - e_gamma e)) as [rw|x] eqn:Pd; [|destruct H7; congruence]. cbv zeta in H7.
      unfold observation_N in H7. destruct (e_ospace e) as [sp|] eqn:Es; [|destruct H7; congruence]. destruct H7 as (-> & ->). injection Er as <-.
      constructor; auto.
      + cbn. eauto.
      + discriminate.
      + intros _. cbn. repeat split; auto; [|exists rw, sp; auto].
        rewrite (gd_items _ Hg). do 2 f_equal. apply state_size_static, Hg.
  Qed.

  (** the errors of the reading of the state *)
  Definition read_errs : list exn := [AttributeError; KeyError; IndexError; TypeErr; ObsNotSupportedError].
  Lemma mapM_errs {A B} (f : A -> res B) (P : exn -> Prop) l x : (forall a y, f a = Err y -> P y) -> mapM f l = Err x -> P x.
  Proof.
    intros H. induction l as [|a l IH]; cbn; [discriminate|]. specialize (H a). destruct (f a) as [b|y]; cbn; [|intros E; injection E as <-; auto].
    destruct (mapM f l); cbn; [discriminate|]. intros E; injection E as <-. auto.
  Qed.
  Lemma extract_errs (e : env) l x : extract_vars e l = Err x -> In x read_errs.
  Proof.
    unfold extract_vars. destruct (mapM _ l) as [b|y] eqn:E; cbn [bind]; [discriminate|]. intros H; injection H as <-. revert E. apply (mapM_errs _ (fun y => In y read_errs)). intros it z.
    unfold item_nodes. destruct (oi_nodes it) as [|ns|]; cbn [bind]; try (intros H; injection H as <-; cbn; tauto). apply (mapM_errs _ (fun y => In y read_errs)). intros n w.
    unfold extract_entry, dgetE, py_nth, nth_res. destruct (sm_state (e_sim e)) as [full|]; [|intros H; injection H as <-; cbn; tauto].
    destruct (dget String.eqb full (oi_key it)) as [us|].
    - destruct (oi_unit it); [|intros H; injection H as <-; cbn; tauto]. destruct (dget String.eqb us s); cbn [bind]; [|intros H; injection H as <-; cbn; tauto].
      destruct (dget eid_eqb l0 n); [discriminate|intros H; injection H as <-; cbn; tauto].
    - destruct (String.eqb (oi_key it) "aux"); [|intros H; injection H as <-; cbn; tauto]. destruct n; [|intros H; injection H as <-; cbn; tauto].
      destruct (e_state e) as [st|]; [|intros H; injection H as <-; cbn; tauto].
      destruct (py_index _ _); [|intros H; injection H as <-; cbn; tauto]. destruct (nth_error _ _); [discriminate|intros H; injection H as <-; cbn; tauto].
  Qed.
  Lemma observe_errs (e : env) st x : observe e st = Err x -> In x read_errs.
  Proof.
    unfold observe. destruct (e_ofun e); [discriminate|]. destruct (e_ovals e); [|intros H; injection H as <-; cbn; tauto]. destruct (e_ospace e); [|intros H; injection H as <-; cbn; tauto].
    pose proof (extract_errs e l). destruct (extract_vars e l) as [b0|y]; cbn [bind]; [discriminate|]. intros H0; injection H0 as <-. auto.
  Qed.
  Lemma extract_no (e : env) l : extract_vars e l <> Err EnvNextVarsError.
  Proof. intros H. apply extract_errs in H. cbn in H. intuition discriminate. Qed.
  Lemma observe_no (e : env) st : observe e st <> Err EnvNextVarsError.
  Proof. intros H. apply observe_errs in H. cbn in H. intuition discriminate. Qed.

  (** the simulator after a step on well-sized variables *)
  Lemma gd_step_sim Or (T : task) a e st vars gr inp loads gens dess : good e -> valid_action e a -> e_term e = Some false -> e_state e = Some st ->
    t_next T st (e_rng e) = (Ok vars, gr) -> ids_of nw LOADS loads -> ids_of nw GENS gens -> ids_of nw STORS dess ->
    List.length vars = (List.length loads + List.length gens + Z.to_nat K)%nat -> layout loads gens dess vars a inp ->
    e_sim (fst (env_step Or T a e)) = fst (transition Or inp (e_sim e)) /\
    (forall x, snd (transition Or inp (e_sim e)) = Err x -> snd (env_step Or T a e) = Err x) /\
    (snd (env_step Or T a e) = Err EnvNextVarsError -> snd (transition Or inp (e_sim e)) = Err EnvNextVarsError).
  Proof.
    intros Hg V Ht Hs Hn I2 I3 I4 L La. pose proof (gd_sim0 _ Hg) as Hi. pose proof (gd_strip _ Hg) as S.
    destruct (ids_lists _ _ _ _ _ Hi S) as (A1 & A2 & A3 & A4). pose proof (static_nodup _ _ _ _ _ Hi S) as ND.
    assert (E : transition Or (step_inputs e vars a) (e_sim e) = transition Or inp (e_sim e)).
    { apply transition_agree, (layout_agree _ vars a); [apply step_inputs_layout; auto|]. rewrite <- (A2 _ I2), <- (A3 _ I3), <- (A4 _ I4). auto. }
    assert (L' : List.length vars = (n_load (e_sim e) + n_nsgen (e_sim e) + e_K e)%nat).
    { rewrite L, (A2 _ I2), (A3 _ I3), (gd_K _ Hg), !map_length. reflexivity. }
    rewrite <- E.
    destruct (env_stepped Or T a e); try congruence.
    all: repeat match goal with H : _ = Some ?b, H' : _ = Some ?c |- _ => rewrite H in H'; injection H' as <- end;
         repeat match goal with H : _ = (Ok ?b, _), H' : _ = (Ok ?c, _) |- _ => rewrite H in H'; injection H' as <- <- end; try congruence.
    - rewrite H4. split; [reflexivity|]. cbn [fst snd]. split; [intros x0 Hx|intros Hx]; injection Hx as ->; reflexivity.
    - rewrite H4. cbn [fst snd]. subst e1. split; [|split; [discriminate|]].
      + repeat match type of H6 with context [match ?x with _ => _ end] => destruct x end; destruct H6 as (-> & _); reflexivity.
      + intros Hr. exfalso. subst r. unfold write_aux in H6. destruct (Nat.leb _ _); [|destruct H6; discriminate].
        match type of H6 with context [construct_state ?b] => pose proof (extract_no b (e_svals b)) as Q1; fold (construct_state b) in Q1; destruct (construct_state b) as [st2|x] end; [|destruct H6; congruence].
        match type of H6 with context [observe ?b ?c] => pose proof (observe_no b c) as Q2; destruct (observe b c) as [ov|x] end; [|destruct (e_ospace e); destruct H6; congruence].
        destruct (e_ospace e) as [sp|]; [|destruct H6; discriminate]. destruct (box_contains sp ov); destruct H6; discriminate.
    - rewrite H4. cbn [fst snd]. subst e1. split; [|split; [discriminate|]].
      + cbv zeta in H6. repeat match type of H6 with context [match ?x with _ => _ end] => destruct x end; destruct H6 as (-> & _); reflexivity.
      + intros Hr. exfalso. subst r. unfold pydiv in H6. destruct (_ =? _); [destruct H6; discriminate|]. cbv zeta in H6. unfold observation_N in H6.
        destruct (e_ospace e); destruct H6; discriminate.
  Qed.
End EnvOk.
