(** The environment: construction, state vector, observations. *)
From Coq Require Import Permutation Sorted.
From Verif Require Import Base Num Devices BusBranch CheckNetwork LoadFlow Simulator EnvArgs Env LibBase LibNum LibSim
  SpecNet ProofNet LibInit SpecSim ProofSim ProofObs ProofHist ProofReset SpecEnv ProofEnv ProofStep.
Local Open Scope string_scope.
Local Open Scope list_scope.
Local Open Scope num_scope.

Lemma mapM_map_ok {A B C} (f : B -> res C) (g : A -> B) (h : A -> C) l : (forall a, In a l -> f (g a) = Ok (h a)) -> mapM f (map g l) = Ok (map h l).
Proof. induction l as [|a l IH]; intros H; cbn; auto. rewrite (H a), IH by (intros; try apply H; cbn; auto). auto. Qed.
Lemma skipn_nth {A} (l : list A) k a : nth_error l k = Some a -> skipn k l = a :: skipn (S k) l.
Proof. revert k; induction l as [|b l IH]; intros [|k] H; try discriminate; cbn in *; [congruence|]. rewrite (IH _ H). destruct l; auto. Qed.

Section State.
  Context {F G : Type} {N : Num F}.
  Notation env := (env F G).
  Notation task := (task F G).

  Definition svals_of (s : sim F) (K : nat) : list obs_item :=
    [ mkItem "dev_p" (NList (map (fun d => EId (d_id d)) (sm_devs s))) (Some "MW");
      mkItem "dev_q" (NList (map (fun d => EId (d_id d)) (sm_devs s))) (Some "MVAr");
      mkItem "des_soc" (NList (map (fun d => EId (d_id d)) (filter is_stor (sm_devs s)))) (Some "MWh");
      mkItem "gen_p_max" (NList (map (fun d => EId (d_id d)) (filter is_nsgen (sm_devs s)))) (Some "MW");
      mkItem "aux" (NList (map (fun i => EId (Z.of_nat i)) (seq 0 K))) None ].

  Record einit nw o K dt gamma lamb auxb clip (g : G) (e0 : env) : Prop := mkEinit {
    ei_sim : sim_init nw dt lamb = Ok (e_sim e0);
    ei_args : check_env_args K dt lamb gamma o auxb (get_state_space (e_sim e0)) = Ok tt;
    ei_K : e_K e0 = Z.to_nat K;
    ei_gamma : e_gamma e0 = gamma;
    ei_clip : e_clip e0 = clip_arg clip;
    ei_auxb : e_auxb e0 = auxb;
    ei_svals : e_svals e0 = svals_of (e_sim e0) (e_K e0);
    ei_obs : build_observation (e_sim e0) (e_K e0) (e_svals e0) o = Ok (e_ovals e0, e_ofun e0);
    ei_aspace : e_aspace e0 = build_action_space (e_sim e0);
    ei_ospace : observation_bounds (get_state_space (e_sim e0)) auxb (e_ovals e0) = Ok (e_ospace e0);
    ei_term : e_term e0 = None; ei_time : e_time e0 = 0%Z; ei_state : e_state e0 = None; ei_rng : e_rng e0 = g }.
  Lemma env_init_inv nw o K dt gamma lamb auxb clip (g : G) (e0 : env) :
    env_init nw o K dt gamma lamb auxb clip g = Ok e0 -> einit nw o K dt gamma lamb auxb clip g e0.
  Proof.
    unfold env_init. intros H. apply bind_ok in H as (s & Hs & H). apply bind_ok in H as ([] & Ha & H).
    apply bind_ok in H as (sv & Hsv & H). assert (Ev : expand_all s (Z.to_nat K) state_items = Ok (svals_of s (Z.to_nat K))) by reflexivity.
    apply bind_ok in H as ((ov, off) & Hb & H). apply bind_ok in H as (os & Ho & H). injection H as <-.
    constructor; cbn; auto; congruence.
  Qed.
  Lemma args_K nw o K dt gamma lamb auxb clip (g : G) (e0 : env) : einit nw o K dt gamma lamb auxb clip g e0 -> (0 <= K)%Z.
  Proof. intros H. pose proof (ei_args _ _ _ _ _ _ _ _ _ _ H) as A. unfold check_env_args in A. apply bind_ok in A as ([] & A & _). apply raise_if_ok in A. lia. Qed.

  (** ---- the action space ---- *)
  Lemma sort_map_devs (f : device F -> F * F) p (s : sim F) : Sorted Z.lt (map d_id (sm_devs s)) ->
    sort_by fst (map (fun d => (d_id d, f d)) (filter p (sm_devs s))) = map (fun d => (d_id d, f d)) (filter p (sm_devs s)).
  Proof.
    intros H. apply sort_by_id. rewrite map_map. cbn. apply (sorted_filter d_id p) in H.
    exact H.
  Qed.
  Lemma action_space_bounds nw dt lamb (s0 : sim F) gens dess : sim_init nw dt lamb = Ok s0 -> ids_of nw GENS gens -> ids_of nw STORS dess ->
    exists B, map Some B = bounds_of s0 "dev_p" "MW" gens ++ bounds_of s0 "dev_q" "MVAr" gens ++
                           bounds_of s0 "dev_p" "MW" dess ++ bounds_of s0 "dev_q" "MVAr" dess /\
              build_action_space s0 = mkBox (map fst B) (map snd B) false.
  Proof.
    intros H Hg Hd. destruct (ids_lists _ _ _ _ _ H eq_refl) as (_ & _ & Lg & Ld). rewrite (Lg _ Hg), (Ld _ Hd).
    pose proof (static_nodup _ _ _ _ _ H eq_refl) as ND. destruct (init_dev_types _ _ _ _ H) as (So & _).
    unfold build_action_space, get_action_space. rewrite !sort_map_devs by auto.
    assert (P : forall p, map Some (map (fun d => (d_pmin d * sm_base s0, d_pmax d * sm_base s0)) (filter p (sm_devs s0))) = bounds_of s0 "dev_p" "MW" (map d_id (filter p (sm_devs s0)))).
    { intros p. unfold bounds_of. rewrite !map_map. apply map_ext_in. intros d I. apply filter_In in I as (I & _).
      erewrite (bound_dev s0 "dev_p" "MW" (fun _ => true)); [..|reflexivity|auto|auto|auto]. reflexivity. }
    assert (Q : forall p, map Some (map (fun d => (d_qmin d * sm_base s0, d_qmax d * sm_base s0)) (filter p (sm_devs s0))) = bounds_of s0 "dev_q" "MVAr" (map d_id (filter p (sm_devs s0)))).
    { intros p. unfold bounds_of. rewrite !map_map. apply map_ext_in. intros d I. apply filter_In in I as (I & _).
      erewrite (bound_dev s0 "dev_q" "MVAr" (fun _ => true)); [..|reflexivity|auto|auto|auto]. reflexivity. }
    eexists. split; [rewrite <- !P, <- !Q, <- !map_app; reflexivity|]. rewrite !map_app, !map_map. reflexivity.
  Qed.

  (** ---- the state vector ---- *)
  Lemma py_nth_aux {A} (st : list A) K : (K <= List.length st)%nat ->
    mapM (fun n => py_nth st (Z.of_nat n - Z.of_nat K)) (seq 0 K) = Ok (skipn (List.length st - K) st).
  Proof.
    intros L. assert (G1 : forall j, (j <= K)%nat -> mapM (fun n => py_nth st (Z.of_nat n - Z.of_nat K)) (seq (K - j) j) = Ok (skipn (List.length st - j) st)).
    2:{ specialize (G1 K (le_n K)). rewrite Nat.sub_diag in G1. exact G1. }
    induction j as [|j IH]; intros Lj; cbn [seq mapM].
    - rewrite Nat.sub_0_r, skipn_all. reflexivity.
    - assert (Hlt : (List.length st - S j < List.length st)%nat) by lia.
      destruct (nth_error st (List.length st - S j)) as [a|] eqn:E; [|apply nth_error_None in E; lia].
      assert (P : py_nth st (Z.of_nat (K - S j) - Z.of_nat K) = Ok a).
      { unfold py_nth, py_index. replace (Z.of_nat (K - S j) - Z.of_nat K)%Z with (- Z.of_nat (S j))%Z by lia.
        replace ((0 <=? - Z.of_nat (S j)) && (- Z.of_nat (S j) <? Z.of_nat (List.length st)))%Z with false by (symmetry; apply andb_false_intro1, Z.leb_gt; lia).
        replace ((- Z.of_nat (List.length st) <=? - Z.of_nat (S j)) && (- Z.of_nat (S j) <? 0))%Z with true by (symmetry; apply andb_true_intro; split; [apply Z.leb_le|apply Z.ltb_lt]; lia).
        unfold nth_res. replace (Z.to_nat _) with (List.length st - S j)%nat by lia. rewrite E. auto. }
      rewrite P. cbn [bind]. replace (S (K - S j)) with (K - j)%nat by lia. rewrite IH by lia. cbn [bind].
      rewrite (skipn_nth _ _ _ E). do 3 f_equal. lia.
  Qed.

  Lemma extract_obs (e : env) k u ns n full units : sm_state (e_sim e) = Some full -> dget String.eqb full k = Some units ->
    extract_entry e (mkItem k ns (Some u)) n = match obs (e_sim e) k u n with Some v => Ok v | None => Err KeyError end.
  Proof.
    intros Hf Hk. unfold extract_entry, obs, read. rewrite Hf. cbn [oi_key oi_unit]. rewrite Hk. unfold dgetE.
    destruct (dget String.eqb units u); cbn [bind]; auto.
  Qed.

  Lemma construct_ok nw dt lamb (s0 : sim F) (e : env) st : sim_init nw dt lamb = Ok s0 -> strip (e_sim e) = strip s0 ->
    e_svals e = svals_of s0 (e_K e) -> sm_state (e_sim e) = Some (gather_state (e_sim e)) -> e_state e = Some st -> (e_K e <= List.length st)%nat ->
    exists st', construct_state e = Ok st' /\
      map Some st' = reads (e_sim e) "dev_p" "MW" (map d_id (sm_devs s0)) ++ reads (e_sim e) "dev_q" "MVAr" (map d_id (sm_devs s0)) ++
                     reads (e_sim e) "des_soc" "MWh" (map d_id (filter is_stor (sm_devs s0))) ++
                     reads (e_sim e) "gen_p_max" "MW" (map d_id (filter is_nsgen (sm_devs s0))) ++ map Some (skipn (List.length st - e_K e) st).
  Proof.
    intros H S Hv Hf Hst L. set (s := e_sim e) in *. set (base := sm_base s).
    pose proof (static_nodup _ _ _ _ _ H S) as ND.
    assert (Hd : forall p : device F -> bool, (forall d, p d = p (strip_dev d)) -> map d_id (filter p (sm_devs s0)) = map d_id (filter p (sm_devs s))).
    { intros p Hp. apply (map_strip strip_dev d_id); [reflexivity|]. apply strip_dev_filter; auto. symmetry. apply strip_devs; auto. }
    assert (H1 : map d_id (sm_devs s0) = map d_id (sm_devs s)) by (symmetry; apply dev_ids_static; auto).
    assert (H2 : map d_id (filter is_stor (sm_devs s0)) = map d_id (filter is_stor (sm_devs s))) by (apply Hd; reflexivity).
    assert (H3 : map d_id (filter is_nsgen (sm_devs s0)) = map d_id (filter is_nsgen (sm_devs s))) by (apply Hd; reflexivity).
    rewrite H1, H2, H3.
    assert (R : forall k u p f ns l, In (k, u, (p, f)) (dev_quants base) -> l = filter p (sm_devs s) -> dget String.eqb (gather_state s) k <> None ->
      mapM (extract_entry e (mkItem k ns (Some u))) (map (fun d => EId (d_id d)) l) = Ok (map f l) /\
      map Some (map f l) = reads s k u (map d_id l)).
    { intros k u p f ns l Q -> Hk. assert (Rd : forall d, In d (filter p (sm_devs s)) -> obs s k u (EId (d_id d)) = Some (f d)).
      { intros d I. apply filter_In in I as (I & P). unfold obs. rewrite Hf. apply (read_dev s k u p f d Q ND I P). }
      split.
      - apply mapM_map_ok. intros d I. destruct (dget String.eqb (gather_state s) k) as [us|] eqn:Ek; [|congruence].
        rewrite (extract_obs e k u ns _ _ _ Hf Ek). fold s. rewrite (Rd _ I). auto.
      - unfold reads. rewrite !map_map. apply map_ext_in. intros d I. rewrite (Rd _ I). auto. }
    assert (Ft : filter (fun _ : device F => true) (sm_devs s) = sm_devs s) by (clear; induction (sm_devs s); cbn; f_equal; auto).
    destruct (R "dev_p" "MW" (fun _ => true) (fun d => d_p d * base) (NList (map (fun d => EId (d_id d)) (sm_devs s0))) (sm_devs s)) as (P1 & P2); [cbn; tauto|auto|discriminate|].
    destruct (R "dev_q" "MVAr" (fun _ => true) (fun d => d_q d * base) (NList (map (fun d => EId (d_id d)) (sm_devs s0))) (sm_devs s)) as (Q1 & Q2); [cbn; tauto|auto|discriminate|].
    destruct (R "des_soc" "MWh" is_stor (fun d => (match d_soc d with Some v => v | None => n0 end) * base) (NList (map (fun d => EId (d_id d)) (filter is_stor (sm_devs s0)))) (filter is_stor (sm_devs s))) as (S1 & S2); [cbn; tauto|auto|discriminate|].
    destruct (R "gen_p_max" "MW" is_nsgen (fun d => d_ppot d * base) (NList (map (fun d => EId (d_id d)) (filter is_nsgen (sm_devs s0)))) (filter is_nsgen (sm_devs s))) as (G1 & G2); [cbn; tauto|auto|discriminate|].
    eexists. split.
    - unfold construct_state, extract_vars. rewrite Hv. unfold svals_of. cbn [mapM item_nodes oi_nodes bind].
      rewrite <- (map_map d_id EId (sm_devs s0)), H1, (map_map d_id EId).
      rewrite <- (map_map d_id EId (filter is_stor (sm_devs s0))), H2, (map_map d_id EId).
      rewrite <- (map_map d_id EId (filter is_nsgen (sm_devs s0))), H3, (map_map d_id EId).
      rewrite <- (map_map d_id EId (sm_devs s0)), H1, (map_map d_id EId) in P1, Q1.
      rewrite <- (map_map d_id EId (filter is_stor (sm_devs s0))), H2, (map_map d_id EId) in S1.
      rewrite <- (map_map d_id EId (filter is_nsgen (sm_devs s0))), H3, (map_map d_id EId) in G1.
      rewrite P1, Q1, S1, G1. cbn [bind].
      assert (A : forall ns, mapM (extract_entry e (mkItem "aux" ns None)) (map (fun i => EId (Z.of_nat i)) (seq 0 (e_K e))) = Ok (skipn (List.length st - e_K e) st)).
      { intros ns. rewrite <- (py_nth_aux st (e_K e) L). rewrite mapM_map. apply mapM_ext. intros n _.
        unfold extract_entry. fold s. rewrite Hf. cbn [oi_key]. change (dget String.eqb (gather_state s) "aux") with (@None (list (string * list (eid * F)))). cbn [String.eqb Ascii.eqb Bool.eqb]. rewrite Hst. auto. }
      rewrite A. cbn [bind]. reflexivity.
    - cbn [List.concat]. rewrite app_nil_r, !map_app. rewrite <- P2, <- Q2, <- S2, <- G2. reflexivity.
  Qed.
End State.
