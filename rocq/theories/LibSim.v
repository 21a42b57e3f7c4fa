(** Which parts of a simulator the calls read and write. *)
From Verif Require Import Base Num Devices BusBranch CheckNetwork LoadFlow Simulator LibBase.
Local Open Scope num_scope.

Section LibSim.
  Context {F : Type} {N : Num F}.

  (** Everything that is fixed at construction, the rest being erased. *)
  Definition strip_dev (d : device F) : device F :=
    mkDev (d_id d) (d_bus d) (d_type d) (d_spec d) n0 n0
          (if is_nsgen d then n0 else d_ppot d) (if is_stor d then None else d_soc d).
  Definition strip_bus (b : bus F) : bus F :=
    mkBus (b_id b) (b_type b) (b_kv b) (b_vmax b) (b_vmin b) n0 n0 c0 c0
          (b_pmin b) (b_pmax b) (b_qmin b) (b_qmax b).
  Definition strip_br (b : branch F) : branch F :=
    mkBranch (ln_f b) (ln_t b) (ln_r b) (ln_x b) (ln_b b) (ln_rate b) (ln_tapm b) (ln_shift b)
             (ln_series b) (ln_shunt b) (ln_tap b) c0 c0 n0 n0 n0 n0 n0.
  Definition strip (s : sim F) : sim F :=
    mkSim (sm_dt s) (sm_lamb s) (sm_base s) (map strip_bus (sm_buses s))
          (map strip_br (sm_branches s)) (map strip_dev (sm_devs s)) (sm_Y s) None None.

  Lemma strip_set_pq d p q : strip_dev (d_set_pq d p q) = strip_dev d.
  Proof. reflexivity. Qed.
  Lemma strip_set_ppot d v : is_nsgen d = true -> strip_dev (d_set_ppot d v) = strip_dev d.
  Proof.
    intros H. unfold strip_dev, d_set_ppot, is_nsgen, is_gen, is_stor, d_slack in *; cbn in *.
    rewrite H; reflexivity.
  Qed.
  Lemma strip_set_soc d v : is_stor d = true -> strip_dev (d_set_soc d v) = strip_dev d.
  Proof.
    intros H. unfold strip_dev, d_set_soc, is_nsgen, is_gen, is_stor, d_slack in *; cbn in *.
    rewrite H; reflexivity.
  Qed.

  Lemma strip_dev_transition qp base dt inp d :
    strip_dev (fst (dev_transition qp base dt inp d)) = strip_dev d.
  Proof.
    unfold dev_transition. destruct (d_spec d) as [l|g|t] eqn:E.
    - destruct (dgetE Z.eqb (ti_load inp) (d_id d)); reflexivity.
    - destruct (d_slack d) eqn:Es; [reflexivity|].
      assert (Hn : is_nsgen d = true) by (unfold is_nsgen, is_gen; rewrite E, Es; reflexivity).
      destruct (dgetE Z.eqb (ti_pot inp) (d_id d)) as [pot|]; [|reflexivity].
      match goal with |- context [match ?m with Ok _ => _ | Err _ => _ end] => destruct m as [pq|] end;
        cbn [fst]; rewrite ?strip_set_pq, strip_set_ppot; auto.
    - match goal with |- context [match ?m with Ok _ => _ | Err _ => _ end] => destruct m as [[pq soc]|] end;
        cbn [fst]; auto.
      rewrite strip_set_soc, strip_set_pq; auto. unfold is_stor; cbn; rewrite E; auto.
  Qed.

  Lemma strip_devs_transition qp base dt inp ds :
    map strip_dev (fst (devs_transition qp base dt inp ds)) = map strip_dev ds.
  Proof.
    induction ds as [|d ds IH]; cbn; auto.
    pose proof (strip_dev_transition qp base dt inp d) as H.
    destruct (dev_transition qp base dt inp d) as [d' [u|e]]; cbn in *; rewrite H; auto.
    rewrite IH; auto.
  Qed.

  Lemma strip_bus_update v i ib b' : bus_update v i ib = Ok b' -> strip_bus b' = strip_bus (snd ib).
  Proof.
    unfold bus_update. intros H. inv_ok.
    destruct (b_slack (bus_set_vi (snd ib) x x0)); inv_ok; reflexivity.
  Qed.
  Lemma strip_slack_update bs d d' : dev_slack_update bs d = Ok d' -> strip_dev d' = strip_dev d.
  Proof.
    unfold dev_slack_update. destruct (d_slack d); intros H; inv_ok; auto.
    destruct (find_bus bs (d_bus d)); inv_ok; reflexivity.
  Qed.
  Lemma strip_branch_flow bs b b' : branch_flow bs b = Ok b' -> strip_br b' = strip_br b.
  Proof.
    unfold branch_flow. destruct (find_bus bs (ln_f b)), (find_bus bs (ln_t b)); intros H; inv_ok; reflexivity.
  Qed.

  Lemma strip_solve lin xtol s : strip (fst (solve_load_flow lin xtol s)) = strip s.
  Proof.
    unfold solve_load_flow.
    match goal with |- context [match ?m with Ok _ => _ | Err _ => _ end] =>
      destruct m as [[[[bs ds] brs] stable]|e] eqn:E end; auto.
    inv_ok. destruct x as [[v i] st]. inv_ok.
    unfold strip; cbn. f_equal.
    - rewrite (mapM_proj _ (fun ib => strip_bus (snd ib)) strip_bus _ _ (strip_bus_update v i) H0).
      rewrite <- (map_map snd strip_bus). unfold enumerate. rewrite enum_from_map_snd; auto.
    - eapply mapM_proj; eauto using strip_branch_flow.
    - eapply mapM_proj; eauto using strip_slack_update.
  Qed.

  Lemma strip_inj_bus ds bs : map strip_bus (map (bus_injection ds) bs) = map strip_bus bs.
  Proof. rewrite map_map. apply map_ext. reflexivity. Qed.

  Lemma strip_set_devs s ds : map strip_dev ds = map strip_dev (sm_devs s) ->
    strip (sim_set_devs s ds) = strip s.
  Proof. intros H. unfold strip; cbn. rewrite H; auto. Qed.

  Lemma strip_transition O inp s : strip (fst (transition O inp s)) = strip s.
  Proof.
    unfold transition.
    pose proof (strip_devs_transition (o_qp O) (sm_base s) (sm_dt s) inp (sm_devs s)) as H.
    destruct (devs_transition (o_qp O) (sm_base s) (sm_dt s) inp (sm_devs s)) as [ds [u|e]]; cbn [fst] in *.
    - set (s2 := sim_set_buses _ _).
      assert (H2 : strip s2 = strip s).
      { unfold s2, strip; cbn -[bus_injection]. rewrite strip_inj_bus, H; auto. }
      pose proof (strip_solve (o_lin O) xtol_pfe s2) as H3.
      destruct (solve_load_flow (o_lin O) xtol_pfe s2) as [s3 [c|e]]; cbn [fst] in *; [|congruence].
      rewrite <- H2, <- H3.
      destruct (compute_reward _) as [[[r e] p]|e]; cbn; reflexivity.
    - apply strip_set_devs; auto.
  Qed.

  Lemma strip_pre_soc inp d d' : dev_pre_soc inp d = Ok d' -> strip_dev d' = strip_dev d.
  Proof.
    unfold dev_pre_soc. destruct (d_spec d) eqn:E; intros H; inv_ok; auto.
    apply strip_set_soc. unfold is_stor; rewrite E; auto.
  Qed.
  Lemma strip_set_socs base soc ds : map strip_dev (fst (set_socs base soc ds)) = map strip_dev ds.
  Proof.
    revert soc; induction ds as [|d ds IH]; intros soc; cbn; auto.
    destruct (is_stor d) eqn:E.
    - destruct soc; cbn; auto. rewrite IH, strip_set_soc; auto.
    - cbn. rewrite IH; auto.
  Qed.

  Lemma strip_reset O init s : strip (fst (sim_reset O init s)) = strip s.
  Proof.
    unfold sim_reset.
    destruct (reset_inputs _ _ _ _ _ _ _) as [inp|]; [|reflexivity].
    destruct (mapM (dev_pre_soc inp) (sm_devs s)) as [ds|] eqn:E; [|reflexivity].
    apply (mapM_proj _ strip_dev strip_dev) in E; [|apply strip_pre_soc].
    pose proof (strip_transition O inp (sim_set_devs (sim_set_state s None) ds)) as H.
    destruct (transition O inp _) as [s1 [[[[[a b] c] d] conv]|e]]; cbn [fst] in *.
    - pose proof (strip_set_socs (sm_base s) (slice (2 * n_device s) (n_des s) init) (sm_devs s1)) as H2.
      assert (Hs : strip s1 = strip s) by (rewrite H; transitivity (strip (sim_set_state s None)); [apply strip_set_devs; auto|reflexivity]).
      destruct (set_socs _ _ _) as [ds2 [u|e]]; cbn [fst] in *.
      + change (strip (sim_set_devs s1 ds2) = strip s). rewrite strip_set_devs; auto.
      + rewrite strip_set_devs; auto.
    - rewrite H. transitivity (strip (sim_set_state s None)); [apply strip_set_devs; auto|reflexivity].
  Qed.

  (** ---- a call on a simulator depends only on the stripped part and the SoCs ---- *)

  Lemma strip_dev_fields d d' : strip_dev d = strip_dev d' ->
    d_id d = d_id d' /\ d_bus d = d_bus d' /\ d_type d = d_type d' /\ d_spec d = d_spec d'
    /\ (is_nsgen d = false -> d_ppot d = d_ppot d') /\ (is_stor d = false -> d_soc d = d_soc d').
  Proof.
    unfold strip_dev. intros H. injection H as H1 H2 H3 H4 H5 H6.
    repeat split; auto.
    - intros K. rewrite K in H5. unfold is_nsgen, is_gen, d_slack in *. rewrite H3, H4 in K.
      rewrite K in H5; auto.
    - intros K. rewrite K in H6. unfold is_stor in *. rewrite H4 in K. rewrite K in H6; auto.
  Qed.

  Definition dyn_dev (d : device F) := (d_p d, d_q d, d_ppot d, d_soc d).
  Lemma dev_eq d d' : strip_dev d = strip_dev d' -> dyn_dev d = dyn_dev d' -> d = d'.
  Proof.
    intros H K. apply strip_dev_fields in H. destruct H as (? & ? & ? & ? & _).
    destruct d, d'; unfold dyn_dev in K; cbn in *; congruence.
  Qed.

  Lemma dev_transition_dep qp base dt inp d d' :
    strip_dev d = strip_dev d' -> d_soc d = d_soc d' ->
    snd (dev_transition qp base dt inp d) = snd (dev_transition qp base dt inp d') /\
    (is_ok (snd (dev_transition qp base dt inp d)) = true ->
     fst (dev_transition qp base dt inp d) = fst (dev_transition qp base dt inp d')).
  Proof.
    intros H Hs. pose proof (strip_dev_fields _ _ H) as (H1 & H2 & H3 & H4 & H5 & H6).
    assert (Hdev : forall p q v c, mkDev (d_id d) (d_bus d) (d_type d) (d_spec d) p q v c
                               = mkDev (d_id d') (d_bus d') (d_type d') (d_spec d') p q v c)
      by (intros; congruence).
    unfold dev_transition. rewrite <- H4, <- H1.
    destruct (d_spec d) as [l|g|t] eqn:E.
    - assert (Hp : d_ppot d = d_ppot d') by (apply H5; unfold is_nsgen, is_gen; rewrite E; auto).
      destruct (dgetE Z.eqb (ti_load inp) (d_id d)); cbn; split; auto; try discriminate.
      intros _. unfold d_set_pq. rewrite Hs, Hp. rewrite E, <- H4. rewrite <- H1, <- H2, <- H3; auto.
    - assert (Hsl : d_slack d = d_slack d') by (unfold d_slack; congruence).
      rewrite <- Hsl. destruct (d_slack d) eqn:Es.
      + assert (Hp : d_ppot d = d_ppot d') by (apply H5; unfold is_nsgen, is_gen; rewrite E, Es; auto).
        cbn; split; auto. intros _. unfold d_set_pq. rewrite Hs, Hp, E, <- H4, <- H1, <- H2, <- H3; auto.
      + destruct (dgetE Z.eqb (ti_pot inp) (d_id d)) as [pot|]; cbn; [|split; auto; discriminate].
        set (m := bind _ _). destruct m as [pq|]; cbn; split; auto; try discriminate.
        intros _. unfold d_set_pq, d_set_ppot; cbn. rewrite Hs, E, <- H4, <- H1, <- H2, <- H3; auto.
    - assert (Hp : d_ppot d = d_ppot d') by (apply H5; unfold is_nsgen, is_gen; rewrite E; auto).
      rewrite <- Hs. set (m := bind _ _). destruct m as [[pq soc]|]; cbn; split; auto; try discriminate.
      intros _. unfold d_set_soc, d_set_pq; cbn. rewrite Hp, E, <- H4, <- H1, <- H2, <- H3; auto.
  Qed.

  Lemma cons_inj {A} (a b : A) l m : a :: l = b :: m -> a = b /\ l = m.
  Proof. intros H; injection H; auto. Qed.

  Lemma devs_transition_dep qp base dt inp ds ds' :
    map strip_dev ds = map strip_dev ds' -> map d_soc ds = map d_soc ds' ->
    snd (devs_transition qp base dt inp ds) = snd (devs_transition qp base dt inp ds') /\
    (is_ok (snd (devs_transition qp base dt inp ds)) = true ->
     fst (devs_transition qp base dt inp ds) = fst (devs_transition qp base dt inp ds')).
  Proof.
    revert ds'; induction ds as [|d ds IH]; intros [|d' ds']; try discriminate; auto.
    cbn [map devs_transition]. intros H K. apply cons_inj in H as [H1 H2]. apply cons_inj in K as [K1 K2].
    destruct (dev_transition_dep qp base dt inp d d' H1 K1) as [A B].
    destruct (dev_transition qp base dt inp d) as [x [u|e]],
      (dev_transition qp base dt inp d') as [x' [u'|e']]; cbn in *; try discriminate.
    - destruct (IH ds' H2 K2) as [C D]. split; auto. intros Hok. rewrite B, D; auto.
    - inversion A; subst. split; auto. discriminate.
  Qed.

  (** the numerical result only depends on injections and static data *)
  Lemma bus_update_dep v i k b b' : strip_bus b = strip_bus b' -> b_p b = b_p b' -> b_q b = b_q b' ->
    bus_update v i (k, b) = bus_update v i (k, b').
  Proof.
    intros H Hp Hq. unfold bus_update; cbn.
    destruct (nth_res v k) as [vk|]; cbn; auto. destruct (nth_res i k) as [ik|]; cbn; auto.
    unfold strip_bus in H. injection H as ? ? ? ? ? ? ? ? ?.
    unfold b_slack, bus_set_vi, bus_set_pq; cbn. 
    replace (b_id b') with (b_id b) by auto. replace (b_type b') with (b_type b) by auto.
    replace (b_kv b') with (b_kv b) by auto. replace (b_vmax b') with (b_vmax b) by auto.
    replace (b_vmin b') with (b_vmin b) by auto. replace (b_pmin b') with (b_pmin b) by auto.
    replace (b_pmax b') with (b_pmax b) by auto. replace (b_qmin b') with (b_qmin b) by auto.
    replace (b_qmax b') with (b_qmax b) by auto. rewrite Hp, Hq; auto.
  Qed.
  Lemma branch_flow_dep bs b b' : strip_br b = strip_br b' -> branch_flow bs b = branch_flow bs b'.
  Proof.
    intros H. unfold strip_br in H. injection H as ? ? ? ? ? ? ? ? ? ? ?.
    unfold branch_flow. replace (ln_f b') with (ln_f b) by auto. replace (ln_t b') with (ln_t b) by auto.
    destruct (find_bus bs (ln_f b)), (find_bus bs (ln_t b)); auto. f_equal.
    unfold branch_update, branch_ifrom, branch_ito, tap2. congruence.
  Qed.

  Lemma mapM_Forall2 {A B} (f : A -> res B) l l' :
    Forall2 (fun a b => f a = f b) l l' -> mapM f l = mapM f l'.
  Proof. induction 1; cbn; auto. rewrite H, IHForall2; auto. Qed.

  Lemma pq_vectors_dep bs bs' :
    map strip_bus bs = map strip_bus bs' -> map b_p bs = map b_p bs' -> map b_q bs = map b_q bs' ->
    pq_vectors bs = pq_vectors bs'.
  Proof.
    intros H Hp Hq. unfold pq_vectors.
    assert (L : List.length bs = List.length bs') by (rewrite <- (map_length strip_bus bs), H, map_length; auto).
    rewrite <- L. apply flat_map_ext. intros k. clear L.
    revert bs' H Hp Hq; induction bs as [|b bs IH]; intros [|b' bs']; try discriminate; auto.
    cbn [map]. intros H Hp Hq. apply cons_inj in H as [H0 H]. injection H0 as H1 H2 H3 H4 H5 H6 H7 H8 H9.
    apply cons_inj in Hp as [Hp1 Hp]. apply cons_inj in Hq as [Hq1 Hq].
    unfold find_bus in *; cbn. rewrite <- H1. destruct (Z.eqb (b_id b) (Z.of_nat k)).
    - unfold b_slack. rewrite H2, Hp1, Hq1; auto.
    - apply IH; auto.
  Qed.

  Lemma solve_dep lin xtol s s' :
    sm_dt s = sm_dt s' -> sm_lamb s = sm_lamb s' -> sm_base s = sm_base s' -> sm_Y s = sm_Y s' ->
    sm_devs s = sm_devs s' ->
    map strip_bus (sm_buses s) = map strip_bus (sm_buses s') ->
    map b_p (sm_buses s) = map b_p (sm_buses s') -> map b_q (sm_buses s) = map b_q (sm_buses s') ->
    map strip_br (sm_branches s) = map strip_br (sm_branches s') ->
    snd (solve_load_flow lin xtol s) = snd (solve_load_flow lin xtol s') /\
    (is_ok (snd (solve_load_flow lin xtol s)) = true ->
     sim_set_conv (sim_set_state (fst (solve_load_flow lin xtol s)) None) None =
     sim_set_conv (sim_set_state (fst (solve_load_flow lin xtol s')) None) None).
  Proof.
    intros E1 E2 E3 E4 E5 Hb Hp Hq Hbr. unfold solve_load_flow.
    assert (Hn : n_bus s = n_bus s').
    { unfold n_bus. rewrite <- (map_length strip_bus (sm_buses s)), Hb, map_length; auto. }
    rewrite (pq_vectors_dep _ _ Hb Hp Hq), <- Hn, <- E4, <- E5.
    destruct (solve_pfe _ _ _ _ _ _) as [[[v i] st]|e]; cbn; [|split; auto; discriminate].
    assert (Hbs : mapM (bus_update v i) (enumerate (sm_buses s)) = mapM (bus_update v i) (enumerate (sm_buses s'))).
    { apply mapM_Forall2. unfold enumerate. generalize O as k. clear Hn.
      revert Hb Hp Hq. generalize (sm_buses s) as l, (sm_buses s') as l'.
      induction l as [|b l IH]; intros [|b' l'] Hb Hp Hq k; cbn [map enum_from] in *; try discriminate; constructor.
      - apply cons_inj in Hb as [Hb1 Hb]; apply cons_inj in Hp as [Hp1 Hp]; apply cons_inj in Hq as [Hq1 Hq].
        apply bus_update_dep; auto.
      - apply cons_inj in Hb as [Hb1 Hb]; apply cons_inj in Hp as [Hp1 Hp]; apply cons_inj in Hq as [Hq1 Hq].
        apply IH; auto. }
    rewrite <- Hbs.
    destruct (mapM (bus_update v i) (enumerate (sm_buses s))) as [bs|e]; cbn; [|split; auto; discriminate].
    assert (Hf : mapM (branch_flow bs) (sm_branches s) = mapM (branch_flow bs) (sm_branches s')).
    { apply mapM_Forall2. apply map_eq_Forall2 in Hbr. clear -Hbr.
      induction Hbr; constructor; auto using branch_flow_dep. }
    rewrite <- Hf.
    destruct (mapM (dev_slack_update bs) (sm_devs s)) as [ds|e]; cbn; [|split; auto; discriminate].
    destruct (mapM (branch_flow bs) (sm_branches s)) as [brs|e]; cbn; [|split; auto; discriminate].
    split; auto. intros _. unfold sim_set_conv, sim_set_state; cbn. congruence.
  Qed.

  (** C34 core *)
  Lemma transition_dep O inp s s' :
    strip s = strip s' -> map d_soc (sm_devs s) = map d_soc (sm_devs s') ->
    snd (transition O inp s) = snd (transition O inp s') /\
    (is_ok (snd (transition O inp s)) = true -> fst (transition O inp s) = fst (transition O inp s')) /\
    (sm_state s = sm_state s' -> sm_state (fst (transition O inp s)) = sm_state (fst (transition O inp s'))).
  Proof.
    intros H Hs. unfold strip in H. injection H as E1 E2 E3 E4 E5 E6 E7.
    unfold transition. rewrite <- E1, <- E3.
    destruct (devs_transition_dep (o_qp O) (sm_base s) (sm_dt s) inp _ _ E6 Hs) as [A B].
    destruct (devs_transition (o_qp O) (sm_base s) (sm_dt s) inp (sm_devs s)) as [ds [u|e]],
      (devs_transition (o_qp O) (sm_base s) (sm_dt s) inp (sm_devs s')) as [ds' [u'|e']];
      cbn [fst snd is_ok] in *; try discriminate.
    2: { inversion A; subst. repeat split; auto; discriminate. }
    rewrite <- (B eq_refl). clear A B. 
    match goal with |- context [solve_load_flow _ _ ?x] => set (s2 := x) end.
    match goal with |- context [solve_load_flow _ _ (sim_set_buses (sim_set_devs s' _) ?x)] =>
      set (s2' := sim_set_buses (sim_set_devs s' ds) x) end.
    assert (Hids : map b_id (sm_buses s) = map b_id (sm_buses s')).
    { assert (map b_id (map strip_bus (sm_buses s)) = map b_id (map strip_bus (sm_buses s'))) by congruence.
      rewrite !map_map in H; auto. }
    assert (Hinj : forall f : list (device F) -> F,
      map (fun b => f (devs_at ds (b_id b))) (sm_buses s) = map (fun b => f (devs_at ds (b_id b))) (sm_buses s')).
    { intros f. rewrite <- !(map_map b_id (fun k => f (devs_at ds k))). congruence. }
    destruct (solve_dep (o_lin O) xtol_pfe s2 s2') as [A B]; subst s2 s2'; cbn -[bus_injection]; auto.
    - rewrite !strip_inj_bus; auto.
    - rewrite !map_map. cbn. apply (Hinj (fun l => nsum (map d_p l))).
    - rewrite !map_map. cbn. apply (Hinj (fun l => nsum (map d_q l))).
    - destruct (solve_load_flow _ _ _) as [s3 [c|e]] eqn:E, (solve_load_flow _ _ (sim_set_buses (sim_set_devs s' ds) _)) as [s3' [c'|e']] eqn:E';
        cbn [fst snd is_ok] in *; try discriminate.
      2: { inversion A; subst. split; [auto|]. split; [discriminate|]. intros Hst.
           assert (G : forall lin x z z3 e, solve_load_flow lin x z = (z3, Err e) -> z3 = z).
           { clear. intros lin x z z3 e H. unfold solve_load_flow in H. cbv zeta in H.
             match type of H with (match ?m with _ => _ end) = _ => destruct m as [[[[? ?] ?] ?]|?] end; congruence. }
           apply G in E. apply G in E'. subst. exact Hst. }
      injection A as <-. specialize (B eq_refl).
      destruct s3 as [x1 x2 x3 x4 x5 x6 x7 x8 x9], s3' as [y1 y2 y3 y4 y5 y6 y7 y8 y9].
      unfold sim_set_state, sim_set_conv in B; cbn in B. injection B as <- <- <- <- <- <- <-.
      repeat split; reflexivity.
  Qed.
End LibSim.
