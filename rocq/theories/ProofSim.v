(** Simulator properties that hold for every ordered number type: C01, C07, C08 (order
    part), C33, C34, and the shape of a successful transition. *)
From Coq Require Import Permutation Sorted.
From Verif Require Import Base Num Devices BusBranch CheckNetwork LoadFlow Simulator LibBase LibNum LibSim
  SpecNet ProofNet LibInit SpecSim.
Local Open Scope string_scope.
Local Open Scope list_scope.
Local Open Scope num_scope.

Lemma eid_eqb_iff a b : eid_eqb a b = true <-> a = b.
Proof.
  destruct a, b; cbn; rewrite ?andb_true_iff, ?Z.eqb_eq; split; try congruence; try (intros [-> ->]; auto).
  intros H; inversion H; auto.
Qed.

(** Lookup in a dictionary built from a list of objects with distinct keys. *)
Lemma dget_objs {A V} (key : A -> eid) (f : A -> V) l a :
  NoDup (map key l) -> In a l -> dget eid_eqb (map (fun x => (key x, f x)) l) (key a) = Some (f a).
Proof.
  intros ND I. apply dget_nodup; [exact eid_eqb_iff| |].
  - rewrite map_map. cbn. auto.
  - apply in_map_iff. exists a; auto.
Qed.
Lemma dget_objs_inv {A V} (key : A -> eid) (f : A -> V) l i v :
  dget eid_eqb (map (fun x => (key x, f x)) l) i = Some v -> exists a, In a l /\ key a = i /\ v = f a.
Proof.
  intros H. apply (dget_in eid_eqb eid_eqb_iff) in H. apply in_map_iff in H. destruct H as (a & E & I).
  inversion E; subst. eauto.
Qed.

Lemma NoDup_filter {A B} (f : A -> B) p l : NoDup (map f l) -> NoDup (map f (filter p l)).
Proof.
  induction l as [|a l IH]; cbn; auto. intros H; inversion H; subst.
  destruct (p a); cbn; auto. constructor; auto.
  intros I. apply H2. apply in_map_iff in I. destruct I as (b & E & I). apply filter_In in I.
  apply in_map_iff. exists b; tauto.
Qed.
Lemma sorted_lt_nodup l : Sorted Z.lt l -> NoDup l.
Proof.
  intros H. apply Sorted_StronglySorted in H; [|intros x y z; lia].
  induction H; constructor; auto. intros I. rewrite Forall_forall in H0. specialize (H0 _ I). lia.
Qed.

Section Sim.
  Context {F : Type} {N : Num F}.

  (** ---- static part over histories ---- *)
  Lemma strip_run_call (s : sim F) c : strip (run_call s c) = strip s.
  Proof. destruct c; cbn; auto using strip_reset, strip_transition. Qed.
  Lemma strip_run (s : sim F) cs : strip (run s cs) = strip s.
  Proof.
    unfold run. revert s; induction cs as [|c cs IH]; intros s; cbn; auto. rewrite IH. apply strip_run_call.
  Qed.

  Lemma strip_devs (s s' : sim F) : strip s = strip s' -> map strip_dev (sm_devs s) = map strip_dev (sm_devs s').
  Proof. unfold strip; intros H; injection H; auto. Qed.
  Lemma strip_base (s s' : sim F) : strip s = strip s' -> sm_base s = sm_base s'.
  Proof. unfold strip; intros H; injection H; auto. Qed.

  Lemma strip_dev_filter (p : device F -> bool) ds ds' :
    (forall d, p (strip_dev d) = p d) -> map strip_dev ds = map strip_dev ds' ->
    map strip_dev (filter p ds) = map strip_dev (filter p ds').
  Proof.
    intros Hp H. rewrite (filter_ext_in' p (fun a => p (strip_dev a))) by (intros; symmetry; auto).
    rewrite (filter_ext_in' p (fun a => p (strip_dev a)) ds') by (intros; symmetry; auto).
    rewrite <- !filter_map_comm. congruence.
  Qed.
  Lemma map_strip {A B} (st : A -> A) (f : A -> B) l l' :
    (forall a, f (st a) = f a) -> map st l = map st l' -> map f l = map f l'.
  Proof.
    intros Hf H. transitivity (map f (map st l)); [rewrite map_map; apply map_ext; auto|].
    rewrite H, map_map. apply map_ext; auto.
  Qed.

  (** the advertised bounds are static *)
  Lemma state_space_static (s s' : sim F) : strip s = strip s' -> get_state_space s = get_state_space s'.
  Proof.
    intros H. pose proof H as H0. unfold strip in H0. injection H0 as E1 E2 E3 E4 E5 E6 E7.
    unfold get_state_space. rewrite <- E3.
    assert (KB : forall f : bus F -> eid * list (string * (F * F)), (forall b, f (strip_bus b) = f b) ->
             map f (sm_buses s) = map f (sm_buses s')) by (intros; eapply map_strip; eauto).
    assert (KR : forall f : branch F -> eid * list (string * (F * F)), (forall b, f (strip_br b) = f b) ->
             map f (sm_branches s) = map f (sm_branches s')) by (intros; eapply map_strip; eauto).
    assert (KD : forall p (f : device F -> eid * list (string * (F * F))), (forall d, p (strip_dev d) = p d) ->
             (forall d, f (strip_dev d) = f d) ->
             map f (filter p (sm_devs s)) = map f (filter p (sm_devs s'))).
    { intros. eapply map_strip; eauto. apply strip_dev_filter; auto. }
    repeat (f_equal; [f_equal; first [apply KB | apply KD | apply KR]; reflexivity|]).
    f_equal; f_equal; apply KR; reflexivity.
  Qed.
  Lemma bound_static (s s' : sim F) k u i : strip s = strip s' -> bound s k u i = bound s' k u i.
  Proof. intros H. unfold bound. rewrite (state_space_static _ _ H). reflexivity. Qed.

  Lemma bound_run (s : sim F) cs k u i : bound (run s cs) k u i = bound s k u i.
  Proof. apply bound_static, strip_run. Qed.

  Lemma dev_ids_static (s s' : sim F) : strip s = strip s' -> map d_id (sm_devs s) = map d_id (sm_devs s').
  Proof. intros H. apply strip_devs in H. eapply map_strip; [|eauto]. reflexivity. Qed.

  (** ---- shape of a successful transition ---- *)
  Lemma devs_transition_ok qp base dt inp (ds ds' : list (device F)) u :
    devs_transition qp base dt inp ds = (ds', Ok u) ->
    Forall2 (fun d d' => dev_transition qp base dt inp d = (d', Ok tt)) ds ds'.
  Proof.
    revert ds'; induction ds as [|d ds IH]; intros ds' H; cbn in H.
    - inversion H; constructor.
    - destruct (dev_transition qp base dt inp d) as [d1 [[]|e]] eqn:E; [|discriminate].
      destruct (devs_transition qp base dt inp ds) as [ds1 r] eqn:E2. cbn in H. inversion H; subst.
      constructor; auto.
  Qed.

  (** Everything known after a transition whose power flow was completed. *)
  Record trans_ok (Or : oracles F) (inp : tr_in F) (s s' : sim F) (conv : bool)
         (ds : list (device F)) (v i : list (cplx F)) : Prop := mkTok {
    tk_devs : Forall2 (fun d d' => dev_transition (o_qp Or) (sm_base s) (sm_dt s) inp d = (d', Ok tt)) (sm_devs s) ds;
    tk_pfe : let pq := pq_vectors (map (bus_injection ds) (sm_buses s)) in
             solve_pfe (o_lin Or) (n_bus s) (map fst pq) (map snd pq) (sm_Y s) xtol_pfe = Ok (v, i, conv);
    tk_buses : mapM (bus_update v i) (enumerate (map (bus_injection ds) (sm_buses s))) = Ok (sm_buses s');
    tk_sdevs : mapM (dev_slack_update (sm_buses s')) ds = Ok (sm_devs s');
    tk_brs : mapM (branch_flow (sm_buses s')) (sm_branches s) = Ok (sm_branches s');
    tk_conv : sm_conv s' = Some conv;
    tk_state : sm_state s' = Some (gather_state s');
    tk_strip : strip s' = strip s }.

  (** Either the power flow was completed and the state gathered, or the call raised and the
      stored state is the old one. *)
  Lemma transition_cases Or inp (s : sim F) :
    (exists ds v i conv, trans_ok Or inp s (fst (transition Or inp s)) conv ds v i /\ snd (transition Or inp s) =
         (let* '(r, e, pen) := compute_reward (fst (transition Or inp s)) in
          Ok (gather_state (fst (transition Or inp s)), r, e, pen, conv))) \/
    ((sm_state (fst (transition Or inp s)) = sm_state s /\ sm_conv (fst (transition Or inp s)) = sm_conv s) /\
     exists e, snd (transition Or inp s) = Err e).
  Proof.
    pose proof (strip_transition Or inp s) as HS. revert HS.
    unfold transition.
    destruct (devs_transition (o_qp Or) (sm_base s) (sm_dt s) inp (sm_devs s)) as [ds [u|x]] eqn:Ed; [|right; cbn; eauto].
    apply devs_transition_ok in Ed.
    unfold solve_load_flow.
    change (sm_buses (sim_set_buses (sim_set_devs s ds) (map (bus_injection ds) (sm_buses (sim_set_devs s ds)))))
      with (map (bus_injection ds) (sm_buses s)).
    replace (n_bus (sim_set_buses (sim_set_devs s ds) (map (bus_injection ds) (sm_buses (sim_set_devs s ds)))))
      with (n_bus s) by (unfold n_bus; cbn; rewrite map_length; auto).
    cbv zeta.
    match goal with |- context [match (bind ?m ?k) with _ => _ end] => destruct (bind m k) as [[[[bs ds2] brs] c]|x] eqn:E end; [|right; cbn; eauto].
    apply bind_ok in E as ([[v i] c'] & E1 & E). apply bind_ok in E as (bs' & E2 & E).
    apply bind_ok in E as (ds2' & E3 & E). apply bind_ok in E as (brs' & E4 & E). inversion E; subst; clear E.
    intros HS. left. exists ds, v, i, c.
    match goal with |- context [compute_reward ?z] => destruct (compute_reward z) as [[[r' e'] p']|x] eqn:Er end.
    - split; [constructor; cbn; auto|]. cbn [fst snd]. rewrite Er. reflexivity.
    - split; [constructor; cbn; auto|]. cbn [fst snd]. rewrite Er. reflexivity.
  Qed.

  Lemma transition_ok Or inp (s s' : sim F) st r e pen conv :
    transition Or inp s = (s', Ok (st, r, e, pen, conv)) ->
    st = gather_state s' /\ compute_reward s' = Ok (r, e, pen) /\ exists ds v i, trans_ok Or inp s s' conv ds v i.
  Proof.
    intros H. destruct (transition_cases Or inp s) as [(ds & v & i & c & T & R)|(_ & x & R)]; rewrite H in *; cbn [fst snd] in *.
    - destruct (compute_reward s') as [[[r' e'] p']|]; cbn in R; [|discriminate].
      inversion R; subst. eauto 6.
    - discriminate.
  Qed.

  (** Non-slack devices are not touched by the power flow. *)
  Lemma slack_update_id bs (d d' : device F) : dev_slack_update bs d = Ok d' -> d_slack d = false -> d' = d.
  Proof. unfold dev_slack_update. intros H E. rewrite E in H. inv_ok; auto. Qed.

  Lemma slack_update_soc bs (d d' : device F) : dev_slack_update bs d = Ok d' -> d_soc d' = d_soc d /\ d_ppot d' = d_ppot d.
  Proof. unfold dev_slack_update. destruct (d_slack d); intros H; dm; auto. Qed.

  (** Each device of the new state comes from the device at the same position. *)
  Lemma trans_dev Or inp (s s' : sim F) conv ds v i :
    trans_ok Or inp s s' conv ds v i ->
    forall d', In d' (sm_devs s') ->
    exists d d1, In d (sm_devs s) /\ strip_dev d = strip_dev d' /\
      dev_transition (o_qp Or) (sm_base s) (sm_dt s) inp d = (d1, Ok tt) /\
      dev_slack_update (sm_buses s') d1 = Ok d'.
  Proof.
    intros T d' I'.
    pose proof (tk_sdevs _ _ _ _ _ _ _ _ T) as E. apply mapM_ok in E.
    destruct (Forall2_in_r _ _ _ _ E I') as (d1 & I1 & E1).
    destruct (Forall2_in_r _ _ _ _ (tk_devs _ _ _ _ _ _ _ _ T) I1) as (d & I & E2).
    exists d, d1. repeat split; auto.
    pose proof (strip_dev_transition (o_qp Or) (sm_base s) (sm_dt s) inp d) as K. rewrite E2 in K. cbn in K.
    apply strip_slack_update in E1. congruence.
  Qed.

  (** The raw outcome of a device step that succeeds. *)
  Lemma dev_transition_load qp base dt inp (d d' : device F) l :
    d_spec d = SLoad l -> dev_transition qp base dt inp d = (d', Ok tt) ->
    exists p, dget Z.eqb (ti_load inp) (d_id d) = Some p /\
      d_p d' = np_clip (p / base) (l_pmin l) (l_pmax l) /\
      d_q d' = d_p d' * l_qp l.
  Proof.
    intros E. unfold dev_transition. rewrite E. unfold dgetE.
    destruct (dget Z.eqb (ti_load inp) (d_id d)) as [p|]; [|discriminate].
    intros H. inversion H; subst. exists p. cbn. auto.
  Qed.
  Lemma dev_transition_gen qp base dt inp (d d' : device F) g :
    d_spec d = SGen g -> d_slack d = false -> dev_transition qp base dt inp d = (d', Ok tt) ->
    exists pot p q, dget Z.eqb (ti_pot inp) (d_id d) = Some pot /\
      dget Z.eqb (ti_p inp) (d_id d) = Some p /\ dget Z.eqb (ti_q inp) (d_id d) = Some q /\
      d_ppot d' = np_clip (np_clip (pot / base) (g_pmin g) (g_pmax g)) (g_pmin g) (g_pmax g) /\
      qp (gen_rows g (d_ppot d')) (p / base, q / base) = Ok (d_p d', d_q d').
  Proof.
    intros E Es. unfold dev_transition. rewrite E, Es. unfold dgetE, gen_map_pq, gen_clip_ppot.
    destruct (dget Z.eqb (ti_pot inp) (d_id d)) as [pot|]; [|discriminate].
    destruct (dget Z.eqb (ti_p inp) (d_id d)) as [p|]; [|discriminate].
    destruct (dget Z.eqb (ti_q inp) (d_id d)) as [q|]; [|discriminate]. cbn [bind].
    destruct (qp _ _) as [[x y]|] eqn:Q; [|discriminate].
    intros H. inversion H; subst. exists pot, p, q. cbn in *. auto.
  Qed.
  Lemma dev_transition_stor qp base dt inp (d d' : device F) t :
    d_spec d = SStor t -> dev_transition qp base dt inp d = (d', Ok tt) ->
    exists soc p q rows, d_soc d = Some soc /\
      dget Z.eqb (ti_p inp) (d_id d) = Some p /\ dget Z.eqb (ti_q inp) (d_id d) = Some q /\
      stor_rows t soc dt = Ok rows /\
      qp rows (p / base, q / base) = Ok (d_p d', d_q d') /\
      d_soc d' = Some (stor_update_soc t soc (d_p d') dt).
  Proof.
    intros E. unfold dev_transition. rewrite E. unfold dgetE, stor_map_pq.
    destruct (dget Z.eqb (ti_p inp) (d_id d)) as [p|]; [|discriminate].
    destruct (dget Z.eqb (ti_q inp) (d_id d)) as [q|]; [|discriminate]. cbn [bind].
    destruct (d_soc d) as [soc|]; [|discriminate].
    destruct (stor_rows t soc dt) as [rows|] eqn:R; [|discriminate]. cbn [bind].
    destruct (qp rows _) as [[x y]|] eqn:Q; [|discriminate]. cbn [bind].
    intros H. inversion H; subst. exists soc, p, q, rows. cbn. repeat split; auto.
  Qed.
End Sim.
