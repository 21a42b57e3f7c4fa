(** C78: the first message sent to the browser describes the network; C79: when the messages contain only ordinary numbers. *)
From Coq Require Import Reals Lra Lia Sorted Permutation.
From Verif Require Import Base Num NumXR Devices BusBranch CheckNetwork LoadFlow Simulator EnvArgs Env Anm6 Message LibBase LibNum LibXR LibSim LibInit SpecNet SpecSim SpecEnv SpecDev SpecQp SpecPf SpecTotal SpecRender SpecMessage
  ProofSim ProofSoc ProofHist ProofObs ProofUnits ProofVals ProofDev ProofBr ProofFin ProofEnv ProofStep ProofState ProofDraw PropFin ProofMessage.
Local Open Scope string_scope.
Local Open Scope list_scope.
Set Bullet Behavior "Strict Subproofs".

(** C78: in every arithmetic, for every environment that was built from a file with all VMIN given, the first message is the same whatever happened before the first
    rendering; it lists the types of the devices, the larger magnitudes of their power ranges, the voltage limits of the buses and the capacities of the storage
    units, in increasing ID order, one number per branch, and the cost limits the user gave. *)
Theorem C78_message : forall (F G : Type) (N : Num F) (nw : network F) o K dt gamma lamb auxb clip (g : G) e,
  env_init nw o K dt gamma lamb auxb clip g = Ok e -> (forall r, In r (nw_bus nw) -> br_vmin r <> None) ->
  exists m, (forall T cs, first_message (erun T e cs) = Ok m) /\ describes nw (e_sim e) m /\ List.length (im_s m) = List.length (nw_br nw) /\ cost_limits clip (im_eloss m) (im_pen m).
Proof.
  intros F G N nw o K dt gamma lamb auxb clip g e He Hv. exists (msg_of (e_sim e) (clip_arg clip)).
  assert (H0 : sim_init nw dt lamb = Ok (e_sim e)) by (apply (ei_sim _ _ _ _ _ _ _ _ _ _ (env_init_inv _ _ _ _ _ _ _ _ _ _ He))).
  split; [|split; [|split]].
  - intros T cs. pose proof (good_erun _ _ _ _ _ _ _ _ _ _ T cs He) as Gd. pose proof (gd_strip _ Gd) as S. rewrite first_message_eq.
    + rewrite (gd_clip _ Gd), (msg_static _ _ _ S). reflexivity.
    + intros b I. destruct (static_bus _ _ _ S I) as (b0 & I0 & E). apply strip_bus_fields in E as (_ & _ & _ & _ & E & _). rewrite <- E. eapply vmin_given; eauto.
    + exact (static_nodup _ _ _ _ _ H0 S).
  - eapply msg_describes; eauto.
  - cbn [msg_of im_s]. rewrite map_length. destruct (sim_init_built _ _ _ _ H0) as (bs & ds & B). pose proof (bt_brs _ _ _ _ _ _ B) as E. apply mapM_length in E. exact E.
  - unfold cost_limits. destruct clip as [[a b]|]; split; reflexivity.
Qed.

(** C78, the branch ratings, in exact arithmetic: RATE of each row of the file, in file order, +infinity where it is not given. *)
Theorem C78_rates : forall (G : Type) (nw : network XR) o K dt gamma lamb auxb clip (g : G) e b m,
  env_init nw o K dt gamma lamb auxb clip g = Ok e -> nw_base nw = Fin b -> Forall branch_row_fin (nw_br nw) -> first_message e = Ok m ->
  Forall2 (fun r x => x = match lr_rate r with Some v => v | None => PInf end) (nw_br nw) (im_s m).
Proof.
  intros G nw o K dt gamma lamb auxb clip g e b m He Eb Fb Em.
  pose proof (ei_sim _ _ _ _ _ _ _ _ _ _ (env_init_inv _ _ _ _ _ _ _ _ _ _ He)) as H0.
  assert (Hv : forall bb, In bb (sm_buses (e_sim e)) -> b_vmin bb <> None).
  { unfold first_message, rendering_specs in Em. apply bind_ok in Em as (sp & Es & _). apply bind_ok in Es as (v & Ev & _). unfold rendering_bus_v in Ev. apply mapM_ok in Ev.
    intros bb I. destruct (Forall2_in_l _ _ _ _ Ev I) as (x & _ & Ex). destruct (b_vmin bb); discriminate. }
  rewrite (first_message_eq e Hv (init_nodup _ _ _ _ H0)) in Em. injection Em as <-. cbn [msg_of im_s].
  destruct (sim_init_built _ _ _ _ H0) as (bs & ds & B). pose proof (bt_brs _ _ _ _ _ _ B) as E. apply mapM_ok in E.
  assert (Hb : (0 < b)%R). { destruct (bt_wf _ _ _ _ _ _ B) as (W & _). unfold rule_base in W. rewrite Eb in W. apply Rleb_false in W. exact W. }
  assert (Es : sm_base (e_sim e) = Fin b) by (rewrite (init_base _ _ _ _ H0); exact Eb). rewrite Es. revert Fb. clear -E Hb Eb. rewrite Eb in E. induction E as [|r br rs brs E _ IH]; intros Fb; cbn; constructor.
  - inversion Fb as [|? ? Fr Frs]; subst. rewrite (bo_rate _ _ _ (branch_init_of _ _ _ _ Hb Fr E)).
    assert (Fc : cell_fin (lr_rate r)) by (unfold branch_row_fin in Fr; inversion Fr as [|? ? _ F1]; inversion F1 as [|? ? _ F2]; inversion F2 as [|? ? _ F3]; inversion F3; auto).
    destruct (lr_rate r) as [v|].
    + destruct (Fc v eq_refl) as (x & ->). cbn. f_equal. field. lra.
    + cbn. unfold inf_sgn. destruct (Rlt_dec 0 b); [reflexivity|contradiction].
  - apply IH. inversion Fb; auto.
Qed.

(** ---- C79 ---- *)
(** The default range of costs in [_init_render], (100, 10000), is dead code: without [costs_clipping] the message announces +infinity, which is not JSON. *)
Theorem C79_default_costs_refuted : forall (G : Type) (nw : network XR) o K dt gamma lamb auxb clip (g : G) e m,
  env_init nw o K dt gamma lamb auxb clip g = Ok e -> first_message e = Ok m -> clip = None \/ clip = Some (None, None) ->
  im_eloss m = PInf /\ im_pen m = PInf /\ ~ all_numbers (fun x => exists y, x = Fin y) m.
Proof.
  intros G nw o K dt gamma lamb auxb clip g e m He Em Hc.
  pose proof (ei_clip _ _ _ _ _ _ _ _ _ _ (env_init_inv _ _ _ _ _ _ _ _ _ _ He)) as Ec. unfold first_message in Em. apply bind_ok in Em as (sp & _ & Em). rewrite Ec in Em.
  assert (Q : im_eloss m = PInf /\ im_pen m = PInf).
  { unfold init_render in Em. repeat (apply bind_ok in Em as (? & _ & Em)). injection Em as <-. destruct Hc as [->| ->]; split; reflexivity. }
  destruct Q as (Q1 & Q2). repeat split; auto. intros (_ & _ & _ & _ & _ & _ & (y & E) & _). congruence.
Qed.
(** With a file of ordinary numbers, finite power and state-of-charge ranges, all ratings and both costs given, every number of the message is ordinary. *)
Theorem C79_message_partial : forall (G : Type) (nw : network XR) o K dt gamma lamb auxb c1 c2 (g : G) e b m,
  env_init nw o K dt gamma lamb auxb (Some (Some (Fin c1), Some (Fin c2))) g = Ok e -> nw_base nw = Fin b ->
  Forall branch_row_fin (nw_br nw) -> Forall bus_row_fin (nw_bus nw) -> (forall r, In r (nw_br nw) -> lr_rate r <> None) ->
  (forall k u i lo hi, In k ["dev_p"; "dev_q"; "des_soc"] -> bound (e_sim e) k u i = Some (lo, hi) -> fin lo /\ fin hi) ->
  first_message e = Ok m -> all_numbers fin m.
Proof.
  intros G nw o K dt gamma lamb auxb c1 c2 g e b m He Eb Fb Fu Hr Hd Em.
  pose proof (C78_rates _ _ _ _ _ _ _ _ _ _ _ _ _ He Eb Fb Em) as Rt.
  pose proof (ei_sim _ _ _ _ _ _ _ _ _ _ (env_init_inv _ _ _ _ _ _ _ _ _ _ He)) as H0.
  assert (Hv : forall bb, In bb (sm_buses (e_sim e)) -> b_vmin bb <> None).
  { pose proof Em as Em'. unfold first_message, rendering_specs in Em'. apply bind_ok in Em' as (sp & Es & _). apply bind_ok in Es as (v & Ev & _). unfold rendering_bus_v in Ev. apply mapM_ok in Ev.
    intros bb I. destruct (Forall2_in_l _ _ _ _ Ev I) as (x & _ & Ex). destruct (b_vmin bb); discriminate. }
  assert (Hv' : forall r, In r (nw_bus nw) -> br_vmin r <> None).
  { intros r I. destruct (sim_init_built _ _ _ _ H0) as (bs & ds & B). destruct (bt_bus_row_inv B _ I) as (b0 & M & Ib). apply bus_init_lims in M as (M & _). specialize (Hv _ Ib). cbn in Hv. congruence. }
  destruct (C78_message _ _ _ _ _ _ _ _ _ _ _ _ _ He Hv') as (m' & Em' & (D1 & D2 & D3) & _ & C).
  specialize (Em' (mkTask (fun _ => g) (fun g => (Ok [], g)) (fun _ g => (Ok [], g))) []). cbn in Em'. rewrite Em in Em'. injection Em' as <-.
  destruct (ids_ex _ _ _ _ H0) as (devs & loads & gens & dess & I1 & _ & _ & I4). destruct (D1 _ I1) as (_ & P & Q). specialize (D3 _ I4).
  assert (Bs : exists bs, buses_of nw bs).
  { exists (map b_id (sm_buses (e_sim e))). destruct (sim_init_built _ _ _ _ H0) as (bs & ds & B). split; [apply (bt_bus_sorted B)|]. intros i. split.
    - intros I. apply in_map_iff in I as (bb & <- & I). destruct (bt_bus_row B _ I) as (r & b0 & Ir & M & ->). exists r. split; auto. apply bus_init_id in M. exact M.
    - intros (r & Ir & Ei). destruct (bt_bus_row_inv B _ Ir) as (b0 & M & I). apply bus_init_id in M. replace i with (b_id (bus_with_bounds (sm_devs (e_sim e)) b0)) by (cbn; congruence). apply in_map; auto. }
  destruct Bs as (bs & Hbs). destruct (D2 _ Hbs) as (V1 & V2). destruct C as (C1 & C2).
  assert (F2 : forall (A : Type) (R : A -> XR -> Prop) l l', Forall2 R l l' -> (forall a x, In a l -> R a x -> fin x) -> Forall fin l').
  { clear. intros A R l l' H. induction H; intros K; constructor; [eapply K; [left; auto|eauto]|apply IHForall2; intros; eapply K; [right; eauto|eauto]]. }
  assert (Mg : forall k u i x, In k ["dev_p"; "dev_q"] -> magnitude (e_sim e) k u i x -> fin x).
  { intros k u i x Ik (lo & hi & Bd & ->). destruct (Hd k u (EId i) lo hi) as (L & H); [cbn in *; tauto|exact Bd|]. destruct L as (l & ->), H as (h & ->).
    unfold np_max. destruct (_ || _)%bool; exact (fin_Fin _). }
  rewrite Forall_forall in Fu. unfold all_numbers. rewrite C1, C2. repeat split.
  - eapply F2; [exact P|]. intros i x _. apply Mg. cbn; auto.
  - eapply F2; [exact Q|]. intros i x _. apply Mg. cbn; auto.
  - eapply F2; [exact Rt|]. cbn beta. intros r x Ir ->. rewrite Forall_forall in Fb. specialize (Fb r Ir). specialize (Hr r Ir).
    unfold branch_row_fin in Fb. inversion Fb as [|? ? _ F3]; inversion F3 as [|? ? _ F4]; inversion F4 as [|? ? _ F5]; inversion F5 as [|? ? F6 _]. destruct (lr_rate r) as [v|]; [|congruence]. exact (F6 v eq_refl).
  - eapply F2; [exact V1|]. intros i x _ (r & Ir & _ & E). specialize (Fu r Ir). unfold bus_row_fin in Fu. inversion Fu as [|? ? _ F3]; inversion F3 as [|? ? _ F4]; inversion F4 as [|? ? F6 _]. apply F6; auto.
  - eapply F2; [exact V2|]. intros i x _ (r & Ir & _ & E). specialize (Fu r Ir). unfold bus_row_fin in Fu. inversion Fu as [|? ? _ F3]; inversion F3 as [|? ? F6 _]. apply F6; auto.
  - eapply F2; [exact D3|]. intros i x _ (lo & Bd). apply (Hd "des_soc" "MWh" (EId i) lo x); [cbn; auto|exact Bd].
  - exact (fin_Fin _).
  - exact (fin_Fin _).
Qed.
(** The frames sent while the last power flow converged contain only ordinary numbers (under the conditions of C69, with finite costs). *)
Theorem C79_frame_partial : forall (G : Type) (nw : network XR) d lamb s0 b cs Or init ts (a : anm6 XR G) f,
  sim_init nw (Fin d) lamb = Ok s0 -> nw_base nw = Fin b -> (0 < d)%R -> Forall mappable (nw_dev nw) ->
  Forall branch_row_fin (nw_br nw) -> Forall bus_row_fin (nw_bus nw) -> numbered nw ->
  qp_exact (o_qp Or) -> (reset_size nw <= List.length init)%nat -> Forall fin init ->
  returned (run s0 cs) (CReset Or init) -> soc_reported_ok s0 (run s0 (cs ++ [CReset Or init])) ->
  Forall (exact_transition nw) ts ->
  (forall ts1 t ts2, ts = ts1 ++ t :: ts2 -> returned (run s0 (cs ++ CReset Or init :: ts1)) t) ->
  e_sim (a_env a) = run s0 (cs ++ CReset Or init :: ts) -> pictures a f -> fr_collapsed f = false -> fin (e_eloss (a_env a)) -> fin (e_pen (a_env a)) ->
  frame_numbers fin f.
Proof.
  intros G nw d lamb s0 b cs Or init ts a f H0 Eb Hd Mp Hr Hk Hn Q L Fi R Soc Ge Rt Es Pc Fc F1 F2.
  assert (Cv : sm_conv (e_sim (a_env a)) = Some true).
  { destruct (sm_conv (e_sim (a_env a))) as [[|]|] eqn:E; auto; exfalso; assert (X : fr_collapsed f = true) by (apply (pc_coll _ _ Pc); rewrite E; discriminate); congruence. }
  assert (Fo : forall k u i v, obs (e_sim (a_env a)) k u i = Some v -> fin v).
  { rewrite Es in *. intros k u i v O. exact (C69_state_finite nw d lamb s0 b cs Or init ts H0 Eb Hd Mp Hr Hk Hn Q L Fi R Soc Ge Rt Cv k u i v O). }
  assert (Co : forall k u l, column (e_sim (a_env a)) k u l -> Forall fin l).
  { intros k u l C. apply Forall_forall. intros x I. apply (in_map Some) in I. rewrite C in I. apply in_map_iff in I as (i & E & _). eapply Fo; eauto. }
  destruct Pc as [_ _ P1 P2 P3 P4 P5 P6 P7 _]. unfold frame_numbers. rewrite P7. repeat split; eauto.
Qed.

Print Assumptions C78_message.
Print Assumptions C78_rates.
Print Assumptions C79_default_costs_refuted.
Print Assumptions C79_message_partial.
Print Assumptions C79_frame_partial.
