(** Episodes: the invariant that keeps every call from raising. *)
From Coq Require Import Reals Lra.
From Verif Require Import Base Num NumXR Devices BusBranch CheckNetwork LoadFlow Simulator EnvArgs Env LibBase LibNum LibSim LibXR
  SpecNet ProofNet LibInit SpecSim ProofSim ProofSoc ProofObs ProofHist ProofReset ProofUnits ProofVals ProofBr ProofPf ProofDevs SpecEnv ProofEnv ProofStep ProofState ProofDraw ProofEnvOk
  SpecObs ProofObsList ProofObsEnv ProofArgs PropObs ProofLive LibC SpecDev SpecQp SpecPf SpecTotal ProofTotal ProofFin PropReward SpecEpisode.
Local Open Scope string_scope.
Local Open Scope list_scope.
Local Open Scope R_scope.
Set Bullet Behavior "Strict Subproofs".

Section Episode.
  Context {G : Type}.
  Context (nw : network XR) (o : obs_arg XR) (K : Z) (d : R) (gamma lamb : XR) (auxb : option (list (XR * XR)))
          (clip : option (option XR * option XR)) (g : G) (e0 : env XR G) (T : task XR G).
  Context (built : env_init nw o K (Fin d) gamma lamb auxb clip g = Ok e0).
  Context (b : R) (Eb : nw_base nw = Fin b) (Hd : 0 < d) (Mp : Forall mappable (nw_dev nw)) (Sv : solvable_network nw).
  Context (Hbr : Forall branch_row_fin (nw_br nw)) (Hbu : Forall bus_row_fin (nw_bus nw)) (Hnum : numbered nw).
  Context (l : list obs_tuple) (rs : list (list req)) (Hl : tuples_of o = Some l)
          (Hr : Forall2 (fun t r => requested (e_sim e0) K t = Some r) l rs) (Hdm : forall t, In t l -> ~ i_magn_default t)
          (HB : ordered_bounds auxb e0 rs) (Hgam : neqb (nsub n1 gamma) n0 = false).
  Context (GT : good_task nw K (e_sim e0) T).
  Notation s0 := (e_sim e0).
  Notation good := (good nw o K (Fin d) gamma lamb auxb clip g e0).

  Lemma ep_sim0 : sim_init nw (Fin d) lamb = Ok s0.
  Proof. exact (gd_sim0 _ (good_erun _ _ _ _ _ _ _ _ _ _ T [] built)). Qed.
  Lemma ep_size : state_size e0 = vec_size nw K.
  Proof.
    pose proof (good_erun _ _ _ _ _ _ _ _ _ _ T [] built) as Hg. unfold state_size, vec_size, reset_size.
    pose proof (gd_K _ Hg) as E. cbn [erun fold_left] in E. rewrite E. destruct (counts nw (Fin d) lamb s0 ep_sim0 s0 eq_refl) as (-> & -> & ->). lia.
  Qed.

  (** a reset to a vector with good states of charge *)
  Lemma reset_reported Or init : is_ok (snd (sim_reset Or init s0)) = true -> Forall fin init -> soc_entries_ok s0 init ->
    soc_reported_ok s0 (fst (sim_reset Or init s0)).
  Proof.
    intros Ok Fi So i v O. destruct (sim_reset Or init s0) as [s' [conv|]] eqn:E; [|discriminate]. cbn [fst] in *.
    pose proof (base_pos nw (Fin d) lamb s0 ep_sim0 b Eb) as Hb.
    assert (Fr : fresh s') by (pose proof (call_fresh s0 (CReset Or init)) as Q; cbn [returned run_call] in Q; rewrite E in Q; apply Q; reflexivity).
    pose proof (strip_reset Or init s0) as St. rewrite E in St. cbn [fst] in St.
    assert (X : exists dv, In dv (sm_devs s') /\ is_stor dv = true /\ d_id dv = i).
    { unfold obs in O. rewrite (proj1 Fr) in O. rewrite (read_dev_eq s' "des_soc" "pu" is_stor soc_of) in O by (cbn; auto 10).
      apply (dget_in _ eid_eqb_iff) in O. apply in_map_iff in O as (dv & E' & I). apply filter_In in I as [I I']. injection E' as E' _. eauto. }
    destruct X as (dv & I & Ist & <-). destruct (static_dev _ _ _ St I) as (d0 & I0 & E0). apply strip_dev_fields in E0. destruct E0 as (D1 & D2 & D3 & D4 & _).
    assert (Ik : In (EId (d_id dv)) (storage_ids s0)).
    { rewrite storage_ids_eq. rewrite <- D1. apply (in_map (fun d => EId (d_id d))). apply filter_In. split; auto. unfold is_stor in *. rewrite D4. auto. }
    apply In_nth_error in Ik as (k & Ek).
    destruct (reset_soc nw (Fin d) lamb s0 [] Or init s' conv k _ ep_sim0 E Ek) as (c & Ec & Oc).
    rewrite Oc in O. injection O as <-. pose proof (nth_error_In _ _ Ec) as Ic. rewrite Forall_forall in Fi. destruct (Fi _ Ic) as (x & ->).
    rewrite Eb. cbn [ndiv XRnum]. rewrite xdiv_Fin by lra. exists (x / b). split; auto. intros lo hi Bd.
    pose proof (So k _ lo hi (Fin x) Ek Bd Ec) as W. rewrite (init_base _ _ _ _ ep_sim0), Eb in W. cbn [ndiv XRnum] in W. rewrite xdiv_Fin in W by lra. exact W.
  Qed.
  Lemma reset_soc_in Or init : is_ok (snd (sim_reset Or init s0)) = true -> Forall fin init -> soc_entries_ok s0 init ->
    soc_in (sm_devs (fst (sim_reset Or init s0))).
  Proof.
    intros Ok Fi So. apply (fresh_soc_in nw (Fin d) lamb s0 ep_sim0); [apply strip_reset| |apply reset_reported; auto].
    exact (call_fresh s0 (CReset Or init) Ok).
  Qed.

  (** What a live environment looks like. *)
  Definition alive (e : env XR G) : Prop :=
    e_term e = Some true \/
    (e_term e = Some false /\ exists st, e_state e = Some st /\ List.length st = vec_size nw K /\ Forall fin st /\ soc_in (sm_devs (e_sim e))).

  Lemma layout_fin devs gens dess s aux st : ids_of nw ALL devs -> ids_of nw GENS gens -> ids_of nw STORS dess ->
    state_layout devs gens dess (Z.to_nat K) s aux st -> (forall k u i v, obs s k u i = Some v -> fin v) -> Forall fin aux ->
    List.length st = vec_size nw K /\ Forall fin st.
  Proof.
    intros I1 I3 I4 (La & M) Ho Fa. split.
    - pose proof (f_equal (@List.length _) M) as Ml. unfold reads in Ml. rewrite !app_length, !map_length in Ml.
      destruct (ids_lists _ _ _ _ _ ep_sim0 eq_refl) as (B1 & _ & B3 & B4). rewrite (B1 _ I1), (B3 _ I3), (B4 _ I4), !map_length in Ml.
      destruct (counts nw (Fin d) lamb s0 ep_sim0 s0 eq_refl) as (C1 & C2 & C3). unfold vec_size, reset_size. unfold n_device, n_des, n_nsgen in *. lia.
    - apply Forall_forall. intros x Ix. assert (Ix' : In (Some x) (map Some st)) by (apply in_map; auto). rewrite M in Ix'.
      unfold reads in Ix'. repeat (apply in_app_or in Ix'; destruct Ix' as [Ix'|Ix']); try (apply in_map_iff in Ix' as (i & Ei & _); eapply Ho; exact Ei).
      apply in_map_iff in Ix' as (y & Ey & Iy). injection Ey as ->. rewrite Forall_forall in Fa. auto.
  Qed.
  Lemma fin_not_nan x : fin x -> nisnan x = false.
  Proof. intros (r & ->). apply xisnan_false. discriminate. Qed.
  Lemma fin_no_nan (e' : env XR G) : (forall k u i v, obs (e_sim e') k u i = Some v -> fin v) -> (forall st, e_state e' = Some st -> Forall fin st) -> no_nan rs e'.
  Proof.
    intros Ho Hs st ((key, u), n) v Est _ Ev. apply fin_not_nan. unfold req_value in Ev. destruct (String.eqb key "aux").
    - destruct n as [i|]; [|discriminate]. apply nth_error_In in Ev. specialize (Hs _ Est). rewrite Forall_forall in Hs. apply Hs.
      rewrite <- (firstn_skipn (List.length st - e_K e') st). apply in_or_app. auto.
    - destruct u as [u'|]; [|discriminate]. eapply Ho; eauto.
  Qed.
  Lemma Forall_skip {A} (P : A -> Prop) n (xs : list A) : Forall P xs -> Forall P (skipn n xs).
  Proof. intros H. rewrite <- (firstn_skipn n xs) in H. apply Forall_app in H. apply H. Qed.

  (** the sampling loop *)
  Lemma loop_any Or : good_oracles Or -> forall rem (e : env XR G), strip (e_sim e) = strip s0 -> state_size e = state_size e0 ->
    exists e1 r init cv, reset_loop Or T (S rem) e = (e1, r) /\
      List.length init = vec_size nw K /\ Forall fin init /\ soc_entries_ok s0 init /\ e_state e1 = Some init /\
      e_sim e1 = fst (sim_reset Or init s0) /\ snd (sim_reset Or init s0) = Ok cv /\ e_term e1 = e_term e /\
      (r = Ok tt \/ (r = Err AttributeError /\ forall j, (j < rem)%nat -> attempt Or s0 (state_size e0) (draw T (e_rng e) j) false)).
  Proof.
    intros Go. induction rem as [|rem IH]; intros e St Sz; destruct (gt_init _ _ _ _ GT (e_rng e)) as (init & Ei & Li & Fi & So).
    all: assert (Ok0 : is_ok (snd (sim_reset Or init s0)) = true) by
        (refine (reset_ok_exact nw (Fin d) lamb s0 ep_sim0 b Eb d eq_refl Hd Mp Sv Or init s0 eq_refl Go _ Fi); rewrite Li; unfold vec_size; lia).
    all: destruct (reset_dep Or init (e_sim e) s0 St) as (D & D2 & _).
    all: destruct (snd (sim_reset Or init s0)) as [cv|] eqn:Ecv; [|discriminate].
    all: assert (Dk : fst (sim_reset Or init (e_sim e)) = fst (sim_reset Or init s0)) by (apply D2; rewrite D; reflexivity).
    all: cbn [reset_loop]; destruct (t_init T (e_rng e)) as (r, g') eqn:Et; cbn [fst] in Ei; subst r.
    all: change (state_size (env_set_state (env_set_rng e g') (Some init))) with (state_size e).
    all: assert (Ln : Nat.eqb (List.length init) (state_size e) = true) by (apply Nat.eqb_eq; rewrite Li, Sz, ep_size; auto).
    all: rewrite Ln; cbn [negb]; change (e_sim (env_set_state (env_set_rng e g') (Some init))) with (e_sim e).
    all: destruct (sim_reset Or init (e_sim e)) as (s', r) eqn:E; cbn [fst snd] in D, Dk; subst r.
    - do 4 eexists. split; [reflexivity|]. split; [exact Li|]. split; [exact Fi|]. split; [exact So|]. split; [reflexivity|]. split; [exact Dk|]. split; [exact Ecv|]. split; [reflexivity|].
      right. split; [reflexivity|]. intros; lia.
    - destruct cv.
      + do 4 eexists. split; [reflexivity|]. split; [exact Li|]. split; [exact Fi|]. split; [exact So|]. split; [reflexivity|]. split; [exact Dk|]. split; [exact Ecv|]. split; [reflexivity|]. auto.
      + set (e2 := env_set_sim (env_set_state (env_set_rng e g') (Some init)) s').
        pose proof (strip_reset Or init (e_sim e)) as Q. rewrite E in Q. cbn in Q.
        destruct (IH e2) as (e1 & r & i1 & c1 & A1 & A2 & A3 & A4 & A5 & A6 & A7 & A8 & A9).
        * cbn. congruence.
        * rewrite <- Sz. apply state_size_static. unfold econst; cbn. rewrite Q. auto.
        * exists e1, r, i1, c1. split; [exact A1|]. do 6 (split; [assumption|]). split; [rewrite A8; reflexivity|].
          destruct A9 as [A9|(A9 & A10)]; [auto|]. right. split; auto. intros [|j] Lj.
          { exists init. cbn [draw]. rewrite Et. cbn [fst]. split; auto. split; [rewrite ep_size; exact Li|exact Ecv]. }
          { cbn [draw]. rewrite Et. cbn [snd]. apply (A10 j). lia. }
  Qed.

  Lemma reset_alive_at Or seed e : good e -> (forall sp, e_ospace e0 = Some sp -> e_ospace e = Some sp) -> good_oracles Or ->
    alive (fst (env_reset Or T seed e)) /\ returns T s0 (state_size e0) e (EReset Or seed).
  Proof.
    intros Hg Hsp Go.
    destruct (resetting_const T seed e) as (R1 & R2 & R3 & _).
    assert (Hg1 : good (resetting T seed e)) by (eapply good_const; eauto).
    assert (Tm : e_term (fst (env_reset Or T seed e)) = Some false).
    { destruct (env_reset Or T seed e) as (e1, r) eqn:Er. destruct (env_reset_const _ _ _ _ _ _ Er) as (_ & _ & Qt & _). exact Qt. }
    destruct (loop_any Or Go 99 (resetting T seed e) (gd_strip _ Hg1) (state_size_static _ _ (gd_const _ _ _ _ _ _ _ _ _ _ _ Hg1)))
      as (e1 & r & init & cv & A1 & A2 & A3 & A4 & A5 & A6 & A7 & A8 & A9).
    assert (Okr : is_ok (snd (sim_reset Or init s0)) = true) by (rewrite A7; reflexivity).
    pose proof (reset_soc_in Or init Okr A3 A4) as Sc.
    destruct A9 as [->|(-> & A9)].
    - destruct (loop_inv Or T s0 (state_size e0) _ _ _ (gd_strip _ Hg1) (state_size_static _ _ (gd_const _ _ _ _ _ _ _ _ _ _ _ Hg1)) A1) as (k & Lk & Hb & Ht).
      rewrite resetting_rng in Hb, Ht. destruct (ids_ex _ _ _ _ (gd_sim0 _ Hg)) as (devs & loads & gens & dess & I1 & I2 & I3 & I4).
      destruct (gd_reset Or T seed e k devs gens dess Hg Lk Hb Ht I1 I3 I4) as (init' & e' & st & B1 & B2 & B3 & B4 & B5 & B6 & B7).
      destruct (loop_first Or T s0 (state_size e0) k 100 (resetting T seed e)) as (init2 & e2 & C1 & _ & C3 & C4 & C5);
        [apply (gd_strip _ Hg1)|apply state_size_static, Hg1|lia|rewrite resetting_rng; exact Hb|rewrite resetting_rng; exact Ht|].
      rewrite A1 in C1. injection C1 as <- _. rewrite A5 in C4. injection C4 as <-. rewrite resetting_rng, B2 in C3. injection C3 as -> _.
      destruct Ht as (i3 & T1 & T2 & T3). rewrite B2 in T1. cbn [fst] in T1. injection T1 as <-.
      assert (Cv : sm_conv (fst (sim_reset Or init s0)) = Some true).
      { destruct (sim_reset Or init s0) as (s', r') eqn:E. cbn [snd fst] in *. rewrite T3 in E. apply sim_reset_ok in E as (inp & ds & s1 & st1 & r1 & x1 & p1 & ds2 & _ & _ & Et & _ & ->).
        cbn. apply transition_ok in Et as (_ & _ & ds' & v & i & T1). apply T1. }
      assert (Ho : forall k u i v, obs (e_sim e') k u i = Some v -> fin v).
      { rewrite B4. refine (reset_obs_fin nw (Fin d) lamb s0 ep_sim0 b Eb d eq_refl Mp Hbr Hnum Hbu Or init s0 eq_refl (proj1 Go) _ A3 Okr Cv). rewrite A2. unfold vec_size. lia. }
      destruct (layout_fin _ _ _ _ _ _ I1 I3 I4 B6 Ho (Forall_skip _ _ _ A3)) as (Ls & Fs).
      split.
      + right. split; [exact Tm|]. rewrite B1. exists st. split; [exact B5|]. split; [exact Ls|]. split; [exact Fs|]. rewrite B4. exact Sc.
      + left. destruct (returns_at nw o K (Fin d) gamma lamb auxb clip g e0 T e Hg Hsp l rs Hl Hr Hdm loads gens dess I2 I3 I4 HB) as (_ & R).
        apply (R Or seed k); auto.
        * exists init. rewrite B2. cbn [fst]. auto.
        * rewrite B1. apply fin_no_nan; auto. intros st' E'. rewrite B5 in E'. injection E' as <-. exact Fs.
    - assert (Er : env_reset Or T seed e = (e1, Err AttributeError)) by (rewrite env_reset_eq, A1; reflexivity).
      cbn [returns]. rewrite Er in *. cbn [fst snd] in *. split.
      + right. split; [exact Tm|]. exists init. rewrite A6. auto.
      + right. split; [reflexivity|]. rewrite resetting_rng in A9. exact A9.
  Qed.

  Lemma pick ids (vs : list XR) off k i m : nth_error ids k = Some i -> dget Z.eqb m i = nth_error vs (off + k) -> (off + List.length ids <= List.length vs)%nat -> Forall fin vs -> has_num m i.
  Proof.
    intros E1 E2 L Fv. assert (Lk : (k < List.length ids)%nat) by (apply nth_error_Some; congruence).
    destruct (nth_error vs (off + k)) as [x|] eqn:Ex; [|apply nth_error_None in Ex; lia].
    rewrite Forall_forall in Fv. destruct (Fv x (nth_error_In _ _ Ex)) as (y & ->). exists y. auto.
  Qed.
  Lemma action_len e a gens dess : good e -> ids_of nw GENS gens -> ids_of nw STORS dess -> valid_action e a -> List.length a = (2 * List.length gens + 2 * List.length dess)%nat.
  Proof.
    intros Hg I3 I4 V. unfold valid_action in V. rewrite (gd_aspace _ Hg) in V. destruct (action_space_bounds nw (Fin d) lamb s0 gens dess ep_sim0 I3 I4) as (B & EB & Es).
    rewrite Es in V. unfold box_contains in V. apply andb_prop in V as (V & _). apply andb_prop in V as (V & _). apply andb_prop in V as (_ & V). apply Nat.eqb_eq in V.
    cbn [ov_vec bx_lo] in V. rewrite map_length in V. apply (f_equal (@List.length _)) in EB. unfold bounds_of in EB. rewrite !app_length, !map_length in EB. lia.
  Qed.
  Lemma layout_usable loads gens dess vars a inp : ids_of nw LOADS loads -> ids_of nw GENS gens -> ids_of nw STORS dess -> layout loads gens dess vars a inp ->
    (List.length loads + List.length gens <= List.length vars)%nat -> List.length a = (2 * List.length gens + 2 * List.length dess)%nat -> Forall fin vars -> Forall fin a ->
    usable_inputs nw inp.
  Proof.
    intros I2 I3 I4 (L1 & L2 & L3) Lv La Fv Fa r i Ir Ei. split; [|split].
    - intros Ty. assert (Ii : In i loads) by (apply I2; exists r, (-1)%Z; cbn; auto). apply In_nth_error in Ii as (k & Ek).
      apply (pick loads vars 0 k); auto; lia.
    - intros Ty. assert (Ii : In i gens) by (apply I3; destruct Ty as [Ty|Ty]; eexists r, _; cbn; split; eauto 6). apply In_nth_error in Ii as (k & Ek).
      destruct (L2 k i Ek) as (P1 & P2 & P3). split; [|split].
      + apply (pick gens vars (List.length loads) k); auto.
      + apply (pick gens a 0 k); auto. lia.
      + apply (pick gens a (List.length gens) k); auto. lia.
    - intros Ty. assert (Ii : In i dess) by (apply I4; exists r, 3%Z; cbn; auto). apply In_nth_error in Ii as (k & Ek).
      destruct (L3 k i Ek) as (P1 & P2). split.
      + apply (pick dess a (2 * List.length gens) k); auto. lia.
      + apply (pick dess a (2 * List.length gens + List.length dess) k); auto. lia.
  Qed.

  Lemma step_alive_at Or a e : good e -> (forall sp, e_ospace e0 = Some sp -> e_ospace e = Some sp) -> good_oracles Or -> Forall fin a -> valid_action e0 a -> alive e ->
    alive (fst (env_step Or T a e)) /\ returns T s0 (state_size e0) e (EStep Or a).
  Proof.
    intros Hg Hsp Go Fa V0 Al.
    assert (V : valid_action e a).
    { unfold valid_action in *. pose proof (good_erun _ _ _ _ _ _ _ _ _ _ T [] built) as Hg0. rewrite (gd_aspace _ Hg). pose proof (gd_aspace _ Hg0) as Q. cbn [erun fold_left] in Q. rewrite <- Q. exact V0. }
    cbn [returns]. destruct Al as [Te|(Te & st & Hst & Ls & Fs & Sc)].
    - destruct (documented_items l rs (gd_init _ _ _ _ _ _ _ _ _ _ _ Hg) Hl Hr Hdm) as (items & B & P1 & P2 & P3 & P4 & P5 & P6).
      assert (Es : e_ospace e = Some (mkBox (map fst B) (map snd B) false)) by auto.
      destruct (env_stepped Or T a e); try congruence; try contradiction. split; [left; auto|eauto].
    - destruct (ids_ex _ _ _ _ (gd_sim0 _ Hg)) as (devs & loads & gens & dess & I1 & I2 & I3 & I4).
      destruct (gd_lists _ Hg _ _ _ _ I1 I2 I3 I4) as (E1 & E2 & E3 & E4 & E5 & E6 & E7 & E8 & E9 & E10).
      destruct (gt_next _ _ _ _ GT st (e_rng e) Ls Fs) as (vars & En & Lv & Fv). destruct (t_next T st (e_rng e)) as (rr, gr) eqn:Et. cbn [fst] in En. subst rr.
      assert (Lv' : List.length vars = (List.length loads + List.length gens + Z.to_nat K)%nat).
      { rewrite Lv. unfold vars_size. rewrite <- E7, <- E8. f_equal. f_equal.
        - symmetry. unfold n_load. apply (ProofTotal.count_rows nw (Fin d) lamb s0 ep_sim0 is_load [-1]%Z); [intros base ids r dd Em; apply (mk_dev_kind _ _ _ _ Em)|reflexivity|exact (gd_strip _ Hg)].
        - symmetry. apply (counts nw (Fin d) lamb s0 ep_sim0 _ (gd_strip _ Hg)). }
      assert (Lk : (Z.to_nat K <= List.length st)%nat) by (rewrite Ls; unfold vec_size; lia).
      assert (La : layout loads gens dess vars a (step_inputs e vars a)).
      { rewrite E2, E3, E4. apply step_inputs_layout. eapply static_nodup; [apply (gd_sim0 _ Hg)|apply (gd_strip _ Hg)]. }
      set (inp := step_inputs e vars a) in *.
      assert (U : usable_inputs nw inp) by (eapply layout_usable; eauto; [lia|eapply action_len; eauto]).
      assert (Okt : is_ok (snd (transition Or inp (e_sim e))) = true) by exact (trans_ok_exact nw (Fin d) lamb s0 ep_sim0 b Eb d eq_refl Hd Mp Sv Or inp _ (gd_strip _ Hg) Go U Sc).
      pose proof (trans_keeps nw (Fin d) lamb s0 ep_sim0 b Eb d eq_refl Mp Or inp _ (gd_strip _ Hg) (proj1 Go) U Sc Okt) as Sc'.
      destruct (transition Or inp (e_sim e)) as [s' [[[[[fl rw] el] pen] conv]|]] eqn:Tr; [|discriminate]. cbn [fst snd] in *.
      destruct (returns_at nw o K (Fin d) gamma lamb auxb clip g e0 T e Hg Hsp l rs Hl Hr Hdm loads gens dess I2 I3 I4 HB) as (R & _).
      destruct (R Or a st vars gr inp s' fl rw el pen conv V Te Hst Lk Et Lv' La Tr) as (S1 & S2 & S3 & S4 & S5).
      destruct conv.
      + destruct (step_after Or T a e st vars gr inp loads gens dess s' fl rw el pen true Hg V Te Hst Et I2 I3 I4 Lv' La Lk Tr) as (_ & _ & _ & _ & _ & Q & _).
        destruct (Q eq_refl) as (st' & Q1 & _ & _ & _ & Q2 & _). specialize (Q2 _ I1).
        assert (Ho : forall k u i v, obs s' k u i = Some v -> fin v).
        { assert (Es' : s' = fst (transition Or inp (e_sim e))) by (rewrite Tr; reflexivity). rewrite Es'.
          refine (trans_obs_fin nw (Fin d) lamb s0 ep_sim0 b Eb d eq_refl Mp Hbr Hnum Hbu Or inp (e_sim e) (gd_strip _ Hg) (proj1 Go) U Sc _ _); rewrite Tr; [reflexivity|].
          cbn [fst]. apply transition_ok in Tr as (_ & _ & ds' & v & i & T1). apply T1. }
        destruct (layout_fin _ _ _ _ _ _ I1 I3 I4 Q2 Ho (Forall_skip _ _ _ Fv)) as (Ls' & Fs').
        destruct (S4 eq_refl) as (ob & rr & Eo).
        { apply fin_no_nan; [rewrite S1; exact Ho|]. intros st'' E''. rewrite Q1 in E''. injection E'' as <-. exact Fs'. }
        split; [|eauto]. right. split; [exact S3|]. exists st'. rewrite S1. auto.
      + split; [left; exact S3|]. eexists. apply S5; auto.
  Qed.

  (** a step of a live episode leaves the storage units in their range, whether or not it ends the episode *)
  Lemma step_soc_at Or a e : good e -> (forall sp, e_ospace e0 = Some sp -> e_ospace e = Some sp) -> good_oracles Or -> Forall fin a -> valid_action e0 a -> alive e -> e_term e = Some false ->
    soc_in (sm_devs (e_sim (fst (env_step Or T a e)))).
  Proof.
    intros Hg Hsp Go Fa V0 Al Te.
    assert (V : valid_action e a).
    { unfold valid_action in *. pose proof (good_erun _ _ _ _ _ _ _ _ _ _ T [] built) as Hg0. rewrite (gd_aspace _ Hg). pose proof (gd_aspace _ Hg0) as Q. cbn [erun fold_left] in Q. rewrite <- Q. exact V0. }
    destruct Al as [Tt|(_ & st & Hst & Ls & Fs & Sc)]; [congruence|].
    destruct (ids_ex _ _ _ _ (gd_sim0 _ Hg)) as (devs & loads & gens & dess & I1 & I2 & I3 & I4).
    destruct (gd_lists _ Hg _ _ _ _ I1 I2 I3 I4) as (E1 & E2 & E3 & E4 & E5 & E6 & E7 & E8 & E9 & E10).
    destruct (gt_next _ _ _ _ GT st (e_rng e) Ls Fs) as (vars & En & Lv & Fv). destruct (t_next T st (e_rng e)) as (rr, gr) eqn:Et. cbn [fst] in En. subst rr.
    assert (Lv' : List.length vars = (List.length loads + List.length gens + Z.to_nat K)%nat).
    { rewrite Lv. unfold vars_size. rewrite <- E7, <- E8. f_equal. f_equal.
      - symmetry. unfold n_load. apply (ProofTotal.count_rows nw (Fin d) lamb s0 ep_sim0 is_load [-1]%Z); [intros base ids r dd Em; apply (mk_dev_kind _ _ _ _ Em)|reflexivity|exact (gd_strip _ Hg)].
      - symmetry. apply (counts nw (Fin d) lamb s0 ep_sim0 _ (gd_strip _ Hg)). }
    assert (Lk : (Z.to_nat K <= List.length st)%nat) by (rewrite Ls; unfold vec_size; lia).
    assert (La : layout loads gens dess vars a (step_inputs e vars a)).
    { rewrite E2, E3, E4. apply step_inputs_layout. eapply static_nodup; [apply (gd_sim0 _ Hg)|apply (gd_strip _ Hg)]. }
    set (inp := step_inputs e vars a) in *.
    assert (U : usable_inputs nw inp) by (eapply layout_usable; eauto; [lia|eapply action_len; eauto]).
    assert (Okt : is_ok (snd (transition Or inp (e_sim e))) = true) by exact (trans_ok_exact nw (Fin d) lamb s0 ep_sim0 b Eb d eq_refl Hd Mp Sv Or inp _ (gd_strip _ Hg) Go U Sc).
    pose proof (trans_keeps nw (Fin d) lamb s0 ep_sim0 b Eb d eq_refl Mp Or inp _ (gd_strip _ Hg) (proj1 Go) U Sc Okt) as Sc'.
    destruct (transition Or inp (e_sim e)) as [s' [[[[[fl rw] el] pen] conv]|]] eqn:Tr; [|discriminate]. cbn [fst snd] in *.
    destruct (returns_at nw o K (Fin d) gamma lamb auxb clip g e0 T e Hg Hsp l rs Hl Hr Hdm loads gens dess I2 I3 I4 HB) as (R & _).
    destruct (R Or a st vars gr inp s' fl rw el pen conv V Te Hst Lk Et Lv' La Tr) as (S1 & _). rewrite S1. exact Sc'.
  Qed.

  Lemma reset_alive Or seed cs : good_oracles Or -> let e := erun T e0 cs in
    alive (fst (env_reset Or T seed e)) /\ returns T s0 (state_size e0) e (EReset Or seed).
  Proof. intros Go e. apply reset_alive_at; auto; [exact (good_erun _ _ _ _ _ _ _ _ _ _ T cs built)|intros sp; apply erun_ospace]. Qed.
  Lemma step_alive Or a cs : good_oracles Or -> Forall fin a -> valid_action e0 a -> let e := erun T e0 cs in alive e ->
    alive (fst (env_step Or T a e)) /\ returns T s0 (state_size e0) e (EStep Or a).
  Proof. intros Go Fa V0 e Al. apply step_alive_at; auto; [exact (good_erun _ _ _ _ _ _ _ _ _ _ T cs built)|intros sp; apply erun_ospace]. Qed.

  Lemma calls_alive c cs : Forall (good_call e0) (c :: cs) -> (exists Or seed, c = EReset Or seed) ->
    alive (erun T e0 (c :: cs)) /\ forall cs1 c1 cs2, c :: cs = cs1 ++ c1 :: cs2 -> returns T s0 (state_size e0) (erun T e0 cs1) c1.
  Proof.
    intros Gc (Or & seed & ->). induction cs as [|c1 cs IH] using rev_ind.
    - apply Forall_inv in Gc. cbn [good_call] in Gc. destruct (reset_alive Or seed [] Gc) as (A & R). split; [exact A|].
      intros cs1 c1 cs2 E. destruct cs1 as [|x cs1]; [injection E as <- <-; exact R|]. destruct cs1; discriminate.
    - rewrite app_comm_cons in *. apply Forall_app in Gc as (G1 & G2). apply Forall_inv in G2. destruct (IH G1) as (A & R).
      assert (Q : alive (run_ecall T (erun T e0 (EReset Or seed :: cs)) c1) /\ returns T s0 (state_size e0) (erun T e0 (EReset Or seed :: cs)) c1).
      { destruct c1 as [Or1 seed1|Or1 a1]; [apply reset_alive; auto|]. destruct G2 as (Q1 & Q2 & Q3). apply step_alive; auto. }
      split.
      + unfold erun in *. rewrite fold_left_app. apply Q.
      + intros cs1 c2 cs2 E. destruct cs2 as [|x cs2] using rev_ind.
        * apply app_inj_tail in E as (<- & <-). apply Q.
        * rewrite app_comm_cons, app_assoc in E. apply app_inj_tail in E as (E & _). eapply R; eauto.
  Qed.
End Episode.
