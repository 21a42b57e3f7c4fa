(** C86: what the browser shows of an environment on the 6-bus network. *)
From Coq Require Import Reals Lra Lia.
From Coquelicot Require Import Complex.
From Verif Require Import Base Num NumXR Devices BusBranch CheckNetwork LoadFlow Simulator EnvArgs Env Anm6 Message SvgLabels Page LibBase LibNum LibXR LibC LibSim LibInit
  SpecNet SpecSim SpecEnv SpecDev SpecPf SpecAnm6 SpecRender SpecMessage SpecPage SpecShow
  ProofSim ProofObs ProofHist ProofUnits ProofVals ProofBr ProofState ProofSoc ProofPf ProofBal ProofLoss ProofEnv ProofStep ProofDraw ProofEasy ProofMessage ProofPage ProofPage3 PropReward PropPf PropEasy PropEasy2 PropRender ProofAnm6 ProofShow PropPage.
From Coq Require Import List. Import ListNotations.
Local Open Scope string_scope.
Local Open Scope list_scope.
Local Open Scope R_scope.
Set Bullet Behavior "Strict Subproofs".

(** ---- the penalty and the crosses ---- *)
Definition rval (x : XR) : R := match x with Fin r => r | _ => 0 end.
Definition lim_ok (bb : bus XR) (v : R) : Prop := rval (vmin_of bb) <= v <= rval (b_vmax bb).
Lemma br_sums (sv rt : branch XR -> R) brs : (forall br, In br brs -> ln_smax br = Fin (sv br) /\ ln_rate br = Fin (rt br)) -> forall a,
  exists y, fold_left branch_penalty brs (Fin a) = Fin y /\ a <= y /\ (y = a <-> forall br, In br brs -> Rabs (sv br) <= rt br).
Proof.
  induction brs as [|br brs IH]; intros H a; cbn [fold_left].
  - exists a. split; [reflexivity|]. split; [lra|]. split; [intros _ ? []|reflexivity].
  - destruct (H br (or_introl eq_refl)) as [E1 E2]. unfold branch_penalty at 2. rewrite E1, E2. 
    destruct (max0 (Rabs (sv br) - rt br)) as (z & Ez & Pz & Iz).
    assert (Es : nadd (Fin a : XR) (np_max n0 (nsub (nabs (Fin (sv br) : XR)) (Fin (rt br)))) = Fin (a + z)) by (change (n0 : XR) with (Fin 0); change (nsub (nabs (Fin (sv br) : XR)) (Fin (rt br))) with (Fin (Rabs (sv br) - rt br)); rewrite Ez; reflexivity).
    rewrite Es. clear Es.
    destruct (IH (fun b I => H b (or_intror I)) (a + z)) as (y & Ey & Py & Iy). exists y. split; [exact Ey|]. split; [lra|]. split.
    + intros -> b' [<-|I']; [|apply Iy; auto; lra]. assert (z = 0) by lra. apply Iz in H0. lra.
    + intros Ha. assert (z = 0) by (apply Iz; specialize (Ha br (or_introl eq_refl)); lra). assert (y = a + z) by (apply Iy; intros; apply Ha; right; auto). lra.
Qed.
Lemma all_or_not {A} (P : A -> Prop) (dec : forall a, P a \/ ~ P a) l : (forall a, In a l -> P a) \/ exists i a, nth_error l i = Some a /\ ~ P a.
Proof.
  induction l as [|a l IH]; [left; intros ? []|]. destruct (dec a) as [D|D]; [|right; exists 0%nat, a; auto]. destruct IH as [IH|(i & b & E & Q)].
  - left. intros b [<-|I]; auto.
  - right. exists (S i), b. auto.
Qed.

Section Crosses.
  Context {G : Type} (d l : R) (s0 : sim XR) (H0 : sim_init anm6x (Fin d) (Fin l) = Ok s0) (Hd : 0 < d) (Hl : 0 < l).
  Context (s' : sim XR) (V : Z -> C) (S1 : strip s' = strip s0) (PS : pf_state anm6x 100 s' V) (Es : sm_state s' = Some (gather_state s')).
  Lemma bus_vals bb : In bb (sm_buses s') -> cabs (b_v bb) = Fin (Cmod (V (b_id bb))) /\ b_vmax bb = Fin (rval (b_vmax bb)) /\ b_vmin bb = Some (Fin (rval (vmin_of bb))).
  Proof.
    intros I. destruct (ps_bus _ _ _ _ PS bb I) as [-> _]. split; [apply up_abs|]. destruct (bus_row_of _ _ _ _ _ _ H0 S1 I) as (r & Ir & _ & _ & _ & E1 & E2).
    pose proof (proj1 (Forall_forall _ _) ax_bus_fin r Ir) as Fb. pose proof (vmin6 r Ir) as Nv. unfold bus_row_fin in Fb. inversion Fb as [|? ? C1 Hb1]; subst. inversion Hb1 as [|? ? C2 Hb2]; subst. inversion Hb2 as [|? ? C3 _]; subst.
    destruct (C2 _ E1) as (x & ->). unfold vmin_of. rewrite <- E2. destruct (br_vmin r) as [v|]; [|contradiction]. destruct (C3 v eq_refl) as (y & ->). auto.
  Qed.
  Lemma br_vals br : In br (sm_branches s') -> ln_smax br = Fin (rval (ln_smax br)) /\ ln_rate br = Fin (rval (ln_rate br)) /\ 0 < rval (ln_rate br).
  Proof.
    intros I. destruct (Forall2_in_r _ _ _ _ (ps_br _ _ _ _ PS) I) as (r & Ir & br0 & Ob & ->). rewrite (smax_val r 100 br0 Ob). split; [reflexivity|].
    destruct (update_pi r 100 br0 Ob (vat V (lr_f r)) (vat V (lr_t r))) as (_ & _ & _ & _ & _ & _ & _ & ->). rewrite (bo_rate _ _ _ Ob).
    assert (Rt : exists k, lr_rate r = Some (Fin k) /\ 0 < k).
    { clear -Ir. cbn [nw_br anm6_network] in Ir. cbn in Ir. decompose [or] Ir; try contradiction; subst r; cbn [lr_rate]; eexists; (split; [reflexivity|lra]). }
    destruct Rt as (k & -> & P). cbn [rval]. split; [reflexivity|lra].
  Qed.
  Lemma penalty_val x : penalty_of s' = Ok x -> exists y, x = Fin y /\ 0 <= y /\
    (y = 0 <-> (forall bb, In bb (sm_buses s') -> lim_ok bb (Cmod (V (b_id bb)))) /\ (forall br, In br (sm_branches s') -> Rabs (rval (ln_smax br)) <= rval (ln_rate br))).
  Proof.
    intros Pn. unfold penalty_of in Pn. apply bind_ok in Pn as (a & Ha & Pn). injection Pn as <-.
    pose proof (init_dt_lamb _ _ _ _ H0) as [D1 D2]. pose proof (strip_dt_lamb _ _ S1) as [D3 D4]. rewrite D3, D4, D1, D2.
    change (n0 : XR) with (Fin 0) in Ha.
    destruct (bus_pens (fun bb => Cmod (V (b_id bb))) (fun bb => rval (vmin_of bb)) (fun bb => rval (b_vmax bb)) (sm_buses s') 0 a Ha) as (y1 & -> & P1 & I1).
    { intros bb I. destruct (bus_vals bb I) as (A & B & C). auto. }
    destruct (br_sums (fun br => rval (ln_smax br)) (fun br => rval (ln_rate br)) (sm_branches s')) with (a := y1) as (y2 & -> & P2 & I2).
    { intros br I. destruct (br_vals br I) as (A & B & _). auto. }
    cbn [nmul XRnum xmul]. exists (y2 * (d * l)). split; [reflexivity|]. assert (Dl : 0 < d * l) by (apply Rmult_lt_0_compat; auto). split; [apply Rmult_le_pos; lra|].
    assert (Z0 : y2 * (d * l) = 0 <-> y2 = 0) by (split; intros Q; [apply Rmult_integral in Q as [Q|Q]; lra|rewrite Q; ring]). rewrite Z0. unfold lim_ok. split.
    - intros Q. split; [apply I1; lra|apply I2; lra].
    - intros [A B]. apply I1 in A. apply I2 in B. lra.
  Qed.
  Lemma base6 : sm_base s' = Fin 100.
  Proof. assert (E : sm_base s' = sm_base s0) by (unfold strip in S1; injection S1; auto). rewrite E, (init_base _ _ _ _ H0). reflexivity. Qed.
  Lemma lists (a : anm6 XR G) f clip : e_sim (a_env a) = s' -> pictures a f -> msg_of s0 clip = msg_of s' clip /\
    fr_bus_v f = map (fun b => cabs (b_v b)) (sm_buses s') /\ fr_branch_s f = map (fun br => nmul (ln_smax br) (Fin 100)) (sm_branches s').
  Proof.
    intros Ea P. split; [symmetry; apply msg_static; exact S1|]. pose proof (pc_v _ _ P) as Cv. pose proof (pc_s _ _ P) as Cs. rewrite Ea in Cv, Cs. unfold column, elements, get_state_space in Cv, Cs.
    cbn [dget String.eqb Ascii.eqb Bool.eqb] in Cv, Cs. rewrite !map_map in Cv, Cs. cbn [fst] in Cv, Cs.
    assert (Inj : forall l1 l2 : list XR, map Some l1 = map Some l2 -> l1 = l2) by (induction l1 as [|x l1 IH]; intros [|y l2] Q; try discriminate Q; [reflexivity|cbn in Q; injection Q as -> Q; f_equal; auto]).
    split; apply Inj.
    - rewrite Cv, map_map. apply map_ext_in. intros b I. unfold obs. rewrite Es. apply (read_bus s' "bus_v_magn" "pu" (fun x => cabs (b_v x))); [cbn; tauto|eapply static_bus_nodup; eauto|exact I].
    - rewrite Cs, map_map. apply map_ext_in. intros b I. unfold obs. rewrite Es, <- base6. apply (read_br s' "branch_s" "MVA" (fun x => nmul (ln_smax x) (sm_base s'))); [cbn; tauto|eapply static_br_nodup; eauto|exact I].
  Qed.
  Lemma crosses (a : anm6 XR G) f clip title dm x : e_sim (a_env a) = s' -> pictures a f -> penalty_of s' = Ok x -> drawn (msg_of s0 clip) title f dm ->
    exists y, x = Fin y /\ 0 <= y /\ (0 < y -> alarm dm) /\ (y = 0 -> quiet dm).
  Proof.
    intros Ea P Pn Dr. destruct (lists a f clip Ea P) as (Em & Ev & Eb). rewrite Em in Dr. destruct (penalty_val x Pn) as (y & -> & Py & Iy). exists y. split; [reflexivity|]. split; [exact Py|].
    destruct (counts6 _ _ _ H0) as (_ & C2 & C3 & _).
    assert (L2 : List.length (sm_buses s') = 6%nat) by (rewrite <- C2; pose proof (strip_buses _ _ S1) as Q; apply (f_equal (@List.length _)) in Q; rewrite !map_length in Q; exact Q).
    assert (L3 : List.length (sm_branches s') = 5%nat) by (rewrite <- C3; pose proof (strip_branches _ _ S1) as Q; apply (f_equal (@List.length _)) in Q; rewrite !map_length in Q; exact Q).
    assert (Bus : forall i bb L, nth_error (sm_buses s') i = Some bb -> nth_error svg_buses i = Some L -> bus_drawn dm L (rval (vmin_of bb)) (rval (b_vmax bb)) (Cmod (V (b_id bb)))).
    { intros i bb L Ei EL. destruct (bus_vals bb (nth_error_In _ _ Ei)) as (A & B & C). apply (dn_bus _ _ _ _ Dr i L); [exact EL| | |].
      - cbn [msg_of im_vmin]. rewrite nth_error_map, Ei. cbn [option_map]. f_equal. unfold vmin_of. rewrite C. reflexivity.
      - cbn [msg_of im_vmax]. rewrite nth_error_map, Ei. cbn [option_map]. f_equal. exact B.
      - rewrite Ev, nth_error_map, Ei. cbn [option_map]. f_equal. exact A. }
    assert (Ln : forall i br L, nth_error (sm_branches s') i = Some br -> nth_error svg_lines i = Some L -> line_drawn dm L (rval (ln_rate br) * 100) (rval (ln_smax br) * 100)).
    { intros i br L Ei EL. destruct (br_vals br (nth_error_In _ _ Ei)) as (A & B & C). apply (dn_line _ _ _ _ Dr i L); [exact EL| | |lra].
      - cbn [msg_of im_s]. rewrite nth_error_map, Ei, base6. cbn [option_map]. f_equal. rewrite B at 1. reflexivity.
      - rewrite Eb, nth_error_map, Ei. cbn [option_map]. f_equal. rewrite A at 1. reflexivity. }
    assert (At : forall {A B} (l1 : list A) (l2 : list B), List.length l1 = List.length l2 -> forall i x, nth_error l1 i = Some x -> exists z, nth_error l2 i = Some z).
    { clear. intros A B l1 l2 El i x E. destruct (nth_error l2 i) as [z|] eqn:Q; [eauto|]. apply nth_error_None in Q. assert (i < List.length l1)%nat by (apply nth_error_Some; congruence). lia. }
    assert (Sc : forall u v, Rabs (u * 100) = Rabs u * 100 /\ (Rabs u <= v <-> Rabs (u * 100) <= v * 100)) by (intros u v; rewrite Rabs_mult, (Rabs_pos_eq 100) by lra; split; [reflexivity|lra]).
    split.
    - intros Hy. destruct (all_or_not (fun bb => lim_ok bb (Cmod (V (b_id bb)))) ltac:(intros bb; unfold lim_ok; lra) (sm_buses s')) as [A|(i & bb & Ei & Nb)].
      + destruct (all_or_not (fun br => Rabs (rval (ln_smax br)) <= rval (ln_rate br)) ltac:(intros br; lra) (sm_branches s')) as [B|(i & br & Ei & Nb)].
        * exfalso. assert (y = 0) by (apply Iy; split; assumption). lra.
        * destruct (At _ _ _ svg_lines ltac:(rewrite L3; reflexivity) _ _ Ei) as (L & EL). right. exists L. split; [eapply nth_error_In; eauto|]. apply (ld_over _ _ _ _ (Ln i br L Ei EL)).
          destruct (Sc (rval (ln_smax br)) (rval (ln_rate br))) as [E1 _]. rewrite E1. apply Rnot_le_lt in Nb. lra.
      + destruct (At _ _ _ svg_buses ltac:(rewrite L2; reflexivity) _ _ Ei) as (L & EL). left. exists L. split; [eapply nth_error_In; eauto|]. apply (bd_out _ _ _ _ _ (Bus i bb L Ei EL)). unfold lim_ok in Nb. lra.
    - intros Z0. apply Iy in Z0 as [A B]. split; intros L IL; apply In_nth_error in IL as (i & EL).
      + destruct (At _ _ svg_buses (sm_buses s') ltac:(rewrite L2; reflexivity) _ _ EL) as (bb & Ei). apply (bd_in _ _ _ _ _ (Bus i bb L Ei EL)). apply (A bb). eapply nth_error_In; eauto.
      + destruct (At _ _ svg_lines (sm_branches s') ltac:(rewrite L3; reflexivity) _ _ EL) as (br & Ei). apply (ld_ok _ _ _ _ (Ln i br L Ei EL)). apply (proj1 (proj2 (Sc _ _))). apply (B br). eapply nth_error_In; eauto.
  Qed.
End Crosses.

(** a step that returned and did not end the episode *)
Lemma stepped_live {F G} {N : Num F} Or (T : task F G) act e e' out : stepped Or T act e e' (Ok out) -> so_terminated out = false ->
  exists inp s' fl rr el pen, transition Or inp (e_sim e) = (s', Ok (fl, rr, el, pen, true)) /\ e_sim e' = s' /\ e_pen e' = clip_pen e pen.
Proof.
  intros Sp. remember (Ok out) as r eqn:Er. destruct Sp as [| |n ? ? ?| | | | | |st vars g s' fl rr el pen e1 r e' V Et Es En El Tr E1 M|st vars g s' fl rr el pen e1 r e' V Et Es En El Tr E1 M]; try discriminate Er; intros Ht.
  - injection Er as <-. discriminate Ht.
  - exists (step_inputs e vars act), s', fl, rr, el, pen. split; [exact Tr|].
    destruct (write_aux _ _ _); [|destruct M; congruence]. destruct (construct_state _); [|destruct M; congruence]. destruct (observe _ _); [|destruct M; congruence]. destruct (e_ospace e); [|destruct M; congruence].
    destruct (box_contains _ _); [|destruct M; congruence]. destruct M as [-> _]. subst e1. split; reflexivity.
  - destruct (pydiv _ _); [|destruct M; congruence]. cbv zeta in M. destruct (observation_N e); [|destruct M; congruence]. destruct M as [_ ->]. injection Er as <-. discriminate Ht.
Qed.

(** ---- C86 ---- *)
Section History.
  Context {F G : Type} {N : Num F} (o : obs_arg F) (K : Z) (dt gamma lamb : F) (auxb : option (list (F * F))) (clip : option (option F * option F)) (g : G) (e0 : env F G) (a0 : anm6 F G).
  Context (B : env_init anm6_network o K dt gamma lamb auxb clip g = Ok e0) (A : anm6_init dt e0 = Ok a0).
  Let s0 := e_sim e0.
  Lemma show_sim : sim_init anm6_network dt lamb = Ok s0.
  Proof. apply env_init_inv in B. exact (ei_sim _ _ _ _ _ _ _ _ _ _ B). Qed.
  Lemma show_start : a_env a0 = e0 /\ rd_frames (a_rd a0) = [] /\ simok s0 (e_sim (a_env a0)).
  Proof.
    assert (A1 := A). unfold anm6_init in A1. apply bind_ok in A1 as (u & _ & A1). apply bind_ok in A1 as (len & _ & A1). injection A1 as <-. split; [reflexivity|]. split; [reflexivity|].
    split; [reflexivity|]. apply (gathered_run _ _ _ _ [] show_sim).
  Qed.
  Lemma show_strip ro cs : strip (e_sim (a_env (arun ro a0 cs))) = strip s0 /\ e_clip (a_env (arun ro a0 cs)) = clip_arg clip.
  Proof.
    pose proof (econst_arun ro cs a0) as E. rewrite (proj1 show_start) in E. apply econst_inv in E. assert (E1 : e_clip (a_env (arun ro a0 cs)) = e_clip e0) by tauto. split; [subst s0; tauto|]. rewrite E1. apply env_init_inv in B. exact (ei_clip _ _ _ _ _ _ _ _ _ _ B).
  Qed.
  Lemma show_message ro cs : first_message (a_env (arun ro a0 cs)) = Ok (msg_of s0 (clip_arg clip)).
  Proof.
    destruct (show_strip ro cs) as [Ss Ec]. rewrite first_message_eq, Ec, (msg_static _ s0 _ Ss); [reflexivity| |].
    - intros b I. destruct (bus_row_of _ _ _ _ _ _ show_sim Ss I) as (r & Ir & _ & _ & _ & _ & E2). rewrite <- E2. apply vmin6. exact Ir.
    - pose proof (strip_devs _ _ Ss) as Q. assert (Ed : map d_id (sm_devs (e_sim (a_env (arun ro a0 cs)))) = map d_id (sm_devs s0)).
      { clear -Q. revert Q. generalize (sm_devs (e_sim (a_env (arun ro a0 cs)))) (sm_devs s0). induction l as [|x l IH]; intros [|y l'] Q; try discriminate Q; [reflexivity|]. cbn [map] in Q |- *. assert (Q1 : strip_dev x = strip_dev y) by congruence. assert (Q2 : map strip_dev l = map strip_dev l') by congruence. f_equal; [|auto].
        apply strip_dev_fields in Q1. tauto. }
      rewrite Ed. exact (init_nodup _ _ _ _ show_sim).
  Qed.
  Lemma show_fits ro cs fs : incl fs (rd_frames (a_rd (arun ro a0 cs))) -> Forall fits_frame fs.
  Proof.
    intros I. apply Forall_forall. intros f If. destruct show_start as (_ & E & Sk). destruct (sent_before _ _ _ _ show_sim ro cs a0 f Sk E (I f If)) as (c1 & c2 & _ & P).
    exact (frame_fits _ _ _ show_sim _ _ (proj1 (show_strip ro c1)) P).
  Qed.
End History.

(** C86: an environment on the 6-bus network gives the same first message at every moment; after it the page processes every sequence of the updates that the environment has sent
    without an exception, whatever the arithmetic; and each of these updates pictures the environment at an earlier moment. *)
Theorem C86_any_history : forall (F G : Type) (N : Num F) o K dt gamma lamb auxb clip (g : G) e0 a0 ro,
  env_init anm6_network o K dt gamma lamb auxb clip g = Ok e0 -> anm6_init dt e0 = Ok a0 ->
  exists m, (forall cs, first_message (a_env (arun ro a0 cs)) = Ok m) /\
    forall cs fs title, incl fs (rd_frames (a_rd (arun ro a0 cs))) ->
      Forall (fun r => r = Ok tt) (snd (page_run blank (GInit m title :: map GUpdate fs))) /\
      (forall f, In f fs -> exists cs1 cs2, cs = cs1 ++ cs2 /\ pictures (arun ro a0 cs1) f).
Proof.
  intros F G N o K dt gamma lamb auxb clip g e0 a0 ro B A. exists (msg_of (e_sim e0) (clip_arg clip)). split; [intros cs; eapply show_message; eauto|]. intros cs fs title I. split.
  - apply C85_never_raises; [eapply msg_fits, show_sim; eauto|eapply show_fits; eauto].
  - intros f If. destruct (show_start o K dt gamma lamb auxb clip g e0 a0 B A) as (_ & E & Sk). exact (sent_before _ _ _ _ (show_sim _ _ _ _ _ _ _ _ _ B) ro cs a0 f Sk E (I f If)).
Qed.

(** C86: after the first message and any sent updates of which [f] is the last, the picture is that of [f]. *)
Theorem C86_shows : forall (G : Type) o K dt gamma lamb auxb clip (g : G) (e0 : env XR G) a0 ro cs m title fs f,
  env_init anm6_network o K dt gamma lamb auxb clip g = Ok e0 -> anm6_init dt e0 = Ok a0 ->
  first_message (a_env a0) = Ok m -> incl (fs ++ [f]) (rd_frames (a_rd (arun ro a0 cs))) ->
  drawn m title f (pg_dom (fst (page_run blank (GInit m title :: map GUpdate (fs ++ [f]))))).
Proof.
  intros G o K dt gamma lamb auxb clip g e0 a0 ro cs m title fs f B A Em I. pose proof (show_message o K dt gamma lamb auxb clip g e0 a0 B A ro []) as E. change (arun ro a0 []) with a0 in E. rewrite Em in E. injection E as ->.
  apply C85_drawn; [eapply msg_fits, show_sim; eauto|eapply show_fits; eauto].
Qed.

(** C86: right after a step that did not end the episode, the picture has a red cross on some bus or branch exactly when the displayed penalty is not zero. *)
Theorem C86_alarm : forall (G : Type) o K d gamma l auxb clip (g : G) (e0 : env XR G) a0 ro cs m title fs f Or T act a out,
  env_init anm6_network o K (Fin d) gamma (Fin l) auxb clip g = Ok e0 -> anm6_init (Fin d) e0 = Ok a0 -> (0 < d)%R -> (0 < l)%R -> xlt (Fin 0) (penalty_limit clip) ->
  anm6_step Or T act (arun ro a0 cs) = (a, Ok out) -> so_terminated out = false -> pictures a f ->
  first_message (a_env a0) = Ok m -> incl fs (rd_frames (a_rd (arun ro a0 cs))) ->
  let page := pg_dom (fst (page_run blank (GInit m title :: map GUpdate (fs ++ [f])))) in
  exists loss pen, fr_costs f = [loss; Fin pen] /\ (0 <= pen)%R /\ ((0 < pen)%R -> alarm page) /\ (pen = 0%R -> quiet page).
Proof.
  intros G o K d gamma l auxb clip g e0 a0 ro cs m title fs f Or T act a out B A Hd Hl Hc St Ht Pc Em I page.
  pose proof (show_message o K _ gamma _ auxb clip g e0 a0 B A ro []) as E. change (arun ro a0 []) with a0 in E. rewrite Em in E. injection E as ->.
  pose proof (show_sim _ _ _ _ _ _ _ _ _ B) as Hs. destruct (show_strip o K _ gamma _ auxb clip g e0 a0 B A ro cs) as [Ss Ec].
  set (aa := arun ro a0 cs) in *.
  assert (Ea : exists e', env_step Or T act (a_env aa) = (e', Ok out) /\ a_env a = e').
  { unfold anm6_step in St. destruct (env_step Or T act (a_env aa)) as (e', [ob|x]); [|discriminate St]. exists e'. destruct (a_date aa); [|discriminate St]. destruct (a_date_init aa); [|discriminate St].
    injection St as <- <-. split; reflexivity. }
  destruct Ea as (e' & Ee & Ea). pose proof (env_stepped Or T act (a_env aa)) as Sp. rewrite Ee in Sp. cbn [fst snd] in Sp.
  assert (Sc : exists inp s' fl rr el pen, transition Or inp (e_sim (a_env aa)) = (s', Ok (fl, rr, el, pen, true)) /\ e_sim e' = s' /\ e_pen e' = clip_pen (a_env aa) pen).
  { exact (stepped_live _ _ _ _ _ _ Sp Ht). }
  destruct Sc as (inp & s' & fl & rr & el & pen & Tr & Es & Ep).
  destruct (transition_ok _ _ _ _ _ _ _ _ _ Tr) as (_ & Cr & ds & v & i & Tk).
  destruct (pf_trans anm6x (Fin d) (Fin l) _ Hs 100 eq_refl ax_br_fin ax_numbered Or inp _ s' ds v i Ss Tk) as (V & PS).
  assert (S1 : strip s' = strip (e_sim e0)) by (rewrite (tk_strip _ _ _ _ _ _ _ _ Tk); exact Ss).
  assert (Pn : penalty_of s' = Ok pen). { unfold compute_reward in Cr. destruct (penalty_of s') as [p|]; [|discriminate Cr]. cbn in Cr. injection Cr as _ _ ->. reflexivity. }
  assert (Es' : e_sim (a_env a) = s') by (rewrite Ea; exact Es).
  assert (Dr : drawn (msg_of (e_sim e0) (clip_arg clip)) title f page).
  { apply C85_drawn; [eapply msg_fits; eauto|]. apply Forall_app. split; [eapply show_fits; eauto|]. constructor; [|constructor]. apply (frame_fits _ _ _ Hs a f); [rewrite Es'; exact S1|exact Pc]. }
  destruct (crosses d l (e_sim e0) Hs Hd Hl s' V S1 PS (tk_state _ _ _ _ _ _ _ _ Tk) a f (clip_arg clip) title page pen Es' Pc Pn Dr) as (y & -> & Py & Al & Qu).
  rewrite (pc_costs _ _ Pc), Ea, Ep. unfold clip_pen. rewrite Ec, clip_limits. cbn [snd]. change (n0 : XR) with (Fin 0).
  assert (Cl : exists z, np_clip (Fin y) (Fin 0) (penalty_limit clip) = Fin z /\ 0 <= z /\ (0 < z -> 0 < y) /\ (z = 0 -> y = 0)).
  { unfold np_clip. rewrite np_max_fin. destruct (penalty_limit clip) as [c| | |] eqn:Q.
    - apply xlt_Fin in Hc. exists (Rmin (Rmax y 0) c). rewrite min_XR. split; [reflexivity|]. unfold Rmin, Rmax. destruct (Rle_dec y 0); destruct (Rle_dec _ c); repeat split; intros; lra.
    - exists y. split; [unfold np_min; cbn [nleb XRnum xleb orb]; f_equal; apply Rmax_left; exact Py|]. repeat split; auto; lra.
    - discriminate Hc.
    - discriminate Hc. }
  destruct Cl as (z & -> & Pz & Z1 & Z2). exists (e_eloss e'), z. split; [reflexivity|]. split; [exact Pz|]. split; [intros Q; apply Al, Z1, Q|intros Q; apply Qu, Z2, Q].
Qed.

Print Assumptions C86_any_history. Print Assumptions C86_shows. Print Assumptions C86_alarm.
