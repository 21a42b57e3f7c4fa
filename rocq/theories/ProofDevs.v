(** Set-points applied by a transition: C03-C09, C32. *)
From Coq Require Import Reals Lra.
From Verif Require Import Base Num NumXR Devices BusBranch CheckNetwork LoadFlow Simulator LibBase LibNum LibXR LibSim
  SpecNet ProofNet SpecDev LibInit SpecSim ProofSim ProofSoc ProofHist ProofDev ProofObs ProofUnits ProofVals SpecQp LibQp ProofSet.
Local Open Scope string_scope.
Local Open Scope list_scope.

Section Gen.
  Context {F : Type} {N : Num F}.

  (** The objects of a file row through a transition, and what is reported for them. *)
  Record row_step (Or : oracles F) (inp : tr_in F) (nw : network F) (s0 s s' : sim F) (r : dev_row F) (i : Z)
         (d0 d d1 d' : device F) : Prop := mkRS {
    rs_d0 : In d0 (sm_devs s0); rs_d : In d (sm_devs s); rs_d' : In d' (sm_devs s');
    rs_mk : mk_dev (nw_base nw) (map b_id (sm_buses s0)) r = Ok d0;
    rs_strip0 : strip_dev d0 = strip_dev d; rs_strip1 : strip_dev d = strip_dev d1; rs_strip' : strip_dev d1 = strip_dev d';
    rs_id : d_id d' = i;
    rs_tr : dev_transition (o_qp Or) (nw_base nw) (sm_dt s0) inp d = (d1, Ok tt);
    rs_sl : dev_slack_update (sm_buses s') d1 = Ok d';
    rs_p : obs s' "dev_p" "pu" (EId i) = Some (d_p d'); rs_q : obs s' "dev_q" "pu" (EId i) = Some (d_q d');
    rs_soc : is_stor d' = true -> obs s' "des_soc" "pu" (EId i) = Some (soc_of d');
    rs_pot : is_nsgen d' = true -> obs s' "gen_p_max" "pu" (EId i) = Some (d_ppot d');
    rs_bp : bound s0 "dev_p" "pu" (EId i) = Some (d_pmin d', d_pmax d');
    rs_bq : bound s0 "dev_q" "pu" (EId i) = Some (d_qmin d', d_qmax d') }.

  Lemma static_dev_inv (s s' : sim F) d : strip s' = strip s -> In d (sm_devs s) ->
    exists d', In d' (sm_devs s') /\ strip_dev d = strip_dev d'.
  Proof. intros H I. destruct (static_dev s' s d (eq_sym H) I) as (d' & I' & E). eauto. Qed.
  Lemma dt_run (s : sim F) cs : sm_dt (run s cs) = sm_dt s.
  Proof. pose proof (strip_run s cs) as H. unfold strip in H. injection H; auto. Qed.
  Lemma strip_dt (s s' : sim F) : strip s = strip s' -> sm_dt s = sm_dt s'.
  Proof. unfold strip; intros H; injection H; auto. Qed.

  Context (nw : network F) (dt lamb : F) (s0 : sim F) (H0 : sim_init nw dt lamb = Ok s0).

  Lemma init_dt : sm_dt s0 = dt.
  Proof. destruct (sim_init_built _ _ _ _ H0) as (bs & ds & B). apply B. Qed.

  Lemma dev_step Or inp s s' conv ds v j d0 r : strip s = strip s0 -> trans_ok Or inp s s' conv ds v j ->
    In d0 (sm_devs s0) -> mk_dev (nw_base nw) (map b_id (sm_buses s0)) r = Ok d0 ->
    exists d d1 d', row_step Or inp nw s0 s s' r (d_id d0) d0 d d1 d'.
  Proof.
    intros S T I0 M.
    assert (S' : strip s' = strip s0) by (rewrite (tk_strip _ _ _ _ _ _ _ _ T); auto).
    destruct (static_dev_inv _ _ _ S' I0) as (d' & I' & E').
    destruct (trans_dev _ _ _ _ _ _ _ _ T _ I') as (d & d1 & I & Es & Et & Eu).
    pose proof (static_nodup _ _ _ _ _ H0 S') as ND'.
    assert (Ei : d_id d' = d_id d0) by (apply strip_spec in E'; symmetry; tauto).
    pose proof (strip_slack_update _ _ _ Eu) as Su.
    pose proof (strip_base _ _ S) as Eb. pose proof (strip_dt _ _ S) as Edt.
    exists d, d1, d'. constructor; auto; try congruence.
    - rewrite <- Edt, <- (init_base _ _ _ _ H0), <- Eb. exact Et.
    - rewrite <- Ei. unfold obs. rewrite (tk_state _ _ _ _ _ _ _ _ T). apply (read_dev _ _ _ (fun _ => true) d_p); auto. cbn; auto.
    - rewrite <- Ei. unfold obs. rewrite (tk_state _ _ _ _ _ _ _ _ T). apply (read_dev _ _ _ (fun _ => true) d_q); auto. cbn; auto 10.
    - intros K. rewrite <- Ei. unfold obs. rewrite (tk_state _ _ _ _ _ _ _ _ T). apply (read_dev _ _ _ is_stor soc_of); auto. cbn; auto 10.
    - intros K. rewrite <- Ei. unfold obs. rewrite (tk_state _ _ _ _ _ _ _ _ T). apply (read_dev _ _ _ is_nsgen d_ppot); auto. cbn; auto 10.
    - rewrite <- Ei, <- (bound_static _ _ _ _ _ S'). apply bound_dev_p; auto.
    - rewrite <- Ei, <- (bound_static _ _ _ _ _ S'). apply bound_dev_q; auto.
  Qed.
  Lemma row_stepped Or inp s s' conv ds v j r i : strip s = strip s0 -> trans_ok Or inp s s' conv ds v j ->
    In r (nw_dev nw) -> dr_id r = Some i ->
    exists d0 d d1 d', row_step Or inp nw s0 s s' r i d0 d d1 d'.
  Proof.
    intros S T I Ei. destruct (sim_init_built _ _ _ _ H0) as (bs & ds' & B).
    destruct (bt_dev_row_inv B _ I) as (d0 & I0 & M).
    pose proof (mk_dev_fields _ _ _ _ M) as (M1 & _). rewrite Ei in M1. inversion M1; subst i.
    destruct (dev_step Or inp s s' conv ds v j d0 r S T I0 M) as (d & d1 & d' & K). exists d0, d, d1, d'. auto.
  Qed.
  Lemma row_stepped_any Or inp s s' out r i : strip s = strip s0 -> transition Or inp s = (s', Ok out) ->
    In r (nw_dev nw) -> dr_id r = Some i ->
    exists d0 d d1 d', row_step Or inp nw s0 s s' r i d0 d d1 d'.
  Proof.
    intros S T. destruct out as [[[[st rw] e] pen] conv]. apply transition_ok in T as (_ & _ & ds & v & j & T).
    eapply row_stepped; eauto.
  Qed.
  Lemma row_stepped_run Or inp cs s' out r i : transition Or inp (run s0 cs) = (s', Ok out) ->
    In r (nw_dev nw) -> dr_id r = Some i ->
    exists d0 d d1 d', row_step Or inp nw s0 (run s0 cs) s' r i d0 d d1 d'.
  Proof. apply row_stepped_any, strip_run. Qed.

  Lemma row_type Or inp s s' r i d0 d d1 d' : row_step Or inp nw s0 s s' r i d0 d d1 d' ->
    dr_type r = Some (d_type d') /\ d_spec d0 = d_spec d' /\ d_spec d = d_spec d' /\ d_id d = i /\
    d_type d0 = d_type d' /\ d_type d = d_type d' /\ d_type d1 = d_type d'.
  Proof.
    intros K. destruct K. apply strip_spec in rs_strip2, rs_strip3, rs_strip'0.
    destruct rs_strip2 as (A1 & A2 & A3 & _), rs_strip3 as (B1 & B2 & B3 & _), rs_strip'0 as (C1 & C2 & C3 & _).
    apply mk_dev_fields in rs_mk0 as (_ & _ & M & _). repeat split; congruence.
  Qed.
End Gen.

(** ---- C07, C08 (potential): any ordered number type ---- *)
Section Ord.
  Context {F : Type} {N : Num F} {NO : NumOrd F}.
  Local Open Scope num_scope.

  Lemma clip_clamped (x lo hi : F) : (lo <=? hi) = true -> nisnan x = false ->
    within (np_clip x lo hi) lo hi /\ clamped x lo hi (np_clip x lo hi).
  Proof.
    intros L Hx. destruct (np_clip_in x lo hi Hx L) as [A B]. split; [split; auto|].
    destruct (ord_nan _ _ L) as [Nl Nh].
    split; [intros [H1 H2]; apply np_clip_id; auto|]. split; intros K; apply ord_lt in K as [K1 K2].
    - unfold np_clip, np_max. rewrite Hx, K2. cbn [orb]. unfold np_min. rewrite L. reflexivity.
    - assert (L1 : (lo <=? x) = true) by (exact (ord_trans _ _ _ L K1)).
      unfold np_clip, np_max. rewrite L1. cbn [orb]. unfold np_min. rewrite Hx, K2. reflexivity.
  Qed.
  Lemma clip_any (x lo hi : F) : (hi <? lo) = false ->
    nisnan (np_clip x lo hi) = true /\ (nisnan x = true \/ nisnan lo = true \/ nisnan hi = true) \/
    within (np_clip x lo hi) lo hi /\ clamped x lo hi (np_clip x lo hi).
  Proof.
    intros H. destruct (nisnan x) eqn:Ex; [left; rewrite np_clip_nan; auto|].
    destruct (np_clip_any x lo hi H) as [K|[K1 K2]]; [left; split; auto; destruct (np_clip_cases x lo hi) as [E|[E|E]]; rewrite E in K; auto; congruence|].
    right. apply clip_clamped; auto. eapply ord_trans; eauto.
  Qed.

  Context (nw : network F) (dt lamb : F) (s0 : sim F) (H0 : sim_init nw dt lamb = Ok s0).
  Lemma C07_any Or inp s s' out r i :
    strip s = strip s0 -> transition Or inp s = (s', Ok out) -> In r (nw_dev nw) -> dr_id r = Some i -> dr_type r = Some (-1)%Z ->
    exists x k lo hi p, dget Z.eqb (ti_load inp) i = Some x /\ dr_qp r = Some k /\
      bound s0 "dev_p" "pu" (EId i) = Some (lo, hi) /\
      obs s' "dev_p" "pu" (EId i) = Some p /\ obs s' "dev_q" "pu" (EId i) = Some (p * k) /\
      (nisnan p = true /\ (nisnan (x / nw_base nw) = true \/ nisnan lo = true \/ nisnan hi = true) \/
       within p lo hi /\ clamped (x / nw_base nw) lo hi p /\ (p <=? n0) = true).
  Proof.
    intros S T I Ei Et. destruct (row_stepped_any nw dt lamb s0 H0 _ _ _ _ _ _ _ S T I Ei) as (d0 & d & d1 & d' & R).
    destruct (row_type _ _ _ _ _ _ _ _ _ _ _ _ R) as (R1 & R2 & R3 & R4 & R5 & R6 & R7).
    rewrite R1 in Et. inversion Et as [Et'].
    pose proof (mk_dev_kind _ _ _ _ (rs_mk _ _ _ _ _ _ _ _ _ _ _ _ R)) as (K & _).
    rewrite R5, Et' in K. change (zmem (-1) [-1]%Z) with true in K. unfold is_load in K.
    destruct (d_spec d0) as [l| |] eqn:Sl; try discriminate. rewrite <- R2 in R3.
    destruct (dev_transition_load _ _ _ _ _ _ _ R3 (rs_tr _ _ _ _ _ _ _ _ _ _ _ _ R)) as (x & X1 & X2 & X3).
    assert (E1 : d' = d1). { eapply slack_update_id; [apply (rs_sl _ _ _ _ _ _ _ _ _ _ _ _ R)|]. unfold d_slack. rewrite R7, Et'. reflexivity. }
    subst d1. pose proof (mk_dev_load _ _ _ _ _ (rs_mk _ _ _ _ _ _ _ _ _ _ _ _ R) Sl) as L. rewrite R5, Et' in L.
    assert (LL : dr_qp r = Some (l_qp l) /\ (l_pmax l <? l_pmin l) = false /\ (nisnan (l_pmax l) = true \/ (l_pmax l <=? n0) = true)).
    { clear -L NO. unfold load_check in L. apply bind_ok in L as (u & _ & L). apply bind_ok in L as (qp & Hq & L).
      apply bind_ok in L as (pm & Hp & L). cbv zeta in L. apply bind_ok in L as (u' & Hl & L). apply raise_if_ok' in Hl.
      inversion L; subst; clear L; cbn [l_qp l_pmin l_pmax]. split; [destruct (dr_qp r); congruence|]. split; auto.
      destruct (dr_pmax r) as [v|]; [destruct (n0 <? v) eqn:Lv|]; inversion Hp; subst; [|right; apply ord_refl, ord_zero].
      destruct (nisnan pm) eqn:En; auto. right. apply ltb_false_leb; auto. apply ord_zero. }
    destruct LL as (L1 & L2 & L3). rewrite R4 in X1.
    exists x, (l_qp l), (l_pmin l), (l_pmax l), (d_p d'). split; auto. split; auto.
    split; [rewrite (rs_bp _ _ _ _ _ _ _ _ _ _ _ _ R); unfold d_pmin, d_pmax; rewrite <- R2; reflexivity|].
    split; [apply R|]. split; [rewrite (rs_q _ _ _ _ _ _ _ _ _ _ _ _ R), X3; reflexivity|].
    rewrite X2. destruct (clip_any (x / nw_base nw) _ _ L2) as [C|[C1 C2]]; auto. right. split; auto. split; auto.
    destruct C1 as [_ C1]. destruct L3 as [L3|L3]; [rewrite leb_nan_r in C1 by auto; discriminate|]. eapply ord_trans; eauto.
  Qed.
  Definition C07_lemma Or inp cs s' out r i := C07_any Or inp (run s0 cs) s' out r i (strip_run s0 cs).
End Ord.

Section Steps.
  Context {F : Type} {N : Num F}.
  Context (nw : network F) (dt lamb : F) (s0 : sim F) (H0 : sim_init nw dt lamb = Ok s0).
  Context (Or : oracles F) (inp : tr_in F) (s s' : sim F) (r : dev_row F) (i : Z) (d0 d d1 d' : device F).
  Context (R : row_step Or inp nw s0 s s' r i d0 d d1 d').
  Local Open Scope num_scope.

  Lemma gen_step : dr_type r = Some 1%Z \/ dr_type r = Some 2%Z ->
    exists g x u v, gen_check r false (nw_base nw) = Ok g /\ d_spec d' = SGen g /\ is_nsgen d' = true /\
      dget Z.eqb (ti_pot inp) i = Some x /\ dget Z.eqb (ti_p inp) i = Some u /\ dget Z.eqb (ti_q inp) i = Some v /\
      d_ppot d' = np_clip (np_clip (x / nw_base nw) (g_pmin g) (g_pmax g)) (g_pmin g) (g_pmax g) /\
      o_qp Or (gen_rows g (d_ppot d')) (u / nw_base nw, v / nw_base nw) = Ok (d_p d', d_q d').
  Proof.
    intros Ty. destruct (row_type _ _ _ _ _ _ _ _ _ _ _ _ R) as (R1 & R2 & R3 & R4 & R5 & R6 & R7).
    assert (Ns : d_slack d0 = false /\ is_gen d0 = true).
    { pose proof (mk_dev_kind _ _ _ _ (rs_mk _ _ _ _ _ _ _ _ _ _ _ _ R)) as (_ & K & _). rewrite R5 in K.
      rewrite R1 in Ty. destruct Ty as [Ty|Ty]; inversion Ty as [E]; rewrite E in K.
      - change (zmem 1 [1; 2]%Z) with true in K. unfold is_nsgen in K. apply andb_true_iff in K as [K1 K2]. apply negb_true_iff in K2. auto.
      - change (zmem 2 [1; 2]%Z) with true in K. unfold is_nsgen in K. apply andb_true_iff in K as [K1 K2]. apply negb_true_iff in K2. auto. }
    destruct Ns as [Ns Ng]. unfold is_gen in Ng. destruct (d_spec d0) as [|g|] eqn:Sg; try discriminate.
    pose proof (mk_dev_gen _ _ _ _ _ (rs_mk _ _ _ _ _ _ _ _ _ _ _ _ R) Sg) as G. rewrite Ns in G.
    assert (E1 : d' = d1). { eapply slack_update_id; [apply (rs_sl _ _ _ _ _ _ _ _ _ _ _ _ R)|]. unfold d_slack in *. rewrite R7, <- R5. auto. }
    subst d1. rewrite <- R2 in R3.
    assert (Ns' : d_slack d = false) by (unfold d_slack in *; rewrite R6, <- R5; auto).
    destruct (dev_transition_gen _ _ _ _ _ _ _ R3 Ns' (rs_tr _ _ _ _ _ _ _ _ _ _ _ _ R)) as (x & u & v & K). rewrite R4 in K.
    exists g, x, u, v. split; auto. split; auto. split; [|tauto].
    unfold is_nsgen, is_gen. rewrite <- R2. unfold d_slack in *. rewrite <- R5, Ns. reflexivity.
  Qed.
  Lemma stor_step : dr_type r = Some 3%Z ->
    exists t u v soc rows, stor_check r (nw_base nw) = Ok t /\ d_spec d' = SStor t /\ is_stor d' = true /\ d_spec d = SStor t /\ d_soc d = Some soc /\
      dget Z.eqb (ti_p inp) i = Some u /\ dget Z.eqb (ti_q inp) i = Some v /\
      stor_rows t soc dt = Ok rows /\ o_qp Or rows (u / nw_base nw, v / nw_base nw) = Ok (d_p d', d_q d') /\
      d_soc d' = Some (stor_update_soc t soc (d_p d') dt).
  Proof.
    intros Ty. destruct (row_type _ _ _ _ _ _ _ _ _ _ _ _ R) as (R1 & R2 & R3 & R4 & R5 & R6 & R7).
    rewrite R1 in Ty. inversion Ty as [E].
    pose proof (mk_dev_kind _ _ _ _ (rs_mk _ _ _ _ _ _ _ _ _ _ _ _ R)) as (_ & _ & K & _). rewrite R5, E in K.
    change (zmem 3 [3]%Z) with true in K. unfold is_stor in K. destruct (d_spec d0) as [| |t] eqn:Sg; try discriminate.
    pose proof (mk_dev_stor _ _ _ _ _ (rs_mk _ _ _ _ _ _ _ _ _ _ _ _ R) Sg) as G.
    assert (E1 : d' = d1). { eapply slack_update_id; [apply (rs_sl _ _ _ _ _ _ _ _ _ _ _ _ R)|]. unfold d_slack in *. rewrite R7, E. auto. }
    subst d1. rewrite <- R2 in R3.
    destruct (dev_transition_stor _ _ _ _ _ _ _ R3 (rs_tr _ _ _ _ _ _ _ _ _ _ _ _ R)) as (soc & u & v & rows & Q). rewrite R4, (init_dt nw dt lamb s0 H0) in Q.
    exists t, u, v, soc, rows. split; auto. split; auto. split; [unfold is_stor; rewrite <- R2; auto|tauto].
  Qed.
  Lemma prev_soc c : strip s = strip s0 -> fresh s -> is_stor d = true -> obs s "des_soc" "pu" (EId i) = Some c -> d_soc d = Some c.
  Proof.
    intros S [Fr1 Fr2] K O. destruct (row_type _ _ _ _ _ _ _ _ _ _ _ _ R) as (R1 & R2 & R3 & R4 & R5 & R6 & R7).
    unfold obs in O. rewrite Fr1, <- R4 in O. rewrite (read_dev s "des_soc" "pu" is_stor soc_of d) in O; auto.
    - unfold soc_of in O. specialize (Fr2 d (rs_d _ _ _ _ _ _ _ _ _ _ _ _ R) K). destruct (d_soc d); congruence.
    - cbn; auto 10.
    - eapply static_nodup; eauto.
    - apply R.
  Qed.
  Lemma soc_bound t : d_spec d' = SStor t -> bound s0 "des_soc" "pu" (EId i) = Some (s_socmin t, s_socmax t).
  Proof.
    intros E. destruct (row_type _ _ _ _ _ _ _ _ _ _ _ _ R) as (R1 & R2 & R3 & R4 & R5 & R6 & R7).
    assert (E0 : d_id d0 = i). { destruct R. apply strip_spec in rs_strip2, rs_strip3, rs_strip'0. intuition congruence. }
    rewrite <- E0. apply bound_soc; [eapply init_nodup; eauto|apply R|congruence].
  Qed.
End Steps.

(** ---- exact arithmetic ---- *)
Section Exact.
  Context (nw : network XR) (dt lamb : XR) (s0 : sim XR) (H0 : sim_init nw dt lamb = Ok s0) (b : R) (Eb : nw_base nw = Fin b).
  Notation pu x := (xdiv x (Fin b)).
  Local Open Scope R_scope.

  Section Step.
    Context (z : sim XR) (Sz : strip z = strip s0) (Or : oracles XR) (inp : tr_in XR) (s' : sim XR) (out : fstate XR * XR * XR * XR * bool).
    Context (T : transition Or inp z = (s', Ok out)) (r : dev_row XR) (i : Z) (Ir : In r (nw_dev nw)) (Ei : dr_id r = Some i).

    (** C08 *)
    Lemma C08_any eps : qp_sound eps (o_qp Or) -> dr_type r = Some 1%Z \/ dr_type r = Some 2%Z ->
      exists x lo hi pot p, dget Z.eqb (ti_pot inp) i = Some x /\
        bound s0 "gen_p_max" "pu" (EId i) = Some (lo, hi) /\
        obs s' "gen_p_max" "pu" (EId i) = Some pot /\ obs s' "dev_p" "pu" (EId i) = Some (Fin p) /\
        within pot lo hi /\ clamped (pu x) lo hi pot /\ xle (Fin (p - eps)) pot.
    Proof.
      intros Q Ty. destruct (row_stepped_any nw dt lamb s0 H0 _ _ _ _ _ _ _ Sz T Ir Ei) as (d0 & d & d1 & d' & R).
      destruct (gen_step _ _ _ _ _ _ _ _ _ _ _ _ R Ty) as (g & x & u & v & G1 & G2 & G3 & G4 & G5 & G6 & G7 & G8).
      rewrite Eb in *. apply Q in G8 as (p & q & E1 & E2 & Rows).
      unfold gen_rows in Rows. rewrite Forall7 in Rows. destruct Rows as (_ & _ & W & _). apply row_phi in W.
      assert (L : nltb (g_pmax g) (g_pmin g) = false).
      { clear -G1. unfold gen_check in G1. do 3 (apply bind_ok in G1; destruct G1 as (? & ? & G1)). cbv zeta in G1.
        repeat (apply bind_ok in G1; destruct G1 as (? & _ & G1)). inversion G1; subst. cbn [g_pmin g_pmax].
        match goal with H : raise_if _ _ = Ok _ |- _ => apply raise_if_ok' in H; exact H end. }
      exists x, (g_pmin g), (g_pmax g), (d_ppot d'), p. split; auto.
      assert (E0 : d_id d0 = i /\ d_spec d0 = SGen g).
      { destruct (row_type _ _ _ _ _ _ _ _ _ _ _ _ R) as (R1 & R2 & R3 & R4 & R5 & R6 & R7). split; [|congruence].
        destruct R. apply strip_spec in rs_strip2, rs_strip3, rs_strip'0. intuition congruence. }
      assert (N0 : is_nsgen d0 = true).
      { destruct (row_type _ _ _ _ _ _ _ _ _ _ _ _ R) as (R1 & R2 & R3 & R4 & R5 & R6 & R7).
        unfold is_nsgen, is_gen, d_slack in *. rewrite R2, R5. auto. }
      split. { destruct E0 as [<- E0]. rewrite bound_gen_pmax; [|eapply init_nodup; eauto|apply R|auto]. unfold d_pmin, d_pmax. rewrite E0. auto. }
      split; [apply R; auto|]. split; [rewrite (rs_p _ _ _ _ _ _ _ _ _ _ _ _ R), E1; auto|].
      assert (NN : d_ppot d' <> NaN) by (apply xle_nonan in W; apply W).
      destruct (clip_any (np_clip (pu x) (g_pmin g) (g_pmax g)) _ _ L) as [[C _]|[C1 C2]].
      - cbn [ndiv XRnum] in G7. rewrite <- G7 in C. apply xisnan_spec in C. contradiction.
      - cbn [ndiv XRnum] in G7. rewrite <- G7 in C1. split; auto. split; auto.
        destruct (clip_any (pu x) _ _ L) as [[D _]|[D1 D2]].
        + rewrite (np_clip_nan (np_clip (pu x) _ _)) in G7 by auto. rewrite <- G7 in D. apply xisnan_spec in D. contradiction.
        + rewrite G7. rewrite np_clip_id by apply D1. auto.
    Qed.

    (** C09: generators and storage units *)
    Lemma C09_any eps : qp_sound eps (o_qp Or) -> dr_type r = Some 1%Z \/ dr_type r = Some 2%Z \/ dr_type r = Some 3%Z ->
      exists p q lo hi lo' hi', obs s' "dev_p" "pu" (EId i) = Some (Fin p) /\ obs s' "dev_q" "pu" (EId i) = Some (Fin q) /\
        bound s0 "dev_p" "pu" (EId i) = Some (lo, hi) /\ bound s0 "dev_q" "pu" (EId i) = Some (lo', hi') /\
        xle lo (Fin (p + eps)) /\ xle (Fin (p - eps)) hi /\ xle lo' (Fin (q + eps)) /\ xle (Fin (q - eps)) hi'.
    Proof.
      intros Q Ty. destruct (row_stepped_any nw dt lamb s0 H0 _ _ _ _ _ _ _ Sz T Ir Ei) as (d0 & d & d1 & d' & R).
      assert (K : exists p q, d_p d' = Fin p /\ d_q d' = Fin q /\ xle (d_pmin d') (Fin (p + eps)) /\ xle (Fin (p - eps)) (d_pmax d') /\
                  xle (d_qmin d') (Fin (q + eps)) /\ xle (Fin (q - eps)) (d_qmax d')).
      { assert (Ty' : (dr_type r = Some 1%Z \/ dr_type r = Some 2%Z) \/ dr_type r = Some 3%Z) by tauto. destruct Ty' as [Ty'|Ty'].
        - destruct (gen_step _ _ _ _ _ _ _ _ _ _ _ _ R Ty') as (g & x & u & v & G1 & G2 & G3 & G4 & G5 & G6 & G7 & G8).
          apply Q in G8 as (p & q & E1 & E2 & Rows). exists p, q. split; auto. split; auto.
          unfold gen_rows in Rows. rewrite Forall7 in Rows. destruct Rows as (W1 & W2 & _ & W4 & W5 & _).
          apply row_plo in W1. apply row_phi in W2. apply row_qlo in W4. apply row_qhi in W5.
          unfold d_pmin, d_pmax, d_qmin, d_qmax. rewrite G2. auto.
        - destruct (stor_step _ _ _ _ H0 _ _ _ _ _ _ _ _ _ _ R Ty') as (t & u & v & soc & rows & G1 & G2 & G3 & _ & G4 & G5 & G6 & G7 & G8 & G9).
          apply Q in G8 as (p & q & E1 & E2 & Rows). exists p, q. split; auto. split; auto.
          unfold stor_rows in G7. apply bind_ok in G7 as (h1 & _ & G7). apply bind_ok in G7 as (h2 & _ & G7). inversion G7; subst rows.
          rewrite Forall10 in Rows. destruct Rows as (W1 & W2 & W4 & W5 & _).
          apply row_plo in W1. apply row_phi in W2. apply row_qlo in W4. apply row_qhi in W5.
          unfold d_pmin, d_pmax, d_qmin, d_qmax. rewrite G2. auto. }
      destruct K as (p & q & E1 & E2 & K). exists p, q, (d_pmin d'), (d_pmax d'), (d_qmin d'), (d_qmax d').
      rewrite (rs_p _ _ _ _ _ _ _ _ _ _ _ _ R), (rs_q _ _ _ _ _ _ _ _ _ _ _ _ R), (rs_bp _ _ _ _ _ _ _ _ _ _ _ _ R), (rs_bq _ _ _ _ _ _ _ _ _ _ _ _ R), E1, E2.
      tauto.
    Qed.

    (** C04 *)
    Lemma C04_any u v : qp_exact (o_qp Or) -> dev_row_fin r -> gen_limits_given r ->
      dr_type r = Some 1%Z \/ dr_type r = Some 2%Z ->
      dget Z.eqb (ti_p inp) i = Some (Fin u) -> dget Z.eqb (ti_q inp) i = Some (Fin v) ->
      exists pot p q, obs s' "gen_p_max" "pu" (EId i) = Some pot /\
        obs s' "dev_p" "pu" (EId i) = Some (Fin p) /\ obs s' "dev_q" "pu" (EId i) = Some (Fin q) /\
        nearest (gen_region r b pot) (u / b) (v / b) p q /\
        (forall p' q', nearest (gen_region r b pot) (u / b) (v / b) p' q' -> p' = p /\ q' = q) /\
        (gen_region r b pot (u / b) (v / b) -> p = u / b /\ q = v / b).
    Proof.
      intros Q Hf Lim Ty Eu Ev. pose proof (base_pos nw dt lamb s0 H0 b Eb) as Hb.
      destruct (row_stepped_any nw dt lamb s0 H0 _ _ _ _ _ _ _ Sz T Ir Ei) as (d0 & d & d1 & d' & R).
      destruct (gen_step _ _ _ _ _ _ _ _ _ _ _ _ R Ty) as (g & x & u' & v' & G1 & G2 & G3 & G4 & G5 & G6 & G7 & G8).
      rewrite Eu in G5. rewrite Ev in G6. inversion G5; inversion G6; subst u' v'. rewrite Eb in *.
      cbn [ndiv XRnum] in G8. rewrite !xdiv_Fin in G8 by lra. apply Q in G8 as (p & q & E1 & E2 & Ne).
      assert (Ne' := nearest_ext _ (gen_region r b (d_ppot d')) _ _ _ _ (fun x y => gen_rows_region b Hb r Hf g G1 Lim (d_ppot d') x y) Ne).
      exists (d_ppot d'), p, q. split; [apply R; auto|]. rewrite (rs_p _ _ _ _ _ _ _ _ _ _ _ _ R), (rs_q _ _ _ _ _ _ _ _ _ _ _ _ R), E1, E2.
      split; auto. split; auto. split; auto. split.
      - intros p' q' Ne2. eapply (nearest_unique (gen_region r b (d_ppot d'))); eauto.
        intros a1 a2 a3 a4 A1 A2. apply (gen_rows_region b Hb r Hf g G1 Lim). apply (gen_rows_region b Hb r Hf g G1 Lim) in A1, A2.
        apply (rows_convex 0 _ (gen_rows_coeffs b Hb r Hf g G1 Lim (d_ppot d'))); auto.
      - intros Fe. eapply nearest_self; eauto.
    Qed.

    (** C05 *)
    Lemma C05_any u v c e d : qp_exact (o_qp Or) -> dev_row_fin r -> stor_limits_given r ->
      dr_type r = Some 3%Z -> dt = Fin d -> 0 < d -> EFF r = Fin e -> 0 < e ->
      (forall d, In d (sm_devs z) -> d_id d = i -> is_stor d = true -> d_soc d = Some (Fin c)) ->
      (forall lo hi, bound s0 "des_soc" "pu" (EId i) = Some (lo, hi) -> within (Fin c) lo hi) ->
      dget Z.eqb (ti_p inp) i = Some (Fin u) -> dget Z.eqb (ti_q inp) i = Some (Fin v) ->
      exists p q, obs s' "dev_p" "pu" (EId i) = Some (Fin p) /\ obs s' "dev_q" "pu" (EId i) = Some (Fin q) /\
        nearest (stor_region r b e d c) (u / b) (v / b) p q /\
        (forall p' q', nearest (stor_region r b e d c) (u / b) (v / b) p' q' -> p' = p /\ q' = q) /\
        (stor_region r b e d c (u / b) (v / b) -> p = u / b /\ q = v / b) /\
        obs s' "des_soc" "pu" (EId i) = Some (Fin (soc_after e d c p)).
    Proof.
      intros Q Hf Lim Ty Ed Hd Ee He Oc Wc Eu Ev. pose proof (base_pos nw dt lamb s0 H0 b Eb) as Hb.
      destruct (row_stepped_any nw dt lamb s0 H0 _ _ _ _ _ _ _ Sz T Ir Ei) as (d0 & dd & d1 & d' & R).
      destruct (stor_step _ _ _ _ H0 _ _ _ _ _ _ _ _ _ _ R Ty) as (t & u' & v' & soc & rows & G1 & G2 & G3 & G3' & G4 & G5 & G6 & G7 & G8 & G9).
      rewrite Eu in G5. rewrite Ev in G6. inversion G5; inversion G6; subst u' v'. rewrite Eb in *.
      assert (Es : d_soc dd = Some (Fin c)).
      { apply Oc; [apply R| |unfold is_stor; rewrite G3'; auto]. destruct (row_type _ _ _ _ _ _ _ _ _ _ _ _ R) as (_ & _ & _ & R4 & _). exact R4. }
      rewrite Es in G4. inversion G4; subst soc. rewrite Ed in *.
      specialize (Wc _ _ (soc_bound _ _ _ _ H0 _ _ _ _ _ _ _ _ _ _ R _ G2)). destruct Wc as [Wc1 Wc2].
      destruct (stor_check_vals b Hb r t G1). destruct sv_socmax as (vm & Evm & Em).
      destruct (cells r Hf) as (_ & _ & _ & _ & _ & _ & _ & _ & C1 & C2 & _).
      destruct (pu_fin b Hb vm (C1 _ Evm)) as [hi Ehi]. rewrite Ehi in Em.
      destruct (pu_fin b Hb (SOCMIN r)) as [lo Elo]. { unfold SOCMIN. apply else_fin; auto. }
      rewrite Elo in sv_socmin. rewrite sv_socmin in Wc1. rewrite Em in Wc2. apply xle_Fin in Wc1. apply xle_Fin in Wc2.
      assert (Hc : lo <= c <= hi) by lra.
      cbn [ndiv XRnum] in G8. rewrite !xdiv_Fin in G8 by lra. apply Q in G8 as (p & q & E1 & E2 & Ne).
      assert (RR := fun x y => stor_rows_region b Hb r Hf t G1 Lim e d c lo hi Ee He Hd sv_socmin Em Hc rows x y G7).
      assert (Ne' := nearest_ext _ (stor_region r b e d c) _ _ _ _ RR Ne).
      exists p, q. rewrite (rs_p _ _ _ _ _ _ _ _ _ _ _ _ R), (rs_q _ _ _ _ _ _ _ _ _ _ _ _ R), E1, E2.
      split; auto. split; auto. split; auto. split; [|split].
      - intros p' q' Ne2. eapply (nearest_unique (stor_region r b e d c)); eauto.
        intros a1 a2 a3 a4 A1 A2. apply RR. apply RR in A1, A2.
        apply (rows_convex 0 _ (stor_rows_coeffs b Hb r Hf t G1 Lim e d c lo hi Ee He Hd sv_socmin Em Hc rows G7)); auto.
      - intros Fe. eapply nearest_self; eauto.
      - rewrite (rs_soc _ _ _ _ _ _ _ _ _ _ _ _ R G3). unfold soc_of. rewrite G9, E1. unfold stor_update_soc.
        destruct Ne' as [(_ & _ & _ & _ & _ & _ & _ & _ & Z1 & Z2) _].
        rewrite sv_eff, Ee, sv_socmin, Em. rewrite Elo in Z1. apply xle_Fin in Z1. destruct Z2 as (v2 & Ev2 & Z2).
        rewrite Evm in Ev2. inversion Ev2; subst v2. rewrite Ehi in Z2. apply xle_Fin in Z2.
        cbn [nleb nmul nsub ndiv n0 XRnum xleb xmul xsub]. unfold Rleb. unfold soc_after in *.
        destruct (Rle_dec p 0).
        + rewrite np_clip_id by (apply Rleb_spec; auto). reflexivity.
        + rewrite xdiv_Fin by lra. cbn [xsub]. rewrite np_clip_id by (apply Rleb_spec; auto). reflexivity.
    Qed.
  End Step.

  Definition C08_lemma cs := C08_any (run s0 cs) (strip_run s0 cs).
  Definition C09_flex cs := C09_any (run s0 cs) (strip_run s0 cs).
  Definition C04_lemma cs := C04_any (run s0 cs) (strip_run s0 cs).
  Lemma C05_lemma cs Or inp s' out (T : transition Or inp (run s0 cs) = (s', Ok out)) r i (Ir : In r (nw_dev nw)) (Ei : dr_id r = Some i)
      u v c e d : qp_exact (o_qp Or) -> dev_row_fin r -> stor_limits_given r ->
    dr_type r = Some 3%Z -> dt = Fin d -> 0 < d -> EFF r = Fin e -> 0 < e ->
    fresh (run s0 cs) -> obs (run s0 cs) "des_soc" "pu" (EId i) = Some (Fin c) ->
    (forall lo hi, bound s0 "des_soc" "pu" (EId i) = Some (lo, hi) -> within (Fin c) lo hi) ->
    dget Z.eqb (ti_p inp) i = Some (Fin u) -> dget Z.eqb (ti_q inp) i = Some (Fin v) ->
    exists p q, obs s' "dev_p" "pu" (EId i) = Some (Fin p) /\ obs s' "dev_q" "pu" (EId i) = Some (Fin q) /\
      nearest (stor_region r b e d c) (u / b) (v / b) p q /\
      (forall p' q', nearest (stor_region r b e d c) (u / b) (v / b) p' q' -> p' = p /\ q' = q) /\
      (stor_region r b e d c (u / b) (v / b) -> p = u / b /\ q = v / b) /\
      obs s' "des_soc" "pu" (EId i) = Some (Fin (soc_after e d c p)).
  Proof.
    intros Q Hf Lim Ty Ed Hd Ee He (Fr1 & Fr2) Oc. apply (C05_any _ (strip_run s0 cs) _ _ _ _ T _ _ Ir Ei); auto.
    intros dd Id Ed' Sd. unfold obs in Oc. rewrite Fr1, <- Ed' in Oc. rewrite (read_dev _ "des_soc" "pu" is_stor soc_of dd) in Oc; auto.
    - unfold soc_of in Oc. specialize (Fr2 dd Id Sd). destruct (d_soc dd); congruence.
    - cbn; auto 10.
    - eapply static_nodup; [exact H0|apply strip_run].
  Qed.
End Exact.
