(** Storage energy accounting (C03) and feasibility of set-points (C06). *)
From Coq Require Import Reals Lra.
From Verif Require Import Base Num NumXR Devices BusBranch CheckNetwork LoadFlow Simulator LibBase LibNum LibXR LibSim
  SpecNet ProofNet SpecDev LibInit SpecSim ProofSim ProofSoc ProofHist ProofDev ProofObs ProofUnits ProofVals SpecQp LibQp ProofSet ProofDevs.
Local Open Scope string_scope.
Local Open Scope list_scope.
Local Open Scope R_scope.

(** ---- C03 ---- *)
Section Energy.
  Context (nw : network XR) (dt lamb : XR) (s0 : sim XR) (H0 : sim_init nw dt lamb = Ok s0) (b : R) (Eb : nw_base nw = Fin b).
  Context (r : dev_row XR) (i : Z) (Ir : In r (nw_dev nw)) (Ei : dr_id r = Some i) (Hf : dev_row_fin r).
  Context (Ty : dr_type r = Some 3%Z) (e d : R) (Ed : dt = Fin d) (Hd : 0 < d) (Ee : EFF r = Fin e) (He : 0 < e).
  Notation pu x := (xdiv x (Fin b)).
  Definition in_range (c : R) : Prop := forall lo hi, bound s0 "des_soc" "pu" (EId i) = Some (lo, hi) -> within (Fin c) lo hi.

  Lemma C03_step_gen s Or inp s' out c : strip s = strip s0 -> fresh s -> transition Or inp s = (s', Ok out) ->
    qp_sound 0 (o_qp Or) -> obs s "des_soc" "pu" (EId i) = Some (Fin c) -> in_range c ->
    exists p, obs s' "dev_p" "pu" (EId i) = Some (Fin p) /\
      obs s' "des_soc" "pu" (EId i) = Some (Fin (soc_after e d c p)) /\ in_range (soc_after e d c p) /\
      fresh s' /\ strip s' = strip s0.
  Proof.
    intros St Fr T Q Oc Wc. pose proof (base_pos nw dt lamb s0 H0 b Eb) as Hb.
    destruct out as [[[[st rw] ee] pen] conv]. apply transition_ok in T as (_ & _ & ds & v & j & T).
    destruct (row_stepped nw dt lamb s0 H0 _ _ _ _ _ _ _ _ r i St T Ir Ei) as (d0 & dd & d1 & d' & R).
    destruct (stor_step _ _ _ _ H0 _ _ _ _ _ _ _ _ _ _ R Ty) as (t & u' & v' & soc & rows & G1 & G2 & G3 & G3' & G4 & G5 & G6 & G7 & G8 & G9).
    rewrite Eb in *.
    assert (Es : d_soc dd = Some (Fin c)).
    { eapply (prev_soc nw dt lamb s0 H0); eauto. unfold is_stor. rewrite G3'. auto. }
    rewrite Es in G4. inversion G4; subst soc. rewrite Ed in *.
    pose proof (soc_bound _ _ _ _ H0 _ _ _ _ _ _ _ _ _ _ R _ G2) as Bd.
    destruct (Wc _ _ Bd) as [Wc1 Wc2].
    destruct (stor_check_vals b Hb r t G1). destruct sv_socmax as (vm & Evm & Em).
    destruct (cells r Hf) as (_ & _ & _ & _ & _ & _ & _ & _ & C1 & C2 & _).
    destruct (pu_fin b Hb vm (C1 _ Evm)) as [hi Ehi]. rewrite Ehi in Em.
    destruct (pu_fin b Hb (SOCMIN r)) as [lo Elo]. { unfold SOCMIN. apply else_fin; auto. }
    rewrite Elo in sv_socmin. rewrite sv_socmin in Wc1. rewrite Em in Wc2. apply xle_Fin in Wc1. apply xle_Fin in Wc2.
    assert (Hc : lo <= c <= hi) by lra.
    apply Q in G8 as (p & q & E1 & E2 & Rows).
    rewrite (stor_rows_eq b Hb r t G1 e d c lo hi Ee He Hd sv_socmin Em rows G7) in Rows.
    rewrite Forall10 in Rows. destruct Rows as (_ & _ & _ & _ & _ & _ & _ & _ & K1 & K2).
    apply row_plo_Fin in K1. apply row_phi in K2. apply xle_Fin in K2. rewrite minus0 in K2.
    destruct (proj1 (soc_rows e d c lo hi He Hd Hc p) (conj K1 K2)) as [Z1 Z2].
    exists p. rewrite (rs_p _ _ _ _ _ _ _ _ _ _ _ _ R), E1. split; auto. split; [|split; [|split]].
    - rewrite (rs_soc _ _ _ _ _ _ _ _ _ _ _ _ R G3). unfold soc_of. rewrite G9, E1. unfold stor_update_soc.
      rewrite sv_eff, Ee, sv_socmin, Em.
      cbn [nleb nmul nsub ndiv n0 XRnum xleb xmul xsub]. unfold Rleb. unfold soc_after in *.
      destruct (Rle_dec p 0).
      + rewrite np_clip_id by (apply Rleb_spec; auto). reflexivity.
      + rewrite xdiv_Fin by lra. cbn [xsub]. rewrite np_clip_id by (apply Rleb_spec; auto). reflexivity.
    - intros lo' hi' B'. rewrite Bd in B'. inversion B'; subst. rewrite sv_socmin, Em. split; apply Rleb_spec; auto.
    - eapply trans_fresh; eauto.
    - rewrite (tk_strip _ _ _ _ _ _ _ _ T); auto.
  Qed.
End Energy.

(** Energy exchanged with the grid over a sequence of transitions, in p.u. h: [D] delivered by
    unit [i], [T] taken by it; [d] is the duration of a transition. *)
Inductive energy (i : Z) (d : R) (s : sim XR) : list (oracles XR * tr_in XR) -> sim XR -> R -> R -> Prop :=
| en_nil : energy i d s [] s 0 0
| en_snoc l s1 D T Or inp s2 out p : energy i d s l s1 D T -> transition Or inp s1 = (s2, Ok out) ->
    obs s2 "dev_p" "pu" (EId i) = Some (Fin p) ->
    energy i d s (l ++ [(Or, inp)]) s2 (D + d * Rmax p 0) (T + d * Rmax (- p) 0).

Section EnergyHist.
  Context (nw : network XR) (dt lamb : XR) (s0 : sim XR) (H0 : sim_init nw dt lamb = Ok s0) (b : R) (Eb : nw_base nw = Fin b).
  Context (r : dev_row XR) (i : Z) (Ir : In r (nw_dev nw)) (Ei : dr_id r = Some i) (Hf : dev_row_fin r).
  Context (Ty : dr_type r = Some 3%Z) (e d : R) (Ed : dt = Fin d) (Hd : 0 < d) (Ee : EFF r = Fin e) (He : 0 < e).

  Lemma soc_balance c p : e * (c - soc_after e d c p) + e * e * (d * Rmax (- p) 0) = d * Rmax p 0.
  Proof.
    unfold soc_after, Rmax. destruct (Rle_dec p 0), (Rle_dec (- p) 0).
    - replace p with 0 by lra. ring.
    - ring.
    - field. lra.
    - exfalso; lra.
  Qed.
  Lemma C03_history_lemma cs cl c0 l s' D T :
    returned (run s0 cs) cl -> obs (run s0 (cs ++ [cl])) "des_soc" "pu" (EId i) = Some (Fin c0) -> in_range s0 i c0 ->
    Forall (fun x => qp_sound 0 (o_qp (fst x))) l -> energy i d (run s0 (cs ++ [cl])) l s' D T ->
    exists c, obs s' "des_soc" "pu" (EId i) = Some (Fin c) /\ in_range s0 i c /\ D = e * (c0 - c) + e * e * T.
  Proof.
    intros Rt Oc Wc Q En.
    assert (Fr : fresh (run s0 (cs ++ [cl]))).
    { unfold run. rewrite fold_left_app. cbn [fold_left]. apply call_fresh. exact Rt. }
    assert (St : strip (run s0 (cs ++ [cl])) = strip s0) by apply strip_run.
    enough (exists c, obs s' "des_soc" "pu" (EId i) = Some (Fin c) /\ in_range s0 i c /\ fresh s' /\ strip s' = strip s0 /\ D = e * (c0 - c) + e * e * T)
      as (c & K1 & K2 & _ & _ & K3) by eauto.
    induction En as [|l s1 D T Or inp s2 out p En IH Tr Op].
    - exists c0. split; auto. split; auto. split; auto. split; auto. lra.
    - apply Forall_app in Q as [Q1 Q2]. specialize (IH Q1). destruct IH as (c & K1 & K2 & K3 & K4 & K5).
      inversion Q2 as [|? ? Q3 _]; subst. cbn [fst] in Q3.
      destruct (C03_step_gen nw (Fin d) lamb s0 H0 b Eb r i Ir Ei Hf Ty e d eq_refl Hd Ee He s1 Or inp s2 out c K4 K3 Tr Q3 K1 K2) as (p' & P1 & P2 & P3 & P4 & P5).
      rewrite Op in P1. inversion P1; subst p'. exists (soc_after e d c p). split; auto. split; auto. split; auto. split; auto.
      pose proof (soc_balance c p). lra.
  Qed.
End EnergyHist.

(** ---- C06 ---- *)
Lemma cut_below_r X1 Y1 X2 Y2 p q : xle (Fin q) Y2 -> xle Y2 Y1 -> xle (Fin p) X2 -> cut below X1 Y1 X2 Y2 p q.
Proof.
  intros A B C x1 y1 x2 y2 -> -> -> -> L. apply xle_Fin in A. apply xle_Fin in B. apply xle_Fin in C. unfold below.
  apply Rle_trans with ((y2 - y1) * (x2 - x1)); [apply Rmult_le_compat_r; lra|].
  apply Ropp_le_cancel. rewrite <- !Ropp_mult_distr_l_reverse. apply Rmult_le_compat_l; lra.
Qed.
Lemma cut_above_r X1 Y1 X2 Y2 p q : xle Y2 (Fin q) -> xle Y1 Y2 -> xle (Fin p) X2 -> cut above X1 Y1 X2 Y2 p q.
Proof.
  intros A B C x1 y1 x2 y2 -> -> -> -> L. apply xle_Fin in A. apply xle_Fin in B. apply xle_Fin in C. unfold above.
  apply Rle_ge. apply Rle_trans with ((y2 - y1) * (x2 - x1)); [apply Rmult_le_compat_l; lra|apply Rmult_le_compat_r; lra].
Qed.
Lemma cut_below_l X1 Y1 X2 Y2 p q : xle (Fin q) Y1 -> xle Y1 Y2 -> xle X1 (Fin p) -> cut below X1 Y1 X2 Y2 p q.
Proof.
  intros A B C x1 y1 x2 y2 -> -> -> -> L. apply xle_Fin in A. apply xle_Fin in B. apply xle_Fin in C. unfold below.
  apply Rle_trans with 0; [|apply Rmult_le_pos; lra].
  rewrite <- (Rmult_0_l (x2 - x1)). apply Rmult_le_compat_r; lra.
Qed.
Lemma cut_above_l X1 Y1 X2 Y2 p q : xle Y1 (Fin q) -> xle Y2 Y1 -> xle X1 (Fin p) -> cut above X1 Y1 X2 Y2 p q.
Proof.
  intros A B C x1 y1 x2 y2 -> -> -> -> L. apply xle_Fin in A. apply xle_Fin in B. apply xle_Fin in C. unfold above.
  apply Rle_ge. apply Rle_trans with 0; [|apply Rmult_le_pos; lra].
  rewrite <- (Rmult_0_l (p - x1)). apply Rmult_le_compat_r; lra.
Qed.
Lemma between X Y : X <> PInf -> Y <> NInf -> xle X Y -> exists q, xle X (Fin q) /\ xle (Fin q) Y.
Proof.
  intros A B L. destruct X as [x| | |], Y as [y| | |]; try congruence; unfold xle in *; cbn in *; try discriminate.
  - exists x. split; auto. apply Rleb_spec; lra.
  - exists x. split; auto. apply Rleb_spec; lra.
  - exists y. split; auto. apply Rleb_spec; lra.
  - exists 0. auto.
Qed.
Lemma xle_pu b : 0 < b -> forall X Y, xle X Y -> xle (xdiv X (Fin b)) (xdiv Y (Fin b)).
Proof. intros H X Y. unfold xle. rewrite xdiv_pos_le; auto. Qed.

Section Feasible.
  Context (b : R) (Hb : 0 < b) (r : dev_row XR) (Hf : dev_row_fin r).
  Notation pu x := (xdiv x (Fin b)).

  Lemma not_inf c d v : cell_fin c -> (forall x, d = x -> x <> v) -> v = PInf \/ v = NInf -> pu (or_else c d) <> v.
  Proof.
    intros C D V E. destruct c as [x|]; cbn [or_else] in E.
    - destruct (pu_fin b Hb x (C x eq_refl)) as [y Ey]. rewrite Ey in E. destruct V; congruence.
    - specialize (D d eq_refl). destruct d; cbn in E; try (destruct (Req_EM_T b 0); [lra|]); try (destruct (Rlt_dec b 0); [lra|]); destruct V; congruence.
  Qed.
  Lemma q_between : xle (QMINUS r) (QPLUS r) -> exists q, xle (pu (QMINUS r)) (Fin q) /\ xle (Fin q) (pu (QPLUS r)).
  Proof.
    intros L. destruct (cells r Hf) as (_ & _ & C3 & C4 & _ & _ & C7 & C8 & _).
    apply between; [| |apply xle_pu; auto].
    - apply not_inf; auto. intros x <-. unfold QMIN. destruct (dr_qmin r) as [y|] eqn:E; cbn; [|discriminate].
      destruct (C4 _ eq_refl) as [z ->]. discriminate.
    - apply not_inf; auto. intros x <-. unfold QMAX. destruct (dr_qmax r) as [y|] eqn:E; cbn; [|discriminate].
      destruct (C3 _ eq_refl) as [z ->]. discriminate.
  Qed.

  Lemma gen_nonempty pot : gen_valid r false -> xle (pu (PMIN r (Fin 0))) pot -> exists p q, gen_region r b pot p q.
  Proof.
    intros (V0 & V1 & V2 & V3 & V4 & V5) L. destruct (q_between V4) as (q & Q1 & Q2).
    destruct (pu_fin b Hb (PMIN r (Fin 0))) as [p Ep]. { apply else_fin; auto. apply (cells r Hf). }
    pose proof (xle_pu b Hb _ _ V1) as W1. pose proof (xle_pu b Hb _ _ V2) as W2. pose proof (xle_pu b Hb _ _ V3) as W3. pose proof (xle_pu b Hb _ _ V5) as W5.
    cbn [PMIN] in *. rewrite Ep in *. exists p, q. unfold gen_region. rewrite Ep.
    assert (PM : xle (Fin p) (pu (PMAX r))) by (eapply xle_trans; eauto).
    split; [apply xle_Fin; lra|]. split; auto. split; auto.
    split; [eapply xle_trans; eauto|]. split; [eapply xle_trans; eauto|].
    split; [apply cut_below_r; auto|apply cut_above_r; auto].
  Qed.
  Lemma stor_nonempty e d c : stor_valid r -> xle (pu (SOCMIN r)) (Fin c) -> (exists v, dr_socmax r = Some v /\ xle (Fin c) (pu v)) ->
    exists p q, stor_region r b e d c p q.
  Proof.
    intros (W1 & W2 & V1 & V2 & V3 & V4 & V5 & V6 & _) L1 L2. destruct (q_between V5) as (q & Q1 & Q2).
    pose proof (xle_pu b Hb _ _ W1) as X1. pose proof (xle_pu b Hb _ _ W2) as X2. pose proof (xle_pu b Hb _ _ V4) as X4. pose proof (xle_pu b Hb _ _ V6) as X6.
    rewrite (proj2 (proj2 (xdiv_inf b Hb))) in X1, X2.
    exists 0, q. unfold stor_region.
    split; auto. split; auto. split; [eapply xle_trans; eauto|]. split; [eapply xle_trans; eauto|].
    split; [apply cut_below_r; auto|]. split; [apply cut_above_r; auto|].
    split; [apply cut_above_l; auto|]. split; [apply cut_below_l; auto|].
    assert (E : soc_after e d c 0 = c). { unfold soc_after. destruct (Rle_dec 0 0); lra. }
    rewrite E. auto.
  Qed.

  Lemma C06_gen_lemma g pot qp u v : gen_check r false (Fin b) = Ok g -> gen_limits_given r ->
    xle (g_pmin g) pot -> qp_exact qp -> qp_complete qp ->
    coeffs_fin (gen_rows g pot) /\ exists p q, gen_map_pq qp g pot (Fin u) (Fin v) = Ok (Fin p, Fin q).
  Proof.
    intros Hg Lim Lp Q C. split; [apply (gen_rows_coeffs b Hb r Hf g Hg Lim)|].
    pose proof (gen_is_valid b Hb r Hf g Hg) as V.
    rewrite (gv_pmin _ _ _ _ (gen_check_vals b Hb r false g Hg)) in Lp.
    destruct (gen_nonempty pot V Lp) as (p0 & q0 & K). apply (gen_rows_region b Hb r Hf g Hg Lim) in K.
    destruct (rows_nearest (gen_rows g pot) u v (gen_rows_coeffs b Hb r Hf g Hg Lim pot)) as (p & q & Ne); eauto.
    destruct (C _ _ _ _ _ Ne) as (a & a' & E). unfold gen_map_pq. rewrite E.
    apply Q in E as (x & y & -> & -> & _). eauto.
  Qed.
  Lemma C06_stor_lemma t c d e qp u v : stor_check r (Fin b) = Ok t -> stor_limits_given r -> EFF r = Fin e -> 0 < e -> 0 < d ->
    xle (s_socmin t) (Fin c) -> xle (Fin c) (s_socmax t) -> qp_exact qp -> qp_complete qp ->
    exists rows, stor_rows t (Fin c) (Fin d) = Ok rows /\ coeffs_fin rows /\
    exists p q, stor_map_pq qp t (Some (Fin c)) (Fin u) (Fin v) (Fin d) = Ok (Fin p, Fin q).
  Proof.
    intros Ht Lim Ee He Hd L1 L2 Q C.
    destruct (stor_check_vals b Hb r t Ht). destruct sv_socmax as (vm & Evm & Em).
    destruct (cells r Hf) as (_ & _ & _ & _ & _ & _ & _ & _ & C1 & C2 & _).
    destruct (pu_fin b Hb vm (C1 _ Evm)) as [hi Ehi]. assert (Em' := Em). rewrite Ehi in Em'.
    destruct (pu_fin b Hb (SOCMIN r)) as [lo Elo]. { unfold SOCMIN. apply else_fin; auto. }
    assert (El := sv_socmin). rewrite Elo in El.
    assert (Hc : lo <= c <= hi). { rewrite El in L1. rewrite Em' in L2. apply xle_Fin in L1. apply xle_Fin in L2. auto. }
    destruct (stor_rows_ok b Hb r t Ht e d c lo hi Ee He Hd El Em') as (rows & Er).
    pose proof (stor_rows_coeffs b Hb r Hf t Ht Lim e d c lo hi Ee He Hd El Em' Hc rows Er) as Co.
    exists rows. split; auto. split; auto.
    destruct (stor_nonempty e d c (stor_is_valid b Hb r Hf t Ht)) as (p0 & q0 & K).
    { rewrite Elo. apply xle_Fin; lra. } { exists vm. split; auto. rewrite Ehi. apply xle_Fin; lra. }
    apply (stor_rows_region b Hb r Hf t Ht Lim e d c lo hi Ee He Hd El Em' Hc rows p0 q0 Er) in K.
    destruct (rows_nearest rows u v Co) as (p & q & Ne); eauto.
    destruct (C _ _ _ _ _ Ne) as (a & a' & E). unfold stor_map_pq. rewrite Er. cbn [bind]. rewrite E.
    apply Q in E as (x & y & -> & -> & _). eauto.
  Qed.
End Feasible.
