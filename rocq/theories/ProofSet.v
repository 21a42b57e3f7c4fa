(** Set-points: rows of the QP versus capability regions (C04-C06). *)
From Coq Require Import Reals Lra.
From Verif Require Import Base Num NumXR Devices LibBase LibNum LibXR SpecDev ProofDev ProofVals SpecQp LibQp.
Local Open Scope R_scope.

Lemma row_plo eps p q m : row_holds eps p q (mkRow (nopp n1) n0 (nopp m)) <-> xle m (Fin (p + eps)).
Proof. cbn [nopp n1 n0 XRnum xopp]. rewrite row_Fin, xle_opp. apply xle_r. lra. Qed.
Lemma row_phi eps p q m : row_holds eps p q (mkRow n1 n0 m) <-> xle (Fin (p - eps)) m.
Proof. cbn [n1 n0 XRnum]. rewrite row_Fin. apply xle_l. lra. Qed.
Lemma row_qlo eps p q m : row_holds eps p q (mkRow n0 (nopp n1) (nopp m)) <-> xle m (Fin (q + eps)).
Proof. cbn [nopp n1 n0 XRnum xopp]. rewrite row_Fin, xle_opp. apply xle_r. lra. Qed.
Lemma row_qhi eps p q m : row_holds eps p q (mkRow n0 n1 m) <-> xle (Fin (q - eps)) m.
Proof. cbn [n1 n0 XRnum]. rewrite row_Fin. apply xle_l. lra. Qed.
Lemma row_plo_Fin p q h : row_holds 0 p q (mkRow (nopp n1) n0 (Fin h)) <-> - p <= h.
Proof. cbn [nopp n1 n0 XRnum xopp]. rewrite row_Fin, xle_Fin. split; lra. Qed.
Lemma Forall7 {A} (P : A -> Prop) a b c d e f g :
  Forall P [a; b; c; d; e; f; g] <-> P a /\ P b /\ P c /\ P d /\ P e /\ P f /\ P g.
Proof. rewrite !Forall_cons_iff. intuition auto. Qed.
Lemma Forall10 {A} (P : A -> Prop) a b c d e f g h i j :
  Forall P [a; b; c; d; e; f; g; h; i; j] <-> P a /\ P b /\ P c /\ P d /\ P e /\ P f /\ P g /\ P h /\ P i /\ P j.
Proof. rewrite !Forall_cons_iff. intuition auto. Qed.
Lemma plus0 x : x + 0 = x. Proof. ring. Qed.
Lemma minus0 x : x - 0 = x. Proof. ring. Qed.

Lemma xeq_swap a b : neqb (Fin a) (Fin b) = neqb (Fin b) (Fin a).
Proof. cbn. destruct (Reqb a b) eqn:E, (Reqb b a) eqn:E'; auto; apply Reqb_spec in E || apply Reqb_spec in E'; subst;
  rewrite (proj2 (Reqb_spec _ _) eq_refl) in *; discriminate. Qed.

Section Regions.
  Context (b : R) (Hb : 0 < b) (r : dev_row XR) (Hf : dev_row_fin r).
  Notation pu x := (xdiv x (Fin b)).

  Lemma cells : cell_fin (dr_pmax r) /\ cell_fin (dr_pmin r) /\ cell_fin (dr_qmax r) /\ cell_fin (dr_qmin r) /\
    cell_fin (dr_pplus r) /\ cell_fin (dr_pminus r) /\ cell_fin (dr_qplus r) /\ cell_fin (dr_qminus r) /\
    cell_fin (dr_socmax r) /\ cell_fin (dr_socmin r) /\ cell_fin (dr_eff r).
  Proof. unfold dev_row_fin in Hf. rewrite !Forall_cons_iff in Hf. tauto. Qed.
  Lemma else_fin c d : cell_fin c -> (c <> None \/ fin d) -> fin (or_else c d).
  Proof. intros C [H|H]; destruct c; cbn; auto; try congruence. Qed.
  Lemma pu_Fin x : pu (Fin x) = Fin (x / b).
  Proof. apply xdiv_Fin. lra. Qed.

  Section Gen.
    Context (g : gen_spec XR) (Hg : gen_check r false (Fin b) = Ok g) (Lim : gen_limits_given r).

    Lemma gen_is_valid : gen_valid r false.
    Proof. apply (proj1 (gen_check_iff b Hb r false Hf)). rewrite Hg. apply okp_ok. exact I. Qed.
    Lemma gen_points : exists x1 x2, pu (PPLUS r) = Fin x1 /\ pu (PMAX r) = Fin x2 /\ x1 <= x2 /\
      (x1 = x2 \/ fin (pu (QMAX r)) /\ fin (pu (QPLUS r)) /\ fin (pu (QMIN r)) /\ fin (pu (QMINUS r))).
    Proof.
      destruct cells as (C1 & C2 & C3 & C4 & C5 & C6 & C7 & C8 & _). destruct Lim as [L1 L2].
      destruct gen_is_valid as (_ & V1 & V2 & _).
      destruct (else_fin (dr_pmax r) PInf C1 (or_introl L1)) as [pm Epm]. fold (PMAX r) in Epm.
      destruct (else_fin (dr_pplus r) (PMAX r) C5 (or_intror (ex_intro _ pm Epm))) as [pp Epp]. fold (PPLUS r) in Epp.
      rewrite Epp, Epm in *. exists (pp / b), (pm / b). rewrite !pu_Fin. split; auto. split; auto.
      apply xle_Fin in V2. split; [apply Rdiv_le_iff; auto|].
      destruct L2 as [L2|[L2 L3]]; [left|right].
      - unfold PPLUS in Epp. rewrite L2 in Epp. cbn in Epp. assert (pp = pm) by congruence. congruence.
      - assert (fin (QMAX r)) by (apply else_fin; auto). assert (fin (QMIN r)) by (apply else_fin; auto).
        split; [|split; [|split]]; apply pu_fin; auto; apply else_fin; auto.
    Qed.
    Lemma gen_rows_region pot p q : Forall (row_holds 0 p q) (gen_rows g pot) <-> gen_region r b pot p q.
    Proof.
      destruct (gen_check_vals b Hb r false g Hg) as [gv_pmin0 gv_pmax0 gv_qmin0 gv_qmax0 gv_pplus0 gv_qplus0 gv_qminus0 gv_tau3 gv_tau4 gv_rho3 gv_rho4]. destruct gen_points as (x1 & x2 & E1 & E2 & L & FF).
      unfold gen_rows, gen_region. rewrite Forall7, row_plo, row_phi, row_phi, row_qlo, row_qhi, !plus0, !minus0.
      rewrite gv_rho3, gv_rho4, gv_tau3, gv_tau4, gv_pmin0, gv_pmax0, gv_qmin0, gv_qmax0, gv_pplus0, gv_qplus0, gv_qminus0.
      unfold tau1_of. cbn [or_else] in *.
      assert (K1 : xle (Fin q) (pu (QMAX r)) -> _) by (intros K; refine (corner_below _ _ _ (pu (QPLUS r)) x1 x2 E1 E2 L _ p q K); tauto).
      assert (K2 : xle (pu (QMIN r)) (Fin q) -> _) by (intros K; refine (corner_above _ _ _ (pu (QMINUS r)) x1 x2 E1 E2 L _ p q K); tauto).
      split; intros (H1 & H2 & H3 & H4 & H5 & H6 & H7); repeat (split; auto); try apply K1; try apply K2; auto.
    Qed.
    Lemma gen_rows_coeffs pot : coeffs_fin (gen_rows g pot).
    Proof.
      destruct (gen_check_vals b Hb r false g Hg) as [gv_pmin0 gv_pmax0 gv_qmin0 gv_qmax0 gv_pplus0 gv_qplus0 gv_qminus0 gv_tau3 gv_tau4 gv_rho3 gv_rho4]. destruct gen_points as (x1 & x2 & E1 & E2 & L & FF).
      unfold coeffs_fin, gen_rows. rewrite Forall7. cbn [qa qb nopp n1 n0 XRnum xopp].
      assert (T1 : fin (g_tau1 g)).
      { rewrite gv_tau3, gv_pmax0, gv_pplus0, gv_qmax0, gv_qplus0. unfold tau1_of. apply (corner_fin _ _ _ _ x1 x2 E1 E2). tauto. }
      assert (T2 : fin (g_tau2 g)).
      { rewrite gv_tau4, gv_pmax0, gv_pplus0, gv_qmin0, gv_qminus0. unfold tau1_of. apply (corner_fin _ _ _ _ x1 x2 E1 E2). tauto. }
      destruct T1 as [t1 ->], T2 as [t2 ->]. cbn [xopp]. repeat split; apply fin_Fin.
    Qed.
  End Gen.

  Section Stor.
    Context (t : stor_spec XR) (Ht : stor_check r (Fin b) = Ok t) (Lim : stor_limits_given r).

    Lemma stor_is_valid : stor_valid r.
    Proof. apply (proj1 (stor_check_iff b Hb r Hf)). rewrite Ht. apply okp_ok. exact I. Qed.
    Lemma stor_points : exists x1 x2 x3 x4, pu (PPLUS r) = Fin x1 /\ pu (PMAX r) = Fin x2 /\ x1 <= x2 /\
      pu (PMIN r NInf) = Fin x3 /\ pu (PMINUS r) = Fin x4 /\ x3 <= x4 /\ x4 <= x1 /\ x3 <= 0 /\ 0 <= x2 /\
      (x1 = x2 \/ fin (pu (QMAX r)) /\ fin (pu (QPLUS r)) /\ fin (pu (QMIN r)) /\ fin (pu (QMINUS r))) /\
      (x3 = x4 \/ fin (pu (QMAX r)) /\ fin (pu (QPLUS r)) /\ fin (pu (QMIN r)) /\ fin (pu (QMINUS r))).
    Proof.
      destruct cells as (C1 & C2 & C3 & C4 & C5 & C6 & C7 & C8 & _). destruct Lim as (L1 & L1' & L2).
      destruct stor_is_valid as (W1 & W2 & V1 & V2 & V3 & _).
      destruct (else_fin (dr_pmax r) PInf C1 (or_introl L1)) as [pm Epm]. fold (PMAX r) in Epm.
      destruct (else_fin (dr_pplus r) (PMAX r) C5 (or_intror (ex_intro _ pm Epm))) as [pp Epp]. fold (PPLUS r) in Epp.
      destruct (else_fin (dr_pmin r) NInf C2 (or_introl L1')) as [pn Epn]. fold (PMIN r NInf) in Epn.
      destruct (else_fin (dr_pminus r) (PMIN r NInf) C6 (or_intror (ex_intro _ pn Epn))) as [pq Epq]. fold (PMINUS r) in Epq.
      rewrite Epp, Epm, Epn, Epq in *. exists (pp / b), (pm / b), (pn / b), (pq / b). rewrite !pu_Fin.
      apply xle_Fin in V2. apply xle_Fin in V1. apply xle_Fin in V3. apply xle_Fin in W1. apply xle_Fin in W2.
      assert (A : pp / b <= pm / b) by (apply Rdiv_le_iff; auto). assert (B : pn / b <= pq / b) by (apply Rdiv_le_iff; auto).
      assert (C : pq / b <= pp / b) by (apply Rdiv_le_iff; auto).
      assert (D : pn / b <= 0 / b) by (apply Rdiv_le_iff; auto). assert (E : 0 / b <= pm / b) by (apply Rdiv_le_iff; auto).
      replace (0 / b) with 0 in * by (unfold Rdiv; ring).
      assert (FQ : dr_qmax r <> None /\ dr_qmin r <> None -> fin (pu (QMAX r)) /\ fin (pu (QPLUS r)) /\ fin (pu (QMIN r)) /\ fin (pu (QMINUS r))).
      { intros [L3 L4]. assert (fin (QMAX r)) by (apply else_fin; auto). assert (fin (QMIN r)) by (apply else_fin; auto).
        split; [|split; [|split]]; apply pu_fin; auto; apply else_fin; auto. }
      repeat (split; auto).
      - destruct L2 as [[L2 _]|L2]; [left|right; auto].
        unfold PPLUS in Epp. rewrite L2 in Epp. cbn in Epp. assert (pp = pm) by congruence. congruence.
      - destruct L2 as [[_ L2]|L2]; [left|right; auto].
        unfold PMINUS in Epq. rewrite L2 in Epq. cbn in Epq. assert (pn = pq) by congruence. congruence.
    Qed.
    Context (e d c lo hi : R) (Ee : EFF r = Fin e) (He : 0 < e) (Hd : 0 < d).
    Context (Elo : s_socmin t = Fin lo) (Ehi : s_socmax t = Fin hi) (Hc : lo <= c <= hi).

    Lemma soc_rows p : (- p <= - (c - hi) / (d * e) /\ p <= e * (c - lo) / d) <-> (lo <= soc_after e d c p /\ soc_after e d c p <= hi).
    Proof.
      assert (K1 : - p <= - (c - hi) / (d * e) <-> c - d * e * p <= hi).
      { assert (0 < d * e) by (apply Rmult_lt_0_compat; auto).
        assert (E : - (c - hi) / (d * e) * (d * e) = hi - c) by (field; split; lra).
        split; intros H1; [|apply Rmult_le_reg_r with (d * e); auto; rewrite E]; nra. }
      assert (K2 : p <= e * (c - lo) / d <-> lo <= c - d * p / e).
      { assert (E1 : e * (c - lo) / d * d = e * (c - lo)) by (field; lra).
        assert (E2 : (d * p / e) * e = d * p) by (field; lra).
        split; intros H1; [apply Rmult_le_reg_r with e|apply Rmult_le_reg_r with d]; auto.
        - apply Rmult_le_compat_r with (r := d) in H1; [|lra]. rewrite Rmult_minus_distr_r, E2. lra.
        - apply Rmult_le_compat_r with (r := e) in H1; [|lra]. rewrite Rmult_minus_distr_r, E2 in H1. lra. }
      rewrite K1, K2. unfold soc_after. assert (P1 : 0 < d * e) by (apply Rmult_lt_0_compat; auto).
      assert (P2 : forall x, 0 < x -> 0 < d * x / e). { intros x Hx. apply Rmult_lt_0_compat; [nra|apply Rinv_0_lt_compat; auto]. }
      assert (P3 : forall x, x <= 0 -> d * x / e <= 0).
      { intros x Hx. unfold Rdiv. assert (0 < / e) by (apply Rinv_0_lt_compat; auto). assert (d * x <= 0) by nra. nra. }
      destruct (Rle_dec p 0) as [L|L].
      - specialize (P3 p L). assert (d * e * p <= 0) by nra. split; intros; lra.
      - specialize (P2 p ltac:(lra)). assert (0 < d * e * p) by (apply Rmult_lt_0_compat; lra). split; intros; lra.
    Qed.
    Lemma stor_rows_eq rows : stor_rows t (Fin c) (Fin d) = Ok rows ->
      rows = [ mkRow (nopp n1) n0 (nopp (s_pmin t)); mkRow n1 n0 (s_pmax t); mkRow n0 (nopp n1) (nopp (s_qmin t));
         mkRow n0 n1 (s_qmax t); mkRow (nopp (s_tau1 t)) n1 (s_rho1 t); mkRow (s_tau2 t) (nopp n1) (nopp (s_rho2 t));
         mkRow (s_tau3 t) (nopp n1) (nopp (s_rho3 t)); mkRow (nopp (s_tau4 t)) n1 (s_rho4 t);
         mkRow (nopp n1) n0 (Fin (- (c - hi) / (d * e))); mkRow n1 n0 (Fin (e * (c - lo) / d)) ].
    Proof.
      unfold stor_rows. destruct (stor_check_vals b Hb r t Ht) as [sv_pmin0 sv_pmax0 sv_qmin0 sv_qmax0 sv_pplus0 sv_pminus0 sv_qplus0 sv_qminus0 sv_socmin0 sv_socmax0 sv_eff0 sv_tau5 sv_tau6 sv_tau7 sv_tau8 sv_rho5 sv_rho6 sv_rho7 sv_rho8]. rewrite sv_eff0, Ee, Elo, Ehi.
      assert (d * e <> 0) by (assert (0 < d * e) by (apply Rmult_lt_0_compat; auto); lra).
      cbn [nopp nsub nmul XRnum xsub xopp xmul]. unfold pydiv. cbn [neqb n0 XRnum xeqb].
      rewrite (proj2 (Reqb_false (d * e) 0)) by auto. rewrite (proj2 (Reqb_false d 0)) by lra. cbn [bind ndiv XRnum].
      rewrite !xdiv_Fin by (auto; lra). intros H'; inversion H'. reflexivity.
    Qed.
    Lemma stor_rows_ok : exists rows, stor_rows t (Fin c) (Fin d) = Ok rows.
    Proof.
      unfold stor_rows. destruct (stor_check_vals b Hb r t Ht) as [sv_pmin0 sv_pmax0 sv_qmin0 sv_qmax0 sv_pplus0 sv_pminus0 sv_qplus0 sv_qminus0 sv_socmin0 sv_socmax0 sv_eff0 sv_tau5 sv_tau6 sv_tau7 sv_tau8 sv_rho5 sv_rho6 sv_rho7 sv_rho8]. rewrite sv_eff0, Ee, Elo, Ehi.
      assert (d * e <> 0) by (assert (0 < d * e) by (apply Rmult_lt_0_compat; auto); lra).
      cbn [nopp nsub nmul XRnum xsub xopp xmul]. unfold pydiv. cbn [neqb n0 XRnum xeqb].
      rewrite (proj2 (Reqb_false (d * e) 0)) by auto. rewrite (proj2 (Reqb_false d 0)) by lra. cbn [bind]. eauto.
    Qed.
    Lemma stor_rows_region rows p q : stor_rows t (Fin c) (Fin d) = Ok rows ->
      (Forall (row_holds 0 p q) rows <-> stor_region r b e d c p q).
    Proof.
      intros Hr. apply stor_rows_eq in Hr. subst rows.
      destruct (stor_check_vals b Hb r t Ht) as [sv_pmin0 sv_pmax0 sv_qmin0 sv_qmax0 sv_pplus0 sv_pminus0 sv_qplus0 sv_qminus0 sv_socmin0 sv_socmax0 sv_eff0 sv_tau5 sv_tau6 sv_tau7 sv_tau8 sv_rho5 sv_rho6 sv_rho7 sv_rho8]. destruct stor_points as (x1 & x2 & x3 & x4 & E1 & E2 & L & E3 & E4 & L' & _ & _ & _ & F1 & F2).
      unfold stor_region. rewrite Forall10, row_plo, row_phi, row_qlo, row_qhi, row_plo_Fin, row_phi, !plus0, !minus0, xle_Fin.
      rewrite sv_rho5, sv_rho6, sv_rho7, sv_rho8, sv_tau5, sv_tau6, sv_tau7, sv_tau8, sv_pmin0, sv_pmax0, sv_qmin0, sv_qmax0, sv_pplus0, sv_pminus0, sv_qplus0, sv_qminus0.
      unfold tau1_of.
      assert (K1 : xle (Fin q) (pu (QMAX r)) -> _) by (intros K; refine (corner_below _ _ _ (pu (QPLUS r)) x1 x2 E1 E2 L _ p q K); tauto).
      assert (K2 : xle (pu (QMIN r)) (Fin q) -> _) by (intros K; refine (corner_above _ _ _ (pu (QMINUS r)) x1 x2 E1 E2 L _ p q K); tauto).
      assert (K3 : xle (pu (QMIN r)) (Fin q) -> _) by (intros K; refine (corner_above' _ (pu (QMINUS r)) _ _ x3 x4 E3 E4 L' _ p q K); tauto).
      assert (K4 : xle (Fin q) (pu (QMAX r)) -> _) by (intros K; refine (corner_below' _ (pu (QPLUS r)) _ _ x3 x4 E3 E4 L' _ p q K); tauto).
      pose proof (soc_rows p) as K5. rewrite sv_socmin0 in Elo. rewrite Elo. destruct sv_socmax0 as (v & Ev & Em). rewrite Em in Ehi.
      rewrite xle_Fin.
      assert (K6 : soc_after e d c p <= hi <-> (exists v, dr_socmax r = Some v /\ xle (Fin (soc_after e d c p)) (pu v))).
      { split; [intros K; exists v; split; auto; rewrite Ehi; apply xle_Fin; auto|].
        intros (v' & Ev' & K). rewrite Ev in Ev'. inversion Ev'; subst v'. rewrite Ehi in K. apply xle_Fin in K. auto. }
      rewrite <- K6.
      split; intros (H1 & H2 & H3 & H4 & H5 & H6 & H7 & H8 & H9 & H10); repeat (split; auto);
        try apply K1; try apply K2; try apply K3; try apply K4; try (apply K5); auto.
    Qed.
    Lemma stor_rows_coeffs rows : stor_rows t (Fin c) (Fin d) = Ok rows -> coeffs_fin rows.
    Proof.
      intros Hr. apply stor_rows_eq in Hr. subst rows.
      destruct (stor_check_vals b Hb r t Ht) as [sv_pmin0 sv_pmax0 sv_qmin0 sv_qmax0 sv_pplus0 sv_pminus0 sv_qplus0 sv_qminus0 sv_socmin0 sv_socmax0 sv_eff0 sv_tau5 sv_tau6 sv_tau7 sv_tau8 sv_rho5 sv_rho6 sv_rho7 sv_rho8]. destruct stor_points as (x1 & x2 & x3 & x4 & E1 & E2 & L & E3 & E4 & L' & _ & _ & _ & F1 & F2).
      unfold coeffs_fin. rewrite Forall10. cbn [qa qb nopp n1 n0 XRnum xopp].
      assert (T1 : fin (s_tau1 t)).
      { rewrite sv_tau5, sv_pmax0, sv_pplus0, sv_qmax0, sv_qplus0. unfold tau1_of. apply (corner_fin _ _ _ _ x1 x2 E1 E2). tauto. }
      assert (T2 : fin (s_tau2 t)).
      { rewrite sv_tau6, sv_pmax0, sv_pplus0, sv_qmin0, sv_qminus0. unfold tau1_of. apply (corner_fin _ _ _ _ x1 x2 E1 E2). tauto. }
      assert (T3 : fin (s_tau3 t)).
      { rewrite sv_tau7, sv_pmin0, sv_pminus0, sv_qmin0, sv_qminus0. apply (corner_fin _ _ _ _ x3 x4 E3 E4). tauto. }
      assert (T4 : fin (s_tau4 t)).
      { rewrite sv_tau8, sv_pmin0, sv_pminus0, sv_qmax0, sv_qplus0. apply (corner_fin _ _ _ _ x3 x4 E3 E4). tauto. }
      destruct T1 as [t1 ->], T2 as [t2 ->], T3 as [t3 ->], T4 as [t4 ->]. cbn [xopp]. repeat split; apply fin_Fin.
    Qed.
  End Stor.
End Regions.
