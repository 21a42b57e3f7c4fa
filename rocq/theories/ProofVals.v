(** Values of the attributes of constructed devices over the exact extended reals (C10). *)
From Coq Require Import Reals Lra.
From Verif Require Import Base Num NumXR Devices BusBranch CheckNetwork LoadFlow Simulator LibBase LibNum LibXR LibSim
  SpecNet ProofNet SpecDev LibInit SpecSim ProofSim ProofSoc ProofHist ProofDev ProofObs ProofUnits.
Local Open Scope string_scope.
Local Open Scope list_scope.
Local Open Scope R_scope.

Section Vals.
  Context (b : R) (Hb : 0 < b).
  Notation pu x := (xdiv x (Fin b)).

  (** the attributes tau and rho, as functions of the limits *)
  Definition tau1_of (pmax pplus qmax qplus : XR) : XR :=
    if neqb pmax pplus then n0 else ndiv (nsub qplus qmax) (nsub pmax pplus).

  Record gen_vals (r : dev_row XR) (slack : bool) (g : gen_spec XR) : Prop := mkGV {
    gv_pmin : g_pmin g = pu (PMIN r (if slack then NInf else Fin 0)); gv_pmax : g_pmax g = pu (PMAX r);
    gv_qmin : g_qmin g = pu (QMIN r); gv_qmax : g_qmax g = pu (QMAX r);
    gv_pplus : g_pplus g = pu (PPLUS r); gv_qplus : g_qplus g = pu (QPLUS r); gv_qminus : g_qminus g = pu (QMINUS r);
    gv_tau1 : g_tau1 g = tau1_of (g_pmax g) (g_pplus g) (g_qmax g) (g_qplus g);
    gv_tau2 : g_tau2 g = tau1_of (g_pmax g) (g_pplus g) (g_qmin g) (g_qminus g);
    gv_rho1 : g_rho1 g = nsub (g_qmax g) (nmul (g_tau1 g) (g_pplus g));
    gv_rho2 : g_rho2 g = nsub (g_qmin g) (nmul (g_tau2 g) (g_pplus g)) }.
  Lemma gen_check_vals r slack g : gen_check r slack (Fin b) = Ok g -> gen_vals r slack g.
  Proof.
    unfold gen_check. intros H.
    apply bind_ok in H as (pmax & H1 & H). apply bind_ok in H as (pmin & H2 & H).
    assert (E1 : pmax = pu (PMAX r)).
    { unfold PMAX. rewrite <- pu_inf by auto. destruct (dr_pmax r) as [v|]; [destruct (_ && _)%bool|]; inv_ok; auto. }
    assert (E2 : pmin = pu (PMIN r (if slack then NInf else Fin 0))).
    { unfold PMIN. destruct (dr_pmin r) as [v|]; cbn [or_else]; [destruct (_ && _)%bool; inv_ok; auto|].
      inversion H2. destruct slack; [rewrite pu_NInf by auto|rewrite pu_0 by auto]; reflexivity. }
    clear H1 H2. rewrite !(pu_inf b Hb), !(pu_ninf b Hb) in H. rewrite E1 in H. rewrite !(pu_else b) in H.
    cbv zeta in H.
    repeat (apply bind_ok in H; destruct H as (? & _ & H)). inversion H; subst.
    constructor; reflexivity.
  Qed.

  Record stor_vals (r : dev_row XR) (g : stor_spec XR) : Prop := mkSV {
    sv_pmin : s_pmin g = pu (PMIN r NInf); sv_pmax : s_pmax g = pu (PMAX r);
    sv_qmin : s_qmin g = pu (QMIN r); sv_qmax : s_qmax g = pu (QMAX r);
    sv_pplus : s_pplus g = pu (PPLUS r); sv_pminus : s_pminus g = pu (PMINUS r);
    sv_qplus : s_qplus g = pu (QPLUS r); sv_qminus : s_qminus g = pu (QMINUS r);
    sv_socmin : s_socmin g = pu (SOCMIN r);
    sv_socmax : exists v, dr_socmax r = Some v /\ s_socmax g = pu v;
    sv_eff : s_eff g = EFF r;
    sv_tau1 : s_tau1 g = tau1_of (s_pmax g) (s_pplus g) (s_qmax g) (s_qplus g);
    sv_tau2 : s_tau2 g = tau1_of (s_pmax g) (s_pplus g) (s_qmin g) (s_qminus g);
    sv_tau3 : s_tau3 g = if neqb (s_pmin g) (s_pminus g) then n0 else ndiv (nsub (s_qmin g) (s_qminus g)) (nsub (s_pminus g) (s_pmin g));
    sv_tau4 : s_tau4 g = if neqb (s_pmin g) (s_pminus g) then n0 else ndiv (nsub (s_qmax g) (s_qplus g)) (nsub (s_pminus g) (s_pmin g));
    sv_rho1 : s_rho1 g = nsub (s_qmax g) (nmul (s_tau1 g) (s_pplus g));
    sv_rho2 : s_rho2 g = nsub (s_qmin g) (nmul (s_tau2 g) (s_pplus g));
    sv_rho3 : s_rho3 g = nsub (s_qmin g) (nmul (s_tau3 g) (s_pminus g));
    sv_rho4 : s_rho4 g = nsub (s_qmax g) (nmul (s_tau4 g) (s_pminus g)) }.
  Lemma stor_check_vals r g : stor_check r (Fin b) = Ok g -> stor_vals r g.
  Proof.
    unfold stor_check. intros H.
    apply bind_ok in H as (pmax & H1 & H). apply bind_ok in H as (pmin & H2 & H).
    assert (E1 : pmax = pu (PMAX r)).
    { unfold PMAX. rewrite <- pu_inf by auto. destruct (dr_pmax r) as [v|]; [destruct (nltb _ _)|]; inv_ok; auto. }
    assert (E2 : pmin = pu (PMIN r NInf)).
    { unfold PMIN. rewrite <- pu_ninf by auto. destruct (dr_pmin r) as [v|]; [destruct (nltb _ _)|]; inv_ok; auto. }
    clear H1 H2. rewrite !(pu_inf b Hb), !(pu_ninf b Hb) in H. rewrite E1, E2 in H. rewrite !(pu_else b) in H.
    cbv zeta in H.
    do 10 (apply bind_ok in H; destruct H as (? & _ & H)).
    apply bind_ok in H as (socmin & H1 & H). apply bind_ok in H as (socmax & H2 & H).
    apply bind_ok in H as (? & _ & H). apply bind_ok in H as (eff & H3 & H).
    assert (E3 : socmin = pu (SOCMIN r)).
    { unfold SOCMIN. destruct (dr_socmin r) as [v|]; cbn [or_else]; [destruct (nltb _ _); inv_ok; auto|].
      inversion H1. rewrite pu_0 by auto. reflexivity. }
    assert (E4 : exists v, dr_socmax r = Some v /\ socmax = pu v).
    { destruct (dr_socmax r) as [v|]; [|discriminate]. exists v. split; auto. destruct (nltb _ _); inversion H2; auto. }
    assert (E5 : eff = EFF r).
    { unfold EFF. destruct (dr_eff r) as [v|]; cbn [or_else]; [destruct (_ || _)%bool; inv_ok; auto|]. inversion H3; reflexivity. }
    inversion H; subst. constructor; try reflexivity. exact E4.
  Qed.

  Lemma load_check_vals r t l : load_check r t (Fin b) = Ok l ->
    l_pmin l = pu (PMIN r NInf) /\ l_pmax l = or_else (dr_pmax r) (Fin 0) /\ dr_qp r = Some (l_qp l) /\
    l_qmin l = nmul (l_pmin l) (l_qp l) /\ l_qmax l = nmul (l_pmax l) (l_qp l) /\ nltb n0 (l_pmax l) = false /\
    nltb (l_pmax l) (l_pmin l) = false.
  Proof.
    unfold load_check. intros H.
    apply bind_ok in H as (u & _ & H). apply bind_ok in H as (qp & Hq & H). apply bind_ok in H as (pmax & Hp & H).
    cbv zeta in H. rewrite (pu_ninf b Hb) in H. apply bind_ok in H as (u' & Hl & H). apply raise_if_ok' in Hl. inversion H; subst; cbn [l_pmin l_pmax l_qp l_qmin l_qmax].
    assert (E : pmax = or_else (dr_pmax r) (Fin 0) /\ nltb n0 pmax = false).
    { destruct (dr_pmax r) as [v|]; cbn [or_else]; [destruct (nltb n0 v) eqn:L; inversion Hp; subst; auto|].
      inversion Hp. split; auto. cbn [nltb XRnum xltb n0]. apply Rltb_false. lra. }
    destruct E as [E L]. destruct (dr_qp r) as [q|]; inversion Hq; subst q.
    repeat split; auto.
  Qed.
End Vals.

Section C10.
  Context (nw : network XR) (dt lamb : XR) (s0 : sim XR) (H0 : sim_init nw dt lamb = Ok s0).
  Context (b : R) (Eb : nw_base nw = Fin b).
  Notation pu x := (xdiv x (Fin b)).

  Lemma base_pos : 0 < b.
  Proof.
    destruct (sim_init_built _ _ _ _ H0) as (bs & ds & B). destruct (bt_wf _ _ _ _ _ _ B) as (W & _).
    unfold rule_base in W. rewrite Eb in W. cbn [nleb XRnum xleb n0] in W. apply Rleb_false in W. auto.
  Qed.
  Lemma init_dev_of_row r : In r (nw_dev nw) ->
    exists d, In d (sm_devs s0) /\ mk_dev (Fin b) (map b_id (sm_buses s0)) r = Ok d /\ dr_id r = Some (d_id d) /\ dr_type r = Some (d_type d).
  Proof.
    intros I. destruct (sim_init_built _ _ _ _ H0) as (bs & ds & B).
    destruct (bt_dev_row_inv B _ I) as (d & Id & E). rewrite Eb in E. exists d. split; auto. split; auto.
    apply mk_dev_fields in E. tauto.
  Qed.
  Lemma spec_of_row r d : mk_dev (Fin b) (map b_id (sm_buses s0)) r = Ok d ->
    match d_spec d with
    | SLoad l => d_type d = (-1)%Z /\ load_check r (-1) (Fin b) = Ok l
    | SGen g => In (d_type d) [0; 1; 2]%Z /\ gen_check r (Z.eqb (d_type d) 0) (Fin b) = Ok g
    | SStor t => d_type d = 3%Z /\ stor_check r (Fin b) = Ok t
    end.
  Proof.
    intros E. pose proof (mk_dev_kind _ _ _ _ E) as K. destruct (d_spec d) as [l|g|t] eqn:Es.
    - pose proof (mk_dev_load _ _ _ _ _ E Es) as L. unfold is_load in K. rewrite Es in K. destruct K as (K & _).
      symmetry in K. apply zmem_spec in K. destruct K as [K|[]]. rewrite <- K in *. auto.
    - pose proof (mk_dev_gen _ _ _ _ _ E Es) as L. split; [|exact L].
      unfold is_load, is_stor in K. rewrite Es in K. destruct K as (K1 & _ & K3 & _ & _ & K).
      symmetry in K1, K3. apply zmem_false in K1. apply zmem_false in K3. cbn [In] in *. tauto.
    - pose proof (mk_dev_stor _ _ _ _ _ E Es) as L. unfold is_stor in K. rewrite Es in K. destruct K as (_ & _ & K & _).
      symmetry in K. apply zmem_spec in K. destruct K as [K|[]]. rewrite <- K in *. auto.
  Qed.

  Lemma C10_lemma r i : In r (nw_dev nw) -> dr_id r = Some i ->
    (dr_type r = Some (-1)%Z ->
       bound s0 "dev_p" "pu" (EId i) = Some (pu (PMIN r NInf), or_else (dr_pmax r) (Fin 0))) /\
    (dr_type r = Some 0%Z \/ dr_type r = Some 1%Z \/ dr_type r = Some 2%Z ->
       bound s0 "dev_p" "pu" (EId i) = Some (pu (PMIN r (if optz_eqb (dr_type r) (Some 0%Z) then NInf else Fin 0)), pu (PMAX r)) /\
       bound s0 "dev_q" "pu" (EId i) = Some (pu (QMIN r), pu (QMAX r))) /\
    (dr_type r = Some 3%Z ->
       bound s0 "dev_p" "pu" (EId i) = Some (pu (PMIN r NInf), pu (PMAX r)) /\
       bound s0 "dev_q" "pu" (EId i) = Some (pu (QMIN r), pu (QMAX r)) /\
       exists socmax, dr_socmax r = Some socmax /\
       bound s0 "des_soc" "pu" (EId i) = Some (pu (SOCMIN r), pu socmax)).
  Proof.
    intros I Ei. pose proof base_pos as Hb.
    destruct (init_dev_of_row r I) as (d & Id & E & E1 & E2). rewrite E1 in Ei. inversion Ei; subst i.
    pose proof (init_nodup _ _ _ _ H0) as ND. rewrite E2.
    rewrite (bound_dev_p s0 d ND Id), (bound_dev_q s0 d ND Id).
    pose proof (spec_of_row r d E) as K. unfold d_pmin, d_pmax, d_qmin, d_qmax. destruct (d_spec d) as [l|g|t] eqn:Es.
    - destruct K as [-> K]. apply load_check_vals in K; auto. destruct K as (-> & -> & _).
      split; [auto|]. split; [intros [Q|[Q|Q]]; discriminate|discriminate].
    - destruct K as [T K]. apply gen_check_vals in K; auto. destruct K. rewrite gv_pmin0, gv_pmax0, gv_qmin0, gv_qmax0.
      cbn [optz_eqb]. split; [intros Q; inversion Q as [Q1]; rewrite Q1 in T; cbn in T; intuition congruence|].
      split; [auto|]. intros Q; inversion Q as [Q1]; rewrite Q1 in T; cbn in T; intuition congruence.
    - destruct K as [T K]. apply stor_check_vals in K; auto.
      rewrite (bound_soc s0 d t ND Id Es).
      destruct K. destruct sv_socmax0 as (v & Ev & Em). rewrite T.
      split; [discriminate|]. split; [intros [Q|[Q|Q]]; discriminate|]. intros _.
      rewrite sv_pmin0, sv_pmax0, sv_qmin0, sv_qmax0, sv_socmin0, Em. split; [auto|]. split; auto. exists v; auto.
  Qed.
End C10.
