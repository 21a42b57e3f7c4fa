(** Validation of device, branch and bus rows: C12, C13; conversion to per-unit: C10. *)
From Coq Require Import Reals Lra.
From Verif Require Import Base Num NumXR Devices BusBranch CheckNetwork Simulator LibBase LibNum LibXR SpecDev LibInit.
Local Open Scope R_scope.

Definition okp {A} (m : res A) : Prop := exists a, m = Ok a.
Lemma okp_ok {A} (a : A) : okp (Ok a) <-> True.
Proof. split; auto. intros; eexists; reflexivity. Qed.
Lemma okp_err {A} e : okp (Err e : res A) <-> False.
Proof. split; [intros [a H]; discriminate|tauto]. Qed.
Lemma okp_raise {A} c e (k : unit -> res A) : okp (bind (raise_if c e) k) <-> c = false /\ okp (k tt).
Proof. destruct c; cbn; [rewrite okp_err|]; intuition congruence. Qed.
Lemma okp_bind {A B} (m : res A) (k : A -> res B) : okp (bind m k) <-> exists a, m = Ok a /\ okp (k a).
Proof.
  destruct m; cbn; split.
  - intros H; eauto.
  - intros (b & H & K); congruence.
  - intros [a H]; discriminate.
  - intros (b & H & K); discriminate.
Qed.

Section Base.
  Context (b : R) (Hb : 0 < b).
  Notation pu x := (xdiv x (Fin b)).

  Lemma pu_inf c : (match c with None => ninf | Some v => ndiv v (Fin b) end : XR) = pu (or_else c PInf).
  Proof. destruct c; cbn; auto. destruct (Rlt_dec b 0); [lra|auto]. Qed.
  Lemma pu_ninf c : (match c with None => nninf | Some v => ndiv v (Fin b) end : XR) = pu (or_else c NInf).
  Proof. destruct c; cbn; auto. destruct (Rlt_dec b 0); [lra|auto]. Qed.
  Lemma pu_else c x : (match c with None => pu x | Some v => ndiv v (Fin b) end : XR) = pu (or_else c x).
  Proof. destruct c; reflexivity. Qed.
  Lemma pu_0 : pu (Fin 0) = Fin 0.
  Proof. apply (xdiv_inf b Hb). Qed.
  Lemma pu_PInf : pu PInf = PInf.
  Proof. apply (xdiv_inf b Hb). Qed.
  Lemma pu_NInf : pu NInf = NInf.
  Proof. apply (xdiv_inf b Hb). Qed.
  Lemma pu_nonan x : nonan x -> nonan (pu x).
  Proof.
    unfold nonan. intros H. destruct x; try congruence; cbn.
    - destruct (Req_EM_T b 0); [lra|discriminate].
    - destruct (Rlt_dec b 0); discriminate.
    - destruct (Rlt_dec b 0); discriminate.
  Qed.
  Lemma pu_lt_false x y : nonan x -> nonan y -> (nltb (pu x) (pu y) = false <-> xle y x).
  Proof. intros. cbn [nltb XRnum]. rewrite xdiv_pos_lt by auto. apply xlt_false_le; auto. Qed.
  Lemma pu_fin x : fin x -> fin (pu x).
  Proof. intros [r ->]. rewrite xdiv_Fin by lra. auto. Qed.
End Base.

Lemma cell_nonan c x : cell_fin c -> nonan x -> nonan (or_else c x).
Proof. intros H K. destruct c; cbn; auto. apply fin_nonan, H; auto. Qed.
Lemma nonan_lits : nonan PInf /\ nonan NInf /\ nonan (Fin 0) /\ nonan (Fin 1) /\ nonan (Fin 360).
Proof. repeat split; discriminate. Qed.

Ltac cells H :=
  unfold dev_row_fin, branch_row_fin, bus_row_fin in H;
  repeat match type of H with Forall _ (_ :: _) =>
    let h := fresh "Hc" in apply Forall_cons_iff in H; destruct H as [h H] end.

Ltac nn :=
  repeat first [ apply cell_nonan; [assumption|] | discriminate | apply pu_nonan; [assumption|] ].

Section Rows.
  Context (b : R) (Hb : 0 < b).
  Notation pu x := (xdiv x (Fin b)).

  Lemma load_check_iff r t : dev_row_fin r -> (okp (load_check r t (Fin b)) <-> t = (-1)%Z /\ load_valid r b 1).
  Proof.
    intros HF. cells HF. unfold load_check, load_valid. rewrite okp_raise, negb_false_iff, Z.eqb_eq.
    apply and_iff_compat_l. rewrite okp_bind.
    destruct (dr_qp r) as [qp|]; [|split; [intros (a & E & _); discriminate|intros (E & _); congruence]].
    split.
    - intros (a & E & K). clear E. split; [discriminate|].
      apply okp_bind in K. destruct K as (pm & E & K). cbv zeta in K.
      apply okp_raise in K. destruct K as (K & _). rewrite pu_ninf in K by auto.
      assert (Epm : pm = or_else (dr_pmax r) (Fin 0) /\ xle pm (Fin 0)).
      { destruct (dr_pmax r) as [v|]; cbn [or_else] in E |- *.
        - destruct (nltb n0 v) eqn:L; inversion E; subst. split; auto.
          apply xlt_false_le in L; auto. discriminate. apply fin_nonan; auto.
        - inversion E. split; auto. apply xle_Fin; lra. }
      destruct Epm as [-> Le]. split; auto.
      apply xlt_false_le in K.
      + replace (xdiv (or_else (dr_pmax r) (Fin 0)) (Fin 1)) with (or_else (dr_pmax r) (Fin 0)); auto.
        destruct (dr_pmax r) as [v|]; cbn [or_else]; [destruct (Hc0 v eq_refl) as [w ->]; rewrite xdiv_Fin by lra|rewrite xdiv_Fin by lra]; f_equal; lra.
      + nn.
      + nn. 
    - intros (_ & Le & K). exists qp. split; auto. rewrite okp_bind. exists (or_else (dr_pmax r) (Fin 0)). split.
      + destruct (dr_pmax r) as [v|]; cbn [or_else] in *; auto.
        replace (nltb n0 v) with false; auto. symmetry. apply xlt_false_le; auto. discriminate. apply fin_nonan; auto.
      + cbv zeta. rewrite okp_raise, pu_ninf by auto. split; [|apply okp_ok; auto].
        apply xlt_false_le; [nn|nn|].
        replace (or_else (dr_pmax r) (Fin 0)) with (xdiv (or_else (dr_pmax r) (Fin 0)) (Fin 1)); auto.
        destruct (dr_pmax r) as [v|]; cbn [or_else]; [destruct (Hc0 v eq_refl) as [w ->]; rewrite xdiv_Fin by lra|rewrite xdiv_Fin by lra]; f_equal; lra.
  Qed.

  Lemma pmax_chk (c : option XR) e (k : XR -> res (gen_spec XR)) slack : cell_fin c ->
    (okp (bind (match c with
                | None => Ok ninf
                | Some v => if (nltb v n0 && negb slack)%bool then Err e else Ok (ndiv v (Fin b))
                end) k)
     <-> (slack = false -> xle (Fin 0) (or_else c PInf)) /\ okp (k (pu (or_else c PInf)))).
  Proof.
    intros Hc. destruct c as [v|]; cbn [or_else].
    - destruct (Hc v eq_refl) as [w ->]. cbn [nltb XRnum xltb n0].
      destruct (Rltb w 0) eqn:L; destruct slack; cbn [andb negb]; rewrite ?okp_err; cbn [bind];
        try apply Rltb_spec in L; try apply Rltb_false in L; rewrite ?xle_Fin; rewrite ?okp_err;
        split; intros; try tauto; try (destruct H as [H _]; specialize (H eq_refl); lra);
        try (split; [intros; discriminate || lra|auto]); auto; try (apply H).
    - cbn [bind]. rewrite pu_PInf by auto. split; [intros; split; auto; reflexivity|tauto].
  Qed.
  Lemma pmin_chk (c : option XR) e (k : XR -> res (gen_spec XR)) slack : cell_fin c ->
    (okp (bind (match c with
                | None => Ok (if slack then nninf else n0)
                | Some v => if (nltb v n0 && negb slack)%bool then Err e else Ok (ndiv v (Fin b))
                end) k)
     <-> (slack = false -> xle (Fin 0) (or_else c (if slack then NInf else Fin 0))) /\
         okp (k (pu (or_else c (if slack then NInf else Fin 0))))).
  Proof.
    intros Hc. destruct c as [v|]; cbn [or_else].
    - destruct (Hc v eq_refl) as [w ->]. cbn [nltb XRnum xltb n0].
      destruct (Rltb w 0) eqn:L; destruct slack; cbn [andb negb]; rewrite ?okp_err; cbn [bind];
        try apply Rltb_spec in L; try apply Rltb_false in L; rewrite ?xle_Fin; rewrite ?okp_err;
        split; intros; try tauto; try (destruct H as [H _]; specialize (H eq_refl); lra);
        try (split; [intros; discriminate || lra|auto]); auto; try (apply H).
    - cbn [bind]. destruct slack; cbn [nninf nopp ninf XRnum xopp n0]; unfold nninf; cbn [nopp ninf XRnum xopp].
      + rewrite pu_NInf by auto. split; [intros; split; auto; discriminate|tauto].
      + rewrite pu_0 by auto. split; [intros; split; auto; intros; apply xle_Fin; lra|tauto].
  Qed.

  Lemma gen_check_iff r slack : dev_row_fin r -> (okp (gen_check r slack (Fin b)) <-> gen_valid r slack).
  Proof.
    intros HF. cells HF. unfold gen_check, gen_valid.
    rewrite pmax_chk by auto. rewrite pmin_chk by auto. cbv zeta.
    rewrite okp_raise. rewrite !pu_inf by auto. rewrite !pu_ninf by auto. rewrite !pu_else by auto.
    rewrite !okp_raise, okp_ok.
    fold (PMAX r). fold (QMAX r). fold (QMIN r). fold (PPLUS r) (QPLUS r) (QMINUS r).
    assert (N1 : nonan (PMAX r)) by (unfold PMAX; nn).
    assert (N2 : nonan (PMIN r (if slack then NInf else Fin 0))) by (unfold PMIN; destruct slack; nn).
    assert (N3 : nonan (QMAX r)) by (unfold QMAX; nn).
    assert (N4 : nonan (QMIN r)) by (unfold QMIN; nn).
    assert (N5 : nonan (PPLUS r)) by (unfold PPLUS; apply cell_nonan; auto).
    assert (N6 : nonan (QPLUS r)) by (unfold QPLUS; apply cell_nonan; auto).
    assert (N7 : nonan (QMINUS r)) by (unfold QMINUS; apply cell_nonan; auto).
    unfold PMIN in *.
    rewrite !pu_lt_false by auto.
    split.
    - intros. decompose [and] H. repeat split; auto.
    - intros. decompose [and] H. split; [tauto|]. split; [tauto|].
      repeat split; auto; repeat (eapply xle_trans; eauto).
  Qed.

  Lemma sp_chk {A} (c : option XR) d (k : XR -> res A) e : cell_fin c -> nonan d ->
    (match c with Some _ => True | None => xle (Fin 0) d end) ->
    (okp (bind (match c with None => Ok (pu d) | Some v => if nltb v n0 then Err e else Ok (ndiv v (Fin b)) end) k)
     <-> xle (Fin 0) (or_else c d) /\ okp (k (pu (or_else c d)))).
  Proof.
    intros Hc Nd Hd. destruct c as [v|]; cbn [or_else bind]; [|tauto].
    destruct (nltb v n0) eqn:L; cbn [bind]; rewrite ?okp_err.
    - split; [tauto|]. intros [K _]. apply xlt_false_le in K; [exact (False_ind _ (Bool.diff_true_false (eq_trans (eq_sym L) K)))|apply fin_nonan; auto|discriminate].
    - apply xlt_false_le in L; [tauto|apply fin_nonan; auto|discriminate].
  Qed.
  Lemma sn_chk {A} (c : option XR) d (k : XR -> res A) e : cell_fin c -> nonan d ->
    (match c with Some _ => True | None => xle d (Fin 0) end) ->
    (okp (bind (match c with None => Ok (pu d) | Some v => if nltb n0 v then Err e else Ok (ndiv v (Fin b)) end) k)
     <-> xle (or_else c d) (Fin 0) /\ okp (k (pu (or_else c d)))).
  Proof.
    intros Hc Nd Hd. destruct c as [v|]; cbn [or_else bind]; [|tauto].
    destruct (nltb n0 v) eqn:L; cbn [bind]; rewrite ?okp_err.
    - split; [tauto|]. intros [K _]. apply xlt_false_le in K; [exact (False_ind _ (Bool.diff_true_false (eq_trans (eq_sym L) K)))|discriminate|apply fin_nonan; auto].
    - apply xlt_false_le in L; [tauto|discriminate|apply fin_nonan; auto].
  Qed.

  Lemma stor_check_iff r : dev_row_fin r -> (okp (stor_check r (Fin b)) <-> stor_valid r).
  Proof.
    intros HF. cells HF. unfold stor_check, stor_valid.
    replace (Ok ninf) with (Ok (pu PInf)) by (rewrite pu_PInf by auto; reflexivity).
    rewrite (sp_chk (dr_pmax r) PInf) by (auto; try discriminate; destruct (dr_pmax r); auto; reflexivity).
    replace (Ok nninf) with (Ok (pu NInf)) by (rewrite pu_NInf by auto; reflexivity).
    rewrite (sn_chk (dr_pmin r) NInf) by (auto; try discriminate; destruct (dr_pmin r); auto; reflexivity).
    cbv zeta.
    rewrite okp_raise. rewrite !pu_inf by auto. rewrite !pu_ninf by auto. rewrite !pu_else by auto.
    rewrite !okp_raise.
    replace (Ok n0) with (Ok (pu (Fin 0))) by (rewrite pu_0 by auto; reflexivity).
    rewrite (sp_chk (dr_socmin r) (Fin 0)) by (auto; try discriminate; destruct (dr_socmin r); auto; apply xle_Fin; lra).
    fold (PMAX r) (PMIN r NInf) (QMAX r) (QMIN r). fold (PPLUS r) (PMINUS r) (QPLUS r) (QMINUS r) (SOCMIN r).
    assert (N1 : nonan (PMAX r)) by (unfold PMAX; nn).
    assert (N2 : nonan (PMIN r NInf)) by (unfold PMIN; nn).
    assert (N3 : nonan (QMAX r)) by (unfold QMAX; nn).
    assert (N4 : nonan (QMIN r)) by (unfold QMIN; nn).
    assert (N5 : nonan (PPLUS r)) by (unfold PPLUS; apply cell_nonan; auto).
    assert (N6 : nonan (QPLUS r)) by (unfold QPLUS; apply cell_nonan; auto).
    assert (N7 : nonan (QMINUS r)) by (unfold QMINUS; apply cell_nonan; auto).
    assert (N8 : nonan (PMINUS r)) by (unfold PMINUS; apply cell_nonan; auto).
    assert (N9 : nonan (SOCMIN r)) by (unfold SOCMIN; nn).
    rewrite !pu_lt_false by auto.
    match goal with |- context [bind (match dr_socmax r with None => _ | Some v => _ end) ?k] =>
      assert (E : okp (bind (match dr_socmax r with
                       | None => Err StorageSpecError
                       | Some v => if nltb v n0 then Err StorageSpecError else Ok (ndiv v (Fin b)) end) k)
                  <-> exists v, dr_socmax r = Some v /\ xle (Fin 0) v /\ okp (k (pu v))) end.
    { destruct (dr_socmax r) as [v|]; cbn [bind].
      - destruct (nltb v n0) eqn:L; cbn [bind]; rewrite ?okp_err.
        + split; [tauto|]. intros (v' & E & K & _). inversion E; subst.
          apply xlt_false_le in K; [exact (False_ind _ (Bool.diff_true_false (eq_trans (eq_sym L) K)))|apply fin_nonan; auto|discriminate].
        + apply xlt_false_le in L; [|apply fin_nonan; auto|discriminate]. split; [eauto|]. intros (v' & E & _ & K). inversion E; subst; exact K.
      - rewrite okp_err. split; [tauto|]. intros (v & E & _); discriminate. }
    rewrite E. clear E.
    assert (EF : forall v, dr_socmax r = Some v ->
      (okp (let* _ := raise_if (nltb (pu v) (pu (SOCMIN r))) StorageSpecError in
            let* eff := match dr_eff r with
                | None => Ok n1
                | Some v => if (nltb v n0 || nltb n1 v)%bool then Err StorageSpecError else Ok v
                end in Ok tt) <-> xle (SOCMIN r) v /\ xle (Fin 0) (EFF r) /\ xle (EFF r) (Fin 1))).
    { intros v Ev. rewrite okp_raise, pu_lt_false by (auto; apply fin_nonan; auto).
      apply and_iff_compat_l. unfold EFF. destruct (dr_eff r) as [e|]; cbn [or_else bind].
      - destruct (Hc10 e eq_refl) as [w ->]. cbn. rewrite !xle_Fin.
        destruct (Rltb w 0) eqn:L1; destruct (Rltb 1 w) eqn:L2; cbn; rewrite ?okp_err, ?okp_ok; rbool; intuition lra.
      - rewrite okp_ok, !xle_Fin. intuition lra. }
    assert (G : forall v (K : _ -> stor_spec XR), dr_socmax r = Some v ->
      (okp (let* _ := raise_if (nltb (pu v) (pu (SOCMIN r))) StorageSpecError in
            let* eff := match dr_eff r with
                | None => Ok n1
                | Some v => if (nltb v n0 || nltb n1 v)%bool then Err StorageSpecError else Ok v
                end in Ok (K eff)) <-> xle (SOCMIN r) v /\ xle (Fin 0) (EFF r) /\ xle (EFF r) (Fin 1))).
    { intros v K Ev. rewrite <- (EF v Ev). rewrite !okp_raise. apply and_iff_compat_l. rewrite !okp_bind.
      split; intros (a & A & _); exists a; split; auto; apply okp_ok; auto. }
    split.
    - intros H. decompose [and] H. repeat split; auto.
      + match goal with H : exists v, _ |- _ => destruct H as (v & Ev & L & K) end. apply (G v) in K; auto. exists v; tauto.
      + match goal with H : exists v, _ |- _ => destruct H as (v & Ev & L & K) end. apply (G v) in K; auto. tauto.
      + match goal with H : exists v, _ |- _ => destruct H as (v & Ev & L & K) end. apply (G v) in K; auto. tauto.
    - intros H. decompose [and] H.
      match goal with H : exists v, _ |- _ => destruct H as (v & Ev & L) end.
      repeat (split; [solve [auto | repeat (eapply xle_trans; eauto)]|]).
      exists v. split; auto. split; [apply (xle_trans _ (SOCMIN r)); auto|]. refine (proj2 (G v _ Ev) _); auto.
  Qed.

  (** C12: the rows from which a device is built *)
  Lemma dev_init_iff r ids : dev_row_fin r ->
    (okp (mk_dev (Fin b) ids r) <-> dev_valid r ids b 1).
  Proof.
    intros HF. unfold mk_dev, dev_valid, row_ident, dev_class.
    split.
    - intros [d H]. assert (K := H). apply mk_dev_fields in K. destruct K as (K1 & K2 & K3 & K4 & _).
      rewrite K1, K2, K3. split; [split; [discriminate|eauto]|].
      apply bind_ok in H. destruct H as (c & Hc & H). rewrite K3 in Hc.
      unfold dev_init in H. rewrite K1, K2, K3 in H. cbn [bind] in H.
      rewrite (proj2 (zmem_spec _ _) K4) in H. cbn [bind] in H.
      destruct (zmem (d_type d) [-1; 0; 1; 2; 3]%Z); [cbn [bind] in H|discriminate].
      destruct (Z.eqb_spec (d_type d) (-1)) as [E|_].
      { inversion Hc; subst c. left. rewrite E in *. split; auto. apply bind_ok in H. destruct H as (l & Hl & _).
        eapply load_check_iff; eauto. eexists; eauto. }
      destruct (zmem (d_type d) [0; 1]%Z) eqn:E1.
      { inversion Hc; subst c. apply zmem_spec in E1. apply bind_ok in H. destruct H as (g & Hg & _).
        destruct E1 as [E1|[E1|[]]]; rewrite <- E1 in *; cbn [Z.eqb] in Hg; right; [left|right; left]; split; auto;
          apply gen_check_iff; auto; eexists; eauto. }
      destruct (Z.eqb_spec (d_type d) 2) as [E|_].
      { inversion Hc; subst c. rewrite E in *. apply bind_ok in H. destruct H as (g & Hg & _). cbn [Z.eqb] in Hg.
        right; right; right; left; split; auto. apply gen_check_iff; auto; eexists; eauto. }
      destruct (Z.eqb_spec (d_type d) 3) as [E|_]; [|discriminate].
      inversion Hc; subst c. rewrite E in *. apply bind_ok in H. destruct H as (g & Hg & _).
      right; right; right; right; split; auto. apply stor_check_iff; auto; eexists; eauto.
    - intros ((I1 & bus & I2 & I3) & H).
      destruct (dr_id r) as [i|] eqn:Ei; [|congruence].
      destruct H as [(Et & H)|[(Et & H)|[(Et & H)|[(Et & H)|(Et & H)]]]]; rewrite Et; cbn [Z.eqb zmem existsb orb bind];
        unfold dev_init; rewrite Ei, I2, Et; cbn [bind]; rewrite (proj2 (zmem_spec _ _) I3); cbn [bind zmem existsb Z.eqb orb Pos.eqb].
      + destruct (proj2 (load_check_iff r (-1)%Z HF) (conj eq_refl H)) as [l E]. rewrite E. cbn. eexists; reflexivity.
      + destruct (proj2 (gen_check_iff r true HF) H) as [l E]. rewrite E. cbn. eexists; reflexivity.
      + destruct (proj2 (gen_check_iff r false HF) H) as [l E]. rewrite E. cbn. eexists; reflexivity.
      + destruct (proj2 (gen_check_iff r false HF) H) as [l E]. rewrite E. cbn. eexists; reflexivity.
      + destruct (proj2 (stor_check_iff r HF) H) as [l E]. rewrite E. cbn. eexists; reflexivity.
  Qed.
End Rows.

Section BranchBus.
  Context (b : R) (Hb : 0 < b).

  Lemma okp_cell {A} (c : option Z) ids e (k : Z -> res A) :
    okp (bind (match c with None => Err e | Some v => if zmem v ids then Ok v else Err e end) k) <->
    exists v, c = Some v /\ In v ids /\ okp (k v).
  Proof.
    destruct c as [v|]; cbn [bind].
    - destruct (zmem v ids) eqn:E; cbn [bind]; rewrite ?okp_err.
      + apply zmem_spec in E. split; [eauto|]. intros (v' & E' & _ & K). inversion E'; subst; auto.
      + apply zmem_false in E. split; [tauto|]. intros (v' & E' & I & _). inversion E'; subst; auto.
    - rewrite okp_err. split; [tauto|]. intros (v' & E' & _); discriminate.
  Qed.
  Lemma okp_nonneg {A} (c : option XR) e d (f : XR -> XR) (k : XR -> res A) : cell_fin c -> xle (Fin 0) d ->
    (okp (bind (match c with None => Ok (f d) | Some v => if nltb v n0 then Err e else Ok (f v) end) k) <->
    xle (Fin 0) (or_else c d) /\ okp (k (f (or_else c d)))).
  Proof.
    intros Hc Hd. destruct c as [v|]; cbn [or_else bind]; [|tauto].
    destruct (nltb v n0) eqn:L; cbn [bind]; rewrite ?okp_err.
    - split; [tauto|]. intros [K _]. apply xlt_false_le in K; [exact (False_ind _ (Bool.diff_true_false (eq_trans (eq_sym L) K)))|apply fin_nonan; auto|discriminate].
    - apply xlt_false_le in L; [tauto|apply fin_nonan; auto|discriminate].
  Qed.

  Lemma branch_init_iff r ids : branch_row_fin r -> (okp (branch_init r (Fin b) ids) <-> branch_valid r ids).
  Proof.
    intros HF. cells HF. unfold branch_init, branch_valid.
    assert (Z0 : xle (Fin 0) (Fin 0)) by (apply xle_Fin; lra).
    rewrite okp_cell.
    assert (G : forall f, okp (let* t := match lr_t r with
              | None => Err BranchSpecError
              | Some v => if zmem v ids then Ok v else Err BranchSpecError
              end in
    let* rr := match lr_r r with
               | None => Ok n0
               | Some v => if (v <? n0)%num then Err BranchSpecError else Ok v
               end in
    let* xx := match lr_x r with
               | None => Ok n0
               | Some v => if (v <? n0)%num then Err BranchSpecError else Ok v
               end in
    let* _ := raise_if ((rr =? n0)%num && (xx =? n0)%num) BranchSpecError in
    let* bb := match lr_b r with
               | None => Ok n0
               | Some v => if (v <? n0)%num then Err BranchSpecError else Ok v
               end in
    let* rate := match lr_rate r with
                 | None => Ok ninf
                 | Some v => if (v <? n0)%num then Err BranchSpecError else Ok (v / (Fin b))%num
                 end in
    let* tapm := match lr_tap r with
                 | None => Ok n1
                 | Some v => if (v <=? n0)%num then Err BranchSpecError else Ok v
                 end in
    let* shift := match lr_shift r with
                  | None => Ok n0
                  | Some v => if ((v <? n0)%num || (nofZ 360 <? v)%num)%bool then Err BranchSpecError
                              else Ok (v * npi / nofZ 180)%num
                  end in
    Ok (mkBranch f t rr xx bb rate tapm shift
                 (series_of rr xx) (shunt_of bb) (tap_of tapm shift)
                 c0 c0 n0 n0 n0 n0 n0)) <->
     ((exists t, lr_t r = Some t /\ In t ids) /\
  xle (Fin 0) (or_else (lr_r r) (Fin 0)) /\ xle (Fin 0) (or_else (lr_x r) (Fin 0)) /\
  ~ (or_else (lr_r r) (Fin 0) = Fin 0 /\ or_else (lr_x r) (Fin 0) = Fin 0) /\
  xle (Fin 0) (or_else (lr_b r) (Fin 0)) /\ xle (Fin 0) (or_else (lr_rate r) PInf) /\
  xlt (Fin 0) (or_else (lr_tap r) (Fin 1)) /\
  xle (Fin 0) (or_else (lr_shift r) (Fin 0)) /\ xle (or_else (lr_shift r) (Fin 0)) (Fin 360))).
    { intros f. rewrite okp_cell.
      assert (G : forall t, okp (let* rr := match lr_r r with
               | None => Ok n0
               | Some v => if (v <? n0)%num then Err BranchSpecError else Ok v
               end in
    let* xx := match lr_x r with
               | None => Ok n0
               | Some v => if (v <? n0)%num then Err BranchSpecError else Ok v
               end in
    let* _ := raise_if ((rr =? n0)%num && (xx =? n0)%num) BranchSpecError in
    let* bb := match lr_b r with
               | None => Ok n0
               | Some v => if (v <? n0)%num then Err BranchSpecError else Ok v
               end in
    let* rate := match lr_rate r with
                 | None => Ok ninf
                 | Some v => if (v <? n0)%num then Err BranchSpecError else Ok (v / (Fin b))%num
                 end in
    let* tapm := match lr_tap r with
                 | None => Ok n1
                 | Some v => if (v <=? n0)%num then Err BranchSpecError else Ok v
                 end in
    let* shift := match lr_shift r with
                  | None => Ok n0
                  | Some v => if ((v <? n0)%num || (nofZ 360 <? v)%num)%bool then Err BranchSpecError
                              else Ok (v * npi / nofZ 180)%num
                  end in
    Ok (mkBranch f t rr xx bb rate tapm shift
                 (series_of rr xx) (shunt_of bb) (tap_of tapm shift)
                 c0 c0 n0 n0 n0 n0 n0)) <->
     (xle (Fin 0) (or_else (lr_r r) (Fin 0)) /\ xle (Fin 0) (or_else (lr_x r) (Fin 0)) /\
  ~ (or_else (lr_r r) (Fin 0) = Fin 0 /\ or_else (lr_x r) (Fin 0) = Fin 0) /\
  xle (Fin 0) (or_else (lr_b r) (Fin 0)) /\ xle (Fin 0) (or_else (lr_rate r) PInf) /\
  xlt (Fin 0) (or_else (lr_tap r) (Fin 1)) /\
  xle (Fin 0) (or_else (lr_shift r) (Fin 0)) /\ xle (or_else (lr_shift r) (Fin 0)) (Fin 360))).
      { intros t.
        rewrite (okp_nonneg (lr_r r) _ (Fin 0) (fun x => x)) by auto. apply and_iff_compat_l.
        rewrite (okp_nonneg (lr_x r) _ (Fin 0) (fun x => x)) by auto. apply and_iff_compat_l.
        rewrite okp_raise.
        assert (E : ((or_else (lr_r r) (Fin 0) =? n0)%num && (or_else (lr_x r) (Fin 0) =? n0)%num)%bool = false <->
                    ~ (or_else (lr_r r) (Fin 0) = Fin 0 /\ or_else (lr_x r) (Fin 0) = Fin 0)).
        { assert (K : forall x, nonan x -> ((x =? n0)%num = true <-> x = Fin 0)).
          { intros x Nx. destruct x; cbn [neqb XRnum xeqb n0]; rewrite ?Reqb_spec; split; intros; try congruence. }
          rewrite <- (K (or_else (lr_r r) (Fin 0))), <- (K (or_else (lr_x r) (Fin 0))) by nn.
          rewrite <- andb_true_iff. destruct (_ && _)%bool; intuition congruence. }
        rewrite E. apply and_iff_compat_l.
        rewrite (okp_nonneg (lr_b r) _ (Fin 0) (fun x => x)) by auto. apply and_iff_compat_l.
        replace (Ok ninf) with (Ok (xdiv PInf (Fin b))) by (rewrite pu_PInf by auto; reflexivity).
        rewrite (okp_nonneg (lr_rate r) _ PInf (fun x => xdiv x (Fin b))) by (auto; reflexivity). apply and_iff_compat_l.
        assert (K : forall c : option XR, cell_fin c -> okp (let* shift := match c with
                  | None => Ok n0
                  | Some v => if ((v <? n0)%num || (nofZ 360 <? v)%num)%bool then Err BranchSpecError
                              else Ok (v * npi / nofZ 180)%num
                  end in Ok shift) <-> xle (Fin 0) (or_else c (Fin 0)) /\ xle (or_else c (Fin 0)) (Fin 360)).
        { intros c Hk. destruct c as [v|]; cbn [or_else bind].
          - destruct (Hk v eq_refl) as [w ->]. cbn [nltb XRnum xltb n0 nofZ]. rewrite !xle_Fin.
            destruct (Rltb w 0) eqn:L1; [|destruct (Rltb 360 w) eqn:L2]; cbn [orb bind]; rewrite ?okp_err, ?okp_ok; rbool; intuition lra.
          - rewrite okp_ok, !xle_Fin. intuition lra. }
        rewrite <- (K (lr_shift r)) by auto. clear K.
        destruct (lr_tap r) as [v|]; cbn [or_else bind].
        - destruct (Hc3 v eq_refl) as [w ->]. cbn [nleb XRnum xleb n0].
          destruct (Rleb w 0) eqn:L; cbn [bind]; rewrite ?okp_err, xlt_Fin; rbool.
          + intuition lra.
          + rewrite !okp_bind. split.
            * intros (a & A & _). split; auto. exists a. split; auto. apply okp_ok; auto.
            * intros (_ & a & A & _). exists a. split; auto. apply okp_ok; auto.
        - rewrite xlt_Fin. rewrite !okp_bind. split.
            * intros (a & A & _). split; [lra|]. exists a. split; auto. apply okp_ok; auto.
            * intros (_ & a & A & _). exists a. split; auto. apply okp_ok; auto. }
      split.
      - intros (t & A & B & C). apply G in C. split; [eauto|]; auto.
      - intros ((t & A & B) & C). exists t. split; auto. split; auto. apply G; auto. }
    split.
    - intros (f & A & B & C). apply G in C. split; [eauto|]; auto.
    - intros ((f & A & B) & C). exists f. split; auto. split; auto. apply G; auto.
  Qed.

  Lemma bus_init_iff r : bus_row_fin r -> (okp (bus_init r) <-> bus_valid r).
  Proof.
    intros HF. cells HF. unfold bus_init, bus_valid.
    destruct (br_id r) as [i|]; cbn [bind]; [|rewrite okp_err; intuition congruence].
    destruct (br_type r) as [t|]; cbn [bind]; [|rewrite okp_err; intuition congruence].
    cbv zeta. rewrite okp_raise, negb_false_iff, zmem_spec. cbn [In].
    destruct (br_kv r) as [kv|]; cbn [bind]; [|rewrite okp_err; split; [tauto|intros (_ & _ & (k & E & _) & _); discriminate]].
    destruct (Hc kv eq_refl) as [k ->]. cbn [nleb XRnum xleb n0].
    destruct (br_vmax r) as [vx|].
    2: { split.
         - intros (_ & H). destruct (Rleb k 0); cbn [bind] in H; apply okp_err in H; tauto.
         - intros (_ & _ & _ & v & E & _); discriminate. }
    destruct (Hc0 vx eq_refl) as [m ->]. cbn [nltb XRnum xltb].
    destruct (Rleb k 0) eqn:L1; cbn [bind]; [rewrite okp_err; apply Rleb_spec in L1; split; [tauto|]|apply Rleb_false in L1].
    { intros (_ & _ & (k' & E & K) & _). inversion E; subst. apply xlt_Fin in K. lra. }
    destruct (Rltb m 0) eqn:L2; cbn [bind]; [rewrite okp_err; apply Rltb_spec in L2; split; [tauto|]|apply Rltb_false in L2].
    { intros (_ & _ & _ & m' & E & K & _). inversion E; subst. apply xle_Fin in K. lra. }
    destruct (br_vmin r) as [vn|].
    - destruct (Hc1 vn eq_refl) as [n ->]. cbn [nltb XRnum xltb]. rewrite !okp_raise, okp_ok.
      destruct (Z.eqb_spec t 0) as [->|Ht]; cbn [negb andb].
      + rewrite andb_false_r. split.
        * intros _. split; [discriminate|]. split; [auto|]. split; [exists (Fin k); split; auto; apply xlt_Fin; auto|].
          exists (Fin m). split; auto. split; [apply xle_Fin; auto|auto].
        * tauto.
      + rewrite andb_true_r. split.
        * intros (Hi & A & B & _). destruct Hi as [Hi|[Hi|[]]]; [congruence|]. subst t. rbool.
          split; [discriminate|]. split; [auto|]. split; [exists (Fin k); split; auto; apply xlt_Fin; auto|].
          exists (Fin m). split; auto. split; [apply xle_Fin; auto|]. right. exists (Fin n). rewrite !xle_Fin. auto.
        * intros (_ & Hi & _ & m' & E & _ & K). inversion E; subst m'. destruct Hi as [Hi|Hi]; [congruence|].
          destruct K as [K|(n' & E' & K1 & K2)]; [congruence|]. inversion E'; subst n'. apply xle_Fin in K1. apply xle_Fin in K2.
          inversion Hi. split; [auto|]. repeat split; rbool; auto; lra.
    - rewrite okp_raise. cbn [bind]. rewrite okp_ok. destruct (Z.eqb_spec t 0) as [->|Ht]; cbn [negb].
      + split.
        * intros _. split; [discriminate|]. split; [auto|]. split; [exists (Fin k); split; auto; apply xlt_Fin; auto|].
          exists (Fin m). split; auto. split; [apply xle_Fin; auto|auto].
        * tauto.
      + split; [intros (_ & A & _); discriminate|].
        intros (_ & Hi & _ & m' & E & _ & K). destruct K as [K|(n' & E' & _)]; congruence.
  Qed.
End BranchBus.

Lemma mk_dev_okp b r ids : okp (mk_dev (Fin b) ids r) <-> exists c d, dev_class r = Ok c /\ dev_init c r ids (Fin b) = Ok d.
Proof.
  unfold mk_dev. rewrite okp_bind. split.
  - intros (c & A & d & B). eauto.
  - intros (c & d & A & B). exists c. split; auto. exists d; auto.
Qed.
Lemma dev_valid_iff (b : R) r ids : 0 < b -> dev_row_fin r ->
  ((exists c d, dev_class r = Ok c /\ dev_init c r ids (Fin b) = Ok d) <-> dev_valid r ids b 1).
Proof. intros Hb Hf. rewrite <- mk_dev_okp. apply dev_init_iff; auto. Qed.
Lemma dev_valid_nonload (b : R) r ids : 0 < b -> dev_row_fin r -> dr_type r <> Some (-1)%Z ->
  ((exists c d, dev_class r = Ok c /\ dev_init c r ids (Fin b) = Ok d) <-> dev_valid r ids b b).
Proof. intros Hb Hf Ht. rewrite dev_valid_iff by auto. unfold dev_valid. intuition congruence. Qed.

Definition load_row (qp pmax pmin : XR) : dev_row XR :=
  mkDevRow (Some 1%Z) (Some 0%Z) (Some (-1)%Z) (Some qp) (Some pmax) (Some pmin)
           None None None None None None None None None.
Lemma cell_fin_none : cell_fin None.
Proof. intros v; discriminate. Qed.
Lemma cell_fin_some r : cell_fin (Some (Fin r)).
Proof. intros v H; inversion H; auto. Qed.
#[global] Hint Resolve cell_fin_none cell_fin_some : core.
Lemma load_row_fin a b c : dev_row_fin (load_row (Fin a) (Fin b) (Fin c)).
Proof. unfold dev_row_fin, load_row; cbn. repeat constructor; auto. Qed.
Lemma load_row_valid qp a c b s : 0 < b -> 0 < s ->
  (dev_valid (load_row (Fin qp) (Fin a) (Fin c)) [0%Z] b s <-> a <= 0 /\ c / b <= a / s).
Proof.
  intros Hb Hs. unfold dev_valid, row_ident, load_valid, PMIN. cbn [load_row dr_id dr_bus dr_type dr_qp dr_pmax dr_pmin or_else].
  rewrite !xdiv_Fin, !xle_Fin by lra. split.
  - intros (_ & H). destruct H as [(_ & _ & H)|H]; [auto|]. destruct H as [H|[H|[H|H]]]; destruct H as [H _]; discriminate.
  - intros (A & B). split; [split; [discriminate|exists 0%Z; cbn; auto]|]. left. repeat split; auto; discriminate.
Qed.
Lemma dev_valid_load_refuted :
  (exists b r ids, 0 < b /\ dev_row_fin r /\ dev_valid r ids b b /\
     ~ exists c d, dev_class r = Ok c /\ dev_init c r ids (Fin b) = Ok d) /\
  (exists b r ids, 0 < b /\ dev_row_fin r /\ ~ dev_valid r ids b b /\
     exists c d, dev_class r = Ok c /\ dev_init c r ids (Fin b) = Ok d).
Proof.
  split.
  - exists 100, (load_row (Fin 0) (Fin (-2)) (Fin (-10))), [0%Z]. split; [lra|]. split; [apply load_row_fin|].
    rewrite dev_valid_iff by (lra || apply load_row_fin). rewrite !load_row_valid by lra. lra.
  - exists (1/2), (load_row (Fin 0) (Fin (-3/2)) (Fin (-1))), [0%Z]. split; [lra|]. split; [apply load_row_fin|].
    rewrite dev_valid_iff by (lra || apply load_row_fin). rewrite !load_row_valid by lra. lra.
Qed.
