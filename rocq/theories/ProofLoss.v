(** Energy loss (C26), branch flows (C24, C25) and penalties (C27) of a converged state. *)
From Coq Require Import Reals Lra Permutation Sorted.
From Coquelicot Require Import Complex.
From Verif Require Import Base Num NumXR LibBase LibNum LibXR LibEval Devices BusBranch CheckNetwork LoadFlow Simulator SpecNet ProofNet LibInit LibSim
  SpecDev SpecSim ProofSim ProofSoc ProofObs ProofDev ProofBusP SpecPf LibC ProofBr ProofY SpecNr ProofNr ProofPf ProofBal.
Local Open Scope string_scope.
Local Open Scope list_scope.
Local Open Scope R_scope.

(** the accumulation of the energy loss as two sums *)
Definition curt_of (d : device XR) : XR := np_max (Fin 0) (xsub (d_ppot d) (d_p d)).
Lemma loss_split (ds : list (device XR)) a :
  fold_left dev_loss ds a = xadd a (xadd (sumX (map d_p (filter (fun d => is_gen d || is_load d) ds))) (sumX (map curt_of (filter is_rer ds)))).
Proof.
  revert a; induction ds as [|d ds IH]; intros a; cbn [fold_left filter].
  - cbn. rewrite xadd_comm. destruct a; cbn; auto; f_equal; ring.
  - rewrite IH. unfold dev_loss at 1. cbv zeta.
    destruct (is_gen d || is_load d), (is_rer d); cbn [map sumX fold_right]; fold (sumX (map d_p (filter (fun d => is_gen d || is_load d) ds)));
      fold (sumX (map curt_of (filter is_rer ds))); auto.
    + change (nadd (nadd a (d_p d)) (np_max n0 (nsub (d_ppot d) (d_p d)))) with (xadd (xadd a (d_p d)) (curt_of d)).
      rewrite <- !xadd_assoc. f_equal. f_equal. rewrite (xadd_comm (curt_of d)), <- !xadd_assoc. f_equal. rewrite (xadd_comm (curt_of d)). reflexivity.
    + cbn [nadd XRnum]. rewrite <- !xadd_assoc. reflexivity.
    + change (nadd a (np_max n0 (nsub (d_ppot d) (d_p d)))) with (xadd a (curt_of d)).
      rewrite <- !xadd_assoc. f_equal. rewrite (xadd_comm (curt_of d)), <- !xadd_assoc. f_equal. rewrite (xadd_comm (curt_of d)). reflexivity.
Qed.

Section Loss.
  Context (nw : network XR) (dt lamb : XR) (s0 : sim XR) (H0 : sim_init nw dt lamb = Ok s0) (b : R) (Eb : nw_base nw = Fin b).
  Context (Hr : Forall branch_row_fin (nw_br nw)) (Hn : numbered nw).

  Lemma typ_stor (r : dev_row XR) (d : device XR) (base : XR) ids : mk_dev base ids r = Ok d -> optz_eqb (dr_type r) (Some 3%Z) = negb (is_gen d || is_load d).
  Proof.
    intros M. pose proof (mk_dev_class _ _ _ _ M) as C. apply mk_dev_fields in M as (_ & _ & -> & _). unfold optz_eqb.
    unfold is_gen, is_load, is_stor in *.
    destruct (Z.eqb_spec (d_type d) 3) as [E|E]; [rewrite E in C|]; destruct (d_spec d); auto; try discriminate.
    destruct (d_type d) as [|[[?|?|]|[?|?|]|]|[?|?|]]; try discriminate; try contradiction; congruence.
  Qed.
  Lemma typ_rer (r : dev_row XR) (d : device XR) (base : XR) ids : mk_dev base ids r = Ok d -> optz_eqb (dr_type r) (Some 2%Z) = is_rer d.
  Proof.
    intros M. pose proof (mk_dev_class _ _ _ _ M) as C. apply mk_dev_fields in M as (_ & _ & -> & _). unfold optz_eqb, is_rer.
    destruct (Z.eqb_spec (d_type d) 2) as [E|E]; [rewrite E in C; rewrite C; reflexivity|rewrite andb_false_r; reflexivity].
  Qed.
  Lemma is_gen_strip (d : device XR) : is_gen (strip_dev d) = is_gen d. Proof. reflexivity. Qed.

  Section State.
    Context (s s1 : sim XR) (V : Z -> C) (Es : sm_state s = Some (gather_state s1)) (S1 : strip s1 = strip s0) (PS : pf_state nw b s1 V).
    (** C26 *)
    Lemma st_energy d : slack_alone nw -> sm_dt s1 = Fin d -> (forall r, In r (of_type 2 nw) -> row_obs s "gen_p_max" r = Fin (row_val s "gen_p_max" r)) ->
      energy_loss s1 = Fin ((sumR (map (row_val s "dev_p") (nw_dev nw)) - sumR (map (row_val s "dev_p") (of_type 3 nw)) +
                             sumR (map (fun r => Rmax 0 (row_val s "gen_p_max" r - row_val s "dev_p" r)) (of_type 2 nw))) * d).
    Proof.
      intros Al Ed Hp. unfold energy_loss. rewrite Ed, loss_split. change (n0 : XR) with (Fin 0). rewrite xadd_0_l.
      pose proof (st_fin nw dt lamb s0 H0 b Hn s s1 V Es S1 PS Al) as Fn.
      assert (E1 : sumX (map d_p (filter (fun d => is_gen d || is_load d) (sm_devs s1))) =
                   Fin (sumR (map (row_val s "dev_p") (nw_dev nw)) - sumR (map (row_val s "dev_p") (of_type 3 nw)))).
      { rewrite <- (sumX_perm _ _ (rows_sum nw dt lamb s0 H0 s s1 "dev_p" (fun _ => true) d_p (fun r => negb (optz_eqb (dr_type r) (Some 3%Z)))
                     (fun d => is_gen d || is_load d) Es S1 ltac:(cbn; auto) ltac:(intros r dd base ids M; cbv beta; rewrite (typ_stor _ _ _ _ M), negb_involutive; auto)
                     ltac:(reflexivity) ltac:(auto))).
        rewrite (map_ext_in _ (fun r => Fin (row_val s "dev_p" r))) by (intros r I; apply filter_In in I as [I _]; auto).
        rewrite sumX_R. f_equal. rewrite (sumR_split (row_val s "dev_p") (fun r => optz_eqb (dr_type r) (Some 3%Z)) (nw_dev nw)). unfold of_type. ring. }
      assert (E2 : sumX (map curt_of (filter is_rer (sm_devs s1))) =
                   Fin (sumR (map (fun r => Rmax 0 (row_val s "gen_p_max" r - row_val s "dev_p" r)) (of_type 2 nw)))).
      { set (g := fun o : option Z => match o with Some i => match obs s "gen_p_max" "pu" (EId i), obs s "dev_p" "pu" (EId i) with
                    Some (Fin x), Some (Fin y) => Fin (Rmax 0 (x - y)) | _, _ => NaN end | None => NaN end).
        assert (Pm : Permutation (map dr_id (of_type 2 nw)) (map Some (map d_id (filter is_rer (sm_devs s1))))).
        { apply (rows_devs nw dt lamb s0 H0); auto. intros r dd base ids. apply typ_rer. }
        assert (G1 : map (fun r => Fin (Rmax 0 (row_val s "gen_p_max" r - row_val s "dev_p" r))) (of_type 2 nw) = map g (map dr_id (of_type 2 nw))).
        { rewrite map_map. apply map_ext_in. intros r I. pose proof (Hp r I) as P1. pose proof (Fn r ltac:(unfold of_type in I; apply filter_In in I; tauto)) as P2.
          generalize dependent (row_val s "gen_p_max" r). generalize dependent (row_val s "dev_p" r).
          unfold row_obs, g. destruct (dr_id r) as [i|]; [|discriminate]. intros y Ey x Ex.
          destruct (obs s "gen_p_max" "pu" (EId i)); [|discriminate]. destruct (obs s "dev_p" "pu" (EId i)); [|discriminate]. subst. reflexivity. }
        assert (G2 : map curt_of (filter is_rer (sm_devs s1)) = map g (map Some (map d_id (filter is_rer (sm_devs s1))))).
        { rewrite !map_map. apply map_ext_in. intros dd I. apply filter_In in I as [I Rr].
          assert (Rn : is_nsgen dd = true).
          { unfold is_rer in Rr. unfold is_nsgen, d_slack. apply andb_prop in Rr as [A B]. rewrite A. apply Z.eqb_eq in B. rewrite B. reflexivity. }
          pose proof (row_obs_dev nw dt lamb s0 H0 s s1 "gen_p_max" is_nsgen d_ppot dd Es S1 ltac:(cbn; tauto) I Rn) as O1.
          pose proof (row_obs_dev nw dt lamb s0 H0 s s1 "dev_p" (fun _ => true) d_p dd Es S1 ltac:(cbn; tauto) I eq_refl) as O2.
          assert (J : In (Some (d_id dd)) (map dr_id (of_type 2 nw))).
          { eapply Permutation_in; [apply Permutation_sym, Pm|]. apply in_map, in_map, filter_In; auto. }
          apply in_map_iff in J as (r & Er & Ir). pose proof (Hp r Ir) as P1. pose proof (Fn r ltac:(unfold of_type in Ir; apply filter_In in Ir; tauto)) as P2.
          unfold row_obs in P1, P2. rewrite Er in P1, P2. rewrite O1 in P1. rewrite O2 in P2. unfold g. rewrite O1, O2, P1, P2. unfold curt_of. rewrite P1, P2.
          cbn [xsub xadd xopp]. rewrite np_max_fin. reflexivity. }
        rewrite G2, <- (sumX_perm _ _ (Permutation_map g Pm)), <- G1. apply sumX_R. }
      rewrite E1, E2. reflexivity.
    Qed.

    (** the branches, as reported *)
    Lemma st_branch r f t : In r (nw_br nw) -> lr_f r = Some f -> lr_t r = Some t ->
      obs s "branch_p" "pu" (EBr f t) = Some (Fin (fst (s_from r (V f) (V t)))) /\
      obs s "branch_q" "pu" (EBr f t) = Some (Fin (snd (s_from r (V f) (V t)))) /\
      obs s "branch_s" "pu" (EBr f t) = Some (Fin ((if Rlt_dec 0 (p_from r V) then 1 else if Rlt_dec (p_from r V) 0 then -1 else 0) * s_max r V)) /\
      obs s "branch_i_magn" "pu" (EBr f t) = Some (Fin (fst (pi_from r (V f) (V t)))).
    Proof.
      intros I Ef Et. destruct (Forall2_in_l _ _ _ _ (ps_br _ _ _ _ PS) I) as (br & Ib & br0 & Ob & Eu).
      assert (K : EBr f t = EBr (ln_f br) (ln_t br)).
      { rewrite Eu. cbn [branch_update ln_f ln_t]. pose proof (bo_f _ _ _ Ob). pose proof (bo_t _ _ _ Ob). congruence. }
      assert (ND : NoDup (map (fun b => EBr (ln_f b) (ln_t b)) (sm_branches s1))) by (eapply static_br_nodup; eauto).
      unfold obs. rewrite Es, K.
      rewrite (read_br s1 "branch_p" "pu" ln_pfrom); auto; [|cbn; tauto].
      rewrite (read_br s1 "branch_q" "pu" ln_qfrom); auto; [|cbn; tauto].
      rewrite (read_br s1 "branch_s" "pu" ln_smax); auto; [|cbn; tauto].
      rewrite (read_br s1 "branch_i_magn" "pu" (fun b => signed_magn (ln_ifrom b))); auto; [|cbn; tauto].
      rewrite Eu. destruct (update_pi r b br0 Ob (vat V (lr_f r)) (vat V (lr_t r))) as (U1 & _ & U3 & U4 & _).
      rewrite U1, U3, U4, signed_magn_re. rewrite (smax_val r b br0 Ob). unfold s_max, p_from. rewrite Ef, Et. cbn [vat]. auto.
    Qed.

    (** penalties *)
    Lemma max0 x : exists y, np_max (Fin 0) (Fin x) = Fin y /\ 0 <= y /\ (y = 0 <-> x <= 0).
    Proof. exists (Rmax 0 x). rewrite np_max_fin. split; auto. split; [apply Rmax_l|]. unfold Rmax. destruct (Rle_dec 0 x); lra. Qed.
    Lemma bus_pens (m lo hi : bus XR -> R) bs a x : foldM bus_penalty bs (Fin a) = Ok x ->
      (forall bb, In bb bs -> cabs (b_v bb) = Fin (m bb) /\ b_vmax bb = Fin (hi bb) /\ (b_vmin bb = None \/ b_vmin bb = Some (Fin (lo bb)))) ->
      exists y, x = Fin y /\ a <= y /\ (y = a <-> forall bb, In bb bs -> lo bb <= m bb <= hi bb).
    Proof.
      revert a; induction bs as [|bb bs IH]; intros a H Hb; cbn [foldM] in H.
      - injection H as <-. exists a. split; auto. split; [lra|]. split; auto. intros _ bb [].
      - apply bind_ok in H as (a1 & H1 & H). destruct (Hb bb (or_introl eq_refl)) as (E1 & E2 & E3).
        unfold bus_penalty in H1. rewrite E1, E2 in H1. destruct E3 as [E3|E3]; rewrite E3 in H1; [discriminate|].
        cbn [nsub XRnum xsub xadd xopp] in H1.
        destruct (max0 (m bb - hi bb)) as (u & Eu & Pu & Iu). destruct (max0 (lo bb - m bb)) as (v & Ev & Pv & Iv).
        change (n0 : XR) with (Fin 0) in H1. rewrite Eu, Ev in H1. cbn [nadd XRnum xadd] in H1. injection H1 as <-.
        destruct (IH _ H) as (y & Ey & Py & Iy); [intros; apply Hb; right; auto|]. exists y. split; auto. split; [lra|]. split.
        + intros -> b' [<-|I']; [|apply Iy; auto; lra]. assert (U0 : u = 0) by lra. assert (U1 : v = 0) by lra. apply Iu in U0. apply Iv in U1. lra.
        + intros Ha. assert (u = 0) by (apply Iu; specialize (Ha bb (or_introl eq_refl)); lra).
          assert (v = 0) by (apply Iv; specialize (Ha bb (or_introl eq_refl)); lra).
          assert (y = a + (u + v)) by (apply Iy; intros; apply Ha; right; auto). lra.
    Qed.
    Lemma br_pens rs brs a : Forall2 (fun r br => exists br0, br_of r b br0 /\ br = branch_update br0 (up (vat V (lr_f r))) (up (vat V (lr_t r)))) rs brs ->
      exists y, fold_left branch_penalty brs (Fin a) = Fin y /\ a <= y /\
        (y = a <-> forall r, In r rs -> p_from r V <> 0 -> under_rate r b (s_max r V)).
    Proof.
      intros FB. revert a. induction FB as [|r br rs brs (br0 & Ob & Eu) FB IH]; intros a; cbn [fold_left].
      - exists a. split; auto. split; [lra|]. split; auto. intros _ r [].
      - unfold branch_penalty at 2. rewrite Eu, (smax_val r b br0 Ob).
        destruct (update_pi r b br0 Ob (vat V (lr_f r)) (vat V (lr_t r))) as (_ & _ & _ & _ & _ & _ & _ & Er). rewrite Er.
        rewrite (bo_rate _ _ _ Ob). fold (s_max r V). fold (p_from r V). cbn [nabs nsub nadd XRnum xabs].
        set (sg := if Rlt_dec 0 (p_from r V) then 1 else if Rlt_dec (p_from r V) 0 then -1 else 0).
        assert (Sm : 0 <= s_max r V) by apply Rmax_cmod.
        assert (R0 : match lr_rate r with Some (Fin x) => 0 <= x / b | _ => True end).
        { pose proof (bo_rate0 _ _ _ Ob) as K. rewrite (bo_rate _ _ _ Ob) in K. destruct (lr_rate r) as [[x| | |]|]; auto. apply xle_Fin in K. exact K. }
        assert (T : exists z, np_max (Fin 0) (xsub (Fin (Rabs (sg * s_max r V))) match lr_rate r with Some (Fin x) => Fin (x / b) | _ => PInf end) = Fin z /\
                     0 <= z /\ (z = 0 <-> (p_from r V <> 0 -> under_rate r b (s_max r V)))).
        { assert (Sg : (p_from r V <> 0 /\ Rabs (sg * s_max r V) = s_max r V) \/ (p_from r V = 0 /\ Rabs (sg * s_max r V) = 0)).
          { unfold sg. destruct (Rlt_dec 0 (p_from r V)); [left|destruct (Rlt_dec (p_from r V) 0); [left|right]].
            - split; [lra|]. rewrite Rmult_1_l. apply Rabs_right; lra.
            - split; [lra|]. rewrite Rabs_mult, Rabs_left by lra. rewrite (Rabs_right (s_max r V)) by lra. lra.
            - split; [lra|]. rewrite Rmult_0_l. apply Rabs_R0. }
          assert (NoLim : np_max (Fin 0) (NInf : XR) = Fin 0) by (unfold np_max; cbn; reflexivity).
          unfold under_rate. destruct (lr_rate r) as [[x| | |]|].
          - cbn [xsub xadd xopp]. destruct (max0 (Rabs (sg * s_max r V) - x / b)) as (z & Ez & Pz & Iz). exists z. split; auto. split; auto. rewrite Iz.
            destruct Sg as [[A ->]|[A ->]]; split; intros K; try (intros K'); try lra; specialize (K A); lra.
          - exists 0. split; [exact NoLim|]. split; [lra|tauto].
          - exists 0. split; [exact NoLim|]. split; [lra|tauto].
          - exists 0. split; [exact NoLim|]. split; [lra|tauto].
          - exists 0. split; [exact NoLim|]. split; [lra|tauto]. }
        destruct T as (z & Ez & Pz & Iz). change (n0 : XR) with (Fin 0). rewrite Ez. cbn [xadd].
        destruct (IH (a + z)) as (y & Ey & Py & Iy). exists y. split; auto. split; [lra|]. split.
        + intros -> r' [<-|I']; [apply Iz; lra|]. apply Iy; auto. lra.
        + intros Ha. assert (z = 0) by (apply Iz, Ha; left; auto). assert (y = a + z) by (apply Iy; intros; apply Ha; [right|]; auto). lra.
    Qed.
    (** C27 *)
    Lemma st_penalty d l x : sm_dt s1 = Fin d -> sm_lamb s1 = Fin l -> 0 < d -> 0 < l -> Forall bus_row_fin (nw_bus nw) -> penalty_of s1 = Ok x ->
      exists y, x = Fin y /\ 0 <= y /\
        (y = 0 <-> (forall r k, In r (nw_bus nw) -> br_id r = Some k -> row_vmin r <= Cmod (V k) <= row_vmax r) /\
                   (forall r, In r (nw_br nw) -> p_from r V <> 0 -> under_rate r b (s_max r V))).
    Proof.
      intros Ed El Hd Hl Hb H. unfold penalty_of in H. apply bind_ok in H as (a & Ha & H). injection H as <-. rewrite Ed, El.
      destruct (sim_init_built _ _ _ _ H0) as (bs & ds & B).
      set (row := fun k : Z => find (fun r : bus_row XR => optz_eqb (br_id r) (Some k)) (nw_bus nw)).
      assert (Row : forall bb, In bb (sm_buses s1) -> exists rb, row (b_id bb) = Some rb /\ In rb (nw_bus nw) /\ br_id rb = Some (b_id bb) /\
                 b_vmax bb = Fin (row_vmax rb) /\ (b_vmin bb = None \/ b_vmin bb = Some (Fin (row_vmin rb)))).
      { intros bb I. destruct (static_bus _ _ _ S1 I) as (b0 & I0 & E0). destruct (bt_bus_row B _ I0) as (rb & b1 & Ir & Mb & Eq). subst b0.
        pose proof (bus_init_id _ _ Mb) as Ei. apply strip_bus_fields in E0 as (F1 & _ & _ & F4 & F5 & _). cbn in F1, F4, F5.
        rewrite F1 in Ei. exists rb.
        assert (Er : row (b_id bb) = Some rb).
        { unfold row. destruct (find _ (nw_bus nw)) as [r'|] eqn:Q.
          - apply find_some in Q as [Q1 Q2]. f_equal. destruct (bt_wf _ _ _ _ _ _ B) as (_ & _ & _ & _ & W4 & _).
            eapply (nodup_inj br_id (nw_bus nw)); eauto. unfold optz_eqb in Q2. destruct (br_id r'); [apply Z.eqb_eq in Q2; congruence|discriminate].
          - exfalso. apply (find_none _ _ Q rb) in Ir. rewrite Ei in Ir. unfold optz_eqb in Ir. rewrite Z.eqb_refl in Ir. discriminate. }
        split; auto. split; auto. split; auto.
        rewrite Forall_forall in Hb. specialize (Hb rb Ir). unfold bus_row_fin in Hb. inversion Hb as [|? ? C1 Hb1]; subst. inversion Hb1 as [|? ? C2 Hb2]; subst. inversion Hb2 as [|? ? C3 _]; subst.
        unfold row_vmax, row_vmin. unfold bus_init in Mb.
        apply bind_ok in Mb as (id & _ & Mb). apply bind_ok in Mb as (ty & _ & Mb). cbv zeta in Mb. apply bind_ok in Mb as (u1 & _ & Mb). apply bind_ok in Mb as (kv & _ & Mb).
        apply bind_ok in Mb as (vmax & Ev & Mb). apply bind_ok in Mb as (u2 & _ & Mb). apply bind_ok in Mb as (u3 & _ & Mb). injection Mb as <-.
        cbn [b_vmax b_vmin] in *. rewrite <- F4, <- F5. split.
        - destruct (br_vmax rb) as [v|]; [|discriminate]. destruct (nltb v n0); [discriminate|]. injection Ev as <-. destruct (C2 v eq_refl) as (x & ->). reflexivity.
        - destruct (br_vmin rb) as [v|]; [right|left; auto]. destruct (C3 v eq_refl) as (x & ->). reflexivity. }
      set (val := fun (f : bus_row XR -> R) (bb : bus XR) => match row (b_id bb) with Some rb => f rb | None => 0 end).
      destruct (bus_pens (fun bb => Cmod (V (b_id bb))) (val row_vmin) (val row_vmax) (sm_buses s1) 0 a Ha) as (y1 & -> & Py1 & Iy1).
      { intros bb I. destruct (Row bb I) as (rb & Er & _ & _ & E1 & E2). unfold val. rewrite Er. destruct (ps_bus _ _ _ _ PS bb I) as [-> _].
        rewrite up_abs. auto. }
      destruct (br_pens _ _ y1 (ps_br _ _ _ _ PS)) as (y2 & -> & Py2 & Iy2). cbn [nmul XRnum xmul].
      assert (Hdl : 0 < d * l) by (apply Rmult_lt_0_compat; auto).
      exists (y2 * (d * l)). split; auto. split; [apply Rmult_le_pos; lra|].
      assert (Q : y2 * (d * l) = 0 <-> y2 = 0) by (split; [intros K; apply Rmult_integral in K; destruct K; lra|intros ->; ring]).
      rewrite Q. assert (Q2 : y2 = 0 <-> y1 = 0 /\ y2 = y1) by (split; [lra|intros [A C]; lra]). rewrite Q2, Iy1, Iy2.
      assert (Q3 : (forall bb, In bb (sm_buses s1) -> val row_vmin bb <= Cmod (V (b_id bb)) <= val row_vmax bb) <->
                   (forall r k, In r (nw_bus nw) -> br_id r = Some k -> row_vmin r <= Cmod (V k) <= row_vmax r)).
      { split.
        - intros A r k Ir Ek. destruct (bt_bus_row_inv B _ Ir) as (b0 & Mb & Ib). pose proof (bus_init_id _ _ Mb) as Ei.
          destruct (static_bus s1 s0 _ (eq_sym S1) Ib) as (bb & Ib' & Eb'). apply strip_bus_fields in Eb' as (F1 & _). cbn in F1.
          specialize (A bb Ib'). destruct (Row bb Ib') as (rb & Er & Irb & Eid & _). unfold val in A. rewrite Er in A.
          assert (rb = r). { destruct (bt_wf _ _ _ _ _ _ B) as (_ & _ & _ & _ & W4 & _). eapply (nodup_inj br_id (nw_bus nw)); eauto. congruence. }
          subst rb. replace k with (b_id bb) by congruence. exact A.
        - intros A bb I. destruct (Row bb I) as (rb & Er & Irb & Eid & _). unfold val. rewrite Er. apply A; auto. }
      rewrite Q3. tauto.
    Qed.
  End State.
End Loss.
