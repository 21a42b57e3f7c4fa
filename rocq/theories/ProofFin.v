(** The numbers that a converged simulator reports are finite (C69). *)
From Coq Require Import Reals Lra.
From Coquelicot Require Import Complex.
From Verif Require Import Base Num NumXR LibBase LibNum LibXR LibEval Devices BusBranch CheckNetwork LoadFlow Simulator SpecNet ProofNet LibInit LibSim
  SpecDev SpecSim ProofSim ProofSoc ProofObs ProofDev ProofVals ProofHist SpecQp SpecTotal ProofTotal SpecPf LibC ProofBr ProofPf ProofUnits.
Local Open Scope string_scope.
Local Open Scope list_scope.
Local Open Scope R_scope.
Set Bullet Behavior "Strict Subproofs".

Definition low (x : XR) : Prop := x = NInf \/ fin x.
Definition high (x : XR) : Prop := x = PInf \/ fin x.
Lemma np_clip_fin x lo hi : fin x -> low lo -> high hi -> fin (np_clip x lo hi).
Proof.
  intros (r & ->) Hl Hh. assert (M : fin (np_max (Fin r) lo)).
  { unfold np_max. destruct Hl as [->|(l & ->)]; [exact (fin_Fin _)|]. destruct (_ || _)%bool; exact (fin_Fin _). }
  unfold np_clip. destruct M as (m & ->). unfold np_min. destruct Hh as [->|(h & ->)]; [exact (fin_Fin _)|]. destruct (_ || _)%bool; exact (fin_Fin _).
Qed.
Lemma else_low c : cell_fin c -> low (or_else c NInf).
Proof. intros H. destruct c as [x|]; [right; apply H; auto|left; reflexivity]. Qed.
Lemma else_high c : cell_fin c -> high (or_else c PInf).
Proof. intros H. destruct c as [x|]; [right; apply H; auto|left; reflexivity]. Qed.
Lemma pu_low b x : 0 < b -> low x -> low (xdiv x (Fin b)).
Proof. intros Hb [->|H]; [left; apply pu_NInf; auto|right; apply pu_fin; auto]. Qed.
Lemma pu_high b x : 0 < b -> high x -> high (xdiv x (Fin b)).
Proof. intros Hb [->|H]; [left; apply pu_PInf; auto|right; apply pu_fin; auto]. Qed.
Lemma fin_mul x y : fin x -> fin y -> fin (nmul x y).
Proof. intros (a & ->) (b & ->). exact (fin_Fin _). Qed.
Lemma fin_div x y : fin x -> y <> 0 -> fin (ndiv x (Fin y)).
Proof. intros (a & ->) H. cbn [ndiv XRnum]. rewrite xdiv_Fin by auto. exact (fin_Fin _). Qed.

Definition dev_fin (d : device XR) : Prop :=
  fin (d_p d) /\ fin (d_q d) /\ (is_nsgen d = true -> fin (d_ppot d)) /\ (is_stor d = true -> fin (soc_of d)).

Section Fin.
  Context (nw : network XR) (dt lamb : XR) (s0 : sim XR) (H0 : sim_init nw dt lamb = Ok s0) (b : R) (Eb : nw_base nw = Fin b).
  Context (d : R) (Ed : dt = Fin d) (Hd : 0 < d) (Mp : Forall mappable (nw_dev nw)).

  (** what a device does with usable inputs *)
  Lemma dev_fin_trans Or inp s x x1 : strip s = strip s0 -> qp_exact (o_qp Or) -> usable_inputs nw inp -> In x (sm_devs s) ->
    dev_transition (o_qp Or) (sm_base s) (sm_dt s) inp x = (x1, Ok tt) -> fin (d_p x1) /\ fin (d_q x1) /\ (is_nsgen x1 = true -> fin (d_ppot x1)).
  Proof.
    intros St Q U I Et. pose proof (base_pos nw dt lamb s0 H0 b Eb) as Hb.
    rewrite (strip_base _ _ St), (init_base _ _ _ _ H0), Eb in Et.
    destruct (sim_init_built _ _ _ _ H0) as (bs & ds0 & B).
    destruct (static_dev _ _ _ St I) as (d0 & I0 & E0). destruct (bt_dev_row B _ I0) as (r & Ir & Mr).
    rewrite Eb in Mr. pose proof (spec_of_row s0 b r d0 Mr) as SP.
    pose proof (mk_dev_fields _ _ _ _ Mr) as (M1 & M2 & M3 & _). apply strip_dev_fields in E0. destruct E0 as (D1 & D2 & D3 & D4 & _).
    rewrite Forall_forall in Mp. destruct (Mp r Ir) as (Hf & _ & _). cells Hf.
    destruct (U r (d_id d0) Ir M1) as (U1 & U2 & U3). unfold has_num in *. rewrite D1 in *. rewrite D3, D4 in SP. rewrite D3 in M3. rewrite M3 in *.
    unfold dev_transition in Et. destruct (d_spec x) as [l|g|t] eqn:Sp.
    - destruct SP as [T G]. rewrite T in *. destruct (U1 eq_refl) as (v & X). unfold dgetE in Et. rewrite X in Et. injection Et as <-.
      apply load_check_vals in G; auto. destruct G as (G1 & G2 & G3 & _). cbn [d_set_pq d_p d_q load_map_pq fst snd].
      assert (P : fin (np_clip (ndiv (Fin v) (Fin b)) (l_pmin l) (l_pmax l))).
      { apply np_clip_fin; [apply fin_div; [exact (fin_Fin _)|lra]| |].
        - rewrite G1. apply pu_low; auto. apply else_low; auto.
        - rewrite G2. right. destruct (dr_pmax r) as [y|] eqn:Ey; cbn [or_else]; [|exact (fin_Fin _)]. match goal with K : cell_fin (Some y) |- _ => apply K; auto end. }
      split; [exact P|]. split; [apply fin_mul; [exact P|]|].
      + rewrite G3 in *. match goal with K : cell_fin (Some (l_qp l)) |- _ => apply K; auto end.
      + unfold is_nsgen, is_gen. cbn [d_set_pq d_spec]. rewrite Sp. discriminate.
    - destruct SP as [T G]. destruct (d_slack x) eqn:Sl.
      + injection Et as <-. split; [exact (fin_Fin _)|]. split; [exact (fin_Fin _)|]. unfold is_nsgen, d_slack in *. cbn [d_set_pq d_type]. rewrite Sl. rewrite andb_false_r. discriminate.
      + unfold d_slack in Sl. rewrite Sl in G. apply Z.eqb_neq in Sl.
        assert (T' : Some (d_type x) = Some 1%Z \/ Some (d_type x) = Some 2%Z) by (destruct T as [T|[T|[T|[]]]]; rewrite <- T in *; auto; congruence).
        destruct (U2 T') as ((v & X) & (u & Xu) & (w & Xw)). unfold dgetE in Et. rewrite X, Xu, Xw in Et. cbn [bind] in Et.
        unfold gen_map_pq in Et. cbn [ndiv XRnum] in Et. rewrite !xdiv_Fin in Et by lra. cbn [d_set_ppot d_ppot] in Et.
        set (pot := gen_clip_ppot g _) in *.
        assert (Fp : fin pot).
        { apply gen_check_vals in G; auto. unfold pot, gen_clip_ppot. assert (L : low (g_pmin g)).
          { rewrite (gv_pmin _ _ _ _ G). apply pu_low; auto. unfold PMIN. right. destruct (dr_pmin r) as [y|] eqn:Ey; cbn [or_else]; [|exact (fin_Fin _)]. match goal with K : cell_fin (Some y) |- _ => apply K; auto end. }
          assert (Hh : high (g_pmax g)) by (rewrite (gv_pmax _ _ _ _ G); apply pu_high; auto; apply else_high; auto).
          repeat apply np_clip_fin; auto; exact (fin_Fin _). }
        destruct (o_qp Or _ _) as [[p q]|] eqn:Eo; [|discriminate]. cbn [bind fst snd] in Et. injection Et as <-. destruct (Q _ _ _ _ _ Eo) as (p' & q' & -> & -> & _).
        split; [exact (fin_Fin _)|]. split; [exact (fin_Fin _)|]. intros _. exact Fp.
    - destruct SP as [T G]. rewrite T in *. destruct (U3 eq_refl) as ((u & Xu) & (v & Xv)). unfold dgetE in Et. rewrite Xu, Xv in Et. cbn [bind] in Et.
      cbn [ndiv XRnum] in Et. rewrite !xdiv_Fin in Et by lra. unfold stor_map_pq in Et. destruct (d_soc x) as [c|]; [|discriminate].
      destruct (stor_rows t c (sm_dt s)) as [rows|]; [|discriminate]. cbn [bind] in Et.
      destruct (o_qp Or _ _) as [[p q]|] eqn:Eo; [|discriminate]. cbn [bind fst snd] in Et. injection Et as <-. destruct (Q _ _ _ _ _ Eo) as (p' & q' & -> & -> & _).
      split; [exact (fin_Fin _)|]. split; [exact (fin_Fin _)|]. unfold is_nsgen, is_gen. cbn [d_set_soc d_set_pq d_spec]. rewrite Sp. discriminate.
  Qed.

  Context (Hr : Forall branch_row_fin (nw_br nw)) (Hn : numbered nw) (Hk : Forall bus_row_fin (nw_bus nw)).

  Lemma tr_fin Or inp s s' st r e pen : strip s = strip s0 -> qp_exact (o_qp Or) -> usable_inputs nw inp -> soc_in (sm_devs s) ->
    transition Or inp s = (s', Ok (st, r, e, pen, true)) -> Forall dev_fin (sm_devs s') /\ exists V, pf_state nw b s' V.
  Proof.
    intros St Q U Soc Et. assert (Ok : is_ok (snd (transition Or inp s)) = true) by (rewrite Et; reflexivity).
    pose proof (trans_keeps nw dt lamb s0 H0 b Eb d Ed Mp Or inp s St Q U Soc Ok) as Soc'. rewrite Et in Soc'. cbn [fst] in Soc'.
    apply transition_ok in Et as (_ & _ & ds & v & i & T). destruct (pf_trans nw dt lamb s0 H0 b Eb Hr Hn _ _ _ _ _ _ _ St T) as (V & PS).
    split; [|eauto]. apply Forall_forall. intros dv I. destruct (trans_dev _ _ _ _ _ _ _ _ T dv I) as (x & x1 & Ix & Es & Ex & Eu).
    destruct (dev_fin_trans Or inp s x x1 St Q U Ix Ex) as (F1 & F2 & F3).
    assert (F4 : is_stor dv = true -> fin (soc_of dv)).
    { unfold is_stor. destruct (d_spec dv) as [| |t] eqn:Sp; try discriminate. intros _. destruct (Soc' dv t I Sp) as (c & Ec & _). unfold soc_of. rewrite Ec. exact (fin_Fin _). }
    destruct (d_slack dv) eqn:Sl.
    - destruct (ps_slackdev _ _ _ _ PS dv I Sl) as (P1 & P2). split; [rewrite P1; exact (fin_Fin _)|]. split; [rewrite P2; exact (fin_Fin _)|]. split; auto.
      unfold is_nsgen. rewrite Sl, andb_false_r. discriminate.
    - pose proof (strip_slack_update _ _ _ Eu) as Es'. apply strip_dev_fields in Es' as (_ & _ & G3 & _).
      unfold dev_slack_update in Eu. replace (d_slack x1) with false in Eu by (unfold d_slack in *; congruence). injection Eu as <-. repeat (split; auto).
  Qed.
  Lemma set_socs_fin soc ds ds2 : Forall fin soc -> Forall dev_fin ds -> 0 < b -> set_socs (Fin b) soc ds = (ds2, Ok tt) -> Forall dev_fin ds2.
  Proof.
    intros Hs Hds Hb. revert soc ds2 Hs. induction Hds as [|dv ds Hv Hds IH]; intros soc ds2 Hs E; cbn [set_socs] in E; [injection E as <-; constructor|].
    destruct (is_stor dv) eqn:Si.
    - destruct soc as [|c soc]; [discriminate|]. destruct (set_socs (Fin b) soc ds) as [l u] eqn:El. cbn [fst snd] in E. injection E as <- ->. inversion_clear Hs.
      constructor; [|eapply IH; eauto]. destruct Hv as (V1 & V2 & V3 & V4). repeat (split; auto). intros _. cbn [d_set_soc soc_of d_soc]. apply fin_div; auto. lra.
    - destruct (set_socs (Fin b) soc ds) as [l u] eqn:El. cbn [fst snd] in E. injection E as <- ->. constructor; auto. eapply IH; eauto.
  Qed.
  Lemma pf_state_bus s V : pf_state nw b s V ->
    forall bb, In bb (sm_buses s) -> b_v bb = up (V (b_id bb)) /\ b_i bb = up (current_out nw V (b_id bb)) /\ fin (b_p bb) /\ fin (b_q bb).
  Proof.
    intros PS bb I. destruct (ps_bus _ _ _ _ PS bb I) as (A1 & A2). split; auto. split; auto. destruct (b_slack bb) eqn:Sl.
    - destruct (ps_slack _ _ _ _ PS bb I Sl) as (-> & ->). split; exact (fin_Fin _).
    - destruct (ps_eq _ _ _ _ PS bb I Sl) as (P & Q & -> & -> & _). split; exact (fin_Fin _).
  Qed.

  (** what is gathered from such an object *)
  Lemma gather_fin s V k u i v : strip s = strip s0 -> Forall dev_fin (sm_devs s) ->
    (forall bb, In bb (sm_buses s) -> b_v bb = up (V (b_id bb)) /\ b_i bb = up (current_out nw V (b_id bb)) /\ fin (b_p bb) /\ fin (b_q bb)) ->
    Forall2 (fun r br => exists br0, br_of r b br0 /\ br = branch_update br0 (up (vat V (lr_f r))) (up (vat V (lr_t r)))) (nw_br nw) (sm_branches s) ->
    read (gather_state s) k u i = Some v -> fin v.
  Proof.
    intros St Fd Fb Fr R. pose proof (base_pos nw dt lamb s0 H0 b Eb) as Hb. assert (Eb' : sm_base s = Fin b) by (rewrite (strip_base _ _ St), (init_base _ _ _ _ H0); auto).
    assert (Cases : (exists p f, In (k, u, (p, f)) (dev_quants (sm_base s))) \/ (exists f, In (k, u, f) (bus_quants (sm_base s))) \/ (exists f, In (k, u, f) (br_quants (sm_base s)))).
    { revert R. clear. unfold read, gather_state. cbn [dget]. intros R.
      repeat match type of R with context [String.eqb ?a ?c] => destruct (String.eqb_spec a c); [subst|]; cbn [dget] in R; cbv beta iota in R end; try discriminate R;
      first [left; do 2 eexists; cbn; tauto|right; left; eexists; cbn; tauto|right; right; eexists; cbn; tauto]. }
    destruct Cases as [(p & f & Q)|[(f & Q)|(f & Q)]].
    - destruct (read_dev_inv _ _ _ _ _ _ _ Q R) as (dv & I & Ip & _ & ->). rewrite Forall_forall in Fd. destruct (Fd dv I) as (F1 & F2 & F3 & F4).
      rewrite Eb' in Q. cbn [In dev_quants] in Q. repeat (destruct Q as [Q|Q]; [injection Q as <- <- <- <-; try apply fin_mul; auto; exact (fin_Fin _)|]). destruct Q.
    - destruct (read_bus_inv _ _ _ _ _ _ Q R) as (bb & I & _ & ->). destruct (Fb bb I) as (F1 & F2 & F3 & F4).
      assert (Kv : exists kv, b_kv bb = Fin kv /\ 0 < kv).
      { destruct (bus_row_of nw dt lamb s0 s bb H0 St I) as (r & Ir & _ & _ & Ek & _). rewrite Forall_forall in Hk. pose proof (Hk r Ir) as Hf. cells Hf.
        assert (Fk : fin (b_kv bb)) by (rewrite Ek in *; match goal with K : cell_fin (Some (b_kv bb)) |- _ => apply K; auto end). destruct Fk as (kv & Fk). exists kv. split; auto.
        destruct (sim_init_built _ _ _ _ H0) as (bs & ds & B). assert (bus_init_ok : exists b0, bus_init r = Ok b0).
        { pose proof (bt_buses _ _ _ _ _ _ B) as M. apply mapM_ok in M. destruct (Forall2_in_l _ _ _ _ M Ir) as (b0 & _ & E). eauto. }
        destruct bus_init_ok as (b0 & E). unfold bus_init in E. rewrite Ek, Fk in E. destruct (br_id r); [|discriminate]. destruct (br_type r); [|discriminate]. cbn [bind] in E.
        destruct (negb _); [discriminate|]. cbn [raise_if bind] in E. cbn [nleb n0 XRnum xleb] in E. destruct (Rleb kv 0) eqn:L; [discriminate|]. apply Rleb_false in L. lra. }
      destruct Kv as (kv & Ek & Hkv).
      assert (D : forall z, fin (to_deg (cangle (up z)))).
      { intros z. rewrite up_angle. unfold to_deg. apply fin_div; [apply fin_mul; exact (fin_Fin _)|]. pose proof PI_RGT_0. lra. }
      assert (A : Forall (fun t => fin (snd t bb)) (bus_quants (Fin b))).
      { assert (B1 : fin (Fin b)) by exact (fin_Fin _). assert (B2 : forall z, fin (cabs (up z))) by (intros z; rewrite up_abs; exact (fin_Fin _)).
        assert (B3 : forall z, fin (cangle (up z))) by (intros z; exact (fin_Fin _)). assert (B4 : fin (b_kv bb)) by (rewrite Ek; exact (fin_Fin _)).
        unfold bus_quants. rewrite !Forall_cons_iff. cbn [snd]. rewrite F1, F2. repeat split; auto using fin_mul. rewrite Ek. apply fin_div; [auto using fin_mul|lra]. }
      rewrite Eb' in Q. rewrite Forall_forall in A. exact (A _ Q).
    - destruct (read_br_inv _ _ _ _ _ _ Q R) as (br & I & _ & ->). destruct (Forall2_in_r _ _ _ _ Fr I) as (r & Ir & br0 & Bo & ->).
      destruct (update_pi r b br0 Bo (vat V (lr_f r)) (vat V (lr_t r))) as (U1 & _ & U3 & U4 & _). pose proof (smax_val r b br0 Bo (vat V (lr_f r)) (vat V (lr_t r))) as U5.
      assert (D : forall z, fin (to_deg (cangle (up z)))).
      { intros z. rewrite up_angle. unfold to_deg. apply fin_div; [apply fin_mul; exact (fin_Fin _)|]. pose proof PI_RGT_0. lra. }
      assert (A : Forall (fun t => fin (snd t (branch_update br0 (up (vat V (lr_f r))) (up (vat V (lr_t r)))))) (br_quants (Fin b))).
      { assert (B1 : fin (Fin b)) by exact (fin_Fin _).
        assert (B3 : forall z, fin (cangle (up z))) by (intros z; exact (fin_Fin _)).
        unfold br_quants. rewrite !Forall_cons_iff. cbn [snd]. rewrite U1, U3, U4, U5, ?signed_magn_re. repeat split; auto using fin_mul; repeat apply fin_mul; try exact (fin_Fin _). }
      rewrite Eb' in Q. rewrite Forall_forall in A. exact (A _ Q).
  Qed.
  Lemma conv_run Or inp (s : sim XR) : sm_conv (fst (transition Or inp s)) = Some true -> is_ok (snd (transition Or inp s)) = true ->
    exists s' st r e pen, transition Or inp s = (s', Ok (st, r, e, pen, true)).
  Proof.
    intros Cv Ok. destruct (transition Or inp s) as [s' [[[[[st r] e] pen] cv]|x]] eqn:Et; [|discriminate]. cbn [fst] in Cv.
    assert (cv = true) as ->; [|eauto 8]. apply transition_ok in Et as (_ & _ & ds & v & i & T). pose proof (tk_conv _ _ _ _ _ _ _ _ T). congruence.
  Qed.
  Lemma trans_obs_fin Or inp s : strip s = strip s0 -> qp_exact (o_qp Or) -> usable_inputs nw inp -> soc_in (sm_devs s) ->
    is_ok (snd (transition Or inp s)) = true -> sm_conv (fst (transition Or inp s)) = Some true ->
    forall k u i v, obs (fst (transition Or inp s)) k u i = Some v -> fin v.
  Proof.
    intros St Q U Soc Ok Cv k u i v O. destruct (conv_run Or inp s Cv Ok) as (s' & st & r & e & pen & Et). rewrite Et in O. cbn [fst] in O.
    destruct (tr_fin Or inp s s' st r e pen St Q U Soc Et) as (Fd & V & PS).
    pose proof (strip_transition Or inp s) as S'. rewrite Et, St in S'. cbn [fst] in S'.
    apply transition_ok in Et as (_ & _ & ds & vv & ii & T). unfold obs in O. rewrite (proj1 (trans_fresh _ _ _ _ _ _ _ _ T)) in O.
    refine (gather_fin s' V k u i v S' Fd (pf_state_bus s' V PS) _ O). exact (ps_br _ _ _ _ PS).
  Qed.
  Lemma reset_obs_fin Or init s : strip s = strip s0 -> qp_exact (o_qp Or) -> (reset_size nw <= List.length init)%nat -> Forall fin init ->
    is_ok (snd (sim_reset Or init s)) = true -> sm_conv (fst (sim_reset Or init s)) = Some true ->
    forall k u i v, obs (fst (sim_reset Or init s)) k u i = Some v -> fin v.
  Proof.
    intros St G L Fi Ok Cv k u i v O. pose proof (base_pos nw dt lamb s0 H0 b Eb) as Hb.
    destruct (reset_start nw dt lamb s0 H0 fin init s St Fi L) as (inp & ds & E1 & Em & Es & Vp & An).
    assert (St' : strip (sim_set_devs (sim_set_state s None) ds) = strip s0) by (rewrite strip_set_devs; auto).
    unfold sim_reset in *. rewrite E1, Em in *.
    pose proof (conv_run Or inp (sim_set_devs (sim_set_state s None) ds)) as Cr. pose proof (strip_transition Or inp (sim_set_devs (sim_set_state s None) ds)) as S'.
    pose proof (fun s' st r e pen => tr_fin Or inp (sim_set_devs (sim_set_state s None) ds) s' st r e pen St' G (all_usable nw inp An Vp) (pre_soc_in nw dt lamb s0 H0 b Eb d Ed Mp inp s ds St Em Es)) as Tf.
    destruct (transition Or inp _) as [s1 [[[[[st r] e] pen] cv]|x]]; [|discriminate]. cbn [fst snd is_ok] in *.
    pose proof (fun A => set_socs_fin (slice (2 * n_device s) (n_des s) init) (sm_devs s1) (fst (set_socs (sm_base s) (slice (2 * n_device s) (n_des s) init) (sm_devs s1))) A) as Sf.
    rewrite (strip_base _ _ St), (init_base _ _ _ _ H0), Eb in *.
    pose proof (strip_set_socs (Fin b) (slice (2 * n_device s) (n_des s) init) (sm_devs s1)) as Sd.
    destruct (set_socs _ _ (sm_devs s1)) as [ds2 [[]|x]]; [|discriminate]. cbn [fst snd is_ok] in *.
    destruct (Cr Cv eq_refl) as (s'' & st' & r' & e' & pen' & X). injection X as <- <- <- <- <- ->. clear Cr.
    destruct (Tf _ _ _ _ _ eq_refl) as (Fd & V & PS).
    unfold obs in O. cbn [sm_state sim_set_state] in O.
    refine (gather_fin (sim_set_state (sim_set_devs s1 ds2) (Some (gather_state (sim_set_devs s1 ds2)))) V k u i v _ _ (pf_state_bus s1 V PS) (ps_br _ _ _ _ PS) O).
    - change (strip (sim_set_devs s1 ds2) = strip s0). rewrite strip_set_devs by auto. rewrite S'. exact St'.
    - cbn [sm_devs sim_set_state sim_set_devs]. apply Sf; auto. apply Forall_forall. intros x I. rewrite Forall_forall in Fi. apply Fi.
      unfold slice in I. apply In_nth_error in I as (n & I). apply (nth_error_In _ (2 * n_device s + n)). eapply slice_nth. exact I.
  Qed.

  (** a run of transitions that returned *)
  Lemma run_soc_in cs cl ts : returned (run s0 cs) cl -> soc_reported_ok s0 (run s0 (cs ++ [cl])) -> Forall (exact_transition nw) ts ->
    (forall ts1 t ts2, ts = ts1 ++ t :: ts2 -> returned (run s0 (cs ++ cl :: ts1)) t) -> soc_in (sm_devs (run s0 (cs ++ cl :: ts))).
  Proof.
    intros R Soc. induction ts as [|t ts IH] using rev_ind; intros G Rt.
    - apply (fresh_soc_in nw dt lamb s0 H0); auto; [apply strip_run|]. unfold run. rewrite fold_left_app. cbn [fold_left]. apply call_fresh. exact R.
    - apply Forall_app in G as [G1 G2]. apply Forall_inv in G2.
      assert (Er : run s0 (cs ++ cl :: ts ++ [t]) = run_call (run s0 (cs ++ cl :: ts)) t).
      { unfold run. change (cs ++ cl :: ts ++ [t]) with (cs ++ (cl :: ts) ++ [t]). rewrite app_assoc, fold_left_app. reflexivity. }
      rewrite Er. destruct t as [|Or inp]; [destruct G2|]. destruct G2 as [Q U]. cbn [run_call].
      apply (trans_keeps nw dt lamb s0 H0 b Eb d Ed Mp); auto; [apply strip_run| |].
      + apply IH; auto. intros ts1 t' ts2 E. apply (Rt ts1 t' (ts2 ++ [CTrans Or inp])). rewrite E, <- app_assoc. reflexivity.
      + apply (Rt ts (CTrans Or inp) []). reflexivity.
  Qed.

  (** the reward *)
  Lemma fin_add x y : fin x -> fin y -> fin (nadd x y). Proof. intros (a & ->) (c & ->). exact (fin_Fin _). Qed.
  Lemma fin_sub x y : fin x -> fin y -> fin (nsub x y). Proof. intros (a & ->) (c & ->). exact (fin_Fin _). Qed.
  Lemma fin_max x y : fin x -> fin y -> fin (np_max x y). Proof. intros (a & ->) (c & ->). rewrite np_max_fin. exact (fin_Fin _). Qed.
  Lemma loss_fin s : Forall dev_fin (sm_devs s) -> sm_dt s = Fin d -> fin (energy_loss s).
  Proof.
    intros Fd E. unfold energy_loss. rewrite E. apply fin_mul; [|exact (fin_Fin _)]. assert (A : fin (n0 : XR)) by exact (fin_Fin _). revert A. generalize (n0 : XR).
    induction Fd as [|x l (F1 & F2 & F3 & F4) Fd IH]; intros a A; auto. cbn [fold_left]. apply IH. unfold dev_loss.
    assert (B : fin (if is_gen x || is_load x then nadd a (d_p x) else a)%bool) by (destruct (is_gen x || is_load x)%bool; auto using fin_add).
    destruct (is_rer x) eqn:Re; auto. apply fin_add; auto. apply fin_max; [exact (fin_Fin _)|]. apply fin_sub; auto. apply F3.
    unfold is_rer, is_nsgen, d_slack in *. destruct (is_gen x); [|discriminate]. apply Z.eqb_eq in Re. rewrite Re. reflexivity.
  Qed.
End Fin.
