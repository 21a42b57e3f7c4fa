(** Power balances of a converged state: C17, C20, C26. *)
From Coq Require Import Reals Lra Permutation Sorted.
From Coquelicot Require Import Complex.
From Verif Require Import Base Num NumXR LibBase LibNum LibXR LibEval Devices BusBranch CheckNetwork LoadFlow Simulator SpecNet ProofNet LibInit LibSim
  SpecDev SpecSim ProofSim ProofSoc ProofObs ProofDev ProofBusP SpecPf LibC ProofBr ProofY SpecNr ProofNr ProofPf.
Local Open Scope string_scope.
Local Open Scope list_scope.
Local Open Scope R_scope.

(** ---- finite sums ---- *)
Lemma sumR_cons a l : sumR (a :: l) = a + sumR l.
Proof. reflexivity. Qed.
Lemma sumR_perm l m : Permutation l m -> sumR l = sumR m.
Proof. induction 1; auto; rewrite ?sumR_cons; [rewrite IHPermutation; auto|ring|congruence]. Qed.
Lemma sumR_plus {A} (f g : A -> R) l : sumR (map (fun a => f a + g a) l) = sumR (map f l) + sumR (map g l).
Proof. induction l as [|a l IH]; cbn [map]; [cbn; ring|]. rewrite !sumR_cons, IH. ring. Qed.
Lemma sumR_zero {A} (l : list A) : sumR (map (fun _ => 0) l) = 0.
Proof. induction l as [|a l IH]; cbn [map]; auto. rewrite sumR_cons, IH. ring. Qed.
Lemma sumR_ext {A} (f g : A -> R) l : (forall a, In a l -> f a = g a) -> sumR (map f l) = sumR (map g l).
Proof. intros H. f_equal. apply map_ext_in; auto. Qed.
Lemma sumR_diff {A} (f g : A -> R) e l : (forall a, In a l -> Rabs (f a - g a) <= e) -> Rabs (sumR (map f l) - sumR (map g l)) <= INR (List.length l) * e.
Proof.
  induction l as [|a l IH]; intros H; cbn [map List.length].
  - cbn. rewrite Rminus_0_r, Rabs_R0. lra.
  - rewrite !sumR_cons, S_INR. replace (f a + sumR (map f l) - (g a + sumR (map g l))) with ((f a - g a) + (sumR (map f l) - sumR (map g l))) by ring.
    eapply Rle_trans; [apply Rabs_triang|]. pose proof (H a (or_introl eq_refl)). pose proof (IH (fun x I => H x (or_intror I))). lra.
Qed.
(** one non-zero term *)
Lemma sumR_pick (k0 : Z) x ids : NoDup ids -> In k0 ids -> sumR (map (fun k => if Z.eqb k0 k then x else 0) ids) = x.
Proof.
  induction ids as [|k ids IH]; cbn [In map]; [tauto|]. intros ND I. inversion ND; subst. rewrite sumR_cons.
  destruct (Z.eqb_spec k0 k) as [->|E].
  - rewrite (sumR_ext _ (fun _ => 0)); [rewrite sumR_zero; ring|]. intros a Ia. destruct (Z.eqb_spec k a); [subst; tauto|auto].
  - rewrite IH; auto; [ring|]. destruct I; [subst; tauto|auto].
Qed.
(** grouping by bus *)
Lemma sumR_group {A} (f : A -> R) (key : A -> option Z) ids l : NoDup ids -> (forall a, In a l -> exists k, key a = Some k /\ In k ids) ->
  sumR (map f l) = sumR (map (fun k => sumR (map f (filter (fun a => optz_eqb (key a) (Some k)) l))) ids).
Proof.
  intros ND. induction l as [|a l IH]; intros H; cbn [map filter].
  - symmetry. apply sumR_zero.
  - rewrite sumR_cons, IH by (intros; apply H; right; auto). destruct (H a (or_introl eq_refl)) as (k0 & Ek & Ik).
    rewrite <- (sumR_pick k0 (f a) ids ND Ik), <- sumR_plus. apply sumR_ext. intros k _. rewrite Ek. unfold optz_eqb.
    destruct (Z.eqb k0 k); cbn [map]; [rewrite sumR_cons; auto|ring].
Qed.
Lemma sumR_split {A} (f : A -> R) p l : sumR (map f l) = sumR (map f (filter p l)) + sumR (map f (filter (fun a => negb (p a)) l)).
Proof. induction l as [|a l IH]; cbn [map filter]; [cbn; ring|]. destruct (p a); cbn [negb map]; rewrite !sumR_cons, IH; ring. Qed.

Lemma fst_sumC l : fst (sumC l) = sumR (map fst l).
Proof. induction l as [|a l IH]; cbn [map]; [reflexivity|]. rewrite sumC_cons, sumR_cons, <- IH. reflexivity. Qed.
Lemma fst_if (c : bool) (x y : C) : fst (if c then x else y) = if c then fst x else fst y.
Proof. destruct c; auto. Qed.
(** the powers leaving the buses add up to the losses *)
Lemma total_losses nw V ids : NoDup ids -> (forall r, In r (nw_br nw) -> exists f t, lr_f r = Some f /\ lr_t r = Some t /\ In f ids /\ In t ids) ->
  sumR (map (fun k => fst (power_out nw V k)) ids) = losses nw V.
Proof.
  intros ND. unfold power_out, outflow, losses. induction (nw_br nw) as [|r l IH]; intros H; cbn [map].
  - rewrite sumR_zero. reflexivity.
  - rewrite sumR_cons, <- IH by (intros; apply H; right; auto).
    destruct (H r (or_introl eq_refl)) as (f & t & Ef & Et & If & It). rewrite Ef, Et. cbn [vat end_of optz_eqb].
    set (a := s_from r (V f) (V t)). set (c := s_to r (V f) (V t)).
    rewrite <- (sumR_pick f (fst a) ids ND If), <- (sumR_pick t (fst c) ids ND It), <- !sumR_plus.
    apply sumR_ext. intros k _. rewrite !fst_sumC. cbn [map]. rewrite sumR_cons. f_equal.
    unfold end_of, optz_eqb. cbn [fst Cplus]. unfold Cplus. cbn [fst]. rewrite !fst_if. cbn [RtoC fst]. reflexivity.
Qed.

Section Bal.
  Context (nw : network XR) (dt lamb : XR) (s0 : sim XR) (H0 : sim_init nw dt lamb = Ok s0) (b : R) (Eb : nw_base nw = Fin b).
  Context (Hr : Forall branch_row_fin (nw_br nw)) (Hn : numbered nw).

  (** rows and devices *)
  Lemma rows_devs (pr : dev_row XR -> bool) (pd : device XR -> bool) s' :
    (forall r d base ids, mk_dev base ids r = Ok d -> pr r = pd d) -> (forall d, pd (strip_dev d) = pd d) -> strip s' = strip s0 ->
    Permutation (map dr_id (filter pr (nw_dev nw))) (map Some (map d_id (filter pd (sm_devs s')))).
  Proof.
    intros Hp Hs S. destruct (sim_init_built _ _ _ _ H0) as (bs & ds & B).
    assert (E : map d_id (filter pd (sm_devs s')) = map d_id (filter pd (sm_devs s0))).
    { pose proof (strip_dev_filter pd _ _ Hs (strip_devs _ _ S)) as K.
      apply (map_strip strip_dev d_id _ _ (fun _ => eq_refl) K). }
    rewrite E, (bt_sdevs _ _ _ _ _ _ B).
    pose proof (bt_devs _ _ _ _ _ _ B) as M. apply mapM_ok in M.
    assert (E2 : map dr_id (filter pr (nw_dev nw)) = map Some (map d_id (filter pd ds))).
    { clear -M Hp. induction M as [|r d rs ds E M IH]; auto. cbn [filter]. rewrite (Hp _ _ _ _ E).
      destruct (pd d); auto. cbn [map]. rewrite IH. apply mk_dev_fields in E as (-> & _). reflexivity. }
    rewrite E2. apply Permutation_map, Permutation_map. pose proof (Permutation_sym (sort_by_perm d_id ds)) as Pm. clear -Pm.
    induction Pm; cbn [filter]; auto.
    - destruct (pd x); auto.
    - destruct (pd x), (pd y); auto. constructor.
    - etransitivity; eauto.
  Qed.
  Lemma row_obs_dev s s1 key sel f d : sm_state s = Some (gather_state s1) -> strip s1 = strip s0 -> In (key, "pu", (sel, f)) (dev_quants (sm_base s1)) ->
    In d (sm_devs s1) -> sel d = true -> obs s key "pu" (EId (d_id d)) = Some (f d).
  Proof.
    intros Es S Q I Hs. unfold obs. rewrite Es. apply (read_dev _ _ _ sel f); auto. eapply static_nodup; eauto.
  Qed.
  Lemma rows_sum s s1 key sel f pr pd : sm_state s = Some (gather_state s1) -> strip s1 = strip s0 -> In (key, "pu", (sel, f)) (dev_quants (sm_base s1)) ->
    (forall r d base ids, mk_dev base ids r = Ok d -> pr r = pd d) -> (forall d, pd (strip_dev d) = pd d) -> (forall d, pd d = true -> sel d = true) ->
    Permutation (map (row_obs s key) (filter pr (nw_dev nw))) (map f (filter pd (sm_devs s1))).
  Proof.
    intros Es S Q Hp Hs Hsel.
    set (g := fun o : option Z => match o with Some i => match obs s key "pu" (EId i) with Some v => v | None => NaN end | None => NaN end).
    assert (E1 : map (row_obs s key) (filter pr (nw_dev nw)) = map g (map dr_id (filter pr (nw_dev nw)))) by (rewrite map_map; reflexivity).
    assert (E2 : map f (filter pd (sm_devs s1)) = map g (map Some (map d_id (filter pd (sm_devs s1))))).
    { rewrite !map_map. apply map_ext_in. intros d I. apply filter_In in I as [I Pd]. unfold g.
      rewrite (row_obs_dev s s1 key sel f d); auto. }
    rewrite E1, E2. apply Permutation_map. apply rows_devs; auto.
  Qed.
  Lemma ids_nodup : NoDup (bus_ids nw).
  Proof. unfold bus_ids. apply FinFun.Injective_map_NoDup; [intros x y; lia|apply seq_NoDup]. Qed.
  Lemma bus_at s1 k : strip s1 = strip s0 -> In k (bus_ids nw) -> exists bb, In bb (sm_buses s1) /\ b_id bb = k /\ b_slack bb = Z.eqb k 0.
  Proof.
    intros S I. destruct (num_ids nw dt lamb s0 H0 Hn s1 S) as [E _]. rewrite <- E in I. apply in_map_iff in I as (bb & <- & I).
    exists bb. split; auto. split; auto. apply (num_slack nw dt lamb s0 H0 Hn s1 bb S I).
  Qed.
  Lemma dev_bus_in r : In r (nw_dev nw) -> exists k, dr_bus r = Some k /\ In k (bus_ids nw).
  Proof.
    intros I. destruct (sim_init_built _ _ _ _ H0) as (bs & ds & B). destruct (bt_dev_row_inv B _ I) as (d & Id & M).
    apply mk_dev_fields in M as (_ & M2 & _ & M4 & _). exists (d_bus d). split; auto.
    destruct (num_ids nw dt lamb s0 H0 Hn s0 eq_refl) as [<- _]. exact M4.
  Qed.
  Lemma br_ends_in r : In r (nw_br nw) -> exists f t, lr_f r = Some f /\ lr_t r = Some t /\ In f (bus_ids nw) /\ In t (bus_ids nw).
  Proof.
    intros I. destruct (sim_init_built _ _ _ _ H0) as (bs & ds & B). destruct (bt_br_row_inv B _ I) as (d & Id & M).
    apply branch_init_ends in M as (M1 & M2 & M3 & M4). exists (ln_f d), (ln_t d).
    destruct (num_ids nw dt lamb s0 H0 Hn s0 eq_refl) as [<- _]. auto.
  Qed.

  Section State.
    Context (s s1 : sim XR) (V : Z -> C) (Es : sm_state s = Some (gather_state s1)) (S1 : strip s1 = strip s0) (PS : pf_state nw b s1 V).

    Lemma st_volts : volts s (bus_ids nw) V.
    Proof.
      intros k I. destruct (bus_at s1 k S1 I) as (bb & Ib & Ek & _). destruct (ps_bus _ _ _ _ PS bb Ib) as [Ev _].
      exists (Cmod (V k)), (ratan2 (snd (V k)) (fst (V k))). unfold obs. rewrite Es, <- Ek.
      assert (ND : NoDup (map b_id (sm_buses s1))) by (eapply static_bus_nodup; eauto).
      rewrite (read_bus s1 "bus_v_magn" "pu" (fun x => cabs (b_v x))); auto; [|cbn; tauto].
      rewrite (read_bus s1 "bus_v_ang" "rad" (fun x => cangle (b_v x))); auto; [|cbn; tauto].
      rewrite Ev, up_abs, up_angle. split; auto. split; auto. apply polar.
    Qed.
    Lemma st_dev_p (r : dev_row XR) (d : device XR) (base : XR) ids k : mk_dev base ids r = Ok d -> optz_eqb (dr_bus r) (Some k) = Z.eqb (d_bus d) k.
    Proof. intros M. apply mk_dev_fields in M as (_ & -> & _). reflexivity. Qed.
    (** C17 *)
    Lemma st_eq k : In k (bus_ids nw) -> k <> 0%Z -> exists P Q,
      sumX (map (row_obs s "dev_p") (rows_at nw k)) = Fin P /\ sumX (map (row_obs s "dev_q") (rows_at nw k)) = Fin Q /\
      Rabs (fst (power_out nw V k) - P) <= / 100000 /\ Rabs (snd (power_out nw V k) - Q) <= / 100000.
    Proof.
      intros I Nz. destruct (bus_at s1 k S1 I) as (bb & Ib & Ek & Sl). apply Z.eqb_neq in Nz. rewrite Nz in Sl.
      destruct (ps_eq _ _ _ _ PS bb Ib Sl) as (P & Q & _ & _ & A3 & A4 & A5 & A6). rewrite Ek in *. exists P, Q.
      split; [rewrite <- A3|split; [rewrite <- A4|auto]]; apply sumX_perm; unfold rows_at, devs_at.
      - apply (rows_sum s s1 "dev_p" (fun _ => true) d_p); auto; [cbn; auto|]. intros r d base ids. apply st_dev_p.
      - apply (rows_sum s s1 "dev_q" (fun _ => true) d_q); auto; [cbn; auto|]. intros r d base ids. apply st_dev_p.
    Qed.
    Lemma st_slack r : In r (nw_dev nw) -> dr_type r = Some 0%Z ->
      row_obs s "dev_p" r = Fin (fst (power_out nw V 0%Z)) /\ row_obs s "dev_q" r = Fin (snd (power_out nw V 0%Z)).
    Proof.
      intros I Ty. destruct (sim_init_built _ _ _ _ H0) as (bs & ds & B). destruct (bt_dev_row_inv B _ I) as (d & Id & M).
      apply mk_dev_fields in M as (M1 & _ & M3 & _).
      assert (J : In (d_id d) (map d_id (sm_devs s1))) by (rewrite (dev_ids_static _ _ S1); apply in_map; auto).
      apply in_map_iff in J as (d' & Ed & Id'). destruct (static_dev _ _ _ S1 Id') as (d0 & I0 & E0).
      pose proof (strip_dev_fields _ _ E0) as (D1 & _ & D3 & _).
      assert (d0 = d). { eapply (nodup_inj d_id (sm_devs s0)); auto; [eapply static_nodup; eauto|congruence]. }
      subst d0. assert (Sl : d_slack d' = true) by (unfold d_slack; apply Z.eqb_eq; congruence).
      destruct (ps_slackdev _ _ _ _ PS d' Id' Sl) as [P Q]. unfold row_obs. rewrite M1, <- Ed.
      rewrite (row_obs_dev s s1 "dev_p" (fun _ => true) d_p d'); auto; [|cbn; auto].
      rewrite (row_obs_dev s s1 "dev_q" (fun _ => true) d_q d'); auto. cbn; auto.
    Qed.
    Lemma sumX_vals {A} (f : A -> XR) l P : sumX (map f l) = Fin P ->
      (forall a, In a l -> f a = Fin (val_or (Some (f a)) 0)) /\ P = sumR (map (fun a => val_or (Some (f a)) 0) l).
    Proof.
      intros H. assert (K : forall a, In a l -> f a = Fin (val_or (Some (f a)) 0)).
      { apply sumX_fin in H. rewrite Forall_map, Forall_forall in H. intros a I. destruct (H a I) as (x & ->). reflexivity. }
      split; auto. rewrite (map_ext_in _ (fun a => Fin (val_or (Some (f a)) 0)) l) in H by auto. rewrite sumX_R in H. congruence.
    Qed.
    (** C20 *)
    Lemma st_fin : slack_alone nw -> forall r, In r (nw_dev nw) -> row_obs s "dev_p" r = Fin (row_val s "dev_p" r).
    Proof.
      intros Al r I. destruct (dev_bus_in r I) as (k & Ek & Ik). destruct (Z.eq_dec k 0) as [->|Nz].
      - unfold row_val. destruct (st_slack r I (Al r I Ek)) as [-> _]. reflexivity.
      - destruct (st_eq k Ik Nz) as (P & _ & E & _). apply sumX_vals in E as [E _]. apply E. unfold rows_at. apply filter_In. split; auto.
        rewrite Ek. unfold optz_eqb. apply Z.eqb_refl.
    Qed.
    Lemma slack_rows0 : slack_alone nw -> exists r, rows_at nw 0 = [r] /\ In r (nw_dev nw) /\ dr_type r = Some 0%Z.
    Proof.
      intros Al. destruct (sim_init_built _ _ _ _ H0) as (bs & ds & B).
      destruct (bt_wf _ _ _ _ _ _ B) as (_ & W1 & W2 & W3 & _). destruct W1 as (b1 & a & b2 & El & Sa & _).
      assert (Ia : In a (nw_bus nw)) by (rewrite El; apply in_or_app; right; left; auto). pose proof (proj2 Hn _ Ia Sa) as Ea.
      destruct W2 as (l1 & r & l2 & Er & Sr & Nr). assert (Ir : In r (nw_dev nw)) by (rewrite Er; apply in_or_app; right; left; auto).
      pose proof (W3 _ _ Ia Sa Ir Sr) as E. exists r. split; [|auto]. unfold rows_at.
      assert (Z1 : forall l, incl l (l1 ++ l2) -> filter (fun r0 => optz_eqb (dr_bus r0) (Some 0%Z)) l = []).
      { induction l as [|x l IH]; intros Hi; auto. cbn [filter]. rewrite IH by (intros y Iy; apply Hi; right; auto).
        assert (Ix : In x (l1 ++ l2)) by (apply Hi; left; auto).
        destruct (optz_eqb (dr_bus x) (Some 0%Z)) eqn:Q; auto. exfalso. rewrite Forall_forall in Nr. apply (Nr x Ix).
        apply Al; [rewrite Er; apply in_app_or in Ix; apply in_or_app; cbn; tauto|].
        unfold optz_eqb in Q. destruct (dr_bus x); [apply Z.eqb_eq in Q; congruence|discriminate]. }
      rewrite Er, filter_app. cbn [filter]. rewrite (Z1 l1), (Z1 l2) by (intros y Iy; apply in_or_app; auto).
      rewrite <- E, Ea. reflexivity.
    Qed.
    Lemma st_total : slack_alone nw ->
      Rabs (sumR (map (row_val s "dev_p") (nw_dev nw)) - losses nw V) <= INR (List.length (nw_bus nw) - 1) * / 100000.
    Proof.
      intros Al. rewrite (sumR_group _ dr_bus (bus_ids nw) (nw_dev nw) ids_nodup dev_bus_in).
      rewrite <- (total_losses nw V (bus_ids nw) ids_nodup br_ends_in).
      change (map (fun k => sumR (map (row_val s "dev_p") (filter (fun a => optz_eqb (dr_bus a) (Some k)) (nw_dev nw)))) (bus_ids nw))
        with (map (fun k => sumR (map (row_val s "dev_p") (rows_at nw k))) (bus_ids nw)).
      destruct (num_Y nw dt lamb s0 H0 b Eb Hr Hn) as (_ & _ & Np & _).
      assert (E : bus_ids nw = 0%Z :: map Z.of_nat (seq 1 (List.length (nw_bus nw) - 1))).
      { unfold bus_ids. destruct (List.length (nw_bus nw)) as [|n]; [lia|]. cbn [seq map]. rewrite Nat.sub_succ, Nat.sub_0_r. reflexivity. }
      rewrite E. cbn [map]. rewrite !sumR_cons.
      destruct (slack_rows0 Al) as (r & Er & Ir & Tr). rewrite Er. cbn [map]. rewrite sumR_cons. cbn [sumR fold_right].
      unfold row_val at 1. destruct (st_slack r Ir Tr) as [-> _]. cbn [val_or].
      match goal with |- Rabs (?a + 0 + ?x - (?a + ?y)) <= _ => replace (a + 0 + x - (a + y)) with (x - y) by ring end.
      eapply Rle_trans; [apply (sumR_diff _ _ (/ 100000))|rewrite map_length, seq_length; lra].
      intros k I. assert (Ik : In k (bus_ids nw)) by (rewrite E; right; auto).
      assert (Nz : k <> 0%Z) by (apply in_map_iff in I as (x & <- & I); apply in_seq in I; lia).
      destruct (st_eq k Ik Nz) as (P & Q & E1 & _ & E3 & _). apply sumX_vals in E1 as [_ E1].
      change (sumR (map (row_val s "dev_p") (rows_at nw k))) with (sumR (map (fun a => val_or (Some (row_obs s "dev_p" a)) 0) (rows_at nw k))).
      rewrite <- E1, Rabs_minus_sym. exact E3.
    Qed.
    Lemma st_losses : 0 <= losses nw V.
    Proof.
      unfold losses. pose proof (ps_br _ _ _ _ PS) as FB. clear -FB. induction FB as [|r br rs brs (br0 & Ob & _) FB IH]; cbn [map]; [cbn; lra|].
      rewrite sumR_cons. pose proof (loss_nonneg r b br0 Ob (vat V (lr_f r)) (vat V (lr_t r))). lra.
    Qed.
  End State.
End Bal.
