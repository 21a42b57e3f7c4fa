(** The structure of a constructed simulator. *)
From Coq Require Import Permutation Sorted.
From Verif Require Import Base Num Devices BusBranch CheckNetwork LoadFlow Simulator LibBase SpecNet ProofNet.

(** A loop that fills a dictionary with distinct keys is a list comprehension. *)
Section FoldDict.
  Context {R B K : Type} (keqb : K -> K -> bool) (Hk : forall a b, keqb a b = true <-> a = b)
          (f : R -> res B) (key : B -> K).
  Definition fill := (fun d r => let* b := f r in Ok (dset keqb d (key b) b)).

  Lemma fold_dict rows d0 d : foldM fill rows d0 = Ok d ->
    exists bs, mapM f rows = Ok bs /\
      (NoDup (map fst d0 ++ map key bs) -> d = d0 ++ map (fun b => (key b, b)) bs).
  Proof.
    revert d0; induction rows as [|r rows IH]; intros d0 H; cbn [foldM] in H.
    - inv_ok. exists []. split; auto. intros _. rewrite app_nil_r; auto.
    - unfold fill in H at 1. apply bind_ok in H. destruct H as (d1 & H0 & H). apply bind_ok in H0. destruct H0 as (x & H0 & H1). inv_ok.
      apply IH in H. destruct H as (bs & E & K1).
      exists (x :: bs). split.
      + cbn. rewrite H0; cbn. rewrite E; auto.
      + intros ND. cbn [map] in *.
        assert (F1 : ~ In (key x) (map fst d0)).
        { intros I. apply NoDup_remove_2 in ND. apply ND. apply in_or_app; auto. }
        rewrite (dset_fresh _ Hk) in K1 by auto.
        rewrite K1.
        * rewrite <- app_assoc. reflexivity.
        * rewrite map_app. cbn. rewrite <- app_assoc. auto.
  Qed.
  Lemma fold_dict_ok rows d0 : is_ok (foldM fill rows d0) = is_ok (mapM f rows).
  Proof.
    revert d0; induction rows as [|r rows IH]; intros d0; cbn [foldM mapM]; auto.
    unfold fill at 1. destruct (f r); cbn; auto. rewrite IH. destruct (mapM f rows); auto.
  Qed.
  Lemma fold_dict_err rows d0 e : foldM fill rows d0 = Err e <-> mapM f rows = Err e.
  Proof.
    revert d0; induction rows as [|r rows IH]; intros d0; cbn [foldM mapM].
    - split; discriminate.
    - unfold fill at 1. destruct (f r); cbn.
      + rewrite IH. destruct (mapM f rows); cbn; split; congruence.
      + split; congruence.
  Qed.
End FoldDict.

Lemma sort_pairs {B} (key : B -> Z) (l : list B) :
  map snd (sort_by fst (map (fun b => (key b, b)) l)) = sort_by key l.
Proof.
  induction l as [|a l IH]; cbn; auto. rewrite <- IH.
  generalize (sort_by fst (map (fun b => (key b, b)) l)) (sort_by_perm fst (map (fun b => (key b, b)) l)).
  intros s P.
  assert (G : Forall (fun p => fst p = key (snd p)) s).
  { apply Forall_forall. intros p Hp. eapply Permutation_in in Hp; eauto.
    apply in_map_iff in Hp. destruct Hp as (b & <- & _). reflexivity. }
  clear -G. induction G as [|p s E G IH]; cbn; auto.
  rewrite E. destruct (Z.leb (key a) (key (snd p))); cbn; auto. rewrite IH; auto.
Qed.

Lemma zz_eqb_iff a b : zz_eqb a b = true <-> a = b.
Proof.
  unfold zz_eqb. destruct a, b; cbn. rewrite andb_true_iff, !Z.eqb_eq. split; [intros [-> ->]; auto|intros H; inversion H; auto].
Qed.

Lemma NoDup_map_inv' {A B C} (f : A -> B) (g : B -> C) l : NoDup (map g (map f l)) -> NoDup (map f l).
Proof. apply NoDup_map_inv. Qed.

Lemma map_some_nodup {A} (l : list A) : NoDup (map (@Some A) l) -> NoDup l.
Proof. apply NoDup_map_inv. Qed.

Section LibInit.
  Context {F : Type} {N : Num F}.

  Lemma bus_init_id r (b : bus F) : bus_init r = Ok b -> br_id r = Some (b_id b).
  Proof. unfold bus_init. intros H. inv_ok. destruct (br_id r); inv_ok; auto. Qed.
  Lemma bus_init_type r (b : bus F) : bus_init r = Ok b -> br_type r = Some (b_type b).
  Proof. unfold bus_init. intros H. inv_ok. destruct (br_type r); inv_ok; auto. Qed.

  Lemma branch_init_ends r base ids (b : branch F) : branch_init r base ids = Ok b ->
    lr_f r = Some (ln_f b) /\ lr_t r = Some (ln_t b) /\ In (ln_f b) ids /\ In (ln_t b) ids.
  Proof.
    unfold branch_init. intros H. dm; zm; cbn; auto.
  Qed.

  Definition mk_dev (base : F) (ids : list Z) (r : dev_row F) : res (device F) :=
    let* c := dev_class r in dev_init c r ids base.

  Lemma dev_init_fields c r ids base (d : device F) : dev_init c r ids base = Ok d ->
    dr_id r = Some (d_id d) /\ dr_bus r = Some (d_bus d) /\ dr_type r = Some (d_type d) /\
    In (d_bus d) ids /\ d_soc d = None.
  Proof.
    unfold dev_init. intros H. dm; zm; cbn; auto.
  Qed.
  Lemma mk_dev_fields r ids base (d : device F) : mk_dev base ids r = Ok d ->
    dr_id r = Some (d_id d) /\ dr_bus r = Some (d_bus d) /\ dr_type r = Some (d_type d) /\
    In (d_bus d) ids /\ d_soc d = None.
  Proof. unfold mk_dev. intros H. inv_ok. eapply dev_init_fields; eauto. Qed.

  (** type and class of a constructed device agree *)
  Lemma mk_dev_class r ids base (d : device F) : mk_dev base ids r = Ok d ->
    match d_type d with
    | (-1)%Z => is_load d = true
    | 0%Z => is_gen d = true
    | 1%Z => is_gen d = true
    | 2%Z => is_gen d = true
    | 3%Z => is_stor d = true
    | _ => False
    end.
  Proof.
    unfold mk_dev. intros H. inv_ok.
    pose proof (dev_init_fields _ _ _ _ _ H) as (_ & _ & Ht & _).
    unfold dev_class in H0. rewrite Ht in H0.
    assert (C : match x with CLoad => is_load d = true | CGen => is_gen d = true | CStor => is_stor d = true end).
    { unfold dev_init in H. dm; reflexivity. }
    destruct (Z.eqb_spec (d_type d) (-1)) as [E|_]; [rewrite E; inv_ok; auto|].
    destruct (zmem (d_type d) [0; 1]%Z) eqn:E1.
    - apply zmem_spec in E1. destruct E1 as [E1|[E1|[]]]; rewrite <- E1; inv_ok; auto.
    - destruct (Z.eqb_spec (d_type d) 2) as [E|_]; [rewrite E; inv_ok; auto|].
      destruct (Z.eqb_spec (d_type d) 3) as [E|_]; [rewrite E; inv_ok; auto|]. inv_ok.
  Qed.

  (** What [sim_init] builds. *)
  Record built (nw : network F) (dt lamb : F) (s : sim F) (bs : list (bus F)) (ds : list (device F)) : Prop :=
    mkBuilt {
      bt_wf : well_formed nw;
      bt_buses : mapM bus_init (nw_bus nw) = Ok bs;
      bt_devs : mapM (mk_dev (nw_base nw) (map b_id (sort_by b_id bs))) (nw_dev nw) = Ok ds;
      bt_brs : mapM (fun r => branch_init r (nw_base nw) (map b_id (sort_by b_id bs))) (nw_br nw) = Ok (sm_branches s);
      bt_Y : build_Y (sort_by b_id bs) (sm_branches s) = Ok (sm_Y s);
      bt_sbuses : sm_buses s = map (bus_with_bounds (sm_devs s)) (sort_by b_id bs);
      bt_sdevs : sm_devs s = sort_by d_id ds;
      bt_dt : sm_dt s = dt; bt_lamb : sm_lamb s = lamb; bt_base : sm_base s = nw_base nw;
      bt_state : sm_state s = None; bt_conv : sm_conv s = None;
      bt_brnodup : NoDup (map (fun b => (ln_f b, ln_t b)) (sm_branches s)) }.

  Lemma mapM_keys {A B} (f : A -> res B) (ka : A -> option Z) (kb : B -> Z) l l' :
    (forall a b, f a = Ok b -> ka a = Some (kb b)) -> mapM f l = Ok l' -> map ka l = map Some (map kb l').
  Proof.
    intros H E. apply mapM_ok in E. induction E; cbn; auto. rewrite (H x y), IHE; auto.
  Qed.

  Lemma sim_init_built nw dt lamb s : sim_init (F := F) nw dt lamb = Ok s ->
    exists bs ds, built nw dt lamb s bs ds.
  Proof.
    unfold sim_init. intros H.
    apply bind_ok in H as (u & W & H). apply bind_ok in H as (buses & Hb & H). apply bind_ok in H as (brs0 & Hr & H).
    apply bind_ok in H as (devs & Hd & H). apply bind_ok in H as (Y & HY & H). injection H as H.
    destruct u; apply check_network_iff in W.
    unfold load_buses in Hb. apply bind_ok in Hb as (db & H0 & Hb). injection Hb as Hb.
    change (foldM (fill Z.eqb bus_init b_id) (nw_bus nw) [] = Ok db) in H0.
    apply (fold_dict Z.eqb zeqb_iff) in H0. destruct H0 as (bs & Eb & Kb).
    assert (NB : NoDup (map b_id bs)).
    { apply map_some_nodup. rewrite <- (mapM_keys _ br_id b_id _ _ bus_init_id Eb). apply W. }
    cbn in Kb. rewrite (Kb NB) in Hb. rewrite sort_pairs in Hb. subst buses.
    unfold load_devices in Hd. apply bind_ok in Hd as (dd & H0 & Hd). injection Hd as Hd.
    match type of H0 with foldM ?f _ _ = _ =>
      assert (Hf : foldM f (nw_dev nw) [] = foldM (fill Z.eqb (mk_dev (nw_base nw) (map b_id (sort_by b_id bs))) d_id) (nw_dev nw) []) end.
    { clear. generalize (@nil (Z * device F)) as d0. induction (nw_dev nw) as [|r l IH]; intros d0; cbn [foldM]; auto.
      unfold fill at 1, mk_dev at 1. destruct (dev_class r); cbn; auto. destruct (dev_init _ _ _ _); cbn; auto. }
    rewrite Hf in H0. clear Hf.
    apply (fold_dict Z.eqb zeqb_iff) in H0. destruct H0 as (ds & Ed & Kd).
    assert (ND : NoDup (map d_id ds)).
    { apply map_some_nodup. rewrite <- (mapM_keys _ dr_id d_id _ _ (fun a b E => proj1 (mk_dev_fields a _ _ b E)) Ed). apply W. }
    cbn in Kd. rewrite (Kd ND) in Hd. rewrite sort_pairs in Hd. subst devs.
    unfold load_branches in Hr. apply bind_ok in Hr as (dr & H0 & Hr). injection Hr as Hr.
    match type of H0 with foldM ?f ?l _ = _ =>
      change (foldM (fill zz_eqb (fun r => branch_init r (nw_base nw) (map b_id (sort_by b_id bs))) (fun b => (ln_f b, ln_t b))) l [] = Ok dr) in H0 end.
    apply (fold_dict zz_eqb zz_eqb_iff) in H0. destruct H0 as (brs & Er & Kr).
    assert (NR : NoDup (map (fun b => (ln_f b, ln_t b)) brs)).
    { destruct W as (_ & _ & _ & _ & _ & _ & WL & _). apply pairs_nodup in WL. clear -WL Er.
      apply mapM_ok in Er. induction Er as [|r b rs brs E Er IH]; cbn; constructor.
      - apply branch_init_ends in E. destruct E as (E1 & E2 & _).
        intros I. apply in_map_iff in I. destruct I as (b' & Eq & I). inversion Eq as [[A1 A2]].
        assert (exists r', In r' rs /\ lr_f r' = Some (ln_f b') /\ lr_t r' = Some (ln_t b')).
        { clear -Er I. induction Er; cbn in I; [tauto|]. destruct I as [->|I].
          - exists x. apply branch_init_ends in H. split; [left; auto|]. tauto.
          - destruct (IHEr I) as (r' & A & B). exists r'. split; [right; auto|]; auto. }
        destruct H as (r' & I1 & I2 & I3).
        change (NoDup ((lr_f r, lr_t r) :: (lr_t r, lr_f r) :: pairs_of rs)) in WL.
        inversion WL; subst. apply H1. right. apply pairs_in. exists r'. split; auto. left. congruence.
      - apply IH. change (NoDup ((lr_f r, lr_t r) :: (lr_t r, lr_f r) :: pairs_of rs)) in WL.
        inversion WL; subst. inversion H2; auto. }
    cbn in Kr. rewrite (Kr NR) in Hr. rewrite map_map in Hr. cbn in Hr. rewrite map_id in Hr. subst brs0 s.
    exists bs, ds. constructor; cbn; auto.
  Qed.

  Section Built.
    Context {nw : network F} {dt lamb : F} {s : sim F} {bs : list (bus F)} {ds : list (device F)}
            (B : built nw dt lamb s bs ds).

    Lemma bt_bus_nodup : NoDup (map b_id bs).
    Proof.
      apply map_some_nodup. rewrite <- (mapM_keys _ br_id b_id _ _ bus_init_id (bt_buses _ _ _ _ _ _ B)). apply (bt_wf _ _ _ _ _ _ B).
    Qed.
    Lemma bt_dev_nodup : NoDup (map d_id ds).
    Proof.
      apply map_some_nodup.
      rewrite <- (mapM_keys _ dr_id d_id _ _ (fun a b E => proj1 (mk_dev_fields a _ _ b E)) (bt_devs _ _ _ _ _ _ B)).
      apply (bt_wf _ _ _ _ _ _ B).
    Qed.
    Lemma bt_bus_ids : map b_id (sm_buses s) = map b_id (sort_by b_id bs).
    Proof. rewrite (bt_sbuses _ _ _ _ _ _ B), map_map. reflexivity. Qed.
    Lemma bt_bus_sorted : Sorted Z.lt (map b_id (sm_buses s)).
    Proof.
      rewrite bt_bus_ids. apply sorted_le_lt; [apply sort_by_sorted|].
      eapply Permutation_NoDup; [|apply bt_bus_nodup]. apply Permutation_map, Permutation_sym, sort_by_perm.
    Qed.
    Lemma bt_dev_sorted : Sorted Z.lt (map d_id (sm_devs s)).
    Proof.
      rewrite (bt_sdevs _ _ _ _ _ _ B). apply sorted_le_lt; [apply sort_by_sorted|].
      eapply Permutation_NoDup; [|apply bt_dev_nodup]. apply Permutation_map, Permutation_sym, sort_by_perm.
    Qed.
    Lemma bt_dev_in d : In d (sm_devs s) <-> In d ds.
    Proof.
      rewrite (bt_sdevs _ _ _ _ _ _ B). split; apply Permutation_in; [|apply Permutation_sym]; apply sort_by_perm.
    Qed.
    Lemma bt_dev_row d : In d (sm_devs s) ->
      exists r, In r (nw_dev nw) /\ mk_dev (nw_base nw) (map b_id (sm_buses s)) r = Ok d.
    Proof.
      rewrite bt_dev_in. rewrite bt_bus_ids. pose proof (bt_devs _ _ _ _ _ _ B) as E. apply mapM_ok in E.
      intros I. destruct (Forall2_in_r _ _ _ _ E I) as (r & ? & ?). eauto.
    Qed.
    Lemma bt_dev_row_inv r : In r (nw_dev nw) ->
      exists d, In d (sm_devs s) /\ mk_dev (nw_base nw) (map b_id (sm_buses s)) r = Ok d.
    Proof.
      rewrite bt_bus_ids. pose proof (bt_devs _ _ _ _ _ _ B) as E. apply mapM_ok in E.
      intros I. destruct (Forall2_in_l _ _ _ _ E I) as (d & A & C). exists d. split; auto. apply bt_dev_in; auto.
    Qed.
    Lemma bt_br_row b : In b (sm_branches s) ->
      exists r, In r (nw_br nw) /\ branch_init r (nw_base nw) (map b_id (sm_buses s)) = Ok b.
    Proof.
      rewrite bt_bus_ids. pose proof (bt_brs _ _ _ _ _ _ B) as E. apply mapM_ok in E.
      intros I. destruct (Forall2_in_r _ _ _ _ E I) as (r & ? & ?). eauto.
    Qed.
    Lemma bt_bus_row b : In b (sm_buses s) ->
      exists r b0, In r (nw_bus nw) /\ bus_init r = Ok b0 /\ b = bus_with_bounds (sm_devs s) b0.
    Proof.
      rewrite (bt_sbuses _ _ _ _ _ _ B). intros I. apply in_map_iff in I. destruct I as (b0 & <- & I).
      assert (I' : In b0 bs) by (eapply Permutation_in; [apply sort_by_perm|eauto]).
      pose proof (bt_buses _ _ _ _ _ _ B) as E. apply mapM_ok in E.
      destruct (Forall2_in_r _ _ _ _ E I') as (r & A & C). exists r, b0. auto.
    Qed.
    Lemma bt_bus_row_inv r : In r (nw_bus nw) ->
      exists b0, bus_init r = Ok b0 /\ In (bus_with_bounds (sm_devs s) b0) (sm_buses s).
    Proof.
      intros I. pose proof (bt_buses _ _ _ _ _ _ B) as E. apply mapM_ok in E.
      destruct (Forall2_in_l _ _ _ _ E I) as (b & A & C). exists b. split; auto.
      rewrite (bt_sbuses _ _ _ _ _ _ B). apply in_map. eapply Permutation_in; [apply Permutation_sym, sort_by_perm|auto].
    Qed.
    Lemma bt_br_row_inv r : In r (nw_br nw) ->
      exists b, In b (sm_branches s) /\ branch_init r (nw_base nw) (map b_id (sm_buses s)) = Ok b.
    Proof.
      rewrite bt_bus_ids. pose proof (bt_brs _ _ _ _ _ _ B) as E. apply mapM_ok in E.
      intros I. destruct (Forall2_in_l _ _ _ _ E I) as (d & A & C). exists d. auto.
    Qed.
  End Built.
End LibInit.
