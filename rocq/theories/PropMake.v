(** C75: when a simulator can be constructed from a network file. *)
From Coq Require Import Reals Lra Permutation Sorted.
From Verif Require Import Base Num NumXR Devices BusBranch CheckNetwork LoadFlow Simulator LibBase LibNum LibXR LibEval
  SpecNet ProofNet LibInit SpecDev ProofDev ProofY ExNet.
Local Open Scope list_scope.
Set Bullet Behavior "Strict Subproofs".

Section Make.
  Context {F : Type} {N : Num F}.

  Definition square (n : nat) (Y : list (list (cplx F))) : Prop := List.length Y = n /\ Forall (fun r => List.length r = n) Y.
  Lemma Forall_set {A} (P : A -> Prop) l i v : Forall P l -> P v -> Forall P (list_set l i v).
  Proof. intros H Hv. revert i. induction H; intros i; cbn; [constructor|]. destruct i; constructor; auto. Qed.
  Lemma mset_total n Y i j f : square n Y -> (0 <= i < Z.of_nat n)%Z -> (0 <= j < Z.of_nat n)%Z -> exists Y', mset Y i j f = Ok Y' /\ square n Y'.
  Proof.
    intros (L & Fa) Hi Hj. unfold mset, py_index. rewrite L.
    replace ((0 <=? i) && (i <? Z.of_nat n))%Z with true by (symmetry; apply andb_true_intro; split; [apply Z.leb_le|apply Z.ltb_lt]; lia).
    replace ((0 <=? j) && (j <? Z.of_nat n))%Z with true by (symmetry; apply andb_true_intro; split; [apply Z.leb_le|apply Z.ltb_lt]; lia).
    destruct (nth_error Y (Z.to_nat i)) as [row|] eqn:E; [|exfalso; apply nth_error_None in E; lia].
    rewrite Forall_forall in Fa. pose proof (Fa _ (nth_error_In _ _ E)) as Lr.
    destruct (nth_error row (Z.to_nat j)) as [x|] eqn:E'; [|exfalso; apply nth_error_None in E'; lia].
    eexists. split; [reflexivity|]. split; [rewrite list_set_length; auto|]. apply Forall_set; [apply Forall_forall; auto|]. rewrite list_set_length. auto.
  Qed.
  Lemma add_total n Y br : square n Y -> (0 <= ln_f br < Z.of_nat n)%Z -> (0 <= ln_t br < Z.of_nat n)%Z -> exists Y', y_add_branch Y br = Ok Y' /\ square n Y'.
  Proof.
    intros S Hf Ht. unfold y_add_branch.
    match goal with |- context [mset Y ?i ?j ?f] => destruct (mset_total n Y i j f S Hf Ht) as (Y1 & -> & S1) end. cbn [bind].
    match goal with |- context [mset Y1 ?i ?j ?f] => destruct (mset_total n Y1 i j f S1 Ht Hf) as (Y2 & -> & S2) end. cbn [bind].
    match goal with |- context [mset Y2 ?i ?j ?f] => destruct (mset_total n Y2 i j f S2 Hf Hf) as (Y3 & -> & S3) end. cbn [bind].
    apply mset_total; auto.
  Qed.
  Lemma build_total (bs : list (bus F)) brs : bs <> [] -> (forall b, In b bs -> 0 <= b_id b)%Z ->
    (forall l, In l brs -> In (ln_f l) (map b_id bs) /\ In (ln_t l) (map b_id bs)) -> exists Y, build_Y bs brs = Ok Y.
  Proof.
    intros Ne Nn En. unfold build_Y. destruct (map b_id bs) as [|i l] eqn:E; [destruct bs; [congruence|discriminate]|].
    destruct (fold_max l i) as (M1 & M2). set (m := fold_left Z.max l i) in *.
    assert (Ids : forall k, In k (i :: l) -> (0 <= k <= m)%Z).
    { intros k I. split; [|destruct I as [<-|I]; auto]. rewrite <- E in I. apply in_map_iff in I as (b & <- & Ib). auto. }
    pose proof (Ids i (or_introl eq_refl)) as Hi. replace (m + 1 <? 0)%Z with false by (symmetry; apply Z.ltb_ge; lia).
    set (n := Z.to_nat (m + 1)). assert (S : square n (repeat (repeat c0 n) n)).
    { split; [apply repeat_length|]. apply Forall_forall. intros r I. apply repeat_spec in I. subst r. apply repeat_length. }
    revert S. generalize (repeat (repeat (c0 : cplx F) n) n) as Y. induction brs as [|br brs IH]; intros Y S; [exists Y; reflexivity|]. cbn [foldM].
    destruct (En br (or_introl eq_refl)) as (If & It). apply Ids in If, It.
    destruct (add_total n Y br S) as (Y' & -> & S'); [subst n; lia|subst n; lia|]. cbn [bind]. apply IH; auto. intros l' I. apply En. right. auto.
  Qed.

  Lemma load_ok {A B} (f : A -> res B) (key : B -> Z) rows bs : mapM f rows = Ok bs -> NoDup (map key bs) ->
    foldM (fill Z.eqb f key) rows [] = Ok (map (fun b => (key b, b)) bs).
  Proof.
    intros E ND. pose proof (fold_dict_ok Z.eqb f key rows []) as K. rewrite E in K. destruct (foldM _ rows []) as [d|] eqn:Ed; [|discriminate K].
    destruct (fold_dict Z.eqb zeqb_iff f key rows [] d Ed) as (bs' & E' & K'). rewrite E in E'. injection E' as <-. rewrite K' by exact ND. reflexivity.
  Qed.

  (** Construction succeeds exactly when the network conditions hold and every row is accepted on its own. *)
  Lemma sim_init_iff (nw : network F) dt lamb : (forall r i, In r (nw_bus nw) -> br_id r = Some i -> (0 <= i)%Z) ->
    ((exists s, sim_init nw dt lamb = Ok s) <->
     well_formed nw /\ exists bs, mapM bus_init (nw_bus nw) = Ok bs /\
       is_ok (mapM (fun r => branch_init r (nw_base nw) (map b_id (sort_by b_id bs))) (nw_br nw)) = true /\
       is_ok (mapM (mk_dev (nw_base nw) (map b_id (sort_by b_id bs))) (nw_dev nw)) = true).
  Proof.
    intros Nn. split.
    - intros (s & H). destruct (sim_init_built _ _ _ _ H) as (bs & ds & B). split; [apply (bt_wf _ _ _ _ _ _ B)|]. exists bs.
      split; [apply (bt_buses _ _ _ _ _ _ B)|]. rewrite (bt_brs _ _ _ _ _ _ B), (bt_devs _ _ _ _ _ _ B). auto.
    - intros (W & bs & Eb & Er & Ed). unfold sim_init. rewrite (proj2 (check_network_iff nw) W). cbn [bind].
      assert (NB : NoDup (map b_id bs)).
      { apply map_some_nodup. rewrite <- (mapM_keys _ br_id b_id _ _ bus_init_id Eb). apply W. }
      assert (Lb : load_buses (nw_bus nw) = Ok (sort_by b_id bs)).
      { unfold load_buses. change (foldM _ (nw_bus nw) []) with (foldM (fill Z.eqb bus_init b_id) (nw_bus nw) []). rewrite (load_ok _ _ _ _ Eb NB). cbn [bind]. rewrite sort_pairs. reflexivity. }
      rewrite Lb. cbn [bind]. set (ids := map b_id (sort_by b_id bs)) in *.
      destruct (mapM (fun r => branch_init r (nw_base nw) ids) (nw_br nw)) as [brs|] eqn:Eb2; [|discriminate Er].
      destruct (mapM (mk_dev (nw_base nw) ids) (nw_dev nw)) as [ds|] eqn:Ed2; [|discriminate Ed].
      unfold load_branches.
      change (foldM _ (nw_br nw) []) with (foldM (fill zz_eqb (fun r => branch_init r (nw_base nw) ids) (fun b => (ln_f b, ln_t b))) (nw_br nw) []).
      pose proof (fold_dict_ok zz_eqb (fun r => branch_init r (nw_base nw) ids) (fun b => (ln_f b, ln_t b)) (nw_br nw) []) as K. rewrite Eb2 in K.
      destruct (foldM (fill zz_eqb _ _) (nw_br nw) []) as [dr|] eqn:Edr; [|discriminate K]. cbn [bind].
      assert (Inb : forall l, In l (map snd dr) -> In l brs).
      { clear -Edr Eb2. revert Edr. assert (G : forall rows brs0 d0 d, mapM (fun r => branch_init r (nw_base nw) ids) rows = Ok brs0 ->
          foldM (fill zz_eqb (fun r => branch_init r (nw_base nw) ids) (fun b => (ln_f b, ln_t b))) rows d0 = Ok d -> forall l, In l (map snd d) -> In l (map snd d0) \/ In l brs0).
        { induction rows as [|r rows IH]; intros brs0 d0 d E1 E2 l I; cbn [foldM mapM] in *; [inv_ok; auto|].
          apply bind_ok in E1 as (b & B1 & E1). apply bind_ok in E1 as (bs' & B2 & E1). injection E1 as <-.
          unfold fill in E2 at 1. rewrite B1 in E2. cbn [bind] in E2. destruct (IH _ _ _ B2 E2 l I) as [J|J]; [|right; right; auto].
          assert (Q : forall d0, In l (map snd (dset zz_eqb d0 (ln_f b, ln_t b) b)) -> In l (map snd d0) \/ l = b).
          { clear. induction d0 as [|(k, v) d0 IH]; cbn; [intros [H|[]]; auto|]. destruct (zz_eqb _ _); cbn; intros [H|H]; auto. destruct (IH H); auto. }
          destruct (Q _ J) as [J'| ->]; [auto|right; left; auto]. }
        intros Edr l I. destruct (G _ _ _ _ Eb2 Edr l I) as [J|J]; [destruct J|auto]. }
      assert (ND : NoDup (map d_id ds)).
      { apply map_some_nodup. rewrite <- (mapM_keys _ dr_id d_id _ _ (fun a b E => proj1 (mk_dev_fields a _ _ b E)) Ed2). apply W. }
      assert (Ld : load_devices (nw_dev nw) (nw_base nw) ids = Ok (sort_by d_id ds)).
      { unfold load_devices. match goal with |- context [foldM ?f _ _] => assert (Hf : forall l d0, foldM f l d0 = foldM (fill Z.eqb (mk_dev (nw_base nw) ids) d_id) l d0) end.
        { clear. induction l as [|r l IH]; intros d0; cbn [foldM]; auto. unfold fill at 1, mk_dev at 1. destruct (dev_class r); cbn; auto. destruct (dev_init _ _ _ _); cbn; auto. }
        rewrite Hf, (load_ok _ _ _ _ Ed2 ND). cbn [bind]. rewrite sort_pairs. reflexivity. }
      rewrite Ld. cbn [bind].
      assert (P : Permutation (sort_by b_id bs) bs) by apply sort_by_perm.
      destruct (build_total (sort_by b_id bs) (map snd dr)) as (Y & ->).
      + intros Z. rewrite Z in P. apply Permutation_nil in P. subst bs. destruct W as (_ & W & _). destruct W as (l1 & a & l2 & W & _). rewrite W in Eb. cbn in Eb.
        destruct l1; cbn in Eb; [destruct (bus_init a); [destruct (mapM bus_init l2)|]; discriminate Eb|].
        destruct (bus_init b); [|discriminate]. cbn in Eb. destruct (mapM bus_init _); discriminate Eb.
      + intros b Ib. eapply Permutation_in in Ib; [|exact P]. apply mapM_ok in Eb. destruct (Forall2_in_r _ _ _ _ Eb Ib) as (r & Ir & E). eapply Nn; [exact Ir|apply bus_init_id; auto].
      + intros l I. apply Inb in I. apply mapM_ok in Eb2. destruct (Forall2_in_r _ _ _ _ Eb2 I) as (r & Ir & E). apply branch_init_ends in E. fold ids. tauto.
      + cbn [bind]. eauto.
  Qed.
End Make.

(** ---- specification ---- *)
(** the bus IDs that a file lists *)
Definition file_ids {F} (nw : network F) : list Z := flat_map (fun r => match br_id r with Some i => [i] | None => [] end) (nw_bus nw).
(** every number of the file is an ordinary number *)
Definition file_fin (nw : network XR) : Prop :=
  fin (nw_base nw) /\ Forall bus_row_fin (nw_bus nw) /\ Forall dev_row_fin (nw_dev nw) /\ Forall branch_row_fin (nw_br nw).
(** the rules of the documentation on the file as a whole and on each of its rows; [b] is baseMVA and PMAX of loads is left unscaled (see C12) *)
Definition file_valid (nw : network XR) (b : R) : Prop :=
  well_formed nw /\ Forall bus_valid (nw_bus nw) /\ Forall (fun r => branch_valid r (file_ids nw)) (nw_br nw) /\
  Forall (fun r => dev_valid r (file_ids nw) b 1) (nw_dev nw).

Lemma mapM_is_ok {A B} (f : A -> res B) l : is_ok (mapM f l) = true <-> Forall (fun a => okp (f a)) l.
Proof.
  induction l as [|a l IH]; cbn; [split; auto|]. split.
  - destruct (f a) eqn:E; cbn; [|discriminate]. destruct (mapM f l) eqn:E'; cbn; [|discriminate]. intros _. constructor; [rewrite E; eexists; eauto|apply IH; auto].
  - inversion 1 as [|? ? (b & E) H2]; subst. rewrite E. cbn. apply IH in H2. destruct (mapM f l); auto.
Qed.
Lemma ids_agree (rows : list (bus_row XR)) bs : mapM bus_init rows = Ok bs ->
  map b_id bs = flat_map (fun r => match br_id r with Some i => [i] | None => [] end) rows.
Proof.
  intros E. apply mapM_ok in E. induction E as [|r b rows bs E H IH]; cbn; auto. rewrite (bus_init_id _ _ E). cbn. congruence.
Qed.
Lemma dev_valid_ids r ids ids' b s : (forall i, In i ids <-> In i ids') -> dev_valid r ids b s <-> dev_valid r ids' b s.
Proof. intros H. unfold dev_valid, row_ident. setoid_rewrite H. reflexivity. Qed.
Lemma branch_valid_ids r ids ids' : (forall i, In i ids <-> In i ids') -> branch_valid r ids <-> branch_valid r ids'.
Proof. intros H. unfold branch_valid. setoid_rewrite H. reflexivity. Qed.

(** C75: a simulator is built from a file of ordinary numbers with non-negative bus IDs exactly when the file is valid, whatever the time step and the
    penalty weight. *)
Theorem C75_constructed_iff_valid : forall (nw : network XR) (b : R) (dt lamb : XR),
  nw_base nw = Fin b -> file_fin nw -> Forall (fun i => 0 <= i)%Z (file_ids nw) ->
  ((exists s, sim_init nw dt lamb = Ok s) <-> file_valid nw b).
Proof.
  intros nw b dt lamb Eb (_ & Fb & Fd & Fr) Nn. rewrite sim_init_iff.
  2:{ intros r i I E. rewrite Forall_forall in Nn. apply Nn. unfold file_ids. apply in_flat_map. exists r. rewrite E. cbn; auto. }
  unfold file_valid. rewrite Eb.
  assert (Pb : well_formed nw -> (0 < b)%R).
  { intros (W & _). unfold rule_base in W. rewrite Eb in W. cbn [nleb XRnum xleb n0] in W. apply Rleb_false in W. auto. }
  assert (K : forall bs, mapM bus_init (nw_bus nw) = Ok bs -> forall i, In i (map b_id (sort_by b_id bs)) <-> In i (file_ids nw)).
  { intros bs E i. unfold file_ids. rewrite <- (ids_agree _ _ E). split; apply Permutation_in, Permutation_map; [|symmetry]; apply sort_by_perm. }
  assert (Hb : okp (mapM bus_init (nw_bus nw)) <-> Forall bus_valid (nw_bus nw)).
  { transitivity (is_ok (mapM bus_init (nw_bus nw)) = true); [unfold okp; destruct (mapM bus_init (nw_bus nw)); cbn; split; intros HH; eauto; [destruct HH as (? & HH)|]; discriminate HH|].
    rewrite mapM_is_ok. clear -Fb. induction Fb as [|r l Hr Fb IH]; [split; constructor|]. split; intros HH; inversion HH; subst; constructor; try (apply bus_init_iff; auto); apply IH; auto. }
  split.
  - intros (W & bs & E & Er & Ed). specialize (K _ E). pose proof (Pb W) as Hp. split; auto. split; [apply Hb; eexists; eauto|].
    apply mapM_is_ok in Er, Ed. rewrite !Forall_forall in *. split; intros r I.
    + apply (branch_valid_ids _ _ _ K), (branch_init_iff b Hp); auto.
    + apply (dev_valid_ids _ _ _ _ _ K), dev_valid_iff; auto. apply mk_dev_okp. auto.
  - intros (W & V1 & V2 & V3). apply Hb in V1 as (bs & E). specialize (K _ E). pose proof (Pb W) as Hp. split; auto. exists bs. split; auto.
    rewrite !mapM_is_ok, !Forall_forall. rewrite !Forall_forall in *. split; intros r I.
    + apply (branch_init_iff b Hp); auto. apply (branch_valid_ids _ _ _ K). auto.
    + apply mk_dev_okp, dev_valid_iff; auto. apply (dev_valid_ids _ _ _ _ _ K). auto.
Qed.

(** Without the condition on the IDs neither direction of use is safe: a valid file whose bus IDs are 0 and -1 is accepted, but its admittance matrix has one
    row for two buses; one whose IDs are all below -1 is refused with ValueError. *)
Definition neg_nw (i j : Z) : network XR := mkNet (Fin 10)
  [mkBusRow (Some i) (Some 0%Z) (cell 132) (cell 1) (cell 1); mkBusRow (Some j) (Some 1%Z) (cell 33) (cell (11/10)) (cell (4/10))]
  [mkDevRow (Some 0%Z) (Some i) (Some 0%Z) None (cell 200) (cell (-200)) (cell 200) (cell (-200)) None None None None None None None]
  [mkBranchRow (Some i) (Some j) (cell 1) (cell 0) (cell 0) (cell 20) (cell 1) (cell 0)].
Ltac rows_fin := repeat first [apply Forall_nil | apply Forall_cons]; cbn; try (intros v Ev; first [discriminate Ev | injection Ev as <-; eexists; reflexivity]).
Lemma neg_fin i j : file_fin (neg_nw i j).
Proof. repeat split; cbn; try (eexists; reflexivity); rows_fin. Qed.
Lemma le_fin (x y : R) : (x <= y)%R -> xle (Fin x) (Fin y).
Proof. apply xle_Fin. Qed.
Lemma lt_fin (x y : R) : (x < y)%R -> xlt (Fin x) (Fin y).
Proof. apply xlt_Fin. Qed.
Ltac xles := first [apply le_fin; lra | apply lt_fin; lra | exact I | cbn; auto; lra].
Lemma neg_rows i j : Forall bus_valid (nw_bus (neg_nw i j)) /\ Forall (fun r => branch_valid r (file_ids (neg_nw i j))) (nw_br (neg_nw i j)) /\
  Forall (fun r => dev_valid r (file_ids (neg_nw i j)) 10 1) (nw_dev (neg_nw i j)).
Proof.
  unfold neg_nw, file_ids, cell. cbn [nw_bus nw_br nw_dev flat_map br_id app]. split; [|split]; repeat first [apply Forall_nil | apply Forall_cons].
  - unfold bus_valid. cbn. repeat split; try discriminate; auto. { eexists. split; [reflexivity|xles]. }
    eexists. split; [reflexivity|]. split; [xles|auto].
  - unfold bus_valid. cbn. repeat split; try discriminate; auto. { eexists. split; [reflexivity|xles]. }
    eexists. split; [reflexivity|]. split; [xles|]. right. eexists. split; [reflexivity|]. split; xles.
  - unfold branch_valid. cbn [lr_f lr_t lr_r lr_x lr_b lr_rate lr_tap lr_shift or_else].
    split; [eexists; split; [reflexivity|cbn; auto]|]. split; [eexists; split; [reflexivity|cbn; auto]|].
    repeat split; try xles. intros (E & _). injection E. lra.
  - unfold dev_valid, row_ident. cbn [dr_id dr_bus dr_type]. split; [split; [discriminate|eexists; split; [reflexivity|cbn; auto]]|].
    right. left. split; auto. unfold gen_valid, PMIN, PPLUS, PMAX, QMIN, QMINUS, QPLUS, QMAX. cbn [dr_pmin dr_pmax dr_qmin dr_qmax dr_pplus dr_qplus dr_qminus or_else].
    split; [discriminate|]. repeat split; xles.
Qed.
Lemma neg_line i j : exists l, branch_init (mkBranchRow (Some i) (Some j) (cell 1) (cell 0) (cell 0) (cell 20) (cell 1) (cell 0)) (Fin 10) [j; i] = Ok l.
Proof.
  apply (branch_init_iff 10); [lra|rows_fin|]. destruct (neg_rows i j) as (_ & H & _). cbn in H. inversion H as [|? ? V _]; subst. revert V. apply branch_valid_ids. cbn. tauto.
Qed.
Lemma neg_dev i j : exists d, dev_init CGen (mkDevRow (Some 0%Z) (Some i) (Some 0%Z) None (cell 200) (cell (-200)) (cell 200) (cell (-200)) None None None None None None None)
  [j; i] (Fin 10) = Ok d.
Proof.
  destruct (neg_rows i j) as (_ & _ & H). cbn in H. inversion H as [|? ? V _]; subst. apply (dev_valid_ids _ _ [j; i]) in V; [|cbn; tauto].
  apply dev_valid_iff in V as (c & d & E & E'); [|lra|rows_fin]. cbn in E. injection E as <-. eauto.
Qed.
Theorem C75_negative_ids_refuted :
  (exists nw s, file_fin nw /\ file_valid nw 10 /\ sim_init nw (Fin (1/4)) (Fin 100) = Ok s /\ List.length (sm_buses s) = 2%nat /\ List.length (sm_Y s) = 1%nat) /\
  (exists nw, file_fin nw /\ file_valid nw 10 /\ sim_init nw (Fin (1/4)) (Fin 100) = Err ValueError).
Proof.
  split.
  - exists (neg_nw 0 (-1)). assert (C : check_network_specs (neg_nw 0 (-1)) = Ok tt).
    { unfold check_network_specs, neg_nw, cell. xeval. reflexivity. }
    destruct (neg_line 0 (-1)) as (l & El). destruct (neg_dev 0 (-1)) as (d & Ed).
    destruct (branch_init_ends _ _ _ _ El) as (E1 & E2 & _). cbn in E1, E2. injection E1 as E1. injection E2 as E2.
    eexists. split; [apply neg_fin|]. split; [split; [apply check_network_iff; exact C|apply neg_rows]|].
    split. 
    { unfold sim_init. rewrite C. cbn [bind]. unfold neg_nw, cell, load_buses. xeval. unfold load_branches, load_devices. cbn [foldM]. unfold cell in *. rewrite El. cbn [bind].
      match goal with |- context [dev_class ?r] => change (dev_class r) with (@Ok _ CGen) end. cbn [bind]. rewrite Ed. cbn [bind].
      cbn [dset foldM sort_by map snd]. unfold y_add_branch. rewrite <- E1, <- E2. unfold mset at 1. cbn -[cdiv cdivr cadd copp cconj]. reflexivity. }
    split; reflexivity.
  - exists (neg_nw (-2) (-3)). assert (C : check_network_specs (neg_nw (-2) (-3)) = Ok tt).
    { unfold check_network_specs, neg_nw, cell. xeval. reflexivity. }
    destruct (neg_line (-2) (-3)) as (l & El). destruct (neg_dev (-2) (-3)) as (d & Ed).
    split; [apply neg_fin|]. split; [split; [apply check_network_iff; exact C|apply neg_rows]|].
    unfold sim_init. rewrite C. cbn [bind]. unfold neg_nw, cell, load_buses. xeval. unfold load_branches, load_devices. cbn [foldM]. unfold cell in *. rewrite El. cbn [bind].
    match goal with |- context [dev_class ?r] => change (dev_class r) with (@Ok _ CGen) end. cbn [bind]. rewrite Ed. reflexivity.
Qed.
(** The network of the examples meets the hypotheses, is valid and is accepted. *)
Example C75_ex : nw_base ex_nw = Fin 10 /\ file_fin ex_nw /\ Forall (fun i => 0 <= i)%Z (file_ids ex_nw) /\ file_valid ex_nw 10 /\
  exists s, sim_init ex_nw (Fin (1/4)) (Fin 100) = Ok s.
Proof.
  assert (Ff : file_fin ex_nw). { repeat split; cbn; try (eexists; reflexivity); rows_fin. }
  assert (Nn : Forall (fun i => 0 <= i)%Z (file_ids ex_nw)). { cbn. repeat constructor; lia. }
  split; [reflexivity|]. split; [exact Ff|]. split; [exact Nn|]. split; [|eexists; exact ex_init].
  apply (C75_constructed_iff_valid ex_nw 10 (Fin (1/4)) (Fin 100) eq_refl Ff Nn). eexists. exact ex_init.
Qed.
Print Assumptions C75_constructed_iff_valid.
Print Assumptions C75_negative_ids_refuted.
