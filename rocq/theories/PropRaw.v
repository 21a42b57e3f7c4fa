(** C84: the arrays of a network file, cell by cell. *)
From Coq Require Import Reals Lra Sorted Permutation.
From Verif Require Import Base Num NumXR Devices BusBranch CheckNetwork LoadFlow Simulator RawNet SpecRaw LibBase LibNum LibXR LibEval LibInit LibSim ProofRaw ExNet.
Local Open Scope list_scope.

(** C84: a file whose IDs and types are whole numbers (or [None]) is read as the rows it writes, further columns being ignored: the constructor
    returns the same simulator, or raises the same exception.  The other theorems about construction start from rows; this one carries them over to files.
    It holds for any numbers that represent the IDs and types of the file exactly. *)
Theorem C84_written : forall (F : Type) (N : Num F) (P : Z -> Prop), exact_ints (F := F) P ->
  forall (d : rawnet F) (nw : network F) (dt lamb : F), writes d nw -> Forall P (net_ints nw) ->
  raw_init d dt lamb = sim_init nw dt lamb.
Proof.
  intros F N P HP d nw dt lamb W Hi. pose proof W as (Eb & (ab & E1 & H1) & (ad & E2 & H2) & (al & E3 & H3)).
  unfold raw_init, sim_init. rewrite (raw_check_eq P HP d nw W Hi). destruct (check_network_specs nw); [cbn [bind]|reflexivity].
  rewrite Eb, E1, E2, E3. cbn [key bind]. unfold load_buses.
  rewrite (foldM_holds bus_cells _ (fun d r => let* b := bus_init r in Ok (dset Z.eqb d (b_id b) b)) ab (nw_bus nw) [] H1).
  2: { intros w r more Ir. destruct (ints_bus P nw Hi r Ir). rewrite (raw_bus_eq P HP); auto. }
  destruct (foldM _ (nw_bus nw) []) as [bs|] eqn:Eb'; [cbn [bind]|reflexivity].
  assert (Pi : Forall P (map b_id (map snd (sort_by fst bs)))).
  { assert (G : forall p, In p bs -> P (b_id (snd p))).
    { assert (Gen : forall rows d0 d1, (forall r, In r rows -> In r (nw_bus nw)) -> (forall p, In p d0 -> P (b_id (snd p))) ->
        foldM (fun d r => let* b := bus_init r in Ok (dset Z.eqb d (b_id b) b)) rows d0 = Ok d1 -> forall p, In p d1 -> P (b_id (snd p))).
      { induction rows as [|r rows IH]; cbn [foldM]; intros d0 d1 Hr H0 E p Hp.
        - injection E as <-. auto.
        - destruct (bus_init r) as [b|] eqn:Er; [cbn [bind] in E|discriminate E]. refine (IH _ _ _ _ E p Hp); [intros; apply Hr; right; auto|].
          assert (Pb : P (b_id b)). { pose proof (bus_init_id _ _ Er) as Q. destruct (ints_bus P nw Hi r (Hr r (or_introl eq_refl))) as (Q' & _). rewrite Q in Q'. exact Q'. }
          clear -H0 Pb. intros q Hq. revert Hq H0. generalize (b_id b) at 1 as k. intros k. induction d0 as [|(k', v') d0 IH]; cbn.
          + intros [<-|[]] _. exact Pb.
          + destruct (Z.eqb k k'); cbn; intros [<-|Hq] H0; auto. }
      apply (Gen (nw_bus nw) [] bs); auto. intros p []. }
    apply Forall_forall. intros i Hin. apply in_map_iff in Hin. destruct Hin as (b & <- & Hb). apply in_map_iff in Hb. destruct Hb as (p & <- & Hp).
    apply G. eapply Permutation_in; [apply sort_by_perm|exact Hp]. }
  set (ids := map b_id (map snd (sort_by fst bs))) in *. unfold load_branches.
  rewrite (foldM_holds branch_cells _ (fun d r => let* b := branch_init r (nw_base nw) ids in Ok (dset zz_eqb d (ln_f b, ln_t b) b)) al (nw_br nw) [] H3).
  2: { intros w r more Ir. destruct (ints_br P nw Hi r Ir). rewrite (raw_branch_eq P HP); auto. }
  destruct (foldM _ (nw_br nw) []) as [brs|]; [cbn [bind]|reflexivity]. unfold load_devices.
  rewrite (foldM_holds dev_cells _ (fun d r => let* c := dev_class r in let* v := dev_init c r ids (nw_base nw) in Ok (dset Z.eqb d (d_id v) v)) ad (nw_dev nw) [] H2).
  2: { intros w r more Ir. destruct (ints_dev P nw Hi r Ir) as (? & ? & ?). rewrite (raw_dev_eq P HP); auto. destruct (dev_class r); reflexivity. }
  destruct (foldM _ (nw_dev nw) []) as [dvs|]; reflexivity.
Qed.

Lemma rtrunc_whole z : rtrunc (IZR z) = z.
Proof.
  assert (Ip : forall k, Int_part (IZR k) = k).
  { intros k. unfold Int_part. assert (E : up (IZR k) = (k + 1)%Z); [|lia]. symmetry. apply tech_up; rewrite plus_IZR; lra. }
  unfold rtrunc. destruct (Rle_dec 0 (IZR z)); [apply Ip|]. rewrite <- opp_IZR, Ip. lia.
Qed.
Lemma XR_exact_ints : exact_ints (F := XR) (fun _ => True).
Proof.
  split; [|split].
  - intros a b _ _. cbn [nofZ neqb XRnum]. destruct (Z.eqb_spec a b) as [->|n].
    + apply xeqb_t; reflexivity.
    + apply xeqb_f. intros E. apply n, eq_IZR, E.
  - intros a _. cbn [nofZ ntrunc XRnum xtrunc]. rewrite rtrunc_whole. reflexivity.
  - repeat constructor.
Qed.
(** in exact arithmetic, every whole number is one *)
Theorem C84_written_exact : forall (d : rawnet XR) (nw : network XR) (dt lamb : XR), writes d nw -> raw_init d dt lamb = sim_init nw dt lamb.
Proof. intros. apply (C84_written XR _ (fun _ => True) XR_exact_ints); auto. apply Forall_forall. auto. Qed.

(** ---- what is checked in any file ---- *)
Section Dict.
  Context {R V : Type} (f : R -> res V) (k : V -> Z).
  Let put (d : list (Z * V)) (v : V) := dset Z.eqb d (k v) v.

  Lemma fold_put rows d0 d : foldM (fun d r => let* v := f r in Ok (dset Z.eqb d (k v) v)) rows d0 = Ok d ->
    exists vs, Forall2 (fun r v => f r = Ok v) rows vs /\ d = fold_left put vs d0.
  Proof.
    revert d0. induction rows as [|r rows IH]; cbn [foldM]; intros d0 E.
    - injection E as <-. exists []. split; [constructor|reflexivity].
    - destruct (f r) as [v|] eqn:Er; [cbn [bind] in E|discriminate E]. destruct (IH _ E) as (vs & H & ->). exists (v :: vs). split; [constructor; auto|reflexivity].
  Qed.

  Lemma put_keys d v i : In i (map fst (put d v)) <-> In i (map fst d) \/ i = k v.
  Proof.
    unfold put. induction d as [|(k', v') d IH]; cbn; [intuition|].
    destruct (Z.eqb_spec (k v) k') as [E|n]; cbn; [rewrite E; intuition|]. rewrite IH. intuition.
  Qed.
  Lemma put_nodup d v : NoDup (map fst d) -> NoDup (map fst (put d v)).
  Proof.
    intros H. induction d as [|(k', v') d IH]; cbn; [repeat constructor; cbn; tauto|]. inversion H; subst. unfold put in *. cbn.
    destruct (Z.eqb_spec (k v) k') as [E|n]; cbn; [constructor; auto|]. constructor; auto. intros I. apply (put_keys d v) in I. destruct I as [I|I]; [auto|congruence].
  Qed.
  Definition keyed (d : list (Z * V)) : Prop := Forall (fun p => fst p = k (snd p)) d.
  Lemma put_keyed d v : keyed d -> keyed (put d v).
  Proof.
    intros H. unfold put. induction H as [|(k', v') d E H IH]; cbn; [repeat constructor|].
    destruct (Z.eqb_spec (k v) k') as [E'|n]; constructor; auto.
  Qed.
  Lemma put_in d v p : In p (put d v) -> In p d \/ snd p = v.
  Proof.
    unfold put. induction d as [|(k', v') d IH]; cbn; [intros [<-|[]]; auto|].
    destruct (Z.eqb (k v) k'); cbn; intros [<-|H]; auto. destruct (IH H); auto.
  Qed.
  Lemma put_get d v : In (k v, v) (put d v).
  Proof.
    unfold put. induction d as [|(k', v') d IH]; cbn; auto. destruct (Z.eqb_spec (k v) k') as [->|n]; cbn; auto.
  Qed.
  Lemma put_other d v p : In p d -> fst p <> k v -> In p (put d v).
  Proof.
    unfold put. induction d as [|(k', v') d IH]; cbn; [tauto|]. intros [<-|H] n.
    - cbn in n. destruct (Z.eqb_spec (k v) k') as [E|n']; cbn; auto. congruence.
    - destruct (Z.eqb (k v) k'); cbn; auto.
  Qed.

  Lemma puts_facts vs : forall d0, NoDup (map fst d0) -> keyed d0 -> let d := fold_left put vs d0 in
    NoDup (map fst d) /\ keyed d /\ (forall i, In i (map fst d) <-> In i (map fst d0) \/ In i (map k vs)) /\
    (forall p, In p d -> In p d0 \/ In (snd p) vs).
  Proof.
    induction vs as [|v vs IH]; cbn; intros d0 Nd Kd; [intuition|].
    destruct (IH (put d0 v) (put_nodup _ _ Nd) (put_keyed _ _ Kd)) as (A & B & C & D). repeat split; auto; intros.
    - apply C in H. rewrite put_keys in H. intuition.
    - apply C. rewrite put_keys. intuition.
    - destruct (D _ H) as [Q|Q]; auto. destruct (put_in _ _ _ Q); auto.
  Qed.

  Lemma puts_keep vs : forall d0 p, In p d0 -> ~ In (fst p) (map k vs) -> In p (fold_left put vs d0).
  Proof.
    induction vs as [|v vs IH]; cbn; intros d0 p H n; auto. apply IH; [|tauto]. apply put_other; auto.
  Qed.
  Lemma puts_last vs1 v vs2 d0 : ~ In (k v) (map k vs2) -> In (k v, v) (fold_left put (vs1 ++ v :: vs2) d0).
  Proof. intros H. rewrite fold_left_app. cbn. apply puts_keep; [apply put_get|exact H]. Qed.

  (** the objects, in the order of their IDs *)
  Lemma objects rows d : foldM (fun d r => let* v := f r in Ok (dset Z.eqb d (k v) v)) rows [] = Ok d -> let os := map snd (sort_by fst d) in
    exists vs, Forall2 (fun r v => f r = Ok v) rows vs /\ Sorted Z.lt (map k os) /\ (forall i, In i (map k os) <-> In i (map k vs)) /\
    (forall v, In v os -> In v vs) /\ (forall l v l', vs = l ++ v :: l' -> ~ In (k v) (map k l') -> In v os) /\
    (List.length os = List.length rows <-> NoDup (map k vs)).
  Proof.
    intros E os. destruct (fold_put _ _ _ E) as (vs & H & ->). exists vs. split; [exact H|].
    destruct (puts_facts vs [] (NoDup_nil _) (Forall_nil _)) as (A & B & C & D). set (d := fold_left put vs []) in *.
    assert (Pm : Permutation (sort_by fst d) d) by apply sort_by_perm.
    assert (Ks : map k os = map fst (sort_by fst d)).
    { unfold os. rewrite map_map. apply map_ext_in. intros p Hp. symmetry. eapply Permutation_in in Hp; [|exact Pm]. unfold keyed in B. rewrite Forall_forall in B. apply B, Hp. }
    assert (Pk : Permutation (map k os) (map fst d)) by (rewrite Ks; apply Permutation_map, Pm).
    assert (Nk : NoDup (map k os)) by (eapply Permutation_NoDup; [apply Permutation_sym, Pk|exact A]).
    assert (In_k : forall i, In i (map k os) <-> In i (map k vs)).
    { intros i. split; intros Q.
      - eapply Permutation_in in Q; [|exact Pk]. apply C in Q. destruct Q as [[]|Q]; auto.
      - eapply Permutation_in; [apply Permutation_sym, Pk|]. apply C. auto. }
    split; [apply sorted_le_lt; [rewrite Ks; apply sort_by_sorted|exact Nk]|]. split; [exact In_k|]. split; [|split].
    - intros v Hv. apply in_map_iff in Hv. destruct Hv as (p & <- & Hp). eapply Permutation_in in Hp; [|exact Pm]. destruct (D _ Hp) as [[]|Q]; auto.
    - intros l v l' Ev Nv. apply in_map_iff. exists (k v, v). split; auto. eapply Permutation_in; [apply Permutation_sym, Pm|]. unfold d. rewrite Ev. apply puts_last, Nv.
    - pose proof (Forall2_len _ _ _ H) as Ll. split; intros Q.
      + apply (NoDup_incl_NoDup Nk); [rewrite !map_length; lia|intros i; apply In_k].
      + assert (L : List.length (map k os) = List.length (map k vs)); [|rewrite !map_length in L; congruence].
        apply Nat.le_antisymm; apply NoDup_incl_length; auto; intros i; apply In_k.
  Qed.
End Dict.

Section Accepted.
  Context {F : Type} {N : Num F}.

  Lemma at_some (r : list (RawNet.cell F)) j c : at_ r j = Ok c -> nth_error r j = Some c.
  Proof. apply nth_res_ok. Qed.
  Lemma cell_int_cut r j c z : at_ r j = Ok c -> cell_int c = Ok z -> cell_cut (F := F) r j z.
  Proof.
    intros E H. apply at_some in E. unfold cell_int in H. destruct c as [v|]; [|discriminate H]. exists v. destruct (ntrunc v); [|discriminate H]. split; [exact E|congruence].
  Qed.
  Lemma cell_mem_is r j c ids : at_ r j = Ok c -> cell_mem c ids = true -> exists z, cell_is (F := F) r j z /\ In z ids.
  Proof.
    intros E H. apply at_some in E. destruct c as [v|]; [|discriminate H]. cbn in H. apply existsb_exists in H. destruct H as (z & Hz & Hv). exists z. split; auto. exists v. auto.
  Qed.
  Lemma cut_unique r j z z' : cell_cut (F := F) r j z -> cell_cut r j z' -> z = z'.
  Proof. intros (v & A & B) (v' & A' & B'). congruence. Qed.

  Lemma raw_bus_facts r (b : bus F) : raw_bus r = Ok b -> cell_cut r 0 (b_id b) /\ cell_cut r 1 (b_type b) /\ (b_type b = 0 \/ b_type b = 1)%Z.
  Proof.
    unfold raw_bus. intros H. destruct (at_ r 0) as [c0|] eqn:E0; [cbn [bind] in H|discriminate H]. destruct (at_ r 1) as [c1|] eqn:E1; [cbn [bind] in H|discriminate H].
    destruct (at_ r 2); [cbn [bind] in H|discriminate H]. destruct (at_ r 3); [cbn [bind] in H|discriminate H]. destruct (at_ r 4); [cbn [bind] in H|discriminate H].
    destruct (cell_int c0) as [i|] eqn:I0; [cbn [bind] in H|discriminate H]. destruct (cell_int c1) as [t|] eqn:I1; [cbn [bind] in H|discriminate H].
    pose proof (bus_init_id _ _ H) as Q. pose proof (bus_init_type _ _ H) as Q1. cbn in Q, Q1. injection Q as Q. injection Q1 as Q1. subst i t.
    split; [eapply cell_int_cut; eauto|]. split; [eapply cell_int_cut; eauto|].
    unfold bus_init in H. cbn [br_id br_type bind] in H. destruct (zmem (b_type b) [0; 1]%Z) eqn:E; [|discriminate H]. apply zmem_spec in E. cbn in E. intuition.
  Qed.

  Lemma raw_branch_facts r base ids (b : branch F) : raw_branch r base ids = Ok b -> exists f t, cell_is r 0 f /\ cell_is r 1 t /\ In f ids /\ In t ids.
  Proof.
    unfold raw_branch. intros H. destruct (at_ r 0) as [c0|] eqn:E0; [cbn [bind] in H|discriminate H]. destruct (at_ r 1) as [c1|] eqn:E1; [cbn [bind] in H|discriminate H].
    destruct (at_ r 2); [cbn [bind] in H|discriminate H]. destruct (at_ r 3); [cbn [bind] in H|discriminate H]. destruct (at_ r 4); [cbn [bind] in H|discriminate H].
    destruct (at_ r 5); [cbn [bind] in H|discriminate H]. destruct (at_ r 6); [cbn [bind] in H|discriminate H]. destruct (at_ r 7); [cbn [bind] in H|discriminate H].
    destruct (cell_mem c0 ids) eqn:M0; [|discriminate H]. destruct (cell_int c0); [cbn [bind] in H|discriminate H]. destruct (cell_mem c1 ids) eqn:M1; [|discriminate H].
    destruct (cell_mem_is _ _ _ _ E0 M0) as (f & A & B). destruct (cell_mem_is _ _ _ _ E1 M1) as (t & C & D). exists f, t. auto.
  Qed.

  Lemma dev_init_id c r ids base (v : device F) : dev_init c r ids base = Ok v -> dr_id r = Some (d_id v).
  Proof.
    unfold dev_init. intros H. destruct (dr_id r); [cbn [bind] in H|discriminate H]. destruct (dr_bus r); [|discriminate H]. destruct (zmem z0 ids); [cbn [bind] in H|discriminate H].
    destruct (dr_type r); [|discriminate H]. destruct (zmem z1 _); [cbn [bind] in H|discriminate H].
    destruct c; [destruct (load_check _ _ _)|destruct (gen_check _ _ _)|destruct (stor_check _ _)]; cbn [bind] in H; try discriminate H; injection H as <-; reflexivity.
  Qed.

  Lemma raw_dev_facts r base ids (v : device F) : raw_dev r ids base = Ok v ->
    cell_cut r 0 (d_id v) /\ exists b t, cell_is r 1 b /\ In b ids /\ cell_is r 2 t /\ In t [-1; 0; 1; 2; 3]%Z.
  Proof.
    unfold raw_dev. intros H. destruct (at_ r 0) as [c0|] eqn:E0; [cbn [bind] in H|discriminate H]. destruct (at_ r 1) as [c1|] eqn:E1; [cbn [bind] in H|discriminate H].
    destruct (at_ r 2) as [c2|] eqn:E2; [cbn [bind] in H|discriminate H].
    do 12 (match type of H with bind ?a _ = _ => destruct a; [cbn [bind] in H|discriminate H] end).
    destruct (cell_int c2) as [t|] eqn:I2; [cbn [bind] in H|discriminate H]. destruct (raw_class t) as [c|]; [cbn [bind] in H|discriminate H].
    destruct c0 as [v0|]; [|discriminate H]. destruct (cell_int (Some v0)) as [i|] eqn:I0; [cbn [bind] in H|discriminate H].
    destruct (cell_mem c1 ids) eqn:M1; [|discriminate H]. destruct (cell_int c1) as [b|]; [cbn [bind] in H|discriminate H].
    destruct (cell_mem c2 [-1; 0; 1; 2; 3]%Z) eqn:M2; [|discriminate H]. cbn [bind] in H.
    pose proof (dev_init_id _ _ _ _ _ H) as Q. cbn in Q. injection Q as ->. split; [eapply cell_int_cut; eauto|].
    destruct (cell_mem_is _ _ _ _ E1 M1) as (z1 & A & B). destruct (cell_mem_is _ _ _ _ E2 M2) as (z2 & C & D). exists z1, z2. auto.
  Qed.

  Lemma same_keys {R V} (f : R -> res V) (cut : R -> Z -> Prop) (k : V -> Z) rws vs : Forall2 (fun r v => f r = Ok v) rws vs ->
    (forall r v, f r = Ok v -> cut r (k v)) -> (forall r z z', cut r z -> cut r z' -> z = z') ->
    Forall2 cut rws (map k vs) /\ (forall i, In i (map k vs) <-> exists r, In r rws /\ cut r i).
  Proof.
    intros H Hk Hu. split; [induction H; cbn; constructor; auto|]. intros i. split.
    - intros Hin. apply in_map_iff in Hin. destruct Hin as (v & <- & Hv). destruct (Forall2_in_r _ _ _ _ H Hv) as (r & Hr & E). eauto.
    - intros (r & Hr & Hc). destruct (Forall2_in_l _ _ _ _ H Hr) as (v & Hv & E). apply in_map_iff. exists v. split; auto. eapply Hu; eauto.
  Qed.
End Accepted.

(** C84: what construction has checked of any accepted file, whatever its cells.  The ends of the branches, the buses of the devices and the types of the
    devices are whole numbers that name what they should.  The IDs of buses and devices, and the types of buses, are only cut to whole numbers: the objects
    are those of the cut IDs, in increasing order, and there is one object per row exactly when the cut IDs differ. *)
Theorem C84_accepted : forall (F : Type) (N : Num F) (d : rawnet F) (dt lamb : F) (s : sim F), raw_init d dt lamb = Ok s ->
  let buses := map b_id (sm_buses s) in let devs := map d_id (sm_devs s) in
  (forall r, In r (rows (rn_br d)) -> exists f t, cell_is r 0 f /\ cell_is r 1 t /\ In f buses /\ In t buses) /\
  (forall r, In r (rows (rn_dev d)) -> exists b t, cell_is r 1 b /\ In b buses /\ cell_is r 2 t /\ In t [-1; 0; 1; 2; 3]%Z) /\
  (forall r, In r (rows (rn_bus d)) -> exists t, cell_cut r 1 t /\ (t = 0 \/ t = 1)%Z) /\
  Sorted Z.lt buses /\ (forall i, In i buses <-> exists r, In r (rows (rn_bus d)) /\ cell_cut r 0 i) /\
  Sorted Z.lt devs /\ (forall i, In i devs <-> exists r, In r (rows (rn_dev d)) /\ cell_cut r 0 i) /\
  (exists cut, Forall2 (fun r i => cell_cut r 0 i) (rows (rn_bus d)) cut /\ (List.length (sm_buses s) = List.length (rows (rn_bus d)) <-> NoDup cut)) /\
  (exists cut, Forall2 (fun r i => cell_cut r 0 i) (rows (rn_dev d)) cut /\ (List.length (sm_devs s) = List.length (rows (rn_dev d)) <-> NoDup cut)).
Proof.
  intros F N d dt lamb s H. unfold raw_init in H. destruct (raw_check d); [cbn [bind] in H|discriminate H].
  destruct (key (rn_base d)) as [base|]; [cbn [bind] in H|discriminate H]. destruct base as [base|]; [cbn [bind] in H|discriminate H].
  destruct (rn_bus d) as [ab|]; [cbn [key bind] in H|discriminate H].
  destruct (foldM _ ab []) as [bs|] eqn:Eb; [cbn [bind] in H|discriminate H]. set (bl := map snd (sort_by fst bs)) in *. set (ids := map b_id bl) in *.
  destruct (rn_br d) as [al|]; [cbn [key bind] in H|discriminate H]. destruct (foldM _ al []) as [brs|] eqn:El; [cbn [bind] in H|discriminate H].
  destruct (rn_dev d) as [ad|]; [cbn [key bind] in H|discriminate H]. destruct (foldM _ ad []) as [dvs|] eqn:Ed; [cbn [bind] in H|discriminate H].
  set (dl := map snd (sort_by fst dvs)) in *. destruct (build_Y bl (map snd brs)) as [Y|]; [cbn [bind] in H|discriminate H]. injection H as <-.
  cbn [sm_buses sm_devs]. assert (Ei : map b_id (map (bus_with_bounds dl) bl) = ids). { rewrite map_map. reflexivity. } rewrite Ei. rewrite map_length. cbn [rows].
  destruct (objects _ b_id _ _ Eb) as (vb & Fb & Sb & Kb & _ & _ & Lb). fold bl ids in Sb, Kb, Lb.
  destruct (objects _ d_id _ _ Ed) as (vd & Fd & Sd & Kd & _ & _ & Ld). fold dl in Sd, Kd, Ld.
  destruct (same_keys _ (fun r z => cell_cut r 0 z) b_id ab vb Fb) as (Cb & Cb').
  { intros r v E. apply raw_bus_facts in E. tauto. } { intros r z z'. apply cut_unique. }
  destruct (same_keys _ (fun r z => cell_cut r 0 z) d_id ad vd Fd) as (Cd & Cd').
  { intros r v E. apply raw_dev_facts in E. tauto. } { intros r z z'. apply cut_unique. }
  split; [|split; [|split; [|split; [|split; [|split; [|split; [|split]]]]]]].
  - intros r Hr. assert (G : exists b, raw_branch r base ids = Ok b).
    { assert (Gen : forall l d0 d1, foldM (fun d r => let* b := raw_branch r base ids in Ok (dset zz_eqb d (ln_f b, ln_t b) b)) l d0 = Ok d1 -> In r l -> exists b, raw_branch r base ids = Ok b).
      { induction l as [|r' l IH]; cbn; [tauto|]. intros d0 d1 E Hin. destruct (raw_branch r' base ids) as [b|] eqn:Er; [cbn [bind] in E|discriminate E]. destruct Hin as [<-|Hin]; eauto. }
      eauto. }
    destruct G as (b & E). eapply raw_branch_facts; eauto.
  - intros r Hr. destruct (Forall2_in_l _ _ _ _ Fd Hr) as (v & _ & E). apply raw_dev_facts in E. tauto.
  - intros r Hr. destruct (Forall2_in_l _ _ _ _ Fb Hr) as (v & _ & E). apply raw_bus_facts in E. exists (b_type v). tauto.
  - exact Sb.
  - intros i. rewrite <- Cb'. apply Kb.
  - exact Sd.
  - intros i. rewrite <- Cd'. apply Kd.
  - exists (map b_id vb). split; auto.
  - exists (map d_id vd). split; auto.
Qed.

(** ---- files that are accepted although a row disappears ---- *)
Local Open Scope R_scope.
Definition raw_of (nw : network XR) : rawnet XR :=
  mkRaw (Some (Some (nw_base nw))) (Some (map bus_cells (nw_bus nw))) (Some (map dev_cells (nw_dev nw))) (Some (map branch_cells (nw_br nw))).
Lemma raw_of_writes nw : writes (raw_of nw) nw.
Proof.
  assert (G : forall (R : Type) (cells : R -> list (RawNet.cell XR)) l, holds cells (map cells l) l).
  { intros R cells l. induction l; constructor; auto. exists []. rewrite app_nil_r. reflexivity. }
  repeat split; cbn; eauto.
Qed.
(** [r] with another number in column [j] *)
Definition with_cell (r : list (RawNet.cell XR)) (j : nat) (x : R) : list (RawNet.cell XR) := list_set r j (Some (Fin x)).

(** the network of the examples with a second load, of ID 1.5 *)
Definition lost_file (k : R) : rawnet XR :=
  mkRaw (Some (Some (Fin 10))) (Some (map bus_cells [ex_bus1; ex_bus0 1]))
    (Some (map dev_cells [ex_stor; ex_slack; ex_load (2/10); ex_rer] ++ [with_cell (dev_cells (ex_load k)) 0 (3/2)])) (Some (map branch_cells [ex_line])).
Lemma trunc_half : rtrunc (3/2) = 1%Z.
Proof.
  unfold rtrunc, Int_part. destruct (Rle_dec 0 (3/2)); [|lra]. assert (E : up (3/2) = 2%Z); [|rewrite E; reflexivity]. symmetry. apply tech_up; lra.
Qed.
Lemma lost_check k : raw_check (lost_file k) = Ok tt.
Proof. unfold raw_check, lost_file, with_cell, raw_pairs, column, where_zero, is_zero, cell2_eqb, cell_eqb. unfold ex_stor, ex_slack, ex_load, ex_rer, ex_line, ex_bus1, ex_bus0, ExNet.cell. xeval. reflexivity. Qed.

Lemma lost_init k : raw_init (lost_file k) (Fin (1/4)) (Fin 100) = Ok (ex_simk k 1).
Proof.
  unfold raw_init. rewrite lost_check. cbn [bind lost_file rn_base rn_bus rn_dev rn_br key].
  assert (Eb : foldM (fun d r => let* b := raw_bus r in Ok (dset Z.eqb d (b_id b) b)) (map bus_cells [ex_bus1; ex_bus0 1]) [] =
    Ok [(1%Z, exo_bus1 0 0 (xc 0 0) (xc 0 0) 0 0 0 0); (0%Z, exo_bus0 1 0 0 (xc 0 0) (xc 0 0) 0 0 0 0)]).
  { cbn [map foldM]. rewrite <- (app_nil_r (bus_cells ex_bus1)), <- (app_nil_r (bus_cells (ex_bus0 1))).
    rewrite (raw_bus_eq _ XR_exact_ints), (raw_bus_eq _ XR_exact_ints) by exact I. rewrite (ex_bus0_ok 1) by lra. rewrite ex_bus1_ok. reflexivity. }
  rewrite Eb. cbn [bind sort_by insert_by fst map snd]. clear Eb. change (map b_id _) with [0; 1]%Z.
  assert (Ft : Forall (fun _ : Z => True) [0; 1]%Z) by (repeat constructor).
  cbn [map foldM]. rewrite <- (app_nil_r (branch_cells ex_line)). rewrite (raw_branch_eq _ XR_exact_ints) by (try exact I; exact Ft). rewrite ex_line_ok. cbn [bind dset].
  cbn [app foldM].
  rewrite <- (app_nil_r (dev_cells ex_stor)), <- (app_nil_r (dev_cells ex_slack)), <- (app_nil_r (dev_cells (ex_load (2/10)))), <- (app_nil_r (dev_cells ex_rer)).
  rewrite !(raw_dev_eq _ XR_exact_ints) by (try exact I; exact Ft).
  change (dev_class ex_stor) with (Ok CStor). change (dev_class ex_slack) with (Ok CGen). change (dev_class (ex_load (2/10))) with (Ok CLoad). change (dev_class ex_rer) with (Ok CGen). cbn [bind].
  rewrite ex_stor_ok, ex_slack_ok, ex_load_ok, ex_rer_ok. cbn [bind].
  assert (El : raw_dev (with_cell (dev_cells (ex_load k)) 0 (3/2)) [0; 1]%Z (Fin 10) = Ok (exo_load k 0 0)).
  { pose proof (raw_dev_eq _ XR_exact_ints (ex_load k) [] (Fin 10) [0; 1]%Z I I I Ft) as Q. rewrite app_nil_r in Q. change (dev_class (ex_load k)) with (Ok CLoad) in Q. cbn [bind] in Q. rewrite ex_load_ok in Q.
    rewrite <- Q. unfold raw_dev, with_cell. cbn [dev_cells ex_load list_set at_ nth_res nth_error bind dr_id dr_bus dr_type].
    assert (C1 : cell_int (Some (Fin (3/2))) = Ok 1%Z) by (unfold cell_int; cbn [ntrunc XRnum xtrunc]; rewrite trunc_half; reflexivity).
    assert (C2 : cell_int (Some (nofZ (Num := XRnum) 1)) = Ok 1%Z) by (unfold cell_int; cbn [ntrunc nofZ XRnum xtrunc]; rewrite rtrunc_whole; reflexivity).
    rewrite C1. change (int_cell (Some 1%Z)) with (Some (nofZ (Num := XRnum) 1)). cbv beta iota. rewrite C2. reflexivity. }
  rewrite El. cbn [bind dset]. clear El.
  match goal with |- context [build_Y ?a ?b] => change a with [exo_bus0 1 0 0 (xc 0 0) (xc 0 0) 0 0 0 0; exo_bus1 0 0 (xc 0 0) (xc 0 0) 0 0 0 0]; change b with [exo_line (xc 0 0) (xc 0 0) 0 0 0 0 (Fin 0)] end.
  match goal with |- context [map snd (sort_by fst ?dd)] => change (map snd (sort_by fst dd)) with [exo_slack 0 0; exo_load k 0 0; exo_rer 0 0 3; exo_stor 0 0 None] end.
  rewrite ex_build_Y by reflexivity. cbn [bind]. unfold ex_simk. unfold bus_with_bounds, devs_at, d_pmin, d_pmax, d_qmin, d_qmax. xeval. unfold nsum. xeval. xunfo. xsame.
Qed.

(** The documentation asks for unique IDs.  Two loads of IDs 1 and 1.5 are accepted, and the first of them disappears: the simulator is the one of the
    file without that row. *)
Theorem C84_device_lost_refuted : exists (d : rawnet XR) (s : sim XR), raw_init d (Fin (1/4)) (Fin 100) = Ok s /\
  List.length (filter (fun r => match nth_error r 2 with Some (Some v) => neqb v (nofZ (-1)) | _ => false end) (rows (rn_dev d))) = 2%nat /\ n_load s = 1%nat /\
  List.length (rows (rn_dev d)) = 5%nat /\ n_device s = 4%nat /\
  raw_init d (Fin (1/4)) (Fin 100) = raw_init (raw_of (ex_nwk (3/10) 1)) (Fin (1/4)) (Fin 100).
Proof.
  exists (lost_file (3/10)), (ex_simk (3/10) 1). split; [apply lost_init|]. split; [|split; [reflexivity|split; [reflexivity|split; [reflexivity|]]]].
  - unfold lost_file, with_cell, ex_stor, ex_slack, ex_load, ex_rer. xeval. reflexivity.
  - rewrite lost_init. rewrite (C84_written_exact _ (ex_nwk (3/10) 1)) by apply raw_of_writes. rewrite ex_initk by lra. reflexivity.
Qed.

(** the network of the examples with bus 1 of type 0.5 *)
Definition slack2_file : rawnet XR :=
  mkRaw (Some (Some (Fin 10))) (Some [with_cell (bus_cells ex_bus1) 1 (1/2); bus_cells (ex_bus0 1)])
    (Some (map dev_cells [ex_stor; ex_slack; ex_load (2/10); ex_rer])) (Some (map branch_cells [ex_line])).
Lemma slack2_check : raw_check slack2_file = Ok tt.
Proof. unfold raw_check, slack2_file, with_cell, raw_pairs, column, where_zero, is_zero, cell2_eqb, cell_eqb. unfold ex_stor, ex_slack, ex_load, ex_rer, ex_line, ex_bus1, ex_bus0, ExNet.cell. xeval. reflexivity. Qed.
Lemma trunc_half0 : rtrunc (1/2) = 0%Z.
Proof.
  unfold rtrunc, Int_part. destruct (Rle_dec 0 (1/2)); [|lra]. assert (E : up (1/2) = 1%Z); [|rewrite E; reflexivity]. symmetry. apply tech_up; lra.
Qed.

(** The documentation asks for exactly one slack bus.  A bus of type 0.5 is not counted as one, and becomes one. *)
Theorem C84_second_slack_refuted : exists (d : rawnet XR) (s : sim XR), raw_init d (Fin (1/4)) (Fin 100) = Ok s /\
  List.length (filter (fun r => match nth_error r 1 with Some (Some v) => neqb v (nofZ 0) | _ => false end) (rows (rn_bus d))) = 1%nat /\
  List.length (filter b_slack (sm_buses s)) = 2%nat.
Proof.
  exists slack2_file. eexists. split; [|split].
  - unfold raw_init. rewrite slack2_check. cbn [bind slack2_file rn_base rn_bus rn_dev rn_br key].
    assert (Eb : raw_bus (with_cell (bus_cells ex_bus1) 1 (1/2)) = Ok (exo_bus 1 0 33 (11/10) (4/10) 0 0 (xc 0 0) (xc 0 0) 0 0 0 0)).
    { unfold raw_bus, with_cell. cbn [bus_cells ex_bus1 list_set at_ nth_res nth_error bind br_id br_type br_kv br_vmax br_vmin].
      change (int_cell (Some 1%Z)) with (Some (nofZ (Num := XRnum) 1)). unfold cell_int. cbn [ntrunc nofZ XRnum xtrunc]. rewrite rtrunc_whole, trunc_half0. cbn [bind]. unfold bus_init. xrow. }
    cbn [foldM]. rewrite Eb. rewrite <- (app_nil_r (bus_cells (ex_bus0 1))). rewrite (raw_bus_eq _ XR_exact_ints) by exact I. rewrite (ex_bus0_ok 1) by lra. cbn [bind].
    set (b1 := exo_bus 1 0 33 (11/10) (4/10) 0 0 (xc 0 0) (xc 0 0) 0 0 0 0). set (b0 := exo_bus0 1 0 0 (xc 0 0) (xc 0 0) 0 0 0 0).
    match goal with |- context [map b_id (map snd (sort_by fst ?l))] => change (map snd (sort_by fst l)) with [b0; b1] end. change (map b_id [b0; b1]) with [0; 1]%Z.
    assert (Ft : Forall (fun _ : Z => True) [0; 1]%Z) by (repeat constructor).
    cbn [map foldM]. rewrite <- (app_nil_r (branch_cells ex_line)). rewrite (raw_branch_eq _ XR_exact_ints) by (try exact I; exact Ft). rewrite ex_line_ok. cbn [bind].
    rewrite <- (app_nil_r (dev_cells ex_stor)), <- (app_nil_r (dev_cells ex_slack)), <- (app_nil_r (dev_cells (ex_load (2/10)))), <- (app_nil_r (dev_cells ex_rer)).
    rewrite !(raw_dev_eq _ XR_exact_ints) by (try exact I; exact Ft).
    change (dev_class ex_stor) with (Ok CStor). change (dev_class ex_slack) with (Ok CGen). change (dev_class (ex_load (2/10))) with (Ok CLoad). change (dev_class ex_rer) with (Ok CGen). cbn [bind].
    rewrite ex_stor_ok, ex_slack_ok, ex_load_ok, ex_rer_ok. cbn [bind].
    match goal with |- context [build_Y ?a ?b] => change b with [exo_line (xc 0 0) (xc 0 0) 0 0 0 0 (Fin 0)] end.
    rewrite ex_build_Y by reflexivity. cbn [bind]. reflexivity.
  - unfold slack2_file, with_cell, ex_bus1, ex_bus0. xeval. reflexivity.
  - reflexivity.
Qed.

(** The network of the examples, written in arrays of whole IDs, meets the hypotheses of the positive theorems and is accepted; so are the two files above,
    whose cut IDs and types collide. *)
Example C84_ex : writes (raw_of ex_nw) ex_nw /\ raw_init (raw_of ex_nw) (Fin (1/4)) (Fin 100) = Ok ex_sim0 /\
  raw_init (lost_file (3/10)) (Fin (1/4)) (Fin 100) = Ok (ex_simk (3/10) 1).
Proof.
  split; [apply raw_of_writes|]. split; [|apply lost_init]. rewrite (C84_written_exact _ ex_nw) by apply raw_of_writes. apply ex_init.
Qed.

Print Assumptions C84_written.
Print Assumptions C84_written_exact.
Print Assumptions C84_accepted.
Print Assumptions C84_device_lost_refuted.
Print Assumptions C84_second_slack_refuted.
