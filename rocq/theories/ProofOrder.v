(** The order of the rows of a network file: lemmas for C76. *)
From Coq Require Import Permutation Sorted.
From Verif Require Import Base Num Devices BusBranch CheckNetwork LoadFlow Simulator LibBase SpecNet ProofNet LibInit ProofY PropMake SpecOrder.
Local Open Scope list_scope.
Set Bullet Behavior "Strict Subproofs".

(** ---- lists ---- *)
Lemma mapM_perm {A B} (f : A -> res B) l l' : Permutation l l' -> forall r, mapM f l = Ok r -> exists r', mapM f l' = Ok r' /\ Permutation r r'.
Proof.
  induction 1 as [|x l l' P IH|x y l|l l' l'' P1 IH1 P2 IH2]; intros r E.
  - exists r. split; auto.
  - cbn [mapM] in *. apply bind_ok in E as (b & Eb & E). apply bind_ok in E as (bs & Es & E). injection E as <-.
    destruct (IH _ Es) as (r' & E' & P'). exists (b :: r'). rewrite Eb. cbn [bind]. rewrite E'. split; [reflexivity|constructor; auto].
  - cbn [mapM] in *. apply bind_ok in E as (b & Eb & E). apply bind_ok in E as (bs & Es & E). apply bind_ok in Es as (c & Ec & Es).
    apply bind_ok in Es as (cs & Es & Q). injection Q as <-. injection E as <-. exists (c :: b :: cs). rewrite Ec. cbn [bind]. rewrite Eb. cbn [bind]. rewrite Es.
    split; [reflexivity|constructor].
  - destruct (IH1 _ E) as (r1 & E1 & Q1). destruct (IH2 _ E1) as (r2 & E2 & Q2). exists r2. split; auto. eapply Permutation_trans; eauto.
Qed.

Lemma sorted_perm_eq {A} (key : A -> Z) l : forall l', Permutation l l' -> Sorted Z.lt (map key l) -> Sorted Z.lt (map key l') -> l = l'.
Proof.
  induction l as [|a l IH]; intros l' P S1 S2; [apply Permutation_nil in P; auto|].
  destruct l' as [|b l']; [apply Permutation_sym, Permutation_nil in P; discriminate|]. cbn [map] in *.
  apply Sorted_StronglySorted in S1, S2; [|intros x y z; apply Z.lt_trans..]. inversion S1 as [|? ? T1 F1]; inversion S2 as [|? ? T2 F2]; subst.
  assert (E : a = b).
  { assert (Ia : In a (b :: l')) by (eapply Permutation_in; [exact P|left; auto]).
    assert (Ib : In b (a :: l)) by (eapply Permutation_in; [apply Permutation_sym; exact P|left; auto]).
    destruct Ia as [Ia|Ia]; auto. destruct Ib as [Ib|Ib]; auto.
    rewrite Forall_forall in F1, F2. specialize (F1 (key b) (in_map key _ _ Ib)). specialize (F2 (key a) (in_map key _ _ Ia)). lia. }
  subst b. f_equal. apply IH; [eapply Permutation_cons_inv; eauto|apply StronglySorted_Sorted; auto..].
Qed.
Lemma sort_perm_eq {A} (key : A -> Z) l l' : Permutation l l' -> NoDup (map key l) -> sort_by key l = sort_by key l'.
Proof.
  intros P ND.
  assert (P1 : Permutation (map key (sort_by key l)) (map key l)) by apply Permutation_map, sort_by_perm.
  assert (P2 : Permutation (map key (sort_by key l')) (map key l)) by (apply Permutation_map; eapply Permutation_trans; [apply sort_by_perm|apply Permutation_sym; auto]).
  apply (sorted_perm_eq key).
  - eapply Permutation_trans; [apply sort_by_perm|]. eapply Permutation_trans; [exact P|]. apply Permutation_sym, sort_by_perm.
  - apply sorted_le_lt; [apply sort_by_sorted|]. eapply Permutation_NoDup; [apply Permutation_sym; exact P1|auto].
  - apply sorted_le_lt; [apply sort_by_sorted|]. eapply Permutation_NoDup; [apply Permutation_sym; exact P2|auto].
Qed.

Lemma exactly_one_perm {A} (P : A -> Prop) l l' : Permutation l l' -> exactly_one P l -> exactly_one P l'.
Proof.
  intros Pm (l1 & a & l2 & -> & Pa & Fa). assert (I : In a l') by (eapply Permutation_in; [exact Pm|apply in_elt]).
  apply in_split in I as (m1 & m2 & ->). exists m1, a, m2. split; auto. split; auto. apply Permutation_app_inv in Pm.
  rewrite Forall_forall in *. intros x Ix. apply Fa. eapply Permutation_in; [apply Permutation_sym; exact Pm|auto].
Qed.
Lemma fop_perm {A} (R : A -> A -> Prop) l l' : (forall a b, R a b -> R b a) -> Permutation l l' -> ForallOrdPairs R l -> ForallOrdPairs R l'.
Proof.
  intros Sy. induction 1 as [|x l l' P IH|x y l|l l' l'' P1 IH1 P2 IH2]; intros H; auto.
  - inversion H; subst. constructor; auto. rewrite Forall_forall in *. intros z Iz. apply H2. eapply Permutation_in; [apply Permutation_sym; exact P|auto].
  - inversion H as [|? ? F1 H1]; subst. inversion H1 as [|? ? F2 H2]; subst. inversion F1; subst. constructor; [constructor; auto|constructor; auto].
Qed.

Section Order.
  Context {F : Type} {N : Num F}.

  Lemma reordered_wf (nw nw' : network F) : reordered nw nw' -> well_formed nw -> well_formed nw'.
  Proof.
    intros (Eb & Pb & Pd & Pr) (W1 & W2 & W3 & W4 & W5 & W6 & (W7 & W7') & W8).
    assert (Ib : forall r, In r (nw_bus nw') -> In r (nw_bus nw)) by (intros; eapply Permutation_in; [apply Permutation_sym|]; eauto).
    assert (Id : forall r, In r (nw_dev nw') -> In r (nw_dev nw)) by (intros; eapply Permutation_in; [apply Permutation_sym|]; eauto).
    assert (Ir : forall r, In r (nw_br nw') -> In r (nw_br nw)) by (intros; eapply Permutation_in; [apply Permutation_sym|]; eauto).
    split; [unfold rule_base; rewrite Eb; auto|]. split; [eapply exactly_one_perm; eauto|]. split; [eapply exactly_one_perm; eauto|].
    split; [intros b d ? ? ? ?; apply W4; auto|]. split; [eapply Permutation_NoDup; [apply Permutation_map; exact Pb|auto]|].
    split; [eapply Permutation_NoDup; [apply Permutation_map; exact Pd|auto]|]. split.
    - split; [rewrite Forall_forall in *; auto|]. eapply fop_perm; [|exact Pr|auto]. unfold same_link. intros a b H K. apply H. intuition congruence.
    - intros r I. destruct (W8 r (Ir r I)) as (K1 & K2). split; eapply Permutation_in; try apply Permutation_map; eauto.
  Qed.

  (** what is needed for a simulator to be built, and what it is *)
  Lemma sim_init_of (nw : network F) dt lamb bs brs ds Y : well_formed nw ->
    mapM bus_init (nw_bus nw) = Ok bs ->
    mapM (fun r => branch_init r (nw_base nw) (map b_id (sort_by b_id bs))) (nw_br nw) = Ok brs ->
    NoDup (map (fun b => (ln_f b, ln_t b)) brs) ->
    mapM (mk_dev (nw_base nw) (map b_id (sort_by b_id bs))) (nw_dev nw) = Ok ds ->
    build_Y (sort_by b_id bs) brs = Ok Y ->
    sim_init nw dt lamb = Ok (mkSim dt lamb (nw_base nw) (map (bus_with_bounds (sort_by d_id ds)) (sort_by b_id bs)) brs (sort_by d_id ds) Y None None).
  Proof.
    intros W Eb Er NR Ed EY. unfold sim_init. rewrite (proj2 (check_network_iff nw) W). cbn [bind].
    assert (NB : NoDup (map b_id bs)).
    { apply map_some_nodup. rewrite <- (mapM_keys _ br_id b_id _ _ bus_init_id Eb). apply W. }
    assert (ND : NoDup (map d_id ds)).
    { apply map_some_nodup. rewrite <- (mapM_keys _ dr_id d_id _ _ (fun a b E => proj1 (mk_dev_fields a _ _ b E)) Ed). apply W. }
    assert (Lb : load_buses (nw_bus nw) = Ok (sort_by b_id bs)).
    { unfold load_buses. change (foldM _ (nw_bus nw) []) with (foldM (fill Z.eqb bus_init b_id) (nw_bus nw) []). rewrite (load_ok _ _ _ _ Eb NB). cbn [bind]. rewrite sort_pairs. reflexivity. }
    rewrite Lb. cbn [bind]. set (ids := map b_id (sort_by b_id bs)) in *.
    assert (Lr : load_branches (nw_br nw) (nw_base nw) ids = Ok brs).
    { unfold load_branches.
      change (foldM _ (nw_br nw) []) with (foldM (fill zz_eqb (fun r => branch_init r (nw_base nw) ids) (fun b => (ln_f b, ln_t b))) (nw_br nw) []).
      pose proof (fold_dict_ok zz_eqb (fun r => branch_init r (nw_base nw) ids) (fun b => (ln_f b, ln_t b)) (nw_br nw) []) as K. rewrite Er in K.
      destruct (foldM (fill zz_eqb _ _) (nw_br nw) []) as [dr|] eqn:Edr; [|discriminate K]. cbn [bind].
      destruct (fold_dict zz_eqb zz_eqb_iff _ _ _ _ _ Edr) as (brs' & E' & K'). rewrite Er in E'. injection E' as <-.
      rewrite K' by exact NR. cbn [app]. rewrite map_map. cbn [snd]. rewrite map_id. reflexivity. }
    rewrite Lr. cbn [bind].
    assert (Ld : load_devices (nw_dev nw) (nw_base nw) ids = Ok (sort_by d_id ds)).
    { unfold load_devices. match goal with |- context [foldM ?f _ _] => assert (Hf : forall l d0, foldM f l d0 = foldM (fill Z.eqb (mk_dev (nw_base nw) ids) d_id) l d0) end.
      { clear. induction l as [|r l IH]; intros d0; cbn [foldM]; auto. unfold fill at 1, mk_dev at 1. destruct (dev_class r); cbn; auto. destruct (dev_init _ _ _ _); cbn; auto. }
      rewrite Hf, (load_ok _ _ _ _ Ed ND). cbn [bind]. rewrite sort_pairs. reflexivity. }
    rewrite Ld. cbn [bind]. rewrite EY. reflexivity.
  Qed.

  (** everything but the branches *)
  Lemma init_reordered (nw nw' : network F) dt lamb s bs ds : reordered nw nw' -> built nw dt lamb s bs ds ->
    exists brs', Permutation (sm_branches s) brs' /\
      (nw_br nw' = nw_br nw -> brs' = sm_branches s) /\
      forall Y, build_Y (sort_by b_id bs) brs' = Ok Y -> sim_init nw' dt lamb = Ok (mkSim dt lamb (sm_base s) (sm_buses s) brs' (sm_devs s) Y None None).
  Proof.
    intros Re B. pose proof (reordered_wf _ _ Re (bt_wf _ _ _ _ _ _ B)) as W'. destruct Re as (Eb & Pb & Pd & Pr).
    destruct (mapM_perm _ _ _ Pb _ (bt_buses _ _ _ _ _ _ B)) as (bs' & E1 & P1).
    assert (Q1 : sort_by b_id bs = sort_by b_id bs') by (apply sort_perm_eq; auto; apply (bt_bus_nodup B)).
    destruct (mapM_perm _ _ _ Pd _ (bt_devs _ _ _ _ _ _ B)) as (ds' & E2 & P2).
    assert (Q2 : sort_by d_id ds = sort_by d_id ds') by (apply sort_perm_eq; auto; apply (bt_dev_nodup B)).
    destruct (mapM_perm _ _ _ Pr _ (bt_brs _ _ _ _ _ _ B)) as (brs' & E3 & P3).
    exists brs'. split; auto. split.
    { intros E. rewrite E, (bt_brs _ _ _ _ _ _ B) in E3. congruence. }
    intros Y EY. rewrite Q1 in *.
    rewrite (bt_base _ _ _ _ _ _ B), (bt_sbuses _ _ _ _ _ _ B), (bt_sdevs _ _ _ _ _ _ B), Q2, Q1. rewrite <- Eb in *.
    apply sim_init_of; auto.
    eapply Permutation_NoDup; [apply Permutation_map; exact P3|apply (bt_brnodup _ _ _ _ _ _ B)].
  Qed.

  (** ---- the admittance matrix ---- *)
  Definition val (Y : list (list (cplx F))) (i j : nat) : cplx F := nth j (nth i Y []) c0.
  Lemma square_ext n Y Y' : square n Y -> square n Y' -> (forall i j, (i < n)%nat -> (j < n)%nat -> val Y i j = val Y' i j) -> Y = Y'.
  Proof.
    intros (L & Fa) (L' & Fa') H. apply (nth_ext _ _ [] []); [congruence|]. intros i Hi. rewrite Forall_forall in *.
    assert (Li : List.length (nth i Y []) = n) by (apply Fa, nth_In; auto). assert (Li' : List.length (nth i Y' []) = n) by (apply Fa', nth_In; lia).
    apply (nth_ext _ _ c0 c0); [congruence|]. intros j Hj. apply H; lia.
  Qed.
  Lemma mset_val n Y (i j : nat) f : square n Y -> (i < n)%nat -> (j < n)%nat ->
    exists Y', mset Y (Z.of_nat i) (Z.of_nat j) f = Ok Y' /\ square n Y' /\
      forall a b, (a < n)%nat -> (b < n)%nat -> val Y' a b = if Nat.eqb a i && Nat.eqb b j then f (val Y i j) else val Y a b.
  Proof.
    intros S Hi Hj. destruct (mset_total n Y (Z.of_nat i) (Z.of_nat j) f S) as (Y' & E & S'); [lia|lia|]. exists Y'. split; auto. split; auto.
    unfold mset in E. destruct S as (L & Fa). rewrite L, !py_index_nat in E by auto.
    destruct (nth_error Y i) as [row|] eqn:Er; [|discriminate]. destruct (nth_error row j) as [x|] eqn:Ex; [|discriminate]. injection E as <-.
    assert (Ey : nth i Y [] = row) by (apply nth_error_nth; auto). assert (Erx : nth j row c0 = x) by (apply nth_error_nth; auto).
    assert (Lr : List.length row = n) by (rewrite Forall_forall in Fa; apply Fa; eapply nth_error_In; eauto).
    intros a b Ha Hb. unfold val. rewrite list_set_nth by lia. rewrite Ey, Erx.
    destruct (Nat.eqb_spec a i) as [->|Ne]; cbn [andb]; auto. rewrite list_set_nth by lia. rewrite Ey. reflexivity.
  Qed.

  (** the entries of the matrix once a branch from [f] to [t] has been added *)
  Definition added (br : branch F) (f t a b : nat) (x : cplx F) : cplx F :=
    if Nat.eqb a f && Nat.eqb b t then cdiv (copp (ln_series br)) (cconj (ln_tap br))
    else if Nat.eqb a t && Nat.eqb b f then cdiv (copp (ln_series br)) (ln_tap br)
    else if Nat.eqb a f && Nat.eqb b f then cadd x (cdivr (cadd (ln_series br) (ln_shunt br)) (tap2 br))
    else if Nat.eqb a t && Nat.eqb b t then cadd x (cadd (ln_series br) (ln_shunt br)) else x.
  Lemma add_val n Y br f t : square n Y -> ln_f br = Z.of_nat f -> ln_t br = Z.of_nat t -> (f < n)%nat -> (t < n)%nat -> f <> t ->
    exists Y', y_add_branch Y br = Ok Y' /\ square n Y' /\ forall a b, (a < n)%nat -> (b < n)%nat -> val Y' a b = added br f t a b (val Y a b).
  Proof.
    intros S Ef Et Hf Ht Ne. unfold y_add_branch. rewrite Ef, Et.
    match goal with |- context [mset Y _ _ ?g] => destruct (mset_val n Y f t g S Hf Ht) as (Y1 & -> & S1 & V1) end. cbn [bind].
    match goal with |- context [mset Y1 _ _ ?g] => destruct (mset_val n Y1 t f g S1 Ht Hf) as (Y2 & -> & S2 & V2) end. cbn [bind].
    match goal with |- context [mset Y2 _ _ ?g] => destruct (mset_val n Y2 f f g S2 Hf Hf) as (Y3 & -> & S3 & V3) end. cbn [bind].
    match goal with |- context [mset Y3 _ _ ?g] => destruct (mset_val n Y3 t t g S3 Ht Ht) as (Y4 & -> & S4 & V4) end.
    exists Y4. split; auto. split; auto. intros a b Ha Hb. rewrite V4, !V3, !V2, !V1 by auto. unfold added.
    assert (N1 : Nat.eqb f t = false) by (apply Nat.eqb_neq; auto). assert (N2 : Nat.eqb t f = false) by (apply Nat.eqb_neq; auto).
    destruct (Nat.eqb_spec a f) as [->|Na]; destruct (Nat.eqb_spec b t) as [->|Nb]; rewrite ?N1, ?N2, ?Nat.eqb_refl; cbn [andb]; rewrite ?N1, ?N2, ?Nat.eqb_refl; cbn [andb]; auto.
    - destruct (Nat.eqb_spec b f) as [->|Nb']; rewrite ?N1, ?N2, ?Nat.eqb_refl; cbn [andb]; auto.
    - destruct (Nat.eqb_spec a t) as [->|Na']; rewrite ?N1, ?N2, ?Nat.eqb_refl; cbn [andb]; auto.
    - destruct (Nat.eqb_spec a t) as [->|Na']; cbn [andb]; auto.
  Qed.

  (** two branches that do not link the same two buses *)
  Definition apart (br br' : branch F) : Prop :=
    ~ (ln_f br = ln_f br' /\ ln_t br = ln_t br') /\ ~ (ln_f br = ln_t br' /\ ln_t br = ln_f br').
  Definition placed (n : nat) (br : branch F) : Prop :=
    exists f t, ln_f br = Z.of_nat f /\ ln_t br = Z.of_nat t /\ (f < n)%nat /\ (t < n)%nat /\ f <> t.

  Context (addA : forall x y z : F, nadd x (nadd y z) = nadd (nadd x y) z) (addC : forall x y : F, nadd x y = nadd y x).
  Lemma cadd_swap (x y z : cplx F) : cadd (cadd x y) z = cadd (cadd x z) y.
  Proof. unfold cadd. cbn. f_equal; rewrite <- !addA; f_equal; apply addC. Qed.

  Lemma add_comm n Y br br' : square n Y -> placed n br -> placed n br' -> apart br br' ->
    bind (y_add_branch Y br) (fun Y1 => y_add_branch Y1 br') = bind (y_add_branch Y br') (fun Y1 => y_add_branch Y1 br).
  Proof.
    intros S (f & t & Ef & Et & Hf & Ht & Ne) (f' & t' & Ef' & Et' & Hf' & Ht' & Ne') (A1 & A2).
    destruct (add_val n Y br f t) as (Y1 & E1 & S1 & V1); auto. destruct (add_val n Y br' f' t') as (Z1 & F1 & T1 & W1); auto. rewrite E1, F1. cbn [bind].
    destruct (add_val n Y1 br' f' t') as (Y2 & E2 & S2 & V2); auto. destruct (add_val n Z1 br f t) as (Z2 & F2 & T2 & W2); auto. rewrite E2, F2. f_equal.
    apply (square_ext n); auto. intros a b Ha Hb. rewrite V2, W2, V1, W1 by auto. unfold added. rewrite Ef, Et, Ef', Et' in *.
    destruct (Nat.eqb_spec a f), (Nat.eqb_spec b t), (Nat.eqb_spec a t), (Nat.eqb_spec b f), (Nat.eqb_spec a f'), (Nat.eqb_spec b t'), (Nat.eqb_spec a t'), (Nat.eqb_spec b f');
      cbn [andb]; try reflexivity; try apply cadd_swap; exfalso; subst; first [congruence | apply A1; split; congruence | apply A2; split; congruence].
  Qed.

  Lemma foldM_perm n brs brs' : Permutation brs brs' -> Forall (placed n) brs -> ForallOrdPairs apart brs ->
    forall Y, square n Y -> foldM y_add_branch brs Y = foldM y_add_branch brs' Y.
  Proof.
    induction 1 as [|x l l' P IH|x y l|l l' l'' P1 IH1 P2 IH2]; intros Fp Fo Y S; auto.
    - inversion Fp as [|? ? Hx Fl]; subst. inversion Fo; subst. cbn [foldM]. destruct Hx as (f & t & Ef & Et & Hf & Ht & Ne).
      destruct (add_val n Y x f t) as (Y1 & E1 & S1 & _); auto. rewrite E1. cbn [bind]. apply IH; auto.
    - inversion Fp as [|? ? Hy Fl]; subst. inversion Fl as [|? ? Hx Fl']; subst. inversion Fo as [|? ? Ay _]; subst. inversion Ay as [|? ? Axy _]; subst.
      pose proof (add_comm n Y y x S Hy Hx Axy) as C. cbn [foldM]. destruct Hx as (f & t & Ef & Et & Hf & Ht & Ne). destruct Hy as (f' & t' & Ef' & Et' & Hf' & Ht' & Ne').
      destruct (add_val n Y x f t) as (Y1 & E1 & S1 & _); auto. destruct (add_val n Y y f' t') as (Z1 & F1 & T1 & _); auto. rewrite E1, F1 in *. cbn [bind] in *. rewrite C. reflexivity.
    - rewrite IH1 by auto. apply IH2; auto.
      + rewrite Forall_forall in *. intros z Iz. apply Fp. eapply Permutation_in; [apply Permutation_sym; exact P1|auto].
      + eapply fop_perm; [|exact P1|auto]. unfold apart. intros a b (K1 & K2). split; intros (? & ?); [apply K1|apply K2]; auto.
  Qed.

  (** the branches of a constructed simulator are apart, and inside the matrix when no ID is negative *)
  Lemma built_apart nw dt lamb s bs ds : built nw dt lamb s bs ds -> ForallOrdPairs apart (sm_branches s) /\ Forall (fun b => ln_f b <> ln_t b) (sm_branches s).
  Proof.
    intros B. pose proof (bt_brs _ _ _ _ _ _ B) as E. apply mapM_ok in E. destruct (bt_wf _ _ _ _ _ _ B) as (_ & _ & _ & _ & _ & _ & (W1 & W2) & _).
    revert W1 W2. induction E as [|r b rs brs E H IH]; intros W1 W2; [split; constructor|]. inversion W1; subst. inversion W2; subst. destruct (IH H3 H5) as (I1 & I2).
    apply branch_init_ends in E as (Ef & Et & _). split; constructor; auto; [|congruence].
    rewrite Forall_forall in *. intros b' Ib. destruct (Forall2_in_r _ _ _ _ H Ib) as (r' & Ir & E'). apply branch_init_ends in E' as (Ef' & Et' & _).
    specialize (H4 _ Ir). unfold same_link in H4. unfold apart. split; intros (Q1 & Q2); apply H4; [left|right]; split; congruence.
  Qed.

  Lemma Y_reordered nw dt lamb s bs ds brs' : built nw dt lamb s bs ds -> (forall r i, In r (nw_bus nw) -> br_id r = Some i -> (0 <= i)%Z) ->
    Permutation (sm_branches s) brs' -> build_Y (sort_by b_id bs) brs' = Ok (sm_Y s).
  Proof.
    intros B Nn P. rewrite <- (bt_Y _ _ _ _ _ _ B). unfold build_Y. destruct (map b_id (sort_by b_id bs)) as [|i l] eqn:E; auto.
    destruct (Z.ltb_spec (fold_left Z.max l i + 1) 0) as [Lt|Ge]; auto. destruct (fold_max l i) as (M1 & M2). symmetry.
    assert (Ids : forall k, In k (i :: l) -> (0 <= k <= fold_left Z.max l i)%Z).
    { intros k I. split; [|destruct I as [<-|I]; auto]. rewrite <- E in I. apply in_map_iff in I as (b & <- & Ib).
      eapply Permutation_in in Ib; [|apply sort_by_perm]. pose proof (bt_buses _ _ _ _ _ _ B) as Eb. apply mapM_ok in Eb.
      destruct (Forall2_in_r _ _ _ _ Eb Ib) as (r & Ir & Er). eapply Nn; [exact Ir|apply bus_init_id; auto]. }
    destruct (built_apart _ _ _ _ _ _ B) as (Ap & Nl).
    apply (foldM_perm (Z.to_nat (fold_left Z.max l i + 1))); auto.
    - rewrite Forall_forall in *. intros b Ib. pose proof (bt_brs _ _ _ _ _ _ B) as Er. apply mapM_ok in Er. destruct (Forall2_in_r _ _ _ _ Er Ib) as (r & Ir & E').
      apply branch_init_ends in E' as (_ & _ & If & It). rewrite E in If, It. apply Ids in If, It. pose proof (Nl _ Ib). exists (Z.to_nat (ln_f b)), (Z.to_nat (ln_t b)). lia.
    - split; [apply repeat_length|]. apply Forall_forall. intros r I. apply repeat_spec in I. subst r. apply repeat_length.
  Qed.
End Order.
