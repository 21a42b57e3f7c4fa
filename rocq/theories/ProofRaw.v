(** Reading the cells of a network file. *)
From Verif Require Import Base Num Devices BusBranch CheckNetwork LoadFlow Simulator RawNet SpecRaw LibBase LibSim.
Local Open Scope num_scope.

Lemma existsb_map' {A B} (f : A -> B) (p : B -> bool) l : existsb p (map f l) = existsb (fun a => p (f a)) l.
Proof. induction l; cbn; congruence. Qed.

Lemma existsb_ext_in {A} (p q : A -> bool) l : (forall a, In a l -> p a = q a) -> existsb p l = existsb q l.
Proof. induction l as [|a l IH]; cbn; intros H; auto. rewrite H by auto. rewrite IH; auto. Qed.

Lemma set_of_incl {A} (e : A -> A -> bool) l a : In a (set_of e l) -> In a l.
Proof.
  induction l as [|x l IH]; cbn; auto. destruct (existsb _ _); cbn; intros H; auto. destruct H; auto.
Qed.

Lemma set_of_map {A B} (f : A -> B) (e : A -> A -> bool) (e' : B -> B -> bool) l :
  (forall a b, In a l -> In b l -> e' (f a) (f b) = e a b) -> set_of e' (map f l) = map f (set_of e l).
Proof.
  induction l as [|x l IH]; cbn; intros H; auto. rewrite IH by auto.
  rewrite existsb_map'. rewrite (existsb_ext_in _ (e x)). 2: { intros a Ha. apply H; auto. right. eapply set_of_incl; eauto. }
  destruct (existsb _ _); reflexivity.
Qed.

Section ProofRaw.
  Context {F : Type} {N : Num F} (P : Z -> Prop) (HP : exact_ints (F := F) P).

  Definition Po (o : option Z) : Prop := match o with Some z => P z | None => True end.

  Lemma int_eqb a b : Po a -> Po b -> cell_eqb (int_cell a) (int_cell b) = optz_eqb a b.
  Proof. destruct HP as (H & _), a, b; cbn; intros; auto. Qed.

  Lemma int_trunc z : P z -> cell_int (int_cell (Some z)) = Ok z.
  Proof. destruct HP as (_ & H & _). intros Hz. cbn. rewrite H; auto. Qed.

  Lemma int_zero a : Po a -> is_zero (int_cell a) = optz_eqb a (Some 0%Z).
  Proof.
    intros Ha. unfold is_zero. change (Some (nofZ 0)) with (int_cell (Some 0%Z)). apply int_eqb; auto.
    destruct HP as (_ & _ & H). rewrite Forall_forall in H. apply H. cbn; auto.
  Qed.

  Lemma int_mem a ids : Po a -> Forall P ids -> cell_mem (int_cell a) ids = match a with Some z => zmem z ids | None => false end.
  Proof.
    intros Ha Hi. destruct a as [z|]; [|reflexivity]. cbn in *. unfold zmem. apply existsb_ext_in. intros i Hin.
    rewrite Forall_forall in Hi. destruct HP as (H & _). apply H; auto.
  Qed.

  Lemma column_map {R} (cells : R -> list (cell F)) a rows j g :
    holds cells a rows -> (forall r more, at_ (cells r ++ more) j = Ok (g r)) -> column a j = Ok (map g rows).
  Proof.
    intros H Hg. induction H as [|l r a rows (more & ->) H IH]; cbn; auto.
    rewrite Hg. cbn. unfold column in IH. rewrite IH. reflexivity.
  Qed.

  Lemma where_map {R} (g1 g2 : R -> cell F) l : where_zero (map g1 l) (map g2 l) = map g2 (filter (fun r => is_zero (g1 r)) l).
  Proof. unfold where_zero. induction l as [|r l IH]; cbn; auto. destruct (is_zero (g1 r)); cbn; congruence. Qed.

  Lemma filter_len {A B} (f : A -> B) p l : List.length (filter p (map f l)) = List.length (filter (fun a => p (f a)) l).
  Proof. induction l; cbn; auto. destruct (p (f a)); cbn; auto. Qed.

  Lemma filter_ext_in'' {A} (p q : A -> bool) l : (forall a, In a l -> p a = q a) -> filter p l = filter q l.
  Proof. induction l as [|a l IH]; cbn; intros H; auto. rewrite H by auto. rewrite IH; auto. Qed.

  Section Net.
    Context (nw : network F) (Hi : Forall P (net_ints nw)).

    Lemma ints_bus r : In r (nw_bus nw) -> Po (br_id r) /\ Po (br_type r).
    Proof.
      intros H. assert (Q : forall z, In z (some_list (br_id r) ++ some_list (br_type r)) -> P z).
      { intros z Hz. rewrite Forall_forall in Hi. apply Hi. unfold net_ints. rewrite in_app_iff. left. apply in_flat_map. eauto. }
      destruct (br_id r), (br_type r); cbn in *; auto 10.
    Qed.
    Lemma ints_dev r : In r (nw_dev nw) -> Po (dr_id r) /\ Po (dr_bus r) /\ Po (dr_type r).
    Proof.
      intros H. assert (Q : forall z, In z (some_list (dr_id r) ++ some_list (dr_bus r) ++ some_list (dr_type r)) -> P z).
      { intros z Hz. rewrite Forall_forall in Hi. apply Hi. unfold net_ints. rewrite !in_app_iff. right; left. apply in_flat_map. eauto. }
      destruct (dr_id r), (dr_bus r), (dr_type r); cbn in *; repeat split; auto 10.
    Qed.
    Lemma ints_br r : In r (nw_br nw) -> Po (lr_f r) /\ Po (lr_t r).
    Proof.
      intros H. assert (Q : forall z, In z (some_list (lr_f r) ++ some_list (lr_t r)) -> P z).
      { intros z Hz. rewrite Forall_forall in Hi. apply Hi. unfold net_ints. rewrite !in_app_iff. right; right. apply in_flat_map. eauto. }
      destruct (lr_f r), (lr_t r); cbn in *; auto 10.
    Qed.
  End Net.

  Lemma raw_check_eq d nw : writes d nw -> Forall P (net_ints nw) -> raw_check d = check_network_specs nw.
  Proof.
    intros (Eb & (ab & E1 & H1) & (ad & E2 & H2) & (al & E3 & H3)) Hi. unfold raw_check, check_network_specs. rewrite Eb, E1, E2, E3. cbn [key bind].
    destruct (raise_if (nw_base nw <=? n0) BaseMVAError); [cbn [bind]|reflexivity].
    rewrite (column_map bus_cells ab (nw_bus nw) 1 (fun r => int_cell (br_type r)) H1) by reflexivity. cbn [bind].
    rewrite filter_len. rewrite (filter_ext_in'' (fun r => is_zero (int_cell (br_type r))) (fun r => optz_eqb (br_type r) (Some 0%Z))) by (intros; apply int_zero; eapply ints_bus; eauto).
    set (sb := filter (fun r => optz_eqb (br_type r) (Some 0%Z)) (nw_bus nw)).
    destruct (raise_if (negb (List.length sb =? 1)%nat) BusSpecError); [cbn [bind]|reflexivity].
    rewrite (column_map dev_cells ad (nw_dev nw) 2 (fun r => int_cell (dr_type r)) H2) by reflexivity. cbn [bind].
    rewrite filter_len. rewrite (filter_ext_in'' (fun r => is_zero (int_cell (dr_type r))) (fun r => optz_eqb (dr_type r) (Some 0%Z))) by (intros; apply int_zero; eapply ints_dev; eauto).
    set (sd := filter (fun r => optz_eqb (dr_type r) (Some 0%Z)) (nw_dev nw)).
    destruct (raise_if (negb (List.length sd =? 1)%nat) DeviceSpecError); [cbn [bind]|reflexivity].
    rewrite (column_map bus_cells ab (nw_bus nw) 0 (fun r => int_cell (br_id r)) H1) by reflexivity. cbn [bind].
    rewrite (column_map dev_cells ad (nw_dev nw) 1 (fun r => int_cell (dr_bus r)) H2) by reflexivity. cbn [bind].
    rewrite !where_map.
    rewrite (filter_ext_in'' (fun r => is_zero (int_cell (br_type r))) (fun r => optz_eqb (br_type r) (Some 0%Z))) by (intros; apply int_zero; eapply ints_bus; eauto).
    rewrite (filter_ext_in'' (fun r => is_zero (int_cell (dr_type r))) (fun r => optz_eqb (dr_type r) (Some 0%Z))) by (intros; apply int_zero; eapply ints_dev; eauto).
    fold sb sd.
    match goal with |- bind ?a _ = bind ?b _ => assert (Q : a = b) end.
    { destruct sb as [|b sb'] eqn:Es; [reflexivity|]. destruct sd as [|v sd'] eqn:Ed; [reflexivity|]. cbn [map].
      assert (Ib : In b (nw_bus nw)). { assert (I : In b sb) by (rewrite Es; left; auto). apply filter_In in I. tauto. }
      assert (Iv : In v (nw_dev nw)). { assert (I : In v sd) by (rewrite Ed; left; auto). apply filter_In in I. tauto. }
      destruct (ints_bus nw Hi b Ib) as (Pb & _). destruct (ints_dev nw Hi v Iv) as (_ & Pv & _).
      rewrite int_eqb by auto. destruct (optz_eqb (br_id b) (dr_bus v)); [reflexivity|].
      destruct (br_id b) as [zb|], (dr_bus v) as [zv|]; try (rewrite int_trunc by auto); cbn [bind]; try (rewrite int_trunc by auto); reflexivity. }
    rewrite Q. match goal with |- bind ?a _ = bind ?a _ => destruct a; [cbn [bind]|reflexivity] end. clear Q sb sd.
    rewrite <- (map_map br_id int_cell). rewrite (set_of_map int_cell optz_eqb).
    2: { intros x1 x2 Ha Hb. apply in_map_iff in Ha, Hb. destruct Ha as (ra & <- & Ha), Hb as (rb & <- & Hb). apply int_eqb; eapply ints_bus; eauto. }
    rewrite !map_length.
    match goal with |- bind ?a _ = bind ?b _ => change a with b; destruct b; [cbn [bind]|reflexivity] end.
    rewrite (column_map dev_cells ad (nw_dev nw) 0 (fun r => int_cell (dr_id r)) H2) by reflexivity. cbn [bind].
    rewrite <- (map_map dr_id int_cell). rewrite (set_of_map int_cell optz_eqb).
    2: { intros x1 x2 Ha Hb. apply in_map_iff in Ha, Hb. destruct Ha as (ra & <- & Ha), Hb as (rb & <- & Hb). apply int_eqb; eapply ints_dev; eauto. }
    rewrite !map_length.
    match goal with |- bind ?a _ = bind ?b _ => change a with b; destruct b; [cbn [bind]|reflexivity] end.
    assert (Epr : raw_pairs al = Ok (map (fun p => (int_cell (fst p), int_cell (snd p))) (branch_pairs nw))).
    { unfold raw_pairs. assert (Em : mapM (fun r => let* f := at_ r 0 in let* t := at_ r 1 in Ok (f, t)) al = Ok (map (fun r => (int_cell (lr_f r), int_cell (lr_t r))) (nw_br nw))).
      { clear -H3. induction H3 as [|l r a rows (more & ->) H IH]; cbn; auto. rewrite IH. reflexivity. }
      rewrite Em. cbn [bind]. f_equal. unfold branch_pairs.
      rewrite <- (set_of_map (fun p => (int_cell (fst p), int_cell (snd p))) optz2_eqb cell2_eqb).
      - f_equal. clear. induction (nw_br nw) as [|r l IH]; cbn; auto. rewrite IH. reflexivity.
      - intros x1 x2 Ha Hb. apply in_flat_map in Ha, Hb. destruct Ha as (ra & Ia & Ha), Hb as (rb & Ib & Hb).
        destruct (ints_br nw Hi ra Ia), (ints_br nw Hi rb Ib). unfold cell2_eqb, optz2_eqb. cbn [fst snd].
        rewrite !int_eqb; auto; destruct Ha as [<-|[<-|[]]], Hb as [<-|[<-|[]]]; auto. }
    rewrite Epr. cbn [bind]. rewrite !map_length.
    assert (Ll : List.length al = List.length (nw_br nw)) by (eapply Forall2_len; exact H3). rewrite Ll.
    match goal with |- bind ?a _ = bind ?b _ => change a with b; destruct b; [cbn [bind]|reflexivity] end.
    f_equal. rewrite existsb_map'. apply existsb_ext_in. intros p Hp. cbn [fst snd].
    assert (Ip : Po (fst p) /\ Po (snd p)).
    { unfold branch_pairs in Hp. apply set_of_incl in Hp. apply in_flat_map in Hp. destruct Hp as (r & Ir & Hp). destruct (ints_br nw Hi r Ir). destruct Hp as [<-|[<-|[]]]; auto. }
    assert (G : forall o, Po o -> existsb (cell_eqb (int_cell o)) (map int_cell (map br_id (nw_bus nw))) = existsb (optz_eqb o) (map br_id (nw_bus nw))).
    { intros o Ho. rewrite existsb_map'. apply existsb_ext_in. intros x1 Ha. apply in_map_iff in Ha. destruct Ha as (r & <- & Ir). apply int_eqb; auto. eapply ints_bus; eauto. }
    rewrite !G by tauto. reflexivity.
  Qed.

  Lemma raw_bus_eq r more : Po (br_id r) -> Po (br_type r) -> raw_bus (bus_cells r ++ more) = bus_init r.
  Proof.
    intros H1 H2. unfold raw_bus. cbn [bus_cells app at_ nth_res nth_error bind]. destruct r as [[i|] [t|] kv vx vn]; cbn [br_id br_type br_kv br_vmax br_vmin] in *; try rewrite int_trunc by auto; cbn [bind]; try rewrite int_trunc by auto; reflexivity.
  Qed.

  Lemma raw_branch_eq r more base ids : Po (lr_f r) -> Po (lr_t r) -> Forall P ids -> raw_branch (branch_cells r ++ more) base ids = branch_init r base ids.
  Proof.
    intros H1 H2 Hi. unfold raw_branch. cbn [branch_cells app at_ nth_res nth_error bind]. rewrite !int_mem by auto.
    destruct r as [[f|] [t|] c2 c3 c4 c5 c6 c7]; cbn [lr_f lr_t lr_r lr_x lr_b lr_rate lr_tap lr_shift] in *; unfold branch_init; cbn [lr_f lr_t lr_r lr_x lr_b lr_rate lr_tap lr_shift];
      try (destruct (zmem f ids) eqn:E1; [rewrite int_trunc by auto|reflexivity]; cbn [bind]); try reflexivity.
    - destruct (zmem t ids) eqn:E2; [rewrite int_trunc by auto|reflexivity]. cbn [bind]. rewrite E1, E2. reflexivity.
  Qed.

  Lemma raw_dev_eq r more base ids : Po (dr_id r) -> Po (dr_bus r) -> Po (dr_type r) -> Forall P ids ->
    raw_dev (dev_cells r ++ more) ids base = (let* c := dev_class r in dev_init c r ids base).
  Proof.
    intros H1 H2 H3 Hi. unfold raw_dev. cbn [dev_cells app at_ nth_res nth_error bind]. rewrite !int_mem; auto. 2: { destruct HP as (_ & _ & H). exact H. }
    destruct r as [i b t c3 c4 c5 c6 c7 c8 c9 c10 c11 c12 c13 c14].
    cbn [dr_id dr_bus dr_type dr_qp dr_pmax dr_pmin dr_qmax dr_qmin dr_pplus dr_pminus dr_qplus dr_qminus dr_socmax dr_socmin dr_eff] in *.
    unfold dev_class. cbn [dr_type]. destruct t as [t|]; [|reflexivity]. rewrite int_trunc by auto. cbn [bind]. fold (raw_class t). destruct (raw_class t) as [c|]; [|reflexivity]. cbn [bind].
    unfold dev_init. cbn [dr_id dr_bus dr_type].
    destruct i as [i|]; [|reflexivity]. cbn [int_cell option_map]. change (Some (nofZ i)) with (int_cell (Some i)). rewrite int_trunc by auto. cbn [bind].
    destruct b as [b|]; [|reflexivity]. destruct (zmem b ids) eqn:Eb; [|reflexivity]. rewrite int_trunc by auto. cbn [bind].
    destruct (zmem t [-1; 0; 1; 2; 3]%Z) eqn:Et; [|reflexivity]. cbn [bind].
    rewrite Eb. cbn [bind]. rewrite Et. reflexivity.
  Qed.

  Lemma foldM_holds {R V} (cells : R -> list (cell F)) (f : V -> list (cell F) -> res V) (g : V -> R -> res V) a rows v :
    holds cells a rows -> (forall w r more, In r rows -> f w (cells r ++ more) = g w r) -> foldM f a v = foldM g rows v.
  Proof.
    intros H. revert v. induction H as [|l r a rows (more & ->) H IH]; cbn; intros v Hf; auto.
    rewrite Hf by auto. destruct (g v r); cbn; auto.
  Qed.
End ProofRaw.
