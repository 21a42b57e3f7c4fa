(** C11: network-level validation. *)
From Verif Require Import Base Num Devices BusBranch CheckNetwork LibBase SpecNet.

(** ---- [set_of] ---- *)
Section SetOf.
  Context {A : Type} (eqb : A -> A -> bool) (Heq : forall a b, eqb a b = true <-> a = b).

  Lemma existsb_eqb a l : existsb (eqb a) l = true <-> In a l.
  Proof.
    rewrite existsb_exists. split.
    - intros (x & H & E). apply Heq in E; subst; auto.
    - intros H; exists a; split; auto. apply Heq; auto.
  Qed.
  Lemma existsb_eqb_false a l : existsb (eqb a) l = false <-> ~ In a l.
  Proof. rewrite <- existsb_eqb. destruct (existsb (eqb a) l); split; intros; try congruence; exfalso; auto. Qed.

  Lemma set_of_in a l : In a (set_of eqb l) <-> In a l.
  Proof.
    revert a; induction l as [|b l IH]; intros a; cbn; [tauto|].
    destruct (existsb (eqb b) (set_of eqb l)) eqn:E; cbn; rewrite IH.
    - apply existsb_eqb in E. rewrite IH in E. split; auto. intros [->|H]; auto.
    - tauto.
  Qed.
  Lemma set_of_le l : (List.length (set_of eqb l) <= List.length l)%nat.
  Proof. induction l as [|b l IH]; cbn; auto. destruct (existsb _ _); cbn; lia. Qed.
  Lemma set_of_length l : List.length (set_of eqb l) = List.length l <-> NoDup l.
  Proof.
    induction l as [|b l IH]; cbn.
    - split; auto using NoDup_nil.
    - pose proof (set_of_le l). destruct (existsb (eqb b) (set_of eqb l)) eqn:E.
      + apply existsb_eqb in E. rewrite set_of_in in E. split.
        * intros; lia.
        * intros ND; inversion ND; subst; tauto.
      + apply existsb_eqb_false in E. rewrite set_of_in in E. cbn. split.
        * intros K. constructor; auto. apply IH; lia.
        * intros ND; inversion ND; subst. f_equal; apply IH; auto.
  Qed.
End SetOf.

Lemma optz2_eqb_spec a b : optz2_eqb a b = true <-> a = b.
Proof.
  unfold optz2_eqb. destruct a as [a1 a2], b as [b1 b2]; cbn.
  rewrite andb_true_iff, !optz_eqb_spec. split; [intros [-> ->]; auto | intros H; inversion H; auto].
Qed.

(** ---- exactly one ---- *)
Lemma exactly_one_filter {A} (p : A -> bool) (P : A -> Prop) l :
  (forall a, p a = true <-> P a) ->
  (List.length (filter p l) = 1%nat <-> exactly_one P l).
Proof.
  intros Hp. split.
  - intros H. induction l as [|a l IH]; cbn in *; [discriminate|].
    destruct (p a) eqn:E.
    + exists [], a, l. cbn in *. split; auto. split; [apply Hp; auto|].
      apply Forall_forall. intros x Hx Px. apply Hp in Px.
      assert (In x (filter p l)) by (apply filter_In; auto).
      destruct (filter p l); [contradiction | cbn in H; lia].
    + destruct (IH H) as (l1 & b & l2 & -> & Hb & Hf).
      exists (a :: l1), b, l2. split; auto. split; auto. cbn. constructor; auto.
      intros Ha. apply Hp in Ha. congruence.
  - intros (l1 & a & l2 & -> & Ha & Hf).
    apply Forall_app in Hf. destruct Hf as [H1 H2].
    assert (K : forall l', Forall (fun x => ~ P x) l' -> filter p l' = []).
    { induction 1; cbn; auto. destruct (p x) eqn:E; auto. apply Hp in E. contradiction. }
    rewrite filter_app. cbn. apply Hp in Ha. rewrite Ha, (K _ H1), (K _ H2). reflexivity.
Qed.

Section Net.
  Context {F : Type} {N : Num F}.

  Definition pairs_of (rs : list (branch_row F)) :=
    flat_map (fun r => [(lr_f r, lr_t r); (lr_t r, lr_f r)]) rs.

  Lemma pairs_in rs p : In p (pairs_of rs) <->
    exists r, In r rs /\ (p = (lr_f r, lr_t r) \/ p = (lr_t r, lr_f r)).
  Proof.
    unfold pairs_of. rewrite in_flat_map. split.
    - intros (r & H & [K|[K|[]]]); exists r; auto.
    - intros (r & H & [K|K]); exists r; cbn; auto.
  Qed.

  Lemma pairs_nodup rs : NoDup (pairs_of rs) <->
    Forall (fun r => lr_f r <> lr_t r) rs /\ ForallOrdPairs (fun r r' => ~ same_link r r') rs.
  Proof.
    induction rs as [|r rs IH].
    - cbn. split; [repeat constructor | constructor].
    - change (pairs_of (r :: rs)) with ((lr_f r, lr_t r) :: (lr_t r, lr_f r) :: pairs_of rs). split.
      + intros H. inversion H as [|x l H1 H2]; subst. inversion H2 as [|x l H3 H4]; subst.
        apply IH in H4. destruct H4 as [H4 H5]. split; constructor; auto.
        * intros E. apply H1. left. congruence.
        * apply Forall_forall. intros r' Hr' S.
          destruct S as [[Ea Eb]|[Ea Eb]].
          -- apply H1. right. apply pairs_in. exists r'. split; auto. left; congruence.
          -- apply H1. right. apply pairs_in. exists r'. split; auto. right; congruence.
      + intros [H1 H2]. inversion H1 as [|? ? N1 N2]; subst. inversion H2 as [|? ? H6 N3]; subst.
        rewrite Forall_forall in H6.
        constructor; [|constructor].
        * intros [E|E]; [inversion E; congruence|].
          apply pairs_in in E. destruct E as (r' & Hr' & [E|E]); inversion E; apply (H6 r' Hr'); unfold same_link; auto.
        * intros E. apply pairs_in in E. destruct E as (r' & Hr' & [E|E]); inversion E; apply (H6 r' Hr'); unfold same_link; auto.
        * apply IH; auto.
  Qed.

  Lemma pairs_length rs : List.length (pairs_of rs) = (2 * List.length rs)%nat.
  Proof. unfold pairs_of. induction rs; cbn [flat_map app List.length] in *; auto. rewrite IHrs. lia. Qed.

  (** Every step of the check, as a boolean, with its meaning. *)
  Lemma ck_slack_bus nw :
    Nat.eqb (List.length (filter (fun r => optz_eqb (br_type r) (Some 0%Z)) (nw_bus nw))) 1 = true
    <-> rule_one_slack_bus (F := F) nw.
  Proof.
    rewrite Nat.eqb_eq. apply exactly_one_filter. intros a. apply optz_eqb_spec.
  Qed.
  Lemma ck_slack_dev nw :
    Nat.eqb (List.length (filter (fun r => optz_eqb (dr_type r) (Some 0%Z)) (nw_dev nw))) 1 = true
    <-> rule_one_slack_dev (F := F) nw.
  Proof.
    rewrite Nat.eqb_eq. apply exactly_one_filter. intros a. apply optz_eqb_spec.
  Qed.
  Lemma ck_ids {A} (f : A -> option Z) l :
    Nat.eqb (List.length (map f l)) (List.length (set_of optz_eqb (map f l))) = true <-> NoDup (map f l).
  Proof.
    rewrite Nat.eqb_eq. rewrite <- (set_of_length _ optz_eqb_spec). split; auto.
  Qed.
  Lemma ck_links nw :
    Nat.eqb (List.length (branch_pairs nw)) (2 * List.length (nw_br nw)) = true <-> rule_links (F := F) nw.
  Proof.
    rewrite Nat.eqb_eq. unfold branch_pairs. fold (pairs_of (nw_br nw)).
    rewrite <- pairs_length, (set_of_length _ optz2_eqb_spec). apply pairs_nodup.
  Qed.
  Lemma ck_ends nw :
    existsb (fun p => negb (existsb (optz_eqb (fst p)) (map br_id (nw_bus nw))) ||
                      negb (existsb (optz_eqb (snd p)) (map br_id (nw_bus nw)))) (branch_pairs nw) = false
    <-> rule_ends (F := F) nw.
  Proof.
    set (ids := map br_id (nw_bus nw)).
    assert (K : forall a, negb (existsb (optz_eqb a) ids) = false <-> In a ids).
    { intros a. rewrite negb_false_iff. apply existsb_eqb, optz_eqb_spec. }
    split.
    - intros H r Hr.
      assert (Hp : In (lr_f r, lr_t r) (branch_pairs nw)).
      { unfold branch_pairs. apply (set_of_in _ optz2_eqb_spec). apply pairs_in. exists r; auto. }
      assert (E : negb (existsb (optz_eqb (lr_f r)) ids) || negb (existsb (optz_eqb (lr_t r)) ids) = false).
      { destruct (negb _ || negb _) eqn:E; auto.
        assert (existsb (fun p => negb (existsb (optz_eqb (fst p)) ids) || negb (existsb (optz_eqb (snd p)) ids)) (branch_pairs nw) = true); [|congruence].
        apply existsb_exists. exists (lr_f r, lr_t r); auto. }
      apply orb_false_iff in E. destruct E as [E1 E2]. apply K in E1. apply K in E2. auto.
    - intros H. destruct (existsb _ _) eqn:E; auto.
      apply existsb_exists in E. destruct E as (p & Hp & E).
      unfold branch_pairs in Hp. rewrite (set_of_in _ optz2_eqb_spec) in Hp. apply pairs_in in Hp.
      destruct Hp as (r & Hr & Hp). destruct (H r Hr) as [H1 H2]. fold ids in H1, H2.
      apply K in H1. apply K in H2.
      destruct Hp as [-> | ->]; cbn in E; rewrite H1, H2 in E; discriminate.
  Qed.

  Lemma exactly_one_unique {A} (P : A -> Prop) l a b : exactly_one P l -> In a l -> In b l -> P a -> P b -> a = b.
  Proof.
    intros (l1 & c & l2 & -> & Hc & Hf) Ha Hb Pa Pb.
    rewrite Forall_forall in Hf.
    assert (K : forall x, In x (l1 ++ c :: l2) -> P x -> x = c).
    { intros x Hx Px. apply in_app_or in Hx. destruct Hx as [Hx|[Hx|Hx]]; auto.
      - exfalso; apply (Hf x); auto. apply in_or_app; auto.
      - exfalso; apply (Hf x); auto. apply in_or_app; auto. }
    rewrite (K a), (K b); auto.
  Qed.

  (** the first slack rows *)
  Lemma slack_rows nw b bl d dl :
    rule_one_slack_bus (F := F) nw -> rule_one_slack_dev nw ->
    filter (fun r => optz_eqb (br_type r) (Some 0%Z)) (nw_bus nw) = b :: bl ->
    filter (fun r => optz_eqb (dr_type r) (Some 0%Z)) (nw_dev nw) = d :: dl ->
    In b (nw_bus nw) /\ slack_bus_row b /\ In d (nw_dev nw) /\ slack_dev_row d /\
    (rule_slack_match nw <-> br_id b = dr_bus d).
  Proof.
    intros H1 H2 E1 E2.
    assert (Hb : In b (filter (fun r => optz_eqb (br_type r) (Some 0%Z)) (nw_bus nw))) by (rewrite E1; left; auto).
    assert (Hd : In d (filter (fun r => optz_eqb (dr_type r) (Some 0%Z)) (nw_dev nw))) by (rewrite E2; left; auto).
    apply filter_In in Hb. apply filter_In in Hd. rewrite optz_eqb_spec in Hb, Hd.
    destruct Hb as [Hb Sb], Hd as [Hd Sd]. repeat split; auto.
    intros E b' d' Hb' Sb' Hd' Sd'.
    rewrite (exactly_one_unique _ _ b' b H1); auto. rewrite (exactly_one_unique _ _ d' d H2); auto.
  Qed.

  Lemma filter_one {A} (p : A -> bool) l : List.length (filter p l) = 1%nat -> exists a, filter p l = [a].
  Proof. destruct (filter p l) as [|a [|b l']]; cbn; try discriminate. eauto. Qed.

  (** C11, both directions at once *)
  Lemma check_network_complete nw :
    (check_network_specs (F := F) nw = Ok tt /\ well_formed nw) \/
    (exists e, check_network_specs nw = Err e /\ first_error nw e).
  Proof.
    unfold check_network_specs. cbv zeta. unfold raise_if at 1.
    destruct (nleb (nw_base nw) n0) eqn:R1; cbn [bind].
    { right. exists BaseMVAError. split; auto. left. split; auto. unfold rule_base; congruence. }
    unfold raise_if at 1.
    destruct (Nat.eqb (List.length (filter (fun r => optz_eqb (br_type r) (Some 0%Z)) (nw_bus nw))) 1) eqn:B2; cbn [negb bind].
    2:{ right. exists BusSpecError. split; auto. right; left.
        rewrite <- ck_slack_bus. repeat split; auto. congruence. }
    pose proof B2 as L2. apply Nat.eqb_eq in L2.
    apply ck_slack_bus in B2.
    unfold raise_if at 1.
    destruct (Nat.eqb (List.length (filter (fun r => optz_eqb (dr_type r) (Some 0%Z)) (nw_dev nw))) 1) eqn:B3; cbn [negb bind].
    2:{ right. exists DeviceSpecError. split; auto. do 2 right; left.
        rewrite <- ck_slack_dev. repeat split; auto. congruence. }
    pose proof B3 as L3. apply Nat.eqb_eq in L3.
    apply ck_slack_dev in B3.
    apply filter_one in L2. destruct L2 as [b Eb]. apply filter_one in L3. destruct L3 as [d Ed].
    rewrite Eb, Ed.
    destruct (slack_rows nw b [] d [] B2 B3 Eb Ed) as (Hb & Sb & Hd & Sd & Hm).
    destruct (optz_eqb (br_id b) (dr_bus d)) eqn:B4; cbn [bind].
    2:{ right. assert (~ rule_slack_match nw).
        { rewrite Hm. intros E. apply optz_eqb_spec in E. congruence. }
        destruct (br_id b) eqn:E1; [destruct (dr_bus d) eqn:E2|].
        - exists DeviceSpecError. split; auto. do 3 right; left. repeat split; auto.
          left; split; auto. exists b, d. repeat split; auto; congruence.
        - exists TypeErr. split; auto. do 3 right; left. repeat split; auto.
          right; split; auto. exists b, d. repeat split; auto.
        - exists TypeErr. split; auto. do 3 right; left. repeat split; auto.
          right; split; auto. exists b, d. repeat split; auto. }
    apply optz_eqb_spec in B4. apply Hm in B4.
    unfold raise_if at 1.
    destruct (Nat.eqb (List.length (map br_id (nw_bus nw))) _) eqn:B5; cbn [negb bind].
    2:{ right. exists BusSpecError. split; auto. do 4 right; left. unfold rule_bus_ids.
        rewrite <- ck_ids. repeat split; auto. congruence. }
    apply ck_ids in B5.
    unfold raise_if at 1.
    destruct (Nat.eqb (List.length (map dr_id (nw_dev nw))) _) eqn:B6; cbn [negb bind].
    2:{ right. exists DeviceSpecError. split; auto. do 5 right; left. unfold rule_dev_ids.
        rewrite <- ck_ids. repeat split; auto. congruence. }
    apply ck_ids in B6.
    unfold raise_if at 1.
    destruct (Nat.eqb (List.length (branch_pairs nw)) _) eqn:B7; cbn [negb bind].
    2:{ right. exists BranchSpecError. split; auto. do 6 right; left.
        rewrite <- ck_links. repeat split; auto. congruence. }
    apply ck_links in B7.
    unfold raise_if.
    match goal with |- context [if ?c then _ else _] => destruct c eqn:B8 end.
    - right. exists BranchSpecError. split; auto. do 7 right.
      rewrite <- ck_ends. repeat split; auto; try apply B7. congruence.
    - left. split; auto. apply ck_ends in B8. unfold well_formed. repeat split; auto; try apply B7.
      + apply B8; auto.
      + apply B8; auto.
  Qed.

  Lemma first_error_not_wf nw e : first_error (F := F) nw e -> ~ well_formed nw.
  Proof. unfold first_error, well_formed. tauto. Qed.

  Lemma first_error_unique nw e e' : first_error (F := F) nw e -> first_error nw e' -> e = e'.
  Proof.
    unfold first_error.
    assert (U : forall b d b' d', rule_one_slack_bus nw -> rule_one_slack_dev nw ->
      In b (nw_bus nw) -> slack_bus_row b -> In d (nw_dev nw) -> slack_dev_row d ->
      In b' (nw_bus nw) -> slack_bus_row b' -> In d' (nw_dev nw) -> slack_dev_row d' -> b = b' /\ d = d').
    { intros b d b' d' H1 H2 A1 A2 A3 A4 A5 A6 A7 A8. split; eapply exactly_one_unique; eauto. }
    set (X4 := (exists b d, In b (nw_bus nw) /\ slack_bus_row b /\ In d (nw_dev nw) /\ slack_dev_row d /\
                   br_id b <> None /\ dr_bus d <> None)).
    set (Y4 := (exists b d, In b (nw_bus nw) /\ slack_bus_row b /\ In d (nw_dev nw) /\ slack_dev_row d /\
                   (br_id b = None \/ dr_bus d = None))).
    assert (XY : rule_one_slack_bus nw -> rule_one_slack_dev nw -> X4 -> Y4 -> False).
    { intros R1 R2 (b & d & A1 & A2 & A3 & A4 & A5 & A6) (b' & d' & B1 & B2 & B3 & B4 & B5).
      destruct (U b d b' d'); auto; subst; tauto. }
    clearbody X4 Y4. clear U.
    intros H H'.
    destruct H as [H|[H|[H|[H|[H|[H|[H|H]]]]]]], H' as [H'|[H'|[H'|[H'|[H'|[H'|[H'|H']]]]]]];
      try (exfalso; tauto); try (destruct H; subst; tauto).
    all: repeat match goal with K : _ /\ _ |- _ => destruct K end; try congruence.
    repeat match goal with K : _ \/ _ |- _ => destruct K as [[? ?]|[? ?]] end; subst; auto; exfalso; tauto.
  Qed.

  Lemma check_network_iff nw : check_network_specs (F := F) nw = Ok tt <-> well_formed nw.
  Proof.
    destruct (check_network_complete nw) as [[E W]|(e & E & W)].
    - tauto.
    - split; [congruence|]. intros K. apply first_error_not_wf in W. contradiction.
  Qed.
  Lemma check_network_err nw e : check_network_specs (F := F) nw = Err e <-> first_error nw e.
  Proof.
    destruct (check_network_complete nw) as [[E W]|(e' & E & W)].
    - split; [congruence|]. intros K. apply first_error_not_wf in K. contradiction.
    - split; intros K.
      + congruence.
      + rewrite (first_error_unique nw e e'); auto.
  Qed.
End Net.
