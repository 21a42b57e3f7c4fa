(** Lemmas about the base layer (monad, dictionaries, lists, sorting). *)
From Verif Require Import Base.
From Coq Require Import Permutation Sorted.

(** Split a hypothesis [bind m k = Ok b] (repeatedly). *)
Lemma bind_ok {A B} (m : res A) (k : A -> res B) b :
  bind m k = Ok b <-> exists a, m = Ok a /\ k a = Ok b.
Proof.
  destruct m; cbn; split.
  - eauto.
  - intros (x & E & H); inversion E; subst; auto.
  - discriminate.
  - intros (x & E & H); discriminate.
Qed.
Lemma raise_if_ok c e : raise_if c e = Ok tt <-> c = false.
Proof. unfold raise_if; destruct c; split; congruence. Qed.
Lemma raise_if_ok' c e u : raise_if c e = Ok u <-> c = false.
Proof. destruct u. apply raise_if_ok. Qed.

Ltac inv_ok :=
  repeat match goal with
  | H : bind _ _ = Ok _ |- _ => apply bind_ok in H; destruct H as (? & ? & H)
  | H : raise_if _ _ = Ok _ |- _ => apply raise_if_ok' in H
  | H : Ok _ = Ok _ |- _ => inversion H; clear H; subst
  | H : Err _ = Ok _ |- _ => discriminate H
  | H : Ok _ = Err _ |- _ => discriminate H
  end.

Lemma nth_res_ok {A} (l : list A) i a : nth_res l i = Ok a <-> nth_error l i = Some a.
Proof. unfold nth_res; destruct (nth_error l i); split; congruence. Qed.
Lemma nth_res_err {A} (l : list A) i : nth_res l i = Err IndexError <-> (List.length l <= i)%nat.
Proof.
  unfold nth_res; destruct (nth_error l i) eqn:E; split; intros H; try congruence.
  - apply nth_error_None in H. congruence.
  - apply nth_error_None; auto.
Qed.
Lemma nth_res_nth {A} (l : list A) i d : (i < List.length l)%nat -> nth_res l i = Ok (nth i l d).
Proof. intros H. apply nth_res_ok. apply nth_error_nth'; auto. Qed.

Lemma Forall2_len {A B} (P : A -> B -> Prop) l l' : Forall2 P l l' -> List.length l = List.length l'.
Proof. induction 1; cbn; auto. Qed.

Section MapM.
  Context {A B : Type} (f : A -> res B).
  Lemma mapM_ok l l' : mapM f l = Ok l' <-> Forall2 (fun a b => f a = Ok b) l l'.
  Proof.
    revert l'; induction l as [|a l IH]; intros l'; cbn.
    - split; intros H; [inversion H; constructor | inversion H; reflexivity].
    - rewrite bind_ok. split.
      + intros (b & E & H). apply bind_ok in H. destruct H as (bs & E2 & H). inversion H; subst.
        constructor; auto. apply IH; auto.
      + intros H; inversion H; subst. exists y; split; auto.
        apply bind_ok. exists l'0. split; auto. apply IH; auto.
  Qed.
  Lemma mapM_length l l' : mapM f l = Ok l' -> List.length l' = List.length l.
  Proof. intros H. apply mapM_ok in H. symmetry. eapply Forall2_len; eauto. Qed.
  Lemma mapM_app l1 l2 : mapM f (l1 ++ l2) = (let* a := mapM f l1 in let* b := mapM f l2 in Ok (a ++ b)).
  Proof.
    induction l1 as [|a l1 IH]; cbn.
    - destruct (mapM f l2); reflexivity.
    - rewrite IH. destruct (f a); cbn; auto. destruct (mapM f l1); cbn; auto.
      destruct (mapM f l2); reflexivity.
  Qed.
  Lemma mapM_all l (g : A -> B) : (forall a, In a l -> f a = Ok (g a)) -> mapM f l = Ok (map g l).
  Proof.
    induction l as [|a l IH]; intros H; cbn; auto.
    rewrite (H a (or_introl eq_refl)); cbn. rewrite IH; auto. intros; apply H; right; auto.
  Qed.
End MapM.

Lemma mapM_ext {A B} (f g : A -> res B) l : (forall a, In a l -> f a = g a) -> mapM f l = mapM g l.
Proof.
  induction l as [|a l IH]; intros H; cbn; auto.
  rewrite (H a (or_introl eq_refl)). rewrite IH; auto. intros; apply H; right; auto.
Qed.
Lemma mapM_map {A B C} (f : B -> res C) (g : A -> B) l : mapM f (map g l) = mapM (fun a => f (g a)) l.
Proof. induction l as [|a l IH]; cbn; auto. rewrite IH; auto. Qed.

(** mapM whose successful results keep a projection of the input. *)
Lemma mapM_proj {A B C} (f : A -> res B) (p : A -> C) (q : B -> C) l l' :
  (forall a b, f a = Ok b -> q b = p a) -> mapM f l = Ok l' -> map q l' = map p l.
Proof.
  intros H E. apply mapM_ok in E. induction E; cbn; auto.
  f_equal; auto.
Qed.

Lemma foldM_app {A B} (f : B -> A -> res B) l1 l2 b :
  foldM f (l1 ++ l2) b = (let* b' := foldM f l1 b in foldM f l2 b').
Proof.
  revert b; induction l1 as [|a l1 IH]; intros b; cbn; auto.
  destruct (f b a); cbn; auto.
Qed.

(** ---- dictionaries ---- *)
Section DictL.
  Context {K V : Type} (keqb : K -> K -> bool) (Hk : forall a b, keqb a b = true <-> a = b).

  Lemma keqb_refl k : keqb k k = true.
  Proof. apply Hk; reflexivity. Qed.

  Lemma dget_in (d : list (K * V)) k v : dget keqb d k = Some v -> In (k, v) d.
  Proof.
    induction d as [|[k' v'] d IH]; cbn; [discriminate|].
    destruct (keqb k k') eqn:E; intros H.
    - apply Hk in E; inversion H; subst; auto.
    - right; auto.
  Qed.
  Lemma dget_none (d : list (K * V)) k : dget keqb d k = None <-> ~ In k (map fst d).
  Proof.
    induction d as [|[k' v'] d IH]; cbn; [tauto|].
    destruct (keqb k k') eqn:E.
    - apply Hk in E; subst; split; [discriminate | intros H; exfalso; auto].
    - rewrite IH. split.
      + intros H [H1|H1]; auto. subst. rewrite keqb_refl in E; discriminate.
      + tauto.
  Qed.
  Lemma dget_nodup (d : list (K * V)) k v : NoDup (map fst d) -> In (k, v) d -> dget keqb d k = Some v.
  Proof.
    induction d as [|[k' v'] d IH]; cbn; [tauto|].
    intros ND [H|H]; inversion ND; subst.
    - inversion H; subst. rewrite keqb_refl; auto.
    - destruct (keqb k k') eqn:E; auto.
      apply Hk in E; subst. exfalso; apply H2. apply in_map_iff. exists (k', v); auto.
  Qed.
  Lemma dset_fresh (d : list (K * V)) k v : ~ In k (map fst d) -> dset keqb d k v = d ++ [(k, v)].
  Proof.
    induction d as [|[k' v'] d IH]; cbn; intros H; auto.
    destruct (keqb k k') eqn:E.
    - apply Hk in E; subst; exfalso; auto.
    - rewrite IH; auto.
  Qed.
  Lemma dset_get (d : list (K * V)) k v k' :
    dget keqb (dset keqb d k v) k' = if keqb k' k then Some v else dget keqb d k'.
  Proof.
    induction d as [|[k1 v1] d IH]; cbn.
    - reflexivity.
    - destruct (keqb k k1) eqn:E; cbn.
      + apply Hk in E; subst. destruct (keqb k' k1); auto.
      + destruct (keqb k' k1) eqn:E2; auto.
        apply Hk in E2; subst. destruct (keqb k1 k) eqn:E3; auto.
        apply Hk in E3; subst. rewrite keqb_refl in E; discriminate.
  Qed.
End DictL.

Lemma zeqb_iff a b : Z.eqb a b = true <-> a = b.
Proof. apply Z.eqb_eq. Qed.
Lemma seqb_iff a b : String.eqb a b = true <-> a = b.
Proof. apply String.eqb_eq. Qed.

(** ---- sorting ---- *)
Section SortL.
  Context {A : Type} (key : A -> Z).
  Lemma insert_by_perm a l : Permutation (insert_by key a l) (a :: l).
  Proof.
    induction l as [|b l IH]; cbn; auto.
    destruct (key a <=? key b)%Z; auto.
    rewrite IH. apply perm_swap.
  Qed.
  Lemma sort_by_perm l : Permutation (sort_by key l) l.
  Proof.
    induction l as [|a l IH]; cbn; auto. rewrite insert_by_perm. auto.
  Qed.
  Lemma insert_by_sorted a l : Sorted Z.le (map key l) -> Sorted Z.le (map key (insert_by key a l)).
  Proof.
    induction l as [|b l IH]; cbn; intros H.
    - repeat constructor.
    - destruct (Z.leb_spec (key a) (key b)).
      + cbn. constructor; auto.
      + cbn. inversion H; subst. constructor; auto.
        destruct l as [|c l]; cbn in *.
        * repeat constructor; lia.
        * inversion H4; subst.
          destruct (Z.leb_spec (key a) (key c)); cbn; constructor; lia.
  Qed.
  Lemma sort_by_sorted l : Sorted Z.le (map key (sort_by key l)).
  Proof. induction l; cbn; auto using insert_by_sorted. Qed.
  Lemma sort_by_id l : Sorted Z.lt (map key l) -> sort_by key l = l.
  Proof.
    induction l as [|a l IH]; cbn; auto. intros H; inversion H; subst.
    rewrite IH; auto. destruct l as [|b l]; cbn; auto.
    cbn in H3; inversion H3; subst. destruct (Z.leb_spec (key a) (key b)); auto; lia.
  Qed.
End SortL.

Lemma sorted_le_lt l : Sorted Z.le l -> NoDup l -> Sorted Z.lt l.
Proof.
  induction 1; intros ND; constructor.
  - apply IHSorted; inversion ND; auto.
  - inversion ND; subst. destruct H0; constructor.
    assert (a <> b) by (intros ->; apply H3; left; auto). lia.
Qed.

(** ---- lists ---- *)
Lemma zip_with_length {A B C} (f : A -> B -> C) l m :
  List.length (zip_with f l m) = Nat.min (List.length l) (List.length m).
Proof. revert m; induction l; destruct m; cbn; auto. Qed.
Lemma zip_with_nth {A B C} (f : A -> B -> C) l m i a b c :
  (i < List.length l)%nat -> (i < List.length m)%nat ->
  nth i (zip_with f l m) c = f (nth i l a) (nth i m b).
Proof.
  revert m i; induction l; destruct m; cbn; intros; try lia.
  destruct i; auto. apply IHl; lia.
Qed.
Lemma zip_with_combine {A B C} (f : A -> B -> C) l m :
  zip_with f l m = map (fun p => f (fst p) (snd p)) (combine l m).
Proof. revert m; induction l; destruct m; cbn; auto. rewrite IHl; auto. Qed.

Lemma list_set_length {A} (l : list A) i v : List.length (list_set l i v) = List.length l.
Proof. revert i; induction l; destruct i; cbn; auto. Qed.
Lemma list_set_nth {A} (l : list A) i v j d :
  (i < List.length l)%nat -> nth j (list_set l i v) d = if Nat.eqb j i then v else nth j l d.
Proof.
  revert i j; induction l; intros i j Hi; cbn in *; [lia|].
  destruct i; cbn.
  - destruct j; cbn; auto.
  - destruct j; cbn; auto. rewrite IHl; auto; lia.
Qed.

Lemma enum_from_length {A} n (l : list A) : List.length (enum_from n l) = List.length l.
Proof. revert n; induction l; cbn; auto. Qed.
Lemma enum_from_map_snd {A} n (l : list A) : map snd (enum_from n l) = l.
Proof. revert n; induction l; cbn; auto. intros; f_equal; auto. Qed.
Lemma enum_from_map_fst {A} n (l : list A) : map fst (enum_from n l) = seq n (List.length l).
Proof. revert n; induction l; cbn; auto. intros; f_equal; auto. Qed.
Lemma enum_from_nth {A} n (l : list A) i :
  nth_error (enum_from n l) i = option_map (fun a => ((n + i)%nat, a)) (nth_error l i).
Proof.
  revert n i; induction l; intros n i; destruct i; cbn; auto.
  - f_equal. f_equal. lia.
  - rewrite IHl. destruct (nth_error l i); cbn; auto. f_equal; f_equal; lia.
Qed.

Lemma zmem_spec x l : zmem x l = true <-> In x l.
Proof.
  unfold zmem. rewrite existsb_exists. split.
  - intros (y & H & E). apply Z.eqb_eq in E; subst; auto.
  - intros H; exists x; split; auto. apply Z.eqb_refl.
Qed.
Lemma zmem_false x l : zmem x l = false <-> ~ In x l.
Proof. rewrite <- zmem_spec. destruct (zmem x l); split; intros; try congruence; exfalso; auto. Qed.
Lemma optz_eqb_spec a b : optz_eqb a b = true <-> a = b.
Proof.
  destruct a, b; cbn; split; intros H; try congruence.
  - apply Z.eqb_eq in H; congruence.
  - inversion H; apply Z.eqb_refl.
Qed.

Lemma filter_map_comm {A B} (f : A -> B) (p : B -> bool) l :
  filter p (map f l) = map f (filter (fun a => p (f a)) l).
Proof. induction l; cbn; auto. destruct (p (f a)); cbn; rewrite IHl; auto. Qed.
Lemma filter_ext_in' {A} (p q : A -> bool) l : (forall a, p a = q a) -> filter p l = filter q l.
Proof. intros; apply filter_ext_in; auto. Qed.
Lemma find_map {A B} (f : A -> B) (p : B -> bool) l :
  find p (map f l) = option_map f (find (fun a => p (f a)) l).
Proof. induction l; cbn; auto. destruct (p (f a)); cbn; auto. Qed.

Lemma map_eq_Forall2 {A B C} (f : A -> C) (g : B -> C) l l' :
  map f l = map g l' <-> Forall2 (fun a b => f a = g b) l l'.
Proof.
  revert l'; induction l; destruct l'; cbn; split; intros H; try constructor; try inversion H; subst; auto.
  - apply IHl; auto.
  - f_equal; auto. apply IHl; auto.
Qed.

Lemma py_index_spec n i k : py_index n i = Some k ->
  (k < n)%nat /\ ((0 <= i)%Z -> Z.of_nat k = i) /\ ((i < 0)%Z -> Z.of_nat k = (i + Z.of_nat n)%Z).
Proof.
  unfold py_index.
  destruct ((0 <=? i) && (i <? Z.of_nat n))%Z eqn:E.
  - apply andb_true_iff in E; destruct E as [E1 E2].
    apply Z.leb_le in E1; apply Z.ltb_lt in E2. intros H; inversion H; subst. lia.
  - destruct ((- Z.of_nat n <=? i) && (i <? 0))%Z eqn:E2; [|discriminate].
    apply andb_true_iff in E2; destruct E2 as [E1 E2].
    apply Z.leb_le in E1; apply Z.ltb_lt in E2. intros H; inversion H; subst. lia.
Qed.
Lemma py_index_nat n k : (k < n)%nat -> py_index n (Z.of_nat k) = Some k.
Proof.
  intros H. unfold py_index.
  replace ((0 <=? Z.of_nat k) && (Z.of_nat k <? Z.of_nat n))%Z with true.
  - f_equal; lia.
  - symmetry; apply andb_true_iff; split; [apply Z.leb_le | apply Z.ltb_lt]; lia.
Qed.

(** Split every [match]/[if] in a hypothesis of the form [_ = Ok _]. *)
Ltac dm1 :=
  match goal with
  | H : (match ?x with _ => _ end) = Ok _ |- _ => let E := fresh "D" in destruct x eqn:E; try discriminate H
  end.
Ltac dm := repeat (inv_ok; try dm1); inv_ok.
Ltac zm :=
  repeat match goal with
  | H : zmem _ _ = true |- _ => apply zmem_spec in H
  | H : zmem _ _ = false |- _ => apply zmem_false in H
  end.
Lemma Forall2_in_r {A B} (P : A -> B -> Prop) l l' b : Forall2 P l l' -> In b l' -> exists a, In a l /\ P a b.
Proof.
  induction 1 as [|x y l l' E H IH]; cbn; [tauto|]. intros [->|I]; [exists x; auto|].
  destruct (IH I) as (a & ? & ?); eauto.
Qed.
Lemma Forall2_in_l {A B} (P : A -> B -> Prop) l l' a : Forall2 P l l' -> In a l -> exists b, In b l' /\ P a b.
Proof.
  induction 1 as [|x y l l' E H IH]; cbn; [tauto|]. intros [->|I]; [exists y; auto|].
  destruct (IH I) as (b & ? & ?); eauto.
Qed.
