(** The Newton-Raphson loop: C18. *)
From Coq Require Import Reals Lra.
From Coquelicot Require Import Complex.
From Verif Require Import Base Num NumXR LibBase LibNum LibXR LibEval Devices BusBranch CheckNetwork LoadFlow Simulator SpecNet LibInit SpecDev SpecSim
  ProofDev SpecPf LibC ProofBr ProofY SpecNr.

Section Nr.
  Context {F : Type} {N : Num F}.
  Lemma nr_steps_app lin p q Y tol (g : list F) n g1 F1 d1 dx g2 m g3 : nr_steps lin p q Y tol g n g1 -> residual p q Y g1 F1 d1 ->
    nltb tol d1 = true -> lin (jacobian g1 Y) F1 = Ok dx -> vec_sub g1 dx = Ok g2 ->
    nr_steps lin p q Y tol g2 m g3 -> nr_steps lin p q Y tol g (S n + m) g3.
  Proof.
    intros H1 H2 H3 H4 H5 H. induction H.
    - rewrite Nat.add_0_r. exact (nr_more _ _ _ _ _ _ _ _ _ _ _ _ H1 H2 H3 H4 H5).
    - replace (S n + S n0)%nat with (S (S n + n0)) by lia.
      exact (nr_more _ _ _ _ _ _ _ _ _ _ _ _ IHnr_steps H0 H6 H7 H8).
  Qed.
  Lemma nr_loop_inv lin Y p q tol fuel : forall k (g Fv : list F) d g' n d', residual p q Y g Fv d ->
    nr_loop lin Y p q tol fuel k g Fv d = Ok (g', n, d') ->
    exists m F', n = (k + m)%nat /\ (m <= fuel)%nat /\ nr_steps lin p q Y tol g m g' /\ residual p q Y g' F' d' /\
      (m = fuel \/ nltb tol d' = false).
  Proof.
    induction fuel as [|fuel IH]; intros k g Fv d g' n d' R H; cbn [nr_loop] in H.
    - injection H as <- <- <-. exists 0%nat, Fv. rewrite Nat.add_0_r. split; auto. split; auto. split; [constructor|]. split; auto.
    - destruct (nltb tol d) eqn:L.
      + apply bind_ok in H as (dx & E1 & H). apply bind_ok in H as (g1 & E2 & H). apply bind_ok in H as (F1 & E3 & H). apply bind_ok in H as (d1 & E4 & H).
        apply IH in H; [|split; auto]. destruct H as (m & F' & -> & Hm & St & R' & Q).
        exists (S m), F'. split; [lia|]. split; [lia|]. split.
        { exact (nr_steps_app _ _ _ _ _ _ 0 _ _ _ _ _ _ _ (nr_start _ _ _ _ _ _) R L E1 E2 St). }
        split; auto. destruct Q; [left; lia|right; auto].
      + injection H as <- <- <-. exists 0%nat, Fv. rewrite Nat.add_0_r. split; auto. split; [lia|]. split; [constructor|]. split; auto.
  Qed.
  (** C18 *)
  Lemma solve_inv lin nbus p q Y tol v i st : solve_pfe lin nbus p q Y tol = Ok (v, i, st) ->
    exists n g Fv d, (n <= 100)%nat /\ nr_steps lin p q Y tol (flat nbus) n g /\ residual p q Y g Fv d /\
      (n = 100%nat \/ nltb tol d = false) /\ v = construct_v g /\ mat_vecE Y v = Ok i /\
      (st = true <-> nisnan d = false /\ nleb d tol = true).
  Proof.
    unfold solve_pfe, newton_raphson. fold (flat (F := F) nbus). intros H.
    apply bind_ok in H as ([[[g n] d] c] & H1 & H). apply bind_ok in H1 as (F0 & E1 & H1). apply bind_ok in H1 as (d0 & E2 & H1).
    apply bind_ok in H1 as ([[g' n'] d'] & E3 & H1). injection H1 as -> -> -> <-.
    apply bind_ok in H as (v' & E4 & H). apply bind_ok in H as (i' & E5 & H). injection H as -> -> <-.
    apply nr_loop_inv in E3; [|split; auto]. destruct E3 as (m & F' & -> & Hm & St & Rs & Q).
    exists m, g, F', d. split; auto. split; auto. split; auto. split; auto. split.
    { unfold construct_vE in E4. destruct (Nat.even _); [congruence|discriminate]. }
    split; auto. rewrite Bool.andb_true_iff, Bool.negb_true_iff. reflexivity.
  Qed.
  (** the limit of 100 iterations is reached at most: the result only depends on the answers of the
      linear solver to the systems of the first 100 steps *)
  Lemma pfe_shape g p q Y (Fv : list F) : f_pfe g p q Y = Ok Fv ->
    List.length Y = List.length (construct_v g) /\ List.length p = List.length q /\ S (List.length p) = List.length (construct_v g) /\
    Fv = re_im (mismatch (construct_v g) (mat_vec Y (construct_v g)) p q) /\ Nat.Even (List.length g).
  Proof.
    unfold f_pfe, construct_vE, mat_vecE. destruct (Nat.even (List.length g)) eqn:E; [|discriminate]. cbn [bind].
    destruct (Nat.eqb_spec (List.length Y) (List.length (construct_v g))); [|discriminate]. cbn [bind].
    destruct (Nat.eqb_spec (List.length p) (List.length q)); [|discriminate].
    destruct (Nat.eqb_spec (S (List.length p)) (List.length (construct_v g))); [|discriminate]. cbn.
    intros H. injection H as <-. apply Nat.even_spec in E. auto.
  Qed.
End Nr.

Local Open Scope R_scope.
(** the max-norm over the extended reals *)
Lemma np_max_le (a c : XR) x : xle (np_max a c) (Fin x) <-> xle a (Fin x) /\ xle c (Fin x).
Proof.
  unfold np_max, nisnan. destruct a as [a| | |].
  - cbn [nleb neqb XRnum xeqb]. rewrite (proj2 (Reqb_spec a a) eq_refl). cbn [negb]. rewrite orb_false_r.
    destruct c as [c| | |]; cbn [xleb]; try (unfold xle; cbn [xleb]; intuition congruence).
    destruct (Rleb c a) eqn:E; [apply Rleb_spec in E|apply Rleb_false in E]; rewrite !xle_Fin; lra.
  - unfold xle. destruct c; cbn; intuition congruence.
  - unfold xle. destruct c; cbn; intuition congruence.
  - unfold xle. destruct c; cbn; intuition congruence.
Qed.
Lemma fold_max_le l x : forall a : XR, xle (fold_left np_max l a) (Fin x) <-> xle a (Fin x) /\ Forall (fun c => xle c (Fin x)) l.
Proof.
  induction l as [|c l IH]; intros a; cbn [fold_left].
  - split; [intros H; split; auto|tauto].
  - rewrite IH, np_max_le. split.
    + intros [[A B] C]. split; auto.
    + intros [A B]. inversion B; subst. auto.
Qed.
Lemma xabs_le y x : xle (xabs y) (Fin x) <-> exists r, y = Fin r /\ Rabs r <= x.
Proof.
  split.
  - destruct y as [r| | |]; cbn; unfold xle; cbn; try discriminate. intros H. apply Rleb_spec in H. eauto.
  - intros (r & -> & H). cbn. apply xle_Fin. exact H.
Qed.
Lemma norm_inf_le (Fv : list XR) d x : norm_inf Fv = Ok d ->
  (xle d (Fin x) <-> Forall (fun y => exists r, y = Fin r /\ Rabs r <= x) Fv).
Proof.
  unfold norm_inf. destruct Fv as [|a l]; cbn [map]; [discriminate|]. intros H. injection H as <-. rewrite fold_max_le. split.
  - intros [A B]. constructor; [apply xabs_le; exact A|]. rewrite Forall_map in B. eapply Forall_impl; [|exact B]. intros y. apply xabs_le.
  - intros H. inversion H; subst. split; [apply xabs_le; auto|]. rewrite Forall_map. eapply Forall_impl; [|eassumption]. intros y. apply xabs_le.
Qed.

(** finite residual: the voltages are finite and the power-flow equations hold up to [x] *)
Definition to_C (z : cplx XR) : C := (val_or (Some (re z)) 0, val_or (Some (im z)) 0).
Lemma to_C_up z : fin (re z) -> fin (im z) -> z = up (to_C z).
Proof. destruct z as [a c]. cbn. intros (x & ->) (y & ->). reflexivity. Qed.
Lemma xsub_fin' a c : fin (xsub a c) -> fin a /\ fin c.
Proof. intros (r & H). apply xsub_fin in H as (x & y & -> & -> & _). auto. Qed.
Lemma xadd_fin' a c : fin (xadd a c) -> fin a /\ fin c.
Proof. intros (r & H). apply xadd_fin in H as (x & y & -> & -> & _). auto. Qed.
Lemma xmul_fin' a c : fin (xmul a c) -> fin a /\ fin c.
Proof. intros (r & H). apply xmul_fin in H as (x & y & -> & -> & _). auto. Qed.
Lemma cmul_conj_fin (a c : cplx XR) : fin (re (cmul a (cconj c))) -> fin (im (cmul a (cconj c))) ->
  (fin (re a) /\ fin (im a)) /\ (fin (re c) /\ fin (im c)).
Proof.
  destruct a as [a1 a2], c as [c1 c2]. unfold cmul, cconj. cbn. intros A B.
  apply xsub_fin' in A as [A1 A2]. apply xmul_fin' in A1 as [X1 X2]. apply xmul_fin' in A2 as [X3 X4].
  destruct X4 as (r & X4). apply xopp_fin in X4 as (y & -> & _). auto.
Qed.
Lemma residual_fin (v i : list (cplx XR)) (p q : list XR) x : List.length i = List.length v -> List.length p = List.length q -> S (List.length p) = List.length v ->
  Forall (fun y => exists r, y = Fin r /\ Rabs r <= x) (re_im (mismatch v i p q)) ->
  forall k, (k < List.length p)%nat -> exists V I P Q,
    nth_error v (S k) = Some (up V) /\ nth_error i (S k) = Some (up I) /\ nth_error p k = Some (Fin P) /\ nth_error q k = Some (Fin Q) /\
    Rabs (fst (V * Cconj I)%C - P) <= x /\ Rabs (snd (V * Cconj I)%C - Q) <= x.
Proof.
  intros L1 L2 L3 H k Hk. unfold re_im in H. apply Forall_app in H as [HR HI]. rewrite Forall_map in HR, HI.
  destruct v as [|v0 v]; [discriminate|]. destruct i as [|i0 i]; [discriminate|]. cbn [List.length] in *.
  unfold mismatch in HR, HI. cbn [zip_with tl] in HR, HI.
  destruct (nth_error v k) as [vk|] eqn:Ev; [|apply nth_error_None in Ev; lia].
  destruct (nth_error i k) as [ik|] eqn:Ei; [|apply nth_error_None in Ei; lia].
  destruct (nth_error p k) as [pk|] eqn:Ep; [|apply nth_error_None in Ep; lia].
  destruct (nth_error q k) as [qk|] eqn:Eq; [|apply nth_error_None in Eq; lia].
  set (m := csub (cmul vk (cconj ik)) (mkC pk qk)).
  assert (Im : In m (zip_with csub (zip_with (fun a b => cmul a (cconj b)) v i) (zip_with mkC p q))).
  { unfold m. clear -Ev Ei Ep Eq. revert v i p q Ev Ei Ep Eq. induction k as [|k IH]; intros v i p q Ev Ei Ep Eq;
      destruct v, i, p, q; try discriminate; cbn in *.
    - left. congruence.
    - right. apply IH; auto. }
  rewrite Forall_forall in HR, HI. destruct (HR _ Im) as (a & Ea & La). destruct (HI _ Im) as (c & Ec & Lc).
  unfold m, csub in Ea, Ec. cbn [re im nsub XRnum] in Ea, Ec.
  assert (Fa : fin (xsub (re (cmul vk (cconj ik))) pk)) by (eexists; exact Ea).
  assert (Fc : fin (xsub (im (cmul vk (cconj ik))) qk)) by (eexists; exact Ec).
  apply xsub_fin' in Fa as [Fa (P & ->)]. apply xsub_fin' in Fc as [Fc (Q & ->)].
  destruct (cmul_conj_fin _ _ Fa Fc) as [[V1 V2] [I1 I2]].
  rewrite (to_C_up vk V1 V2), (to_C_up ik I1 I2) in *.
  exists (to_C vk), (to_C ik), P, Q. cbn [nth_error]. split; [exact Ev|]. split; [exact Ei|]. split; auto. split; auto.
  rewrite up_conj, up_mul in Ea, Ec. cbn [up re im xsub xadd xopp] in Ea, Ec. injection Ea as <-. injection Ec as <-. auto.
Qed.
