(** The time-of-day index and the dates of ANM6Easy. *)
From Verif Require Import Base Num Devices BusBranch CheckNetwork LoadFlow Simulator EnvArgs Env Anm6 LibBase LibNum LibSim
  SpecNet ProofNet LibInit SpecSim ProofSim ProofObs ProofHist ProofReset SpecEnv ProofEnv ProofStep ProofState ProofDraw ProofEnvOk PropEnv SpecAnm6.
Local Open Scope string_scope.
Local Open Scope list_scope.
Local Open Scope num_scope.
Set Bullet Behavior "Strict Subproofs".

Lemma last_skip {A} (l : list A) (x : A) : skipn (List.length l - 1) l = [x] -> nth_error l (List.length l - 1) = Some x /\ forall d, last l d = x.
Proof.
  intros H. assert (E : l = firstn (List.length l - 1) l ++ [x]) by (rewrite <- H; symmetry; apply firstn_skipn).
  split; [|intros d; rewrite E; apply last_last].
  generalize (firstn (List.length l - 1) l), E. intros u ->. rewrite app_length. cbn [List.length]. rewrite nth_error_app2 by lia. replace (_ - _)%nat with 0%nat by lia. reflexivity.
Qed.

Section Easy.
  Context {F G : Type} {N : Num F}.
  Notation env := (env F G). Notation anm6 := (anm6 F G).

  (** what the arithmetic must give (instances: PropAnm6.v) *)
  Definition clock_ok : Prop :=
    (forall k, (0 <= k < 96)%Z -> ntrunc (nmod (nofZ k + n1) (nofZ 24 / easy_dt)) = Some ((k + 1) mod 96)%Z) /\
    (forall k, (0 <= k < 96)%Z -> ntrunc (nofZ k : F) = Some k) /\ ntrunc (nofZ 60 * easy_dt : F) = Some 15%Z.

  Lemma at_index_fun k (v w : list F) : at_index k v -> at_index k w -> v = w.
  Proof. intros (a & b & c & d & e & -> & A & B) (a' & b' & c' & d' & e' & -> & A' & B'). rewrite A in A'. rewrite B in B'. congruence. Qed.

  Lemma series_len : Forall (fun row => List.length row = 96%nat) (P_loads ++ P_maxs : list (list F)).
  Proof. repeat constructor. Qed.
  Lemma py_nth_ok {A} (row : list A) k : List.length row = 96%nat -> (0 <= k < 96)%Z -> exists x, py_nth row k = Ok x /\ nth_error row (Z.to_nat k) = Some x.
  Proof.
    intros L H. unfold py_nth, py_index. rewrite L. replace (k <? 0)%Z with false by (symmetry; apply Z.ltb_ge; lia).
    replace ((0 <=? k) && (k <? Z.of_nat 96))%Z with true by (symmetry; apply andb_true_intro; split; [apply Z.leb_le|apply Z.ltb_lt]; lia).
    unfold nth_res. destruct (nth_error row (Z.to_nat k)) as [x|] eqn:E; [eauto|]. exfalso. apply nth_error_None in E. lia.
  Qed.

  Lemma easy_next_val st k : (forall d, last st d = nofZ k) -> st <> [] -> clock_ok -> (0 <= k < 96)%Z ->
    exists v, easy_next st = Ok v /\ at_index ((k + 1) mod 96) v.
  Proof.
    intros L Ne (C & _) H. destruct st as [|x st]; [congruence|]. unfold easy_next. rewrite L, C by auto.
    set (j := ((k + 1) mod 96)%Z). assert (J : (0 <= j < 96)%Z) by (apply Z.mod_pos_bound; lia).
    pose proof series_len as S. unfold P_loads, P_maxs in S. cbn [app] in S.
    apply Forall_cons_iff in S as (S1 & S). apply Forall_cons_iff in S as (S2 & S). apply Forall_cons_iff in S as (S3 & S).
    apply Forall_cons_iff in S as (S4 & S). apply Forall_cons_iff in S as (S5 & _).
    unfold at_index, P_loads, P_maxs. cbn [mapM map].
    destruct (py_nth_ok _ j S1 J) as (x1 & E1 & E1'), (py_nth_ok _ j S2 J) as (x2 & E2 & E2'), (py_nth_ok _ j S3 J) as (x3 & E3 & E3'),
      (py_nth_ok _ j S4 J) as (x4 & E4 & E4'), (py_nth_ok _ j S5 J) as (x5 & E5 & E5').
    rewrite E1, E2, E3, E4, E5, E1', E2', E3', E4', E5'. cbn [bind app]. eexists. split; [reflexivity|]. exists x1, x2, x3, x4, x5. auto.
  Qed.

  (** the initial sample ends with the time index *)
  Lemma easy_init_last (ro : rng_ops F G) (s : sim F) g v g' : rng_sound ro -> easy_init ro s g = (Ok v, g') ->
    exists t0, (0 <= t0 < 96)%Z /\ skipn (List.length v - 1) v = [nofZ t0].
  Proof.
    intros Rs. unfold easy_init. pose proof (rs_int ro Rs 0%Z 96%Z g ltac:(lia)) as B. destruct (r_int ro 0%Z 96%Z g) as (t0, g1). cbn [fst] in B.
    destruct (let* d2 := find_dev s 2 in _) as [(d2, d4)|x]; [|discriminate].
    destruct (r_unif ro (d_qmin d2) (d_qmax d2) g1) as (q2, g2). destruct (r_unif ro (d_qmin d4) (d_qmax d4) g2) as (q4, g3).
    destruct (let* d6 := find_dev s 6 in dev_soc_rng d6) as [(lo, hi)|x]; [|discriminate].
    destruct (r_unif ro lo hi g3) as (soc, g4). intros H. apply (f_equal fst) in H. cbn [fst] in H.
    apply bind_ok in H as (? & _ & H). apply bind_ok in H as (? & _ & H). apply bind_ok in H as (? & _ & H). apply bind_ok in H as (? & _ & H).
    apply bind_ok in H as (? & _ & H). apply bind_ok in H as (? & _ & H). apply bind_ok in H as (? & _ & H). apply bind_ok in H as (? & _ & H).
    injection H as <-. exists t0. split; [auto|reflexivity].
  Qed.

  (** ---- reachable objects ---- *)
  Notation good6 g e0 := (good anm6_network ObsState 1 easy_dt easy_gamma (nofZ 100) (Some [(n0, nofZ 24 / easy_dt - n1)]) (Some (Some n1, Some (nofZ 100))) g e0).
  Definition reach6 (g : G) (e0 : env) (a : anm6) : Prop := good6 g e0 (a_env a) /\ a_len a = 15%Z.

  Lemma easy_make_inv g (a0 : anm6) : clock_ok -> easy_make g = Ok a0 ->
    exists e0, reach6 g e0 a0 /\ a_env a0 = e0 /\ a_date a0 = None /\ a_date_init a0 = None /\ a_year a0 = 0%Z /\ a_rd a0 = mkRs false 0 false [] None 0 [].
  Proof.
    intros (_ & _ & C) H. unfold easy_make in H. apply bind_ok in H as (e & He & H). unfold anm6_init in H. apply bind_ok in H as (v & _ & H).
    rewrite C in H. cbn [bind] in H. injection H as <-. exists e. split; [|cbn; auto 8]. split; [|reflexivity]. split; [apply env_init_inv, He|reflexivity].
  Qed.

  Lemma good_reset g e0 Or (T : task F G) seed (e e' : env) r : good6 g e0 e -> env_reset Or T seed e = (e', r) -> good6 g e0 e'.
  Proof. intros Hg H. eapply good_const; [exact Hg|]. apply env_reset_const in H. tauto. Qed.
  Lemma good_step g e0 Or (T : task F G) act (e : env) : good6 g e0 e -> good6 g e0 (fst (env_step Or T act e)).
  Proof. intros Hg. eapply good_const; [exact Hg|]. apply (stepped_const _ _ _ _ _ _ (env_stepped Or T act e)). Qed.
  Lemma good_rng g e0 (e : env) gr : good6 g e0 e -> good6 g e0 (env_set_rng e gr).
  Proof. intros Hg. eapply good_const; [exact Hg|]. reflexivity. Qed.

  Lemma render_keeps human skip started up (a : anm6) : let a' := fst (anm6_render human skip started up a) in
    a_env a' = a_env a /\ a_len a' = a_len a /\ a_date a' = a_date a /\ a_date_init a' = a_date_init a /\ a_year a' = a_year a.
  Proof.
    assert (U : forall a : anm6, let a' := fst (render_update skip up a) in
      a_env a' = a_env a /\ a_len a' = a_len a /\ a_date a' = a_date a /\ a_date_init a' = a_date_init a /\ a_year a' = a_year a).
    { clear a. intros a. unfold render_update. destruct (Z.eqb _ _); [auto|]. destruct (negb _); [auto|]. destruct (send_frame _ _); auto. }
    unfold anm6_render. destruct (rd_mode _); [apply U|]. destruct (negb human); [auto|]. destruct started; [|auto].
    match goal with |- context [render_update skip up ?x] => specialize (U x); destruct (render_update skip up x) as (a2, [[]|x']) end; cbn in *; auto.
  Qed.
  Lemma close_keeps (a : anm6) : let a' := anm6_close a in
    a_env a' = a_env a /\ a_len a' = a_len a /\ a_date a' = a_date a /\ a_date_init a' = a_date_init a /\ a_year a' = a_year a.
  Proof. cbn. auto. Qed.

  Lemma easy_reset_reach g e0 Or ro sf seed date (a : anm6) : reach6 g e0 a -> reach6 g e0 (fst (easy_reset Or ro sf seed date a)).
  Proof.
    intros (Hg & L). unfold easy_reset, anm6_reset. destruct (env_reset Or _ seed (a_env a)) as (e', [ob|x]) eqn:E; pose proof (good_reset _ _ _ _ _ _ _ _ Hg E) as Hg'; [|split; auto].
    destruct date as [d|].
    - cbn. destruct (e_state e'); [|split; auto]. destruct (ntrunc _); split; auto.
    - destruct (random_date ro 0 (e_rng e')) as (d, gr). cbn. pose proof (good_rng _ _ _ gr Hg'). destruct (e_state e'); [|split; auto]. destruct (ntrunc _); split; auto.
  Qed.
  Lemma easy_step_reach g e0 Or ro sf act (a : anm6) : reach6 g e0 a -> reach6 g e0 (fst (easy_step Or ro sf act a)).
  Proof.
    intros (Hg & L). unfold easy_step, anm6_step. pose proof (good_step _ _ Or (easy_task ro sf (e_sim (a_env a))) act _ Hg) as Hg'.
    destruct (env_step Or _ act (a_env a)) as (e', [o|x]); [|split; auto]. destruct (a_date a); [|split; auto]. destruct (a_date_init a); split; auto.
  Qed.
  Lemma call6_reach g e0 ro sf c (a : anm6) : reach6 g e0 a -> reach6 g e0 (run_call6 ro sf a c).
  Proof.
    intros H. destruct c; cbn [run_call6].
    - apply easy_reset_reach; auto.
    - apply easy_step_reach; auto.
    - destruct (render_keeps human skip started up a) as (A & B & _). unfold reach6. rewrite A, B. auto.
    - auto.
  Qed.
  Lemma run6_reach g e0 ro sf cs : forall a : anm6, reach6 g e0 a -> reach6 g e0 (run6 ro sf a cs).
  Proof. induction cs as [|c cs IH]; intros a H; [auto|]. apply IH, call6_reach, H. Qed.

  (** ---- one step ---- *)
  Lemma step_index g e0 Or ro sf act (a a' : anm6) out k : clock_ok -> reach6 g e0 a -> easy_step Or ro sf act a = (a', Ok out) -> so_terminated out = false ->
    time_index a = Some (nofZ k) -> (0 <= k < 96)%Z -> time_index a' = Some (nofZ ((k + 1) mod 96)).
  Proof.
    intros C (Hg & Ln) H Ht Hi Hk. unfold easy_step, anm6_step in H. destruct (env_step Or _ act (a_env a)) as (e', [o|x]) eqn:E; [|discriminate].
    assert (Ea : a_env a' = e' /\ o = out) by (destruct (a_date a); [destruct (a_date_init a)|]; injection H as <- E'; try discriminate; split; auto; congruence).
    destruct Ea as (Ea & ->). unfold time_index. rewrite Ea.
    destruct (ids_ex _ _ _ _ (gd_sim0 _ Hg)) as (devs & loads & gens & dess & D1 & D2 & D3 & D4).
    destruct (gd_step_inv _ _ _ _ _ _ Hg E) as [(_ & _ & _ & sp & _ & ->)|(st & vars & el & pen & conv & L)]; [discriminate|].
    destruct conv; [|destruct (lv_coll _ _ _ _ _ _ _ _ _ _ _ L eq_refl) as (_ & _ & _ & rw & sp & _ & _ & ->); discriminate].
    pose proof (lv_size _ _ _ _ _ _ _ _ _ _ _ L) as Sz. pose proof (lv_next _ _ _ _ _ _ _ _ _ _ _ L) as Nx. pose proof (lv_state _ _ _ _ _ _ _ _ _ _ _ L) as Es.
    destruct (lv_conv _ _ _ _ _ _ _ _ _ _ _ L eq_refl) as (_ & _ & st2 & ov & sp & A & _ & _ & _ & _ & B). rewrite A.
    unfold time_index in Hi. rewrite Es in Hi.
    assert (Ls : forall d, last st d = nofZ k).
    { destruct (nth_error_split st (List.length st - 1) Hi) as (u & w & -> & Lu). rewrite app_length in Lu. cbn in Lu. destruct w; [intros; apply last_last|cbn in Lu; lia]. }
    assert (Ne : st <> []) by (destruct st; [discriminate|congruence]).
    destruct (easy_next_val st k Ls Ne C Hk) as (v & Ev & l1 & l3 & l5 & m2 & m4 & -> & _). cbn in Nx. rewrite Ev in Nx. injection Nx as <- _.
    specialize (B _ _ _ D1 D3 D4). destruct (layout_length _ _ _ _ _ _ _ B) as (_ & Sk).
    rewrite (gd_K _ Hg) in Sz. change (Z.to_nat 1) with 1%nat in Sz, Sk. cbn [List.length] in Sz.
    replace (n_load (e_sim (a_env a)) + n_nsgen (e_sim (a_env a)))%nat with 5%nat in Sk by lia. apply last_skip in Sk. apply Sk.
  Qed.

  (** ---- a reset ---- *)
  Lemma draw_init (ro : rng_ops F G) sf (s : sim F) : forall k gr v g', rng_sound ro -> draw (easy_task ro sf s) gr k = (Ok v, g') ->
    exists t0, (0 <= t0 < 96)%Z /\ skipn (List.length v - 1) v = [nofZ t0 : F].
  Proof.
    induction k as [|k IH]; intros gr v g' Rs H; cbn [draw t_init easy_task] in H; [eapply easy_init_last; eauto|eapply IH; eauto].
  Qed.
  Lemma reset_index g e0 Or ro sf seed date (a a' : anm6) ob : clock_ok -> rng_sound ro -> reach6 g e0 a -> easy_reset Or ro sf seed date a = (a', Ok ob) ->
    exists t0, (0 <= t0 < 96)%Z /\ time_index a' = Some (nofZ t0) /\ e_term (a_env a') = Some false /\ a_year a' = 0%Z /\
      exists d0, (match date with Some d => d0 = d | None => exists j, (1 <= j < 365)%Z /\ d0 = (1440 * j)%Z end) /\
        a_date a' = Some (d0 + 15 * t0)%Z /\ a_date_init a' = Some (d0 + 15 * t0)%Z.
  Proof.
    intros C Rs (Hg & Ln) H. unfold easy_reset, anm6_reset in H. destruct (env_reset Or _ seed (a_env a)) as (e', [ob'|x]) eqn:E; [|discriminate].
    destruct (ids_ex _ _ _ _ (gd_sim0 _ Hg)) as (devs & loads & gens & dess & D1 & D2 & D3 & D4).
    destruct (gd_reset_inv _ _ _ _ _ _ devs gens dess Hg E D1 D3 D4) as (k & init & st & _ & _ & _ & D & _ & _ & Es & Ly & _).
    pose proof (env_reset_const _ _ _ _ _ _ E) as (_ & _ & Et & _).
    destruct (draw_init ro sf _ k _ _ _ Rs D) as (t0 & B & Sk).
    destruct (layout_length _ _ _ _ _ _ _ Ly) as (_ & Sk'). change (Z.to_nat 1) with 1%nat in Sk'. rewrite Sk in Sk'.
    destruct (last_skip _ _ Sk') as (Nl & La). destruct C as (_ & C2 & _).
    assert (Rd : forall gr, exists j, (1 <= j < 365)%Z /\ fst (random_date ro 0 gr) = (1440 * j)%Z).
    { intros gr. unfold random_date. pose proof (rs_int ro Rs 1%Z 365%Z gr ltac:(lia)) as Bj. destruct (r_int ro 1%Z 365%Z gr) as (j, g2). cbn in *. exists j. split; [lia|]. destruct j; auto. }
    exists t0. split; [auto|]. destruct date as [d|].
    - cbn [a_set_env a_set_dates a_date a_env] in H. rewrite Es, La, C2 in H by auto. injection H as <- _. unfold time_index. cbn. rewrite Es. repeat split; auto.
      exists d. split; auto. rewrite Ln. replace (t0 * 15)%Z with (15 * t0)%Z by lia. auto.
    - specialize (Rd (e_rng e')). destruct (random_date ro 0 (e_rng e')) as (d, gr). cbn [fst] in Rd.
      cbn [a_set_env a_set_dates a_date a_env e_state env_set_rng] in H. rewrite Es, La, C2 in H by auto. injection H as <- _. unfold time_index. cbn. rewrite Es. repeat split; auto.
      exists d. split; auto. rewrite Ln. replace (t0 * 15)%Z with (15 * t0)%Z by lia. auto.
  Qed.

  (** ---- since the reset ---- *)
  Lemma stepping_reach g e0 ro sf (P : bool -> Prop) n (a a' : anm6) : stepping ro sf P n a a' -> reach6 g e0 a -> reach6 g e0 a'.
  Proof.
    induction 1; auto; intros Ha; specialize (IHstepping Ha).
    - pose proof (easy_step_reach g e0 Or ro sf action a1 IHstepping) as R. rewrite H0 in R. auto.
    - apply easy_step_reach; auto.
    - destruct (render_keeps human skip started up a1) as (A & B & _). unfold reach6. rewrite A, B. auto.
  Qed.
  Lemma refused_step Or ro sf act (a : anm6) : ~ valid_action (a_env a) act -> fst (easy_step Or ro sf act a) = a.
  Proof.
    intros V. unfold easy_step, anm6_step, env_step. unfold valid_action in V. destruct (box_contains _ _); [congruence|]. cbn. destruct a; reflexivity.
  Qed.
  Lemma stepping_index g e0 ro sf (P : bool -> Prop) n (a a' : anm6) k : clock_ok -> (forall t, P t -> alive t) -> stepping ro sf P n a a' -> reach6 g e0 a -> time_index a = Some (nofZ k) -> (0 <= k < 96)%Z ->
    time_index a' = Some (nofZ ((k + Z.of_nat n) mod 96)).
  Proof.
    intros C HP. induction 1; intros Ha Hi Hk.
    - rewrite Z.add_0_r, Z.mod_small by auto. auto.
    - specialize (IHstepping Ha Hi Hk). eapply step_index in IHstepping; eauto.
      + rewrite IHstepping. do 2 f_equal. rewrite Zplus_mod_idemp_l. f_equal. lia.
      + eapply stepping_reach; eauto.
      + apply HP; auto.
      + apply Z.mod_pos_bound. lia.
    - rewrite refused_step by auto. auto.
    - destruct (render_keeps human skip started up a1) as (A & _). unfold time_index. rewrite A. auto.
    - auto.
  Qed.
  Lemma stepping_dates ro sf (P : bool -> Prop) n (a a' : anm6) d : stepping ro sf P n a a' -> a_len a = 15%Z -> a_date a = Some d -> a_date_init a = Some d -> a_year a = 0%Z ->
    a_len a' = 15%Z /\ a_date a' = Some (d + 15 * Z.of_nat n)%Z /\ a_date_init a' = Some d /\ a_year a' = (15 * Z.of_nat n / 1440 / 365)%Z.
  Proof.
    induction 1; intros Ln Hd Hi Hy.
    - repeat split; auto. rewrite Hd. f_equal. lia.
    - destruct (IHstepping Ln Hd Hi Hy) as (L1 & E1 & E2 & E3). unfold easy_step, anm6_step in H0. destruct (env_step _ _ _ _) as (e', [o|x]); [|discriminate].
      rewrite E1, E2 in H0. apply (f_equal fst) in H0. cbn [fst] in H0. subst a2. cbn [a_len a_date a_date_init a_year a_set_dates a_set_env]. rewrite L1.
      assert (E4 : (d + 15 * Z.of_nat n + 15 = d + 15 * Z.of_nat (S n))%Z) by lia. rewrite E4.
      assert (E5 : (d + 15 * Z.of_nat (S n) - d = 15 * Z.of_nat (S n))%Z) by lia. rewrite E5. tauto.
    - rewrite refused_step by auto. auto.
    - destruct (render_keeps human skip started up a1) as (A & B & D & E & Y). rewrite B, D, E, Y. auto.
    - cbn. auto.
  Qed.
End Easy.
