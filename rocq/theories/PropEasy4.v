(** C74: what every ANM6Easy environment guarantees: it can be built, steps and resets return, rewards lie within fixed bounds. *)
From Coq Require Import Reals Lra.
From Verif Require Import Base Num NumXR Devices BusBranch CheckNetwork LoadFlow Simulator EnvArgs Env Anm6 LibBase LibNum LibSim LibXR LibEval
  SpecNet ProofNet LibInit SpecSim ProofSim ProofObs ProofSoc ProofReset ProofUnits SpecDev ProofVals ProofBounds ProofDevs SpecQp SpecPf SpecTotal PropSet PropTotal SpecEnv ProofEnv ProofStep ProofState ProofDraw ProofEnvOk PropEnv
  SpecObs ProofObsList ProofObsEnv ProofArgs PropObs ProofLive PropReward SpecEpisode ProofEpisode SpecAnm6 ProofEasy PropEasy PropEasy2 PropEasy3 ProofAnm6.
Local Open Scope string_scope.
Local Open Scope list_scope.
Local Open Scope R_scope.
Set Bullet Behavior "Strict Subproofs".
Notation alive6 := SpecAnm6.alive.

(** The environment can be built. *)
Theorem C74_constructed : forall (G : Type) (g : G), exists a0 : anm6 XR G, easy_make g = Ok a0.
Proof. intros G g. apply easy_made. Qed.

Section Facts.
  Context {G : Type} (ro : rng_ops XR G) (sf : Z -> G) (g : G) (a0 : anm6 XR G).
  Hypothesis Rs : rng_sound ro.
  Hypothesis built : easy_make g = Ok a0.
  Notation s0 := (e_sim (a_env a0)).

  Lemma e6_init : env_init anm6x ObsState 1 (Fin (1/4)) easy_gamma (nofZ 100) (Some [(n0, nsub (ndiv (nofZ 24) easy_dt) n1)]) (Some (Some n1, Some (nofZ 100))) g = Ok (a_env a0).
  Proof.
    unfold easy_make in built. apply bind_ok in built as (e & E & H). unfold anm6_init in H. apply bind_ok in H as (? & _ & H). apply bind_ok in H as (? & _ & H). injection H as <-.
    cbn [a_env]. unfold easy_env in E. unfold easy_dt in E at 1. rewrite nrat_XR in E by lia. exact E.
  Qed.
  Lemma e6_devs : sm_devs s0 = ax_devs /\ sm_base s0 = Fin 100.
  Proof.
    destruct (start_facts clock_XR g a0 built) as (e0 & _ & E0 & Hs & _). rewrite <- E0 in Hs. destruct (ax_sim easy_dt (nofZ 100)) as (s & Es & Ed & Eb & _).
    rewrite Es in Hs. injection Hs as <-. auto.
  Qed.

  (** the devices that the task looks up *)
  Lemma find_same i : forall (l l0 : list (device XR)) d0, map strip_dev l = map strip_dev l0 -> find (fun d => Z.eqb (d_id d) i) l0 = Some d0 ->
    exists d, find (fun d => Z.eqb (d_id d) i) l = Some d /\ d_spec d = d_spec d0.
  Proof.
    induction l as [|d l IH]; intros [|d0 l0] dx St H; try discriminate. cbn [map] in St. cbn [find] in *.
    assert (S1 : strip_dev d = strip_dev d0 /\ map strip_dev l = map strip_dev l0) by (split; [exact (f_equal (fun l => hd (strip_dev d) l) St)|exact (f_equal (@tl _) St)]).
    destruct S1 as (S1 & S2). apply strip_dev_fields in S1 as (A & _ & _ & B & _). rewrite A. destruct (Z.eqb (d_id d0) i); [injection H as <-; eauto|eauto].
  Qed.
  Lemma e6_find (s : sim XR) i d0 : strip s = strip s0 -> find (fun d => Z.eqb (d_id d) i) ax_devs = Some d0 -> exists d, find_dev s i = Ok d /\ d_spec d = d_spec d0.
  Proof.
    intros St E. apply (f_equal (@sm_devs XR)) in St. cbn [strip sm_devs] in St. rewrite (proj1 e6_devs) in St. destruct (find_same i _ _ d0 St E) as (d & E' & Sd).
    exists d. unfold find_dev. rewrite E'. auto.
  Qed.

  Lemma lin_fin a b : fin a -> fin b -> Forall fin (linspace7 a b).
  Proof. intros (x & ->) (y & ->). rewrite lin7. cbn [map]. repeat (apply Forall_cons; [eexists; reflexivity|]). constructor. Qed.
  Lemma day_fin v1 s12 v2 s23 v3 : fin v1 -> fin v2 -> fin v3 -> Forall fin s12 -> Forall fin s23 -> Forall fin (day_series v1 s12 v2 s23 v3).
  Proof.
    intros A B C D E. assert (R : forall v n, fin v -> Forall fin (repeat v n)) by (intros v n Hv; apply Forall_forall; intros x I; apply repeat_spec in I; subst; auto).
    unfold day_series. repeat (apply Forall_app; split); auto; apply Forall_rev; auto.
  Qed.
  Lemma tables_fin : Forall (Forall fin) (P_loads ++ P_maxs : list (list XR)).
  Proof.
    assert (Q : forall a b, (0 < b)%Z -> fin (nrat a b : XR)) by (intros a b Hb; rewrite nrat_XR by auto; eexists; reflexivity).
    assert (Z' : forall z, fin (nofZ z : XR)) by (intros; eexists; reflexivity).
    unfold P_loads, P_maxs. cbn [app]. do 5 (apply Forall_cons; [apply day_fin; try apply lin_fin; try (apply Q; lia); try apply Z'; eexists; reflexivity|]). apply Forall_nil.
  Qed.
  Lemma row_entry (row : list XR) k : In row (P_loads ++ P_maxs) -> (0 <= k < 96)%Z -> exists x, py_nth row k = Ok (Fin x) /\ nth_res row (Z.to_nat k) = Ok (Fin x).
  Proof.
    intros I Hk. pose proof (series_len (F := XR)) as S. pose proof tables_fin as T. rewrite Forall_forall in S, T.
    destruct (py_nth_ok row k (S _ I) Hk) as (x & E1 & E2). specialize (T _ I). rewrite Forall_forall in T. destruct (T x (nth_error_In _ _ E2)) as (y & ->).
    exists y. split; auto. unfold nth_res. rewrite E2. auto.
  Qed.

  (** whatever the last entry of the vector, as long as it is a number *)
  Lemma next_total (st : list XR) : st <> [] -> Forall fin st -> exists vars, easy_next st = Ok vars /\ List.length vars = 6%nat /\ Forall fin vars.
  Proof.
    intros Ne Fs. unfold easy_next. destruct st as [|x st]; [congruence|]. remember (x :: st) as l.
    assert (Fl : fin (last l n0)). { destruct (exists_last Ne) as (u & v & E). rewrite E, last_last. rewrite E in Fs. apply Forall_app in Fs as (_ & Fs). inversion Fs; auto. }
    destruct Fl as (y & ->). unfold easy_dt. rewrite nrat_XR by lia. cbn [nadd n1 XRnum xadd ndiv nofZ nmod ntrunc]. rewrite xdiv_Fin by lra. cbn [xmod].
    destruct (Req_EM_T (24 / (1 / 4)) 0) as [E|_]; [lra|]. cbn [xtrunc].
    assert (B : (0 <= rtrunc (rmod (y + 1) (24 / (1 / 4))) < 96)%Z).
    { replace (24 / (1 / 4)) with 96 by lra. unfold rmod. set (q := Int_part ((y + 1) / 96)). pose proof (base_Int_part ((y + 1) / 96)) as (B1 & B2). fold q in B1, B2.
      assert (C : 0 <= y + 1 - IZR q * 96 < 96) by (split; [assert (IZR q * 96 <= (y + 1) / 96 * 96) by nra|]; nra || (unfold Rdiv in *; nra)).
      unfold rtrunc. replace (y + 1 - 96 * IZR q) with (y + 1 - IZR q * 96) by ring. destruct (Rle_dec 0 (y + 1 - IZR q * 96)); [|lra].
      pose proof (base_Int_part (y + 1 - IZR q * 96)) as (D1 & D2). set (z := Int_part (y + 1 - IZR q * 96)) in *.
      split; [apply Z.lt_pred_le, lt_IZR; rewrite <- Z.sub_1_r, minus_IZR; lra|apply lt_IZR; lra]. }
    revert B. generalize (rtrunc (rmod (y + 1) (24 / (1 / 4)))). intros k B.
    assert (Lp : exists l1 l3 l5, P_loads = [l1; l3; l5] :> list (list XR)) by (unfold P_loads; eauto).
    assert (Mp : exists m2 m4, P_maxs = [m2; m4] :> list (list XR)) by (unfold P_maxs; eauto).
    destruct Lp as (l1 & l3 & l5 & Lp), Mp as (m2 & m4 & Mp). rewrite Lp, Mp. cbn [mapM].
    assert (Rw : forall row, In row [l1; l3; l5; m2; m4] -> exists x, py_nth row k = Ok (Fin x)).
    { intros row I. destruct (row_entry row k) as (z & Ez & _); auto. { rewrite Lp, Mp. exact I. } eauto. }
    destruct (Rw l1) as (x1 & ->); [cbn; auto|]. destruct (Rw l3) as (x3 & ->); [cbn; auto|]. destruct (Rw l5) as (x5 & ->); [cbn; auto 6|].
    destruct (Rw m2) as (x2 & ->); [cbn; auto 6|]. destruct (Rw m4) as (x4 & ->); [cbn; auto 8|]. cbn [bind app].
    eexists. split; [reflexivity|]. split; [reflexivity|]. repeat (apply Forall_cons; [eexists; reflexivity|]). constructor.
  Qed.

  Lemma init_total (s : sim XR) gr : strip s = strip s0 -> exists init, fst (easy_init ro s gr) = Ok init /\ List.length init = 18%nat /\ Forall fin init /\ soc_entries_ok s0 init.
  Proof.
    intros St. unfold easy_init. pose proof (rs_int ro Rs 0%Z 96%Z gr ltac:(lia)) as B. destruct (r_int ro 0%Z 96%Z gr) as (t0, g1). cbn [fst] in B.
    destruct (e6_find s 1 _ St eq_refl) as (d1 & F1 & S1). destruct (e6_find s 2 _ St eq_refl) as (d2 & F2 & S2). destruct (e6_find s 3 _ St eq_refl) as (d3 & F3 & S3).
    destruct (e6_find s 4 _ St eq_refl) as (d4 & F4 & S4). destruct (e6_find s 5 _ St eq_refl) as (d5 & F5 & S5). destruct (e6_find s 6 _ St eq_refl) as (d6 & F6 & S6).
    rewrite F1, F2, F3, F4, F5, F6. cbn [bind]. unfold d_qmin, d_qmax, dev_soc_rng, dev_qp. rewrite S1, S2, S3, S4, S5, S6.
    cbn [ax_rer ax_load ax_stor d_spec g_qmin g_qmax s_socmin s_socmax l_qp bind].
    destruct (unif_between ro (- (3/10)) (3/10) g1 Rs ltac:(lra)) as (q2 & Eq2 & _). destruct (r_unif ro (Fin (- (3/10))) (Fin (3/10)) g1) as (q2', g2). cbn [fst] in Eq2. subst q2'.
    destruct (unif_between ro (- (5/10)) (5/10) g2 Rs ltac:(lra)) as (q4 & Eq4 & _). destruct (r_unif ro (Fin (- (5/10))) (Fin (5/10)) g2) as (q4', g3). cbn [fst] in Eq4. subst q4'.
    destruct (unif_between ro 0 1 g3 Rs ltac:(lra)) as (c & Ec & Bc). destruct (r_unif ro (Fin 0) (Fin 1) g3) as (c', g4). cbn [fst] in Ec. subst c'. cbn [fst].
    destruct (row_entry (nth 0 P_loads []) t0) as (l1 & _ & ->); [left; reflexivity|auto|]. destruct (row_entry (nth 1 P_loads []) t0) as (l3 & _ & ->); [right; left; reflexivity|auto|].
    destruct (row_entry (nth 2 P_loads []) t0) as (l5 & _ & ->); [right; right; left; reflexivity|auto|]. destruct (row_entry (nth 0 P_maxs []) t0) as (m2 & _ & ->); [right; right; right; left; reflexivity|auto|].
    destruct (row_entry (nth 1 P_maxs []) t0) as (m4 & _ & ->); [right; right; right; right; left; reflexivity|auto|]. cbn [bind].
    eexists. split; [reflexivity|]. split; [reflexivity|]. split; [repeat (apply Forall_cons; [eexists; reflexivity|]); constructor|].
    intros k i lo hi x Hk Hb Hx. rewrite storage_ids_eq in Hk. unfold n_device in Hx. rewrite (proj1 e6_devs) in Hk, Hx. rewrite (proj2 e6_devs).
    change (nth_error [EId 6] k = Some i) in Hk. destruct k as [|k]; [|destruct k; discriminate Hk]. injection Hk as <-.
    cbn [List.length ax_devs Nat.mul Nat.add nth_error] in Hx. injection Hx as <-.
    assert (Hd : In ax_stor (sm_devs s0)) by (rewrite (proj1 e6_devs); cbn [In ax_devs]; auto 10).
    assert (ND : NoDup (map d_id (sm_devs s0))) by (rewrite (proj1 e6_devs); cbn [map ax_devs ax_slack ax_load ax_rer ax_stor d_id]; repeat constructor; cbn [In]; lia).
    pose proof (bound_soc s0 ax_stor _ ND Hd eq_refl) as E. cbn [ax_stor d_id] in E. rewrite E in Hb. injection Hb as <- <-.
    cbn [ndiv XRnum]. rewrite xdiv_Fin by lra. split; cbn [s_socmin s_socmax ax_stor]; apply Rleb_spec; lra.
  Qed.
  Lemma easy_good (s : sim XR) : strip s = strip s0 -> good_task anm6x 1 s0 (easy_task ro sf s).
  Proof.
    intros St. split.
    - intros gr. exact (init_total s gr St).
    - intros st gr L Fs. cbn [t_next easy_task fst]. apply next_total; auto. intros ->. discriminate L.
  Qed.

  (** ---- calls that return ---- *)
  Lemma quarter : (Fin (1/4) : XR) = easy_dt.
  Proof. unfold easy_dt. rewrite nrat_XR by lia. reflexivity. Qed.
  Lemma e6_task_args a : reach6 g (a_env a0) a -> simrun s0 a ->
    good anm6x ObsState 1 (Fin (1/4)) easy_gamma (nofZ 100) (Some [(n0, nsub (ndiv (nofZ 24) easy_dt) n1)]) (Some (Some n1, Some (nofZ 100))) g (a_env a0) (a_env a) /\
    good_task anm6x 1 s0 (easy_task ro sf (e_sim (a_env a))).
  Proof. intros (Hg & _) (l & E). rewrite quarter. split; [exact Hg|]. apply easy_good. rewrite E. apply strip_run. Qed.
  Lemma e6_ordered : ordered_bounds (Some [(n0, nsub (ndiv (nofZ 24) easy_dt) n1)]) (a_env a0) ax_reqs.
  Proof. intros r b I E. apply (ax_bounds s0 r b); auto; apply e6_devs. Qed.
  Lemma e6_plain t : In t state_tuples -> ~ i_magn_default t.
  Proof. intros I. cbn [state_tuples In] in I. decompose [or] I; try contradiction; subst t; unfold i_magn_default; intros (? & H); discriminate. Qed.

  Notation alive1 := (ProofEpisode.alive anm6x 1).
  Lemma e6_reset Or seed a : reach6 g (a_env a0) a -> simrun s0 a -> (forall sp, e_ospace (a_env a0) = Some sp -> e_ospace (a_env a) = Some sp) -> good_oracles Or ->
    let T := easy_task ro sf (e_sim (a_env a)) in
    alive1 (fst (env_reset Or T seed (a_env a))) /\ returns T s0 (state_size (a_env a0)) (a_env a) (EReset Or seed).
  Proof.
    intros R Sr Sp Go T. destruct (e6_task_args a R Sr) as (Hg & GT).
    refine (reset_alive_at anm6x ObsState 1 (1/4) easy_gamma (nofZ 100) _ _ g (a_env a0) T e6_init 100 eq_refl ltac:(lra) ax_mappable ax_solvable ax_br_fin ax_bus_fin ax_numbered
      state_tuples ax_reqs eq_refl (ax_requested s0 (proj1 e6_devs)) e6_plain e6_ordered GT Or seed (a_env a) Hg Sp Go).
  Qed.
  Lemma e6_gamma : neqb (nsub n1 easy_gamma) (n0 : XR) = false.
  Proof. unfold easy_gamma. rewrite nrat_XR by lia. cbn. apply Reqb_false. lra. Qed.
  Lemma e6_step Or act a : reach6 g (a_env a0) a -> simrun s0 a -> (forall sp, e_ospace (a_env a0) = Some sp -> e_ospace (a_env a) = Some sp) -> good_oracles Or ->
    Forall fin act -> valid_action (a_env a0) act -> alive1 (a_env a) -> let T := easy_task ro sf (e_sim (a_env a)) in
    alive1 (fst (env_step Or T act (a_env a))) /\ returns T s0 (state_size (a_env a0)) (a_env a) (EStep Or act).
  Proof.
    intros R Sr Sp Go Fa Va Al T. destruct (e6_task_args a R Sr) as (Hg & GT).
    refine (step_alive_at anm6x ObsState 1 (1/4) easy_gamma (nofZ 100) _ _ g (a_env a0) T e6_init 100 eq_refl ltac:(lra) ax_mappable ax_solvable ax_br_fin ax_bus_fin ax_numbered
      state_tuples ax_reqs eq_refl (ax_requested s0 (proj1 e6_devs)) e6_plain e6_ordered e6_gamma GT Or act (a_env a) Hg Sp Go Fa Va Al).
  Qed.

  Lemma e6_soc Or act a : reach6 g (a_env a0) a -> simrun s0 a -> (forall sp, e_ospace (a_env a0) = Some sp -> e_ospace (a_env a) = Some sp) -> good_oracles Or ->
    Forall fin act -> valid_action (a_env a0) act -> alive1 (a_env a) -> e_term (a_env a) = Some false -> ProofTotal.soc_in (sm_devs (e_sim (fst (env_step Or (easy_task ro sf (e_sim (a_env a))) act (a_env a))))).
  Proof.
    intros R Sr Sp Go Fa Va Al Te. destruct (e6_task_args a R Sr) as (Hg & GT).
    refine (step_soc_at anm6x ObsState 1 (1/4) easy_gamma (nofZ 100) _ _ g (a_env a0) _ e6_init 100 eq_refl ltac:(lra) ax_mappable ax_solvable state_tuples ax_reqs eq_refl
      (ax_requested s0 (proj1 e6_devs)) e6_plain e6_ordered GT Or act (a_env a) Hg Sp Go Fa Va Al Te).
  Qed.

  Notation kept a := (reach6 g (a_env a0) a /\ simrun s0 a /\ forall sp, e_ospace (a_env a0) = Some sp -> e_ospace (a_env a) = Some sp).
  Lemma kept_start : kept a0.
  Proof.
    destruct (start_facts clock_XR g a0 built) as (e0 & R0 & <- & Hs & Sr). auto.
  Qed.
  Lemma kept_reset Or seed date a : kept a -> kept (fst (easy_reset Or ro sf seed date a)).
  Proof.
    intros (R & S & P). split; [apply easy_reset_reach; auto|]. split; [apply sr_reset; auto|]. intros sp E. specialize (P sp E).
    unfold easy_reset, anm6_reset. destruct (env_reset Or _ seed (a_env a)) as (e', r) eqn:Er. apply env_reset_const in Er as (_ & Q & _). specialize (Q _ P).
    destruct r as [ob|x]; [|auto]. destruct date as [d|]; [|destruct (random_date ro 0 (e_rng e')) as (d, gr)]; cbn; destruct (e_state e') as [st|]; auto; destruct (xtrunc (last st (Fin 0))); auto.
  Qed.
  Lemma kept_step Or act a : kept a -> kept (fst (easy_step Or ro sf act a)).
  Proof.
    intros (R & S & P). split; [apply easy_step_reach; auto|]. split; [apply sr_step; auto|]. intros sp E. specialize (P sp E).
    unfold easy_step, anm6_step. pose proof (stepped_const _ _ _ _ _ _ (env_stepped Or (easy_task ro sf (e_sim (a_env a))) act (a_env a))) as (_ & Q & _).
    destruct (env_step _ _ _ _) as (e', [o|x]); cbn [fst] in Q; rewrite P in Q; [|exact Q]. destruct (a_date a); [destruct (a_date_init a)|]; exact Q.
  Qed.
  Lemma kept_render human skip started up a : kept a -> kept (fst (anm6_render human skip started up a)).
  Proof. intros K. destruct (render_keeps human skip started up a) as (A & B & _). unfold reach6, simrun in *. rewrite A, B. auto. Qed.
  Lemma kept_call c a : kept a -> kept (run_call6 ro sf a c).
  Proof. destruct c; cbn [run_call6]; [apply kept_reset|apply kept_step|apply kept_render|]. intros K. exact K. Qed.
  Lemma kept_run cs : forall a, kept a -> kept (run6 ro sf a cs).
  Proof. induction cs as [|c cs IH]; intros a K; [auto|]. apply IH, kept_call, K. Qed.

  (** a reset returns unless 99 samples in a row diverge *)
  Lemma easy_reset_returns Or seed date a : kept a -> good_oracles Or -> let T := easy_task ro sf (e_sim (a_env a)) in
    alive1 (a_env (fst (easy_reset Or ro sf seed date a))) /\
    ((exists ob, snd (easy_reset Or ro sf seed date a) = Ok ob /\ exists d, a_date (fst (easy_reset Or ro sf seed date a)) = Some d /\ a_date_init (fst (easy_reset Or ro sf seed date a)) = Some d) \/
     (snd (easy_reset Or ro sf seed date a) = Err AttributeError /\ (forall j, (j < 99)%nat -> attempt Or s0 18 (draw T (gen_at T seed (a_env a)) j) false) /\
      a_date (fst (easy_reset Or ro sf seed date a)) = a_date a /\ a_date_init (fst (easy_reset Or ro sf seed date a)) = a_date_init a)).
  Proof.
    intros (R & S & P) Go T. destruct (e6_reset Or seed a R S P Go) as (Al & Rt).
    replace (state_size (a_env a0)) with 18%nat in Rt.
    2:{ symmetry. exact (ep_size anm6x ObsState 1 (1/4) easy_gamma (nofZ 100) _ _ g (a_env a0) T e6_init). }
    unfold returns in Rt. unfold easy_reset, anm6_reset. fold T in Al, Rt |- *. destruct (env_reset Or T seed (a_env a)) as (e', r) eqn:Er. cbn [fst snd] in *.
    destruct r as [ob|x].
    2:{ destruct Rt as [(ob & Rt)|(Rt & At)]; [discriminate|]. split; [exact Al|]. right. cbn. injection Rt as ->. auto. }
    pose proof (env_reset_const _ _ _ _ _ _ Er) as (_ & _ & Et & _).
    destruct Al as [Al|(_ & st & Es & Ls & Fs & Sc)]; [congruence|].
    assert (Al : forall gr, alive1 (env_set_rng e' gr)) by (intros gr; right; cbn; eauto 8). assert (Al' : alive1 e') by (right; cbn; eauto 8).
    assert (Fl : fin (last st n0)). { destruct (exists_last (l := st)) as (u & v & E); [intros ->; discriminate Ls|]. rewrite E, last_last. rewrite E in Fs. apply Forall_app in Fs as (_ & Fs). inversion Fs; auto. }
    destruct Fl as (y & Ey). destruct date as [d|]; [|destruct (random_date ro 0 (e_rng e')) as (d, gr)]; cbn [a_date a_env a_set_dates a_set_env e_state env_set_rng]; rewrite Es, Ey; cbn; split; auto; left; eauto 6.
  Qed.
  Lemma easy_step_returns Or act a : kept a -> good_oracles Or -> Forall fin act -> valid_action (a_env a0) act -> alive1 (a_env a) -> a_date a <> None -> a_date_init a <> None ->
    alive1 (a_env (fst (easy_step Or ro sf act a))) /\ (exists out, snd (easy_step Or ro sf act a) = Ok out) /\
    a_date (fst (easy_step Or ro sf act a)) <> None /\ a_date_init (fst (easy_step Or ro sf act a)) <> None.
  Proof.
    intros (R & S & P) Go Fa Va Al D1 D2. destruct (e6_step Or act a R S P Go Fa Va Al) as (Al' & out & Rt).
    unfold easy_step, anm6_step. destruct (env_step Or _ act (a_env a)) as (e', r). cbn [fst snd] in *. subst r.
    destruct (a_date a); [|congruence]. destruct (a_date_init a); [|congruence]. cbn. split; [exact Al'|]. split; [eauto|]. split; discriminate.
  Qed.
End Facts.

(** ---- C74: calls return ---- *)
(** solvers that behave as documented, and finite actions of the action space *)
Definition careful6 {G} (e0 : env XR G) (c : call6 XR) : Prop :=
  match c with
  | E6Reset Or _ _ => good_oracles Or
  | E6Step Or act => good_oracles Or /\ Forall fin act /\ valid_action e0 act
  | _ => True
  end.
(** The call returns, except that a reset may raise AttributeError after 99 samples for which the power flow does not converge. *)
Definition answers6 {G} (ro : rng_ops XR G) (sf : Z -> G) (s0 : sim XR) (a : anm6 XR G) (c : call6 XR) : Prop :=
  match c with
  | E6Reset Or seed date => let T := easy_task ro sf (e_sim (a_env a)) in
      (exists ob, snd (easy_reset Or ro sf seed date a) = Ok ob) \/
      (snd (easy_reset Or ro sf seed date a) = Err AttributeError /\ forall j, (j < 99)%nat -> attempt Or s0 18 (draw T (gen_at T seed (a_env a)) j) false)
  | E6Step Or act => exists out, snd (easy_step Or ro sf act a) = Ok out
  | _ => True
  end.
(** After any history whatsoever, a reset with solvers that behave as documented returns, unless the power flow diverges for 99 samples in a row. *)
Theorem C74_easy_resets : forall (G : Type) (ro : rng_ops XR G) sf g a0 cs Or seed date, rng_sound ro -> easy_make g = Ok a0 -> good_oracles Or ->
  answers6 ro sf (e_sim (a_env a0)) (run6 ro sf a0 cs) (E6Reset Or seed date).
Proof.
  intros G ro sf g a0 cs Or seed date Rs B Go.
  destruct (easy_reset_returns ro sf g a0 Rs B Or seed date _ (kept_run ro sf g a0 cs _ (kept_start g a0 B)) Go) as (_ & [(ob & E & _)|(E & A & _)]); [left; eauto|right; auto].
Qed.
(** Once a reset has returned, whatever the history before it and whatever the sequence of careful calls after it (renderings and closings at will), of any
    length: every step returns and every reset returns or gives up after 99 diverging samples. *)
Theorem C74_easy_returns : forall (G : Type) (ro : rng_ops XR G) sf g a0 cs Or0 seed date a1 ob cs1 c,
  rng_sound ro -> easy_make g = Ok a0 -> good_oracles Or0 -> easy_reset Or0 ro sf seed date (run6 ro sf a0 cs) = (a1, Ok ob) ->
  Forall (careful6 (a_env a0)) (cs1 ++ [c]) -> answers6 ro sf (e_sim (a_env a0)) (run6 ro sf a1 cs1) c.
Proof.
  intros G ro sf g a0 cs Or0 seed date a1 ob cs1 c Rs B Go H Fc.
  pose proof (kept_run ro sf g a0 cs _ (kept_start g a0 B)) as K.
  pose proof (easy_reset_returns ro sf g a0 Rs B Or0 seed date _ K Go) as R0. pose proof (kept_reset ro sf g a0 Or0 seed date _ K) as K1. rewrite H in R0, K1. cbn [fst snd] in R0, K1.
  destruct R0 as (Al & [(ob' & _ & d & D1 & D2)|(E & _)]); [|discriminate].
  assert (I1 : ProofEpisode.alive anm6x 1 (a_env a1) /\ a_date a1 <> None /\ a_date_init a1 <> None) by (rewrite D1, D2; repeat split; auto; discriminate).
  clear H K Al D1 D2 d Or0 Go seed date ob ob' cs. revert a1 K1 I1. induction cs1 as [|c1 cs1 IH]; intros a1 K (Al & D1 & D2).
  - apply Forall_inv in Fc. cbn [run6 fold_left]. destruct c as [Or seed date|Or act| |]; cbn [careful6 answers6] in *; auto.
    + destruct (easy_reset_returns ro sf g a0 Rs B Or seed date _ K Fc) as (_ & [(ob & E & _)|(E & A & _)]); [left; eauto|right; auto].
    + destruct Fc as (Go & Fa & Va). apply (easy_step_returns ro sf g a0 Rs B Or act a1 K Go Fa Va Al D1 D2).
  - cbn [app] in Fc. inversion Fc as [|? ? C1 Fc']; subst. change (run6 ro sf a1 (c1 :: cs1)) with (run6 ro sf (run_call6 ro sf a1 c1) cs1). apply (IH Fc'); [apply kept_call; auto|].
    destruct c1 as [Or seed date|Or act|human skip started up|]; cbn [careful6 run_call6] in *; auto.
    + destruct (easy_reset_returns ro sf g a0 Rs B Or seed date _ K C1) as (Al' & [(ob & _ & d & E1 & E2)|(_ & _ & E1 & E2)]); rewrite E1, E2; repeat split; auto; discriminate.
    + destruct C1 as (Go & Fa & Va). destruct (easy_step_returns ro sf g a0 Rs B Or act a1 K Go Fa Va Al D1 D2) as (X1 & _ & X2 & X3). auto.
    + destruct (render_keeps human skip started up a1) as (A1 & _ & A2 & A3 & _). rewrite A1, A2, A3. auto.
Qed.

(** ---- C74: rewards ---- *)
(** Once a reset has returned: a step of an episode that already ended is worth 0, the step that ends the episode is worth - 20000, and the reward of any other
    step is a number between - 101 and 1.  Any solvers, any actions, renderings and closings at will. *)
Theorem C74_easy_rewards : forall (G : Type) (ro : rng_ops XR G) sf g a0 cs Or0 seed date a1 ob, rng_sound ro -> easy_make g = Ok a0 ->
  easy_reset Or0 ro sf seed date (run6 ro sf a0 cs) = (a1, Ok ob) ->
  forall n a Or act a2 out, stepping ro sf any n a1 a -> easy_step Or ro sf act a = (a2, Ok out) ->
    (e_term (a_env a) = Some true /\ so_terminated out = true /\ so_reward out = Fin 0) \/
    (e_term (a_env a) = Some false /\ so_terminated out = true /\ so_reward out = Fin (- 20000)) \/
    (e_term (a_env a) = Some false /\ so_terminated out = false /\ exists r, so_reward out = Fin r /\ - 101 <= r <= 1).
Proof.
  intros G ro sf g a0 cs Or0 seed date a1 ob Rs B H n a Or act a2 out St Es.
  pose proof (kept_run ro sf g a0 cs _ (kept_start g a0 B)) as K. pose proof (kept_reset ro sf g a0 Or0 seed date _ K) as K1. rewrite H in K1. cbn [fst] in K1. destruct K1 as (R1 & S1 & _).
  destruct (C63_step_values G ro sf g a0 cs Or0 seed date a1 ob Rs B H) as (t0 & _ & _ & Dy).
  (* steps that end the episode are followed only by steps of an ended episode *)
  assert (Q : reach6 g (a_env a0) a /\ simrun (e_sim (a_env a0)) a /\ (e_term (a_env a) = Some false -> stepping ro sf alive6 n a1 a)).
  { split; [eapply stepping_reach; eauto|]. split; [eapply sr_stepping; eauto|]. clear Es Dy. induction St as [a1|n a1 a3 a4 Or1 act1 out1 St IH E1 _|n a1 a3 Or1 act1 St IH E1|n a1 a3 hu sk st up St IH|n a1 a3 St IH].
    - intros _. constructor.
    - intros Te. specialize (IH H R1 S1). pose proof (stepping_reach g _ ro sf any n _ _ St R1) as (Hg & _).
      assert (E1' := E1). unfold easy_step, anm6_step in E1. destruct (env_step Or1 _ act1 (a_env a3)) as (e', [o|x]) eqn:Ev; [|discriminate].
      assert (Ea : a_env a4 = e' /\ o = out1) by (destruct (a_date a3); [destruct (a_date_init a3)|]; injection E1 as <- E'; try discriminate; split; auto; congruence).
      destruct Ea as (Ea & ->). rewrite Ea in Te.
      destruct (gd_step_inv _ _ _ _ _ _ Hg Ev) as [(Tt & _ & -> & _)|(st & vars & el & pen & conv & L)]; [congruence|].
      pose proof (lv_term' _ _ _ _ _ _ _ _ _ _ _ L) as T'. rewrite Te in T'. destruct conv; [|discriminate].
      destruct (lv_conv _ _ _ _ _ _ _ _ _ _ _ L eq_refl) as (_ & _ & st2 & ov & sp & _ & _ & _ & _ & Eo & _).
      eapply SStep; [apply IH; apply L|exact E1'|]. rewrite Eo. reflexivity.
    - rewrite refused_step by auto. intros Te. rewrite <- (refused_step Or1 ro sf act1 a3 E1). apply SRefused; auto.
    - intros Te. apply SRender. apply IH; auto. destruct (render_keeps hu sk st up a3) as (A1 & _). rewrite A1 in Te. exact Te.
    - intros Te. apply SClose. apply IH; auto. }
  destruct Q as (R & (scs & Ss) & Al). destruct R as (Hg & Ln).
  assert (Es' := Es). unfold easy_step, anm6_step in Es. destruct (env_step Or _ act (a_env a)) as (e', [o|x]) eqn:Ev; [|discriminate].
  assert (Ea : a_env a2 = e' /\ o = out) by (destruct (a_date a); [destruct (a_date_init a)|]; injection Es as <- E'; try discriminate; split; auto; congruence).
  destruct Ea as (Ea & ->).
  destruct (gd_step_inv _ _ _ _ _ _ Hg Ev) as [(Tt & _ & _ & sp & _ & ->)|(st & vars & el & pen & conv & L)]; [left; auto|right].
  pose proof (lv_term _ _ _ _ _ _ _ _ _ _ _ L) as Te. specialize (Al Te). destruct conv.
  - right. destruct (lv_conv _ _ _ _ _ _ _ _ _ _ _ L eq_refl) as (_ & _ & st2 & ov & sp & _ & _ & _ & _ & Eo & _).
    assert (Tf : so_terminated out = false) by (rewrite Eo; reflexivity). split; [auto|]. split; [auto|].
    pose proof (Dy n a Or act a2 out Al Es' Tf) as Day. rewrite Ea in Day.
    destruct (anm6_ids (F := XR)) as (_ & D2 & D3 & D4).
    destruct (reward_bounds_at _ _ _ _ _ _ _ _ _ _ (easy_task ro sf (e_sim (a_env a))) _ Hg _ _ _ D2 D3 D4 scs Ss 1 100 (1/4) 100 100 Or act e' out) as (x & y & _ & _ & Er & _ & _ & Bd);
      try reflexivity; try lra; auto using ax_br_fin, ax_bus_fin, ax_numbered, ax_alone; try (symmetry; apply quarter).
    + pose proof (sr_step _ Or ro sf act a (ex_intro _ scs Ss)) as (l & Sl). rewrite Es' in Sl. cbn [fst] in Sl. rewrite Ea in Sl.
      destruct (start_facts clock_XR g a0 B) as (e0 & _ & <- & Hs & _). destruct Day as (_ & (x4 & _ & O4) & x2 & _ & O2).
      assert (Un : forall i v, obs (e_sim e') "gen_p_max" "MW" i = Some (Fin v) -> exists w, obs (e_sim e') "gen_p_max" "pu" i = Some (Fin w)).
      { intros i v Hv. rewrite Sl in Hv |- *. rewrite (units_power_state _ _ _ _ l "gen_p_max" "MW" i Hs) in Hv by (cbn; tauto).
        destruct (obs (run (e_sim (a_env a0)) l) "gen_p_max" "pu" i) as [x|]; [|discriminate Hv]. cbn [option_map] in Hv. injection Hv as Hv. cbn [nmul XRnum nw_base anm6_network nofZ] in Hv.
        destruct x as [w| | |]; [eauto| | |]; exfalso; revert Hv; unfold xmul, inf_sgn; repeat match goal with |- context [if ?b then _ else _] => destruct b end; discriminate. }
      destruct (Un _ _ O4) as (w4 & W4). destruct (Un _ _ O2) as (w2 & W2).
      intros r I. unfold row_val, row_obs. unfold of_type, anm6_network in I. cbn [nw_dev filter dr_type optz_eqb Z.eqb] in I. cbn [Z.eqb Pos.eqb In] in I.
      destruct I as [<-|[<-|[]]]; cbn [dr_id]; [rewrite W2|rewrite W4]; reflexivity.
    + eexists. split; [exact Er|]. lra.
  - left. destruct (lv_coll _ _ _ _ _ _ _ _ _ _ _ L eq_refl) as (_ & _ & _ & rw & sp & Pd & _ & ->). split; [auto|]. split; [reflexivity|].
    cbn [so_reward]. rewrite (gd_clip _ Hg), (gd_gamma _ Hg) in Pd. unfold pydiv in Pd. rewrite e6_gamma in Pd. unfold easy_gamma in Pd. rewrite nrat_XR in Pd by lia.
    cbn [clip_arg snd nopp nofZ XRnum xopp nsub n1 xsub ndiv] in Pd. rewrite xdiv_Fin in Pd by lra. injection Pd as <-. f_equal. field.
Qed.

(** ---- the hypotheses are met ---- *)
(** A generator that always draws the lower end of the range. *)
Definition low_rng : rng_ops XR nat := mkRng (fun lo hi g => (lo, S g)) (fun lo hi g => (lo, S g)).
Lemma low_sound : rng_sound low_rng.
Proof. split; cbn; intros; [lia|]. split; [|auto]. destruct lo as [x| | |]; destruct hi as [y| | |]; cbn in *; try discriminate; auto; apply Rleb_spec; lra. Qed.
(** Solvers that behave as documented exist (C06, C68), and so do generators: whatever happened before, a reset returns or gives up, and if it returned then
    any number of idle steps, with renderings in between, return.  ExEasy.v has a binary64 run in which it returns. *)
Definition idle6 : list XR := [Fin 0; Fin 0; Fin 0; Fin 0; Fin 0; Fin 0].
Example C74_ex : exists (a0 : anm6 XR nat) Or, rng_sound low_rng /\ easy_make 0%nat = Ok a0 /\ good_oracles Or /\ Forall fin idle6 /\ valid_action (a_env a0) idle6 /\
  forall sf cs date, let s0 := e_sim (a_env a0) in
    answers6 low_rng sf s0 (run6 low_rng sf a0 cs) (E6Reset Or None date) /\
    forall a1 ob n, easy_reset Or low_rng sf None date (run6 low_rng sf a0 cs) = (a1, Ok ob) ->
      answers6 low_rng sf s0 (run6 low_rng sf a1 (List.concat (repeat [E6Step Or idle6; E6Render true 0 true true] n))) (E6Step Or idle6).
Proof.
  destruct C06_solver_exists as (qp & _ & Qe & Qc). destruct (C74_constructed nat 0%nat) as (a0 & B). exists a0, (mkOr qp gauss_solve).
  assert (Go : good_oracles (mkOr qp gauss_solve)) by (split; [exact Qe|split; [exact Qc|apply C68_linear_solver_exists]]).
  assert (Fi : Forall fin idle6) by (repeat (apply Forall_cons; [eexists; reflexivity|]); constructor).
  assert (Va : valid_action (a_env a0) idle6).
  { destruct (start_facts clock_XR 0%nat a0 B) as (e0 & (Hg & _) & <- & _). unfold valid_action. rewrite (gd_aspace _ Hg). destruct (e6_devs 0%nat a0 B) as (Ed & Eb).
    unfold build_action_space, get_action_space. rewrite Ed, Eb. cbn -[xleb nleb box_contains]. rewrite ?xdiv_Fin by lra. unfold box_contains, idle6. cbn. xeval. rewrite ?(proj2 (Rleb_spec _ _)) by lra. reflexivity. }
  split; [apply low_sound|]. split; [exact B|]. split; [exact Go|]. split; [exact Fi|]. split; [exact Va|]. intros sf cs date s0. split; [apply (C74_easy_resets nat low_rng sf 0%nat a0); auto using low_sound|].
  intros a1 ob n H. refine (C74_easy_returns nat low_rng sf 0%nat a0 cs (mkOr qp gauss_solve) None date a1 ob _ _ low_sound B Go H _).
  assert (St : careful6 (a_env a0) (E6Step (mkOr qp gauss_solve) idle6)) by (cbn; auto).
  apply Forall_app. split; [|constructor; auto]. induction n as [|n IH]; [constructor|]. cbn [repeat List.concat app]. constructor; [exact St|]. constructor; [exact I|exact IH].
Qed.

Print Assumptions C74_constructed.
Print Assumptions C74_easy_resets.
Print Assumptions C74_easy_returns.
Print Assumptions C74_easy_rewards.
