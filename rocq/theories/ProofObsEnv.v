(** Observations along histories of an environment; errors of reset and step; equality of environments. *)
From Coq Require Import Permutation Sorted.
From Verif Require Import Base Num Devices BusBranch CheckNetwork LoadFlow Simulator EnvArgs Env LibBase LibNum LibSim
  SpecNet ProofNet LibInit SpecSim ProofSim ProofObs ProofHist ProofReset SpecEnv ProofEnv ProofStep ProofState ProofDraw ProofEnvOk SpecObs ProofObsList.
Local Open Scope string_scope.
Local Open Scope list_scope.
Local Open Scope num_scope.

Lemma mapM_length {A B} (f : A -> res B) l m : mapM f l = Ok m -> List.length m = List.length l.
Proof.
  revert m; induction l as [|a l IH]; cbn; intros m H; [injection H as <-; auto|].
  apply bind_ok in H as (b & _ & H). apply bind_ok in H as (m' & H' & H). injection H as <-. cbn. f_equal. auto.
Qed.

Lemma Forall2_len {A B} (R : A -> B -> Prop) l m : Forall2 R l m -> List.length l = List.length m.
Proof. induction 1; cbn; auto. Qed.

Section ObsEnv.
  Context {F G : Type} {N : Num F}.
  Notation env := (env F G).
  Notation task := (task F G).

  (** ---- sizes ---- *)
  Lemma items_concat_length {A} (f : obs_item -> eid -> res A) items m :
    mapM (fun o => let* ns := item_nodes o in mapM (f o) ns) items = Ok m -> List.length (List.concat m) = items_len items.
  Proof.
    revert m; induction items as [|it l IH]; cbn [mapM]; intros m H; [injection H as <-; auto|].
    apply bind_ok in H as (b & H1 & H). apply bind_ok in H as (m' & H2 & H). injection H as <-.
    cbn [List.concat]. rewrite app_length, (IH _ H2). unfold items_len. cbn [map list_sum fold_right]. f_equal.
    apply bind_ok in H1 as (ns & H1 & H3). unfold item_nodes in H1. unfold item_len. destruct (oi_nodes it); try discriminate. injection H1 as ->.
    apply mapM_length in H3. auto.
  Qed.
  Lemma bounds_length b auxb items sp : observation_bounds b auxb (Some items) = Ok (Some sp) ->
    List.length (bx_lo sp) = items_len items /\ List.length (bx_hi sp) = items_len items /\ bx_f32 sp = false.
  Proof.
    unfold observation_bounds. intros H. apply bind_ok in H as (bs & H & E). injection E as <-. apply items_concat_length in H.
    cbn. rewrite !map_length, H. auto.
  Qed.
  Lemma extract_length (e : env) items x : extract_vars e items = Ok x -> List.length x = items_len items.
  Proof. unfold extract_vars. intros H. apply bind_ok in H as (l & H & E). injection E as <-. eapply items_concat_length; eauto. Qed.

  (** ---- clipping ---- *)
  Lemma clip_vec_cons (a lo hi : F) x los his : clip_vec (a :: x) (lo :: los) (hi :: his) = np_clip a lo hi :: clip_vec x los his.
  Proof. reflexivity. Qed.
  Lemma clip_vec_length (x lo hi : list F) : List.length x = List.length lo -> List.length hi = List.length lo -> List.length (clip_vec x lo hi) = List.length lo.
  Proof.
    revert lo hi; induction x as [|a x IH]; intros [|l lo] [|h hi] L1 L2; try discriminate; auto.
    rewrite clip_vec_cons. cbn in *. f_equal. apply IH; congruence.
  Qed.
  Lemma forallb_forall2 (l m : list F) : List.length l = List.length m ->
    (forallb (fun p => fst p <=? snd p) (combine l m) = true <-> Forall2 (fun a b => (a <=? b) = true) l m).
  Proof.
    revert m; induction l as [|a l IH]; intros [|b m] L; try discriminate; cbn; [split; auto|]. injection L as L. rewrite andb_true_iff, (IH m L). cbn.
    split; [intros (A & B); constructor; auto|intros H; inversion H; auto].
  Qed.
  Lemma contains_inside sp (v : obs_val F) : List.length (bx_hi sp) = List.length (bx_lo sp) ->
    (box_contains sp v = true <-> (ov_f64 v && bx_f32 sp)%bool = false /\ inside sp (ov_vec v)).
  Proof.
    intros L. unfold box_contains, inside. rewrite !andb_true_iff, negb_true_iff. split.
    - intros (((A & B) & C) & D). apply Nat.eqb_eq in B. split; auto.
      split; [apply forallb_forall2; auto; congruence|apply forallb_forall2; auto; congruence].
    - intros (A & B & C). pose proof (Forall2_len _ _ _ B) as LB. pose proof (Forall2_len _ _ _ C) as LC.
      repeat split; auto; [apply Nat.eqb_eq; congruence|apply forallb_forall2; auto|apply forallb_forall2; auto].
  Qed.
  Context {O : NumOrd F}.
  Lemma clip_inside (x lo hi : list F) : List.length x = List.length lo -> List.length hi = List.length lo ->
    Forall2 (fun a b => (a <=? b) = true) lo hi -> (forall v, In v (clip_vec x lo hi) -> nisnan v = false) ->
    Forall2 (fun a b => (a <=? b) = true) lo (clip_vec x lo hi) /\ Forall2 (fun a b => (a <=? b) = true) (clip_vec x lo hi) hi.
  Proof.
    revert lo hi; induction x as [|a x IH]; intros [|l lo] [|h hi] L1 L2 H Hn; try discriminate; [cbn; auto|].
    rewrite clip_vec_cons in *. inversion H; subst. injection L1 as L1. injection L2 as L2.
    destruct (IH lo hi L1 L2) as (A & B); auto; [intros v I; apply Hn; right; auto|].
    assert (Na : nisnan a = false).
    { destruct (nisnan a) eqn:E; auto. rewrite <- (np_clip_nan a l h E) in E. rewrite (Hn _ (or_introl eq_refl)) in E. discriminate. }
    destruct (np_clip_in a l h Na) as (P & Q); [assumption|]. split; constructor; auto.
  Qed.
End ObsEnv.

Section Errors.
  Context {F G : Type} {N : Num F}.
  Notation env := (env F G).
  Notation task := (task F G).

  (** the errors of a reset *)
  Lemma loop_errs Or (T : task) rem : forall (e e' : env) x, reset_loop Or T rem e = (e', Err x) ->
    x = AttributeError \/ x = EnvInitializationError \/ (exists k, fst (draw T (e_rng e) k) = Err x) \/ (exists init s, snd (sim_reset Or init s) = Err x).
  Proof.
    induction rem as [|rem IH]; intros e e' x H; cbn [reset_loop] in H; [injection H as _ <-; auto|].
    destruct (t_init T (e_rng e)) as [[init|y] g] eqn:Ei; [|injection H as _ <-; right; right; left; exists 0%nat; cbn; rewrite Ei; auto].
    destruct (negb _); [injection H as _ <-; auto|].
    destruct (sim_reset Or init _) as (s', [found|y]) eqn:E; [|injection H as _ <-; right; right; right; eexists _, _; rewrite E; auto].
    destruct rem as [|rem]; [injection H as _ <-; auto|]. destruct found; [discriminate|].
    apply IH in H as [H|[H|[(k & H)|H]]]; auto. right; right; left. exists (S k). cbn [draw]. rewrite Ei. exact H.
  Qed.
  Lemma finish_errs (e e' : env) st x : finish_obs e st = (e', Err x) -> In x read_errs \/ (x = AssertionError /\ exists ov sp, observe e' st = Ok ov /\ e_ospace e' = Some sp /\ box_contains sp ov = false).
  Proof.
    intros H. pose proof (finish_observed e st) as P. rewrite H in P. cbn [fst snd] in P. unfold observed in P.
    destruct (observe e' st) as [ov|y] eqn:E; [|injection P as ->; left; eapply observe_errs; eauto].
    destruct (e_ospace e') as [sp|]; [|injection P as ->; left; cbn; auto].
    destruct (box_contains sp ov) eqn:B; [discriminate|]. injection P as ->. right. eauto 6.
  Qed.
  Lemma reset_errs Or (T : task) seed (e e' : env) x : env_reset Or T seed e = (e', Err x) ->
    In x read_errs \/ x = EnvInitializationError \/ (exists k, fst (draw T (gen_at T seed e) k) = Err x) \/ (exists init s, snd (sim_reset Or init s) = Err x) \/
    (x = AssertionError /\ exists st ov sp, e_state e' = Some st /\ observe e' st = Ok ov /\ e_ospace e' = Some sp /\ box_contains sp ov = false).
  Proof.
    rewrite env_reset_eq. destruct (reset_loop Or T 100 (resetting T seed e)) as (e1, [[]|y]) eqn:L.
    - destruct (construct_state e1) as [st|y] eqn:C; intros H.
      + pose proof (finish_obs_const _ _ _ _ H) as (_ & _ & _ & _ & _ & Hs & _). apply finish_errs in H as [H|(-> & ov & sp & A & B & D)]; auto.
        right; right; right; right. split; auto. exists st, ov, sp. auto.
      + injection H as <- <-. left. eapply extract_errs; eauto.
    - intros H. injection H as <- <-. apply loop_errs in L as [L|[L|[L|L]]]; [left; subst; cbn; auto|auto|rewrite resetting_rng in L; auto|auto].
  Qed.
  Lemma step_errs Or (T : task) a (e : env) x : snd (env_step Or T a e) = Err x -> valid_action e a ->
    In x (ZeroDivisionError :: EnvNextVarsError :: read_errs) \/ (exists st, e_state e = Some st /\ fst (t_next T st (e_rng e)) = Err x) \/ (exists inp, snd (transition Or inp (e_sim e)) = Err x) \/
    (x = AssertionError /\ exists st ov sp, let e' := fst (env_step Or T a e) in e_state e' = Some st /\ observe e' st = Ok ov /\ e_ospace e' = Some sp /\ box_contains sp ov = false).
  Proof.
    intros H V. pose proof (env_stepped Or T a e) as P. rewrite H in P. set (e' := fst (env_step Or T a e)) in *. clearbody e'. clear H.
    remember (Err x) as r eqn:Er. destruct P; try discriminate; try (match type of Er with Err _ = Err _ => injection Er as <- end); try (left; cbn; tauto; fail).
    - right; left. exists st. rewrite H2. auto.
    - right; right; left. exists (step_inputs e vars a). rewrite H4. auto.
    - unfold write_aux in H6. destruct (Nat.leb _ _); [|destruct H6 as (_ & ->); injection Er as <-; left; cbn; tauto].
      match type of H6 with context [construct_state ?b] => destruct (construct_state b) as [st2|y] eqn:C end.
      2:{ destruct H6 as (_ & ->). injection Er as <-. left. right; right. eapply extract_errs; eauto. }
      match type of H6 with context [observe ?b ?c] => destruct (observe b c) as [ov|y] eqn:Ob end.
      2:{ assert (Hr : r = Err y) by (destruct (e_ospace e); tauto). rewrite Hr in Er. injection Er as ->. left. right; right. eapply observe_errs; eauto. }
      destruct (e_ospace e) as [sp|] eqn:Es; [|destruct H6 as (_ & ->); injection Er as <-; left; cbn; tauto].
      destruct (box_contains sp ov) eqn:B; destruct H6 as (-> & ->); [discriminate|]. injection Er as <-.
      right; right; right. split; auto. exists st2, ov, sp. cbv zeta. split; [reflexivity|]. split; [exact Ob|]. split; auto. subst e1. exact Es.
    - unfold pydiv in H6. destruct (_ =? _); [destruct H6 as (_ & ->); injection Er as <-; left; cbn; tauto|]. cbv zeta in H6. unfold observation_N in H6.
      destruct (e_ospace e); destruct H6 as (_ & ->); [discriminate|]. injection Er as <-. left; cbn; tauto.
  Qed.
End Errors.

Section Spaces.
  Context {F G : Type} {N : Num F}.
  Notation env := (env F G).
  Notation task := (task F G).
  Context {nw : network F} {o : obs_arg F} {K : Z} {dt gamma lamb : F} {auxb : option (list (F * F))} {clip : option (option F * option F)} {g : G} {e0 : env}.
  Notation good := (good nw o K dt gamma lamb auxb clip g e0).

  (** built-in observations *)
  Lemma built_in : einit nw o K dt gamma lamb auxb clip g e0 -> tuples_of o <> None ->
    exists items sp, e_ovals e0 = Some items /\ e_ofun e0 = None /\ e_ospace e0 = Some sp /\
      List.length (bx_lo sp) = items_len items /\ List.length (bx_hi sp) = items_len items /\ bx_f32 sp = false.
  Proof.
    intros I Ho. pose proof (ei_obs _ _ _ _ _ _ _ _ _ _ I) as B. pose proof (ei_ospace _ _ _ _ _ _ _ _ _ _ I) as S.
    assert (P : exists items, e_ovals e0 = Some items /\ e_ofun e0 = None).
    { destruct o; cbn in B, Ho; try congruence.
      - apply bind_ok in B as (l & _ & B). injection B as <- <-. eauto.
      - apply bind_ok in B as (l1 & _ & B). apply bind_ok in B as (l2 & _ & B). injection B as <- <-. eauto. }
    destruct P as (items & P1 & P2). rewrite P1 in S. exists items.
    destruct (e_ospace e0) as [sp|] eqn:Es; [|unfold observation_bounds in S; apply bind_ok in S as (? & _ & S); discriminate].
    exists sp. split; auto. split; auto. split; auto. eapply bounds_length; eauto.
  Qed.
  Lemma built_fun : einit nw o K dt gamma lamb auxb clip g e0 -> forall f, o = ObsFun f -> e_ovals e0 = None /\ e_ofun e0 = Some f /\ e_ospace e0 = None.
  Proof.
    intros I f ->. pose proof (ei_obs _ _ _ _ _ _ _ _ _ _ I) as B. pose proof (ei_ospace _ _ _ _ _ _ _ _ _ _ I) as S. cbn in B. injection B as B1 B2.
    rewrite <- B1 in S. cbn in S. injection S as S. auto.
  Qed.
  (** with a callable the space is unknown, or the float32 box of the size of a value of the callable *)
  Definition fun_space (f : list F -> obs_val F) (sp : option (box F)) : Prop :=
    sp = None \/ exists st, sp = Some (mkBox (repeat nninf (List.length (ov_vec (f st)))) (repeat ninf (List.length (ov_vec (f st)))) true).
  Lemma erun_fun_space (T : task) f cs : forall e : env, e_ofun e = Some f -> fun_space f (e_ospace e) -> fun_space f (e_ospace (erun T e cs)).
  Proof.
    induction cs as [|c cs IH]; intros e Hf Hs; [auto|]. cbn [erun fold_left]. fold (erun T (run_ecall T e c) cs). destruct c as [Or seed|Or a]; cbn [run_ecall].
    - destruct (env_reset Or T seed e) as (e', r) eqn:E. pose proof (env_reset_const _ _ _ _ _ _ E) as (C & Sp & _). cbn [fst]. apply IH.
      + apply econst_inv in C. intuition congruence.
      + destruct (e_ospace e) as [sp|] eqn:Es; [rewrite (Sp sp eq_refl); auto|]. rewrite env_reset_eq in E.
        destruct (resetting_const T seed e) as (R1 & R2 & _).
        destruct (reset_loop Or T 100 (resetting T seed e)) as (e1, r1) eqn:L. pose proof (reset_loop_const _ _ _ _ _ _ L) as (L1 & L2 & _).
        assert (Es1 : e_ospace e1 = None) by congruence. assert (Ef1 : e_ofun e1 = Some f) by (apply econst_inv in L1; apply econst_inv in R1; intuition congruence).
        destruct r1 as [u|x]; [|injection E as <- <-; rewrite Es1; left; auto].
        destruct (construct_state e1) as [st|x]; [|injection E as <- <-; rewrite Es1; left; auto].
        unfold finish_obs, observe in E. cbn [e_ofun e_ospace env_set_state] in E. rewrite Ef1, Es1 in E. cbn [e_ospace env_set_ospace] in E.
        right. exists st. destruct (box_contains _ _); injection E as <- <-; reflexivity.
    - pose proof (stepped_const _ _ _ _ _ _ (env_stepped Or T a e)) as (C & Sp & _). apply IH; [apply econst_inv in C; intuition congruence|rewrite Sp; auto].
  Qed.

  (** ---- two environments with the same arguments, reset with the same seed ---- *)
  Lemma env_ext (e e' : env) : e_K e = e_K e' -> e_gamma e = e_gamma e' -> e_clip e = e_clip e' -> e_auxb e = e_auxb e' -> e_sim e = e_sim e' ->
    e_svals e = e_svals e' -> e_ovals e = e_ovals e' -> e_ofun e = e_ofun e' -> e_aspace e = e_aspace e' -> e_ospace e = e_ospace e' ->
    e_term e = e_term e' -> e_time e = e_time e' -> e_eloss e = e_eloss e' -> e_pen e = e_pen e' -> e_state e = e_state e' -> e_rng e = e_rng e' -> e = e'.
  Proof. destruct e, e'; cbn. intros -> -> -> -> -> -> -> -> -> -> -> -> -> -> -> ->. reflexivity. Qed.
  (** equal up to the observation space *)
  Definition esame (e e' : env) : Prop := forall sp, env_set_ospace e sp = env_set_ospace e' sp.
  Lemma esame_of (e e' : env) : econst e = econst e' -> e_sim e = e_sim e' -> e_term e = e_term e' -> e_time e = e_time e' -> e_eloss e = e_eloss e' ->
    e_pen e = e_pen e' -> e_state e = e_state e' -> e_rng e = e_rng e' -> esame e e'.
  Proof. intros C. apply econst_inv in C as (? & ? & ? & ? & _ & ? & ? & ? & ?). intros. intros sp. apply env_ext; cbn; auto. Qed.
  Lemma loop_same Or (T : task) rem : forall (e e' : env), econst e = econst e' -> e_rng e = e_rng e' ->
    e_term e = e_term e' -> e_time e = e_time e' -> e_eloss e = e_eloss e' -> e_pen e = e_pen e' ->
    snd (reset_loop Or T rem e) = snd (reset_loop Or T rem e') /\
    (forall u, snd (reset_loop Or T rem e) = Ok u -> esame (fst (reset_loop Or T rem e)) (fst (reset_loop Or T rem e'))).
  Proof.
    induction rem as [|rem IH]; intros e e' C R E1 E2 E3 E4; cbn [reset_loop]; [split; [auto|discriminate]|]. rewrite <- R.
    destruct (t_init T (e_rng e)) as [[init|x] gr]; [|split; [auto|discriminate]].
    change (state_size (env_set_state (env_set_rng e gr) (Some init))) with (state_size e).
    change (state_size (env_set_state (env_set_rng e' gr) (Some init))) with (state_size e').
    rewrite <- (state_size_static _ _ C). destruct (negb _); [split; [auto|discriminate]|].
    change (e_sim (env_set_state (env_set_rng e gr) (Some init))) with (e_sim e).
    change (e_sim (env_set_state (env_set_rng e' gr) (Some init))) with (e_sim e').
    pose proof (econst_strip _ _ C) as Hst.
    destruct (reset_dep Or init (e_sim e) (e_sim e') Hst) as (D1 & D2 & _).
    pose proof (strip_reset Or init (e_sim e)) as S1. pose proof (strip_reset Or init (e_sim e')) as S2.
    destruct (sim_reset Or init (e_sim e)) as (s, r) eqn:Es. destruct (sim_reset Or init (e_sim e')) as (s', r') eqn:Es'. cbn [fst snd] in *. subst r'.
    destruct r as [found|x]; [|split; [auto|discriminate]]. specialize (D2 eq_refl).
    assert (C' : econst (env_set_sim (env_set_state (env_set_rng e gr) (Some init)) s) = econst (env_set_sim (env_set_state (env_set_rng e' gr) (Some init)) s')).
    { pose proof C as Q. apply econst_inv in Q as (Q1 & Q2 & Q3 & Q4 & Q5 & Q6 & Q7 & Q8 & Q9). unfold econst; cbn. rewrite S1, S2, Q1, Q2, Q3, Q4, Q5, Q6, Q7, Q8, Q9. auto. }
    destruct rem as [|rem]; [split; [auto|discriminate]|]. destruct found.
    - split; auto. intros u _. apply esame_of; auto.
    - apply IH; auto.
  Qed.
  Lemma esame_construct (e e' : env) : esame e e' -> construct_state e = construct_state e'.
  Proof. intros H. change (construct_state e) with (construct_state (env_set_ospace e None)). rewrite H. reflexivity. Qed.
  Lemma esame_state (e e' : env) st : esame e e' -> esame (env_set_state e st) (env_set_state e' st).
  Proof. intros H sp. change (env_set_ospace (env_set_state e st) sp) with (env_set_state (env_set_ospace e sp) st). rewrite H. reflexivity. Qed.
  Lemma reset_same Or (T : task) z (e e' : env) : econst e = econst e' ->
    (e_ospace e = e_ospace e' \/ exists f n, e_ofun e = Some f /\ (forall st, List.length (ov_vec (f st)) = n) /\ fun_space f (e_ospace e) /\ fun_space f (e_ospace e')) ->
    snd (env_reset Or T (Some z) e) = snd (env_reset Or T (Some z) e') /\
    (forall ob, snd (env_reset Or T (Some z) e) = Ok ob -> fst (env_reset Or T (Some z) e) = fst (env_reset Or T (Some z) e')).
  Proof.
    intros C Sp. rewrite !env_reset_eq.
    destruct (resetting_const T (Some z) e) as (R1 & R2 & R3 & R4 & R5 & R6 & R7). destruct (resetting_const T (Some z) e') as (Q1 & Q2 & Q3 & Q4 & Q5 & Q6 & Q7).
    destruct (loop_same Or T 100 (resetting T (Some z) e) (resetting T (Some z) e')) as (L1 & L2); try congruence.
    { rewrite !resetting_rng. reflexivity. }
    destruct (reset_loop Or T 100 (resetting T (Some z) e)) as (e1, r) eqn:E1. destruct (reset_loop Or T 100 (resetting T (Some z) e')) as (e1', r') eqn:E1'.
    cbn [fst snd] in L1, L2. subst r'. destruct r as [u|x]; [|cbn; split; [auto|discriminate]]. specialize (L2 u eq_refl).
    pose proof (reset_loop_const _ _ _ _ _ _ E1) as (K1 & K2 & _). pose proof (reset_loop_const _ _ _ _ _ _ E1') as (K1' & K2' & _).
    rewrite (esame_construct _ _ L2). destruct (construct_state e1') as [st|x]; [|cbn; split; [auto|discriminate]].
    apply (esame_state _ _ (Some st)) in L2. set (a := env_set_state e1 (Some st)) in *. set (b := env_set_state e1' (Some st)) in *.
    assert (Ea : e_ospace a = e_ospace e) by (change (e_ospace a) with (e_ospace e1); congruence).
    assert (Eb : e_ospace b = e_ospace e') by (change (e_ospace b) with (e_ospace e1'); congruence).
    assert (Efa : e_ofun a = e_ofun e) by (change (e_ofun a) with (e_ofun e1); apply econst_inv in K1; apply econst_inv in R1; intuition congruence).
    clearbody a b. assert (Self : forall x : env, env_set_ospace x (e_ospace x) = x) by (intros []; reflexivity).
    destruct Sp as [Sp|(f & n & Hf & Hn & F1 & F2)].
    - assert (a = b) by (rewrite <- (Self a), <- (Self b), L2; congruence). subst b. split; auto.
    - assert (Hb : e_ofun b = Some f). { pose proof (f_equal e_ofun (L2 None)) as E. cbn in E. congruence. }
      rewrite <- Ea in F1. rewrite <- Eb in F2.
      assert (Fin0 : forall c : env, e_ofun c = Some f -> fun_space f (e_ospace c) ->
        finish_obs c st = let e2 := env_set_ospace c (Some (mkBox (repeat nninf n) (repeat ninf n) true)) in
                          if box_contains (mkBox (repeat nninf n) (repeat ninf n) true) (f st) then (e2, Ok (ov_vec (f st))) else (e2, Err AssertionError)).
      { intros c Hc Fc. unfold finish_obs, observe. rewrite Hc, Hn. destruct Fc as [Fc|(st' & Fc)].
        - rewrite Fc. cbn [e_ospace env_set_ospace]. reflexivity.
        - rewrite Hn in Fc. pose proof (Self c) as Sc. rewrite Fc in Sc. cbv zeta. rewrite Sc, Fc, Fc. reflexivity. }
      rewrite (Fin0 a), (Fin0 b) by congruence. cbv zeta. rewrite L2. split; auto.
  Qed.
End Spaces.
