(** The environment: successful resets and steps. *)
From Coq Require Import Permutation Sorted.
From Verif Require Import Base Num Devices BusBranch CheckNetwork LoadFlow Simulator EnvArgs Env LibBase LibNum LibSim
  SpecNet ProofNet LibInit SpecSim ProofSim ProofObs ProofHist ProofReset SpecEnv ProofEnv ProofStep ProofState.
Local Open Scope string_scope.
Local Open Scope list_scope.
Local Open Scope num_scope.

Section Draw.
  Context {F G : Type} {N : Num F}.
  Notation env := (env F G).
  Notation task := (task F G).

  Lemma attempt_det Or s0 sz (d : res (list F) * G) b b' : attempt Or s0 sz d b -> attempt Or s0 sz d b' -> b = b'.
  Proof. intros (i & A & _ & C) (i' & A' & _ & C'). congruence. Qed.

  Lemma econst_inv (e e' : env) : econst e = econst e' ->
    e_K e = e_K e' /\ e_gamma e = e_gamma e' /\ e_clip e = e_clip e' /\ e_auxb e = e_auxb e' /\ strip (e_sim e) = strip (e_sim e') /\
    e_svals e = e_svals e' /\ e_ovals e = e_ovals e' /\ e_ofun e = e_ofun e' /\ e_aspace e = e_aspace e'.
  Proof.
    unfold econst. set (a := strip (e_sim e)). set (b := strip (e_sim e')). clearbody a b. intros H. injection H; intros. repeat split; auto.
  Qed.
  Lemma econst_strip (e e' : env) : econst e = econst e' -> strip (e_sim e) = strip (e_sim e').
  Proof. intros H. apply econst_inv in H. tauto. Qed.
  Lemma state_size_static (e e' : env) : econst e = econst e' -> state_size e = state_size e'.
  Proof.
    intros H. apply econst_inv in H as (H1 & _ & _ & _ & H & _). unfold state_size.
    destruct (strip_counts _ _ H) as (-> & -> & ->). congruence.
  Qed.

  (** one failed attempt *)
  Lemma loop_bad Or (T : task) s0 sz rem (e : env) : strip (e_sim e) = strip s0 -> state_size e = sz -> attempt Or s0 sz (t_init T (e_rng e)) false ->
    exists e1, reset_loop Or T (S rem) e = match rem with 0 => (e1, Err AttributeError) | _ => reset_loop Or T rem e1 end /\
      econst e1 = econst e /\ e_rng e1 = snd (t_init T (e_rng e)).
  Proof.
    intros S Z (init & A & B & C). cbn [reset_loop]. destruct (t_init T (e_rng e)) as (r, g). cbn [fst snd] in *. subst r.
    change (state_size (env_set_state (env_set_rng e g) (Some init))) with (state_size e). rewrite Z, B, Nat.eqb_refl. cbn [negb].
    change (e_sim (env_set_state (env_set_rng e g) (Some init))) with (e_sim e).
    destruct (reset_dep Or init (e_sim e) s0 S) as (D & _). destruct (sim_reset Or init (e_sim e)) as (s', r) eqn:E. cbn [snd] in D. rewrite D, C.
    exists (env_set_sim (env_set_state (env_set_rng e g) (Some init)) s'). split; [destruct rem; auto|]. split; auto.
    unfold econst; cbn. pose proof (strip_reset Or init (e_sim e)) as K. rewrite E in K. cbn in K. rewrite K. auto.
  Qed.
  Lemma loop_good Or (T : task) s0 sz rem (e : env) : strip (e_sim e) = strip s0 -> state_size e = sz -> attempt Or s0 sz (t_init T (e_rng e)) true ->
    exists init e1, reset_loop Or T (S rem) e = (e1, match rem with 0 => Err AttributeError | _ => Ok tt end) /\
      econst e1 = econst e /\ t_init T (e_rng e) = (Ok init, e_rng e1) /\ e_state e1 = Some init /\ e_sim e1 = fst (sim_reset Or init s0).
  Proof.
    intros S Z (init & A & B & C). cbn [reset_loop]. destruct (t_init T (e_rng e)) as (r, g). cbn [fst snd] in *. subst r.
    change (state_size (env_set_state (env_set_rng e g) (Some init))) with (state_size e). rewrite Z, B, Nat.eqb_refl. cbn [negb].
    change (e_sim (env_set_state (env_set_rng e g) (Some init))) with (e_sim e).
    destruct (reset_dep Or init (e_sim e) s0 S) as (D & D2 & _). destruct (sim_reset Or init (e_sim e)) as (s', r) eqn:E. cbn [snd fst] in D, D2. rewrite D, C.
    exists init, (env_set_sim (env_set_state (env_set_rng e g) (Some init)) s'). split; [destruct rem; auto|]. split; auto.
    - unfold econst; cbn. pose proof (strip_reset Or init (e_sim e)) as K. rewrite E in K. cbn in K. rewrite K. auto.
    - cbn. repeat split; auto. apply D2. rewrite D, C. auto.
  Qed.

  Lemma loop_first Or (T : task) s0 sz k : forall rem (e : env), strip (e_sim e) = strip s0 -> state_size e = sz -> (k < rem)%nat ->
    (forall j, (j < k)%nat -> attempt Or s0 sz (draw T (e_rng e) j) false) -> attempt Or s0 sz (draw T (e_rng e) k) true ->
    exists init e1, reset_loop Or T rem e = (e1, if Nat.eqb (S k) rem then Err AttributeError else Ok tt) /\
      econst e1 = econst e /\ draw T (e_rng e) k = (Ok init, e_rng e1) /\ e_state e1 = Some init /\ e_sim e1 = fst (sim_reset Or init s0).
  Proof.
    induction k as [|k IH]; intros rem e S Z L Hb Hg; (destruct rem as [|rem]; [lia|]).
    - cbn [draw] in Hg. destruct (loop_good Or T s0 sz rem e S Z Hg) as (init & e1 & A & B). exists init, e1. split; [|exact B]. rewrite A. destruct rem; auto.
    - pose proof (Hb 0%nat ltac:(lia)) as H0. cbn [draw] in H0. destruct (loop_bad Or T s0 sz rem e S Z H0) as (e1 & A & B & C).
      destruct rem as [|rem]; [lia|]. rewrite A.
      destruct (IH (Datatypes.S rem) e1) as (init & e2 & P & Q & R).
      + rewrite <- S. apply econst_strip; auto.
      + rewrite <- Z. apply state_size_static; auto.
      + lia.
      + intros j Lj. rewrite C. apply (Hb (Datatypes.S j)). lia.
      + rewrite C. exact Hg.
      + exists init, e2. rewrite P, Q, B. cbn [draw]. rewrite C in R. split; [|split; auto]. cbn [Nat.eqb]. reflexivity.
  Qed.
  Lemma loop_none Or (T : task) s0 sz : forall rem (e : env), strip (e_sim e) = strip s0 -> state_size e = sz ->
    (forall j, (j < S rem)%nat -> attempt Or s0 sz (draw T (e_rng e) j) false) ->
    exists e1, reset_loop Or T (S rem) e = (e1, Err AttributeError) /\ e_rng e1 = snd (draw T (e_rng e) rem).
  Proof.
    induction rem as [|rem IH]; intros e S Z Hb; pose proof (Hb 0%nat ltac:(lia)) as H0; cbn [draw] in H0.
    - destruct (loop_bad Or T s0 sz 0 e S Z H0) as (e1 & A & B & C). exists e1. auto.
    - destruct (loop_bad Or T s0 sz (Datatypes.S rem) e S Z H0) as (e1 & A & B & C). rewrite A.
      destruct (IH e1) as (e2 & P & Q).
      + rewrite <- S. apply econst_strip; auto.
      + rewrite <- Z. apply state_size_static; auto.
      + intros j Lj. rewrite C. apply (Hb (Datatypes.S j)). lia.
      + exists e2. rewrite P, Q, C. auto.
  Qed.
  (** a sampling loop that returns has found, within its budget, a converging sample after failed ones *)
  Lemma loop_inv Or (T : task) s0 sz : forall rem (e e' : env), strip (e_sim e) = strip s0 -> state_size e = sz ->
    reset_loop Or T rem e = (e', Ok tt) ->
    exists k, (S k < rem)%nat /\ (forall j, (j < k)%nat -> attempt Or s0 sz (draw T (e_rng e) j) false) /\ attempt Or s0 sz (draw T (e_rng e) k) true.
  Proof.
    induction rem as [|rem IH]; intros e e' S Z H; cbn [reset_loop] in H; [discriminate|].
    destruct (t_init T (e_rng e)) as [[init|x] g] eqn:Ei; [|discriminate].
    change (state_size (env_set_state (env_set_rng e g) (Some init))) with (state_size e) in H.
    destruct (Nat.eqb_spec (List.length init) (state_size e)) as [El|]; cbn [negb] in H; [|discriminate].
    change (e_sim (env_set_state (env_set_rng e g) (Some init))) with (e_sim e) in H.
    destruct (reset_dep Or init (e_sim e) s0 S) as (D & _). destruct (sim_reset Or init (e_sim e)) as (s', r) eqn:E. cbn [snd] in D.
    destruct r as [found|x]; [|discriminate]. destruct rem as [|rem]; [discriminate|].
    assert (A : attempt Or s0 sz (draw T (e_rng e) 0) found) by (exists init; cbn [draw]; rewrite Ei; cbn [fst]; repeat split; congruence).
    destruct found.
    - exists 0%nat. split; [lia|]. split; [intros; lia|auto].
    - apply IH in H as (k & L & Hb & Hg).
      + cbn in Hb, Hg. exists (Datatypes.S k). split; [lia|]. cbn [draw]. rewrite Ei. cbn [snd]. split; [|exact Hg].
        intros [|j] Lj; [exact A|]. cbn [draw]. rewrite Ei. cbn [snd]. apply Hb. lia.
      + cbn. pose proof (strip_reset Or init (e_sim e)) as K. rewrite E in K. cbn in K. congruence.
      + rewrite <- Z. apply state_size_static. unfold econst; cbn. pose proof (strip_reset Or init (e_sim e)) as K. rewrite E in K. cbn in K. rewrite K. auto.
  Qed.

  (** ---- reachable environments ---- *)
  Lemma resetting_rng (T : task) seed e : e_rng (resetting T seed e) = gen_at T seed e.
  Proof. destruct seed; reflexivity. Qed.

  Record good nw o K dt gamma lamb auxb clip (g : G) (e0 e : env) : Prop := mkGood {
    gd_init : einit nw o K dt gamma lamb auxb clip g e0;
    gd_const : econst e = econst e0 }.
  Lemma good_erun nw o K dt gamma lamb auxb clip (g : G) (e0 : env) (T : task) cs :
    env_init nw o K dt gamma lamb auxb clip g = Ok e0 -> good nw o K dt gamma lamb auxb clip g e0 (erun T e0 cs).
  Proof. intros H. split; [apply env_init_inv; auto|apply erun_const]. Qed.

  Section Good.
    Context {nw : network F} {o : obs_arg F} {K : Z} {dt gamma lamb : F} {auxb : option (list (F * F))} {clip : option (option F * option F)} {g : G} {e0 : env}.
    Notation good := (good nw o K dt gamma lamb auxb clip g e0).
    Notation einit := (einit nw o K dt gamma lamb auxb clip g e0).

    Lemma gd_sim0 e : good e -> sim_init nw dt lamb = Ok (e_sim e0). Proof. intros H. apply H. Qed.
    Lemma gd_strip e : good e -> strip (e_sim e) = strip (e_sim e0). Proof. intros H. apply econst_strip, H. Qed.
    Lemma gd_K e : good e -> e_K e = Z.to_nat K.
    Proof. intros [I H]. rewrite <- (ei_K _ _ _ _ _ _ _ _ _ _ I). apply econst_inv in H. tauto. Qed.
    Lemma gd_clip e : good e -> e_clip e = clip_arg clip.
    Proof. intros [I H]. rewrite <- (ei_clip _ _ _ _ _ _ _ _ _ _ I). apply econst_inv in H. tauto. Qed.
    Lemma gd_gamma e : good e -> e_gamma e = gamma.
    Proof. intros [I H]. rewrite <- (ei_gamma _ _ _ _ _ _ _ _ _ _ I). apply econst_inv in H. tauto. Qed.
    Lemma gd_svals e : good e -> e_svals e = svals_of (e_sim e0) (e_K e).
    Proof. intros Hg. rewrite (gd_K _ Hg). destruct Hg as [I H]. pose proof (ei_svals _ _ _ _ _ _ _ _ _ _ I) as E. rewrite (ei_K _ _ _ _ _ _ _ _ _ _ I) in E. apply econst_inv in H as (_ & _ & _ & _ & _ & H & _). congruence. Qed.
    Lemma gd_aspace e : good e -> e_aspace e = build_action_space (e_sim e0).
    Proof. intros [I H]. rewrite <- (ei_aspace _ _ _ _ _ _ _ _ _ _ I). apply econst_inv in H. tauto. Qed.
    Lemma gd_ovals e : good e -> e_ovals e = e_ovals e0.
    Proof. intros [I H]. apply econst_inv in H. tauto. Qed.
    Lemma gd_ofun e : good e -> e_ofun e = e_ofun e0.
    Proof. intros [I H]. apply econst_inv in H. tauto. Qed.
    Lemma good_const e e' : good e -> econst e' = econst e -> good e'.
    Proof. intros [I H] E. split; auto. congruence. Qed.

    Lemma gd_lists e : good e -> forall devs loads gens dess, ids_of nw ALL devs -> ids_of nw LOADS loads -> ids_of nw GENS gens -> ids_of nw STORS dess ->
      devs = map d_id (sm_devs (e_sim e0)) /\ loads = map d_id (filter is_load (sm_devs (e_sim e))) /\ gens = map d_id (filter is_nsgen (sm_devs (e_sim e))) /\ dess = map d_id (filter is_stor (sm_devs (e_sim e))) /\
      gens = map d_id (filter is_nsgen (sm_devs (e_sim e0))) /\ dess = map d_id (filter is_stor (sm_devs (e_sim e0))) /\
      n_load (e_sim e) = List.length loads /\ n_nsgen (e_sim e) = List.length gens /\ n_des (e_sim e) = List.length dess /\ n_device (e_sim e) = List.length devs.
    Proof.
      intros H devs loads gens dess H1 H2 H3 H4. pose proof (gd_sim0 _ H) as Hs. pose proof (gd_strip _ H) as S.
      destruct (ids_lists _ _ _ _ _ Hs S) as (A1 & A2 & A3 & A4). destruct (ids_lists _ _ _ _ _ Hs eq_refl) as (B1 & B2 & B3 & B4).
      repeat split; auto.
      - rewrite (A2 _ H2), map_length. reflexivity.
      - rewrite (A3 _ H3), map_length. reflexivity.
      - rewrite (A4 _ H4), map_length. reflexivity.
      - rewrite (A1 _ H1), map_length. reflexivity.
    Qed.

    (** the last part of [reset] and of a step: from a gathered simulator *)
    Lemma gd_construct e st : good e -> sm_state (e_sim e) = Some (gather_state (e_sim e)) -> e_state e = Some st -> (e_K e <= List.length st)%nat ->
      forall devs gens dess, ids_of nw ALL devs -> ids_of nw GENS gens -> ids_of nw STORS dess ->
      exists st', construct_state e = Ok st' /\ state_layout devs gens dess (Z.to_nat K) (e_sim e) (skipn (List.length st - Z.to_nat K) st) st'.
    Proof.
      intros H Hf Hs L devs gens dess H1 H3 H4. destruct (ids_lists _ _ _ _ _ (gd_sim0 _ H) eq_refl) as (B1 & B2 & B3 & B4).
      destruct (construct_ok _ _ _ _ e st (gd_sim0 _ H) (gd_strip _ H) (gd_svals _ H) Hf Hs L) as (st' & E & M). exists st'. split; auto.
      rewrite (gd_K _ H) in *. rewrite (B1 _ H1), (B3 _ H3), (B4 _ H4). split; auto. rewrite skipn_length. lia.
    Qed.
  End Good.
End Draw.
