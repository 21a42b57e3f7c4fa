(** Properties of the environment: calls, layouts, bookkeeping, terminal states. *)
From Verif Require Import Base Num Devices BusBranch CheckNetwork LoadFlow Simulator EnvArgs Env LibBase LibNum LibSim
  SpecNet ProofNet LibInit SpecSim ProofSim ProofObs ProofHist ProofReset SpecEnv ProofEnv ProofStep ProofState ProofDraw ProofEnvOk.
Local Open Scope string_scope.
Local Open Scope list_scope.
Local Open Scope num_scope.

Section PropEnv.
  Context {F G : Type} {N : Num F}.
  Variables (nw : network F) (o : obs_arg F) (K : Z) (dt gamma lamb : F) (auxb : option (list (F * F)))
            (clip : option (option F * option F)) (g : G) (e0 : env F G) (T : task F G) (cs : list (ecall F)).
  (** [e0] is a freshly built environment, [e] the same object after any sequence of calls. *)
  Hypothesis built : env_init nw o K dt gamma lamb auxb clip g = Ok e0.
  Let e := erun T e0 cs.
  (** the IDs of the devices of the file, by kind, in increasing order *)
  Variables devs loads gens dess : list Z.
  Hypotheses (Hdevs : ids_of nw ALL devs) (Hloads : ids_of nw LOADS loads) (Hgens : ids_of nw GENS gens) (Hdess : ids_of nw STORS dess).

  Lemma Hg : good nw o K dt gamma lamb auxb clip g e0 e. Proof. apply good_erun, built. Qed.

  (** C36.  The action space advertises, in this order, the P range of each generator, the Q range of each
      generator, the P and the Q range of each storage unit; and a step hands to the simulator the entry at
      the same position for that device and quantity (for any dictionaries [inp] with those entries, the
      simulator ends as [Simulator.transition] on [inp] leaves it). *)
  Theorem C36_action_layout :
    (exists B, map Some B = bounds_of (e_sim e0) "dev_p" "MW" gens ++ bounds_of (e_sim e0) "dev_q" "MVAr" gens ++
                            bounds_of (e_sim e0) "dev_p" "MW" dess ++ bounds_of (e_sim e0) "dev_q" "MVAr" dess /\
               e_aspace e = mkBox (map fst B) (map snd B) false) /\
    forall Or a st vars gr, valid_action e a -> e_term e = Some false -> e_state e = Some st -> t_next T st (e_rng e) = (Ok vars, gr) ->
      List.length vars = (List.length loads + List.length gens + Z.to_nat K)%nat ->
      (exists inp, layout loads gens dess vars a inp) /\
      forall inp, layout loads gens dess vars a inp ->
        e_sim (fst (env_step Or T a e)) = fst (transition Or inp (e_sim e)) /\
        (forall x, snd (transition Or inp (e_sim e)) = Err x -> snd (env_step Or T a e) = Err x).
  Proof.
    split.
    - rewrite (gd_aspace _ Hg). eapply action_space_bounds; eauto. apply (gd_sim0 _ Hg).
    - intros Or a st vars gr V Ht Hs Hn L. split.
      + destruct (ids_lists _ _ _ _ _ (gd_sim0 _ Hg) (gd_strip _ Hg)) as (_ & A2 & A3 & A4).
        exists (step_inputs e vars a). rewrite (A2 _ Hloads), (A3 _ Hgens), (A4 _ Hdess). apply step_inputs_layout.
        eapply static_nodup; [apply (gd_sim0 _ Hg)|apply (gd_strip _ Hg)].
      + intros inp La. destruct (gd_step_sim Or T a e st vars gr inp loads gens dess Hg V Ht Hs Hn Hloads Hgens Hdess L La) as (P & Q & _). auto.
  Qed.

  (** C37.  A vector of sampled variables of a wrong size makes the step raise EnvNextVarsError, the simulator
      being untouched; with the right size the step raises it only if the simulator's transition itself (that
      is, an external solver) raised it, and the simulator receives entry i of the vector as the demand of
      the i-th load, then as the potential of the i-th generator. *)
  Theorem C37_next_vars : forall Or a st vars gr,
    valid_action e a -> e_term e = Some false -> e_state e = Some st -> t_next T st (e_rng e) = (Ok vars, gr) ->
    (List.length vars <> (List.length loads + List.length gens + Z.to_nat K)%nat ->
       snd (env_step Or T a e) = Err EnvNextVarsError /\ e_sim (fst (env_step Or T a e)) = e_sim e) /\
    (List.length vars = (List.length loads + List.length gens + Z.to_nat K)%nat ->
       forall inp, layout loads gens dess vars a inp ->
         e_sim (fst (env_step Or T a e)) = fst (transition Or inp (e_sim e)) /\
         (snd (env_step Or T a e) = Err EnvNextVarsError -> snd (transition Or inp (e_sim e)) = Err EnvNextVarsError)).
  Proof.
    intros Or a st vars gr V Ht Hs Hn. split.
    - intros L. destruct (gd_lists _ Hg devs loads gens dess Hdevs Hloads Hgens Hdess) as (_ & _ & _ & _ & _ & _ & L1 & L2 & _).
      pose proof (gd_K _ Hg) as Ek.
      destruct (env_stepped Or T a e); try congruence.
      all: repeat match goal with H : e_state e = Some _ |- _ => rewrite Hs in H; injection H as <- end;
           repeat match goal with H : t_next _ _ _ = (Ok _, _) |- _ => rewrite Hn in H; injection H as <- <- end; try (exfalso; apply L; congruence).
      cbn. auto.
    - intros L inp La. destruct (gd_step_sim Or T a e st vars gr inp loads gens dess Hg V Ht Hs Hn Hloads Hgens Hdess L La) as (P & Q & R). auto.
  Qed.

  (** C38 and C43.  The state vector after a successful reset or step. *)
  Theorem C38_state_layout :
    (forall Or seed e' ob, env_reset Or T seed e = (e', Ok ob) ->
       exists st aux, e_state e' = Some st /\ state_layout devs gens dess (Z.to_nat K) (e_sim e') aux st) /\
    (forall Or a e' out, env_step Or T a e = (e', Ok out) -> so_terminated out = false ->
       exists st aux, e_state e' = Some st /\ state_layout devs gens dess (Z.to_nat K) (e_sim e') aux st) /\
    (forall Or a e' out, env_step Or T a e = (e', Ok out) -> so_terminated out = true -> e_term e = Some false ->
       e_state e' = Some (repeat n0 (2 * List.length devs + List.length dess + List.length gens + Z.to_nat K))).
  Proof.
    split; [|split].
    - intros Or seed e' ob H. destruct (gd_reset_inv _ _ _ _ _ _ devs gens dess Hg H Hdevs Hgens Hdess) as (k & init & st & _ & _ & _ & _ & _ & _ & A & B & _). eauto.
    - intros Or a e' out H Ht. destruct (gd_step_inv _ _ _ _ _ _ Hg H) as [(_ & _ & _ & sp & _ & ->)|(st & vars & el & pen & conv & L)]; [discriminate|].
      destruct conv.
      + destruct (lv_conv _ _ _ _ _ _ _ _ _ _ _ L eq_refl) as (_ & _ & st2 & ov & sp & A & _ & _ & _ & _ & B). eauto.
      + destruct (lv_coll _ _ _ _ _ _ _ _ _ _ _ L eq_refl) as (_ & _ & _ & rw & sp & _ & _ & ->). discriminate.
    - intros Or a e' out H Ht Et. destruct (gd_step_inv _ _ _ _ _ _ Hg H) as [(E & _)|(st & vars & el & pen & conv & L)]; [congruence|].
      destruct conv.
      + destruct (lv_conv _ _ _ _ _ _ _ _ _ _ _ L eq_refl) as (_ & _ & st2 & ov & sp & _ & _ & _ & _ & -> & _). discriminate.
      + destruct (lv_coll _ _ _ _ _ _ _ _ _ _ _ L eq_refl) as (_ & _ & -> & _).
        destruct (gd_lists e0 (mkGood _ _ _ _ _ _ _ _ _ _ _ (gd_init _ _ _ _ _ _ _ _ _ _ _ Hg) eq_refl) devs loads gens dess Hdevs Hloads Hgens Hdess) as (_ & _ & _ & _ & _ & _ & _ & L2 & L3 & L4).
        unfold state_size. rewrite L2, L3, L4, (ei_K _ _ _ _ _ _ _ _ _ _ (gd_init _ _ _ _ _ _ _ _ _ _ _ Hg)). reflexivity.
  Qed.
  Lemma layout_length (s : sim F) (aux st : list F) : state_layout devs gens dess (Z.to_nat K) s aux st ->
    List.length st = (2 * List.length devs + List.length dess + List.length gens + Z.to_nat K)%nat /\ skipn (List.length st - Z.to_nat K) st = aux.
  Proof.
    intros (L & M). pose proof (f_equal (@List.length _) M) as Ml. unfold reads in Ml. rewrite !app_length, !map_length, L in Ml. split; [lia|].
    apply (f_equal (skipn (List.length st - Z.to_nat K))) in M.
    assert (E : forall (A : list (option F)) n, List.length A = n -> skipn n (A ++ map Some aux) = map Some aux).
    { intros A n <-. rewrite skipn_app, skipn_all, Nat.sub_diag. reflexivity. }
    rewrite !app_assoc in M. rewrite E in M by (unfold reads; rewrite !app_length, !map_length; lia).
    rewrite skipn_map in M. revert M. generalize (skipn (List.length st - Z.to_nat K) st). clear.
    intros l; revert aux; induction l as [|x l IH]; intros [|y m] M; try discriminate; auto. cbn in M. injection M as -> M. f_equal; auto.
  Qed.

  (** C43.  The last K entries of the state vector are those of the vector returned by [next_vars], resp. of
      the last sample of [init_state]. *)
  Theorem C43_aux_verbatim :
    (forall Or a e' out, env_step Or T a e = (e', Ok out) -> so_terminated out = false ->
       exists st vars st', e_state e = Some st /\ fst (t_next T st (e_rng e)) = Ok vars /\ e_state e' = Some st' /\
         List.length (skipn (List.length st' - Z.to_nat K) st') = Z.to_nat K /\
         skipn (List.length st' - Z.to_nat K) st' = skipn (List.length vars - Z.to_nat K) vars) /\
    (forall Or seed e' ob, env_reset Or T seed e = (e', Ok ob) ->
       exists k init st', draw T (gen_at T seed e) k = (Ok init, e_rng e') /\ e_state e' = Some st' /\
         List.length (skipn (List.length st' - Z.to_nat K) st') = Z.to_nat K /\
         skipn (List.length st' - Z.to_nat K) st' = skipn (List.length init - Z.to_nat K) init).
  Proof.
    split.
    - intros Or a e' out H Ht. destruct (gd_step_inv _ _ _ _ _ _ Hg H) as [(_ & _ & _ & sp & _ & ->)|(st & vars & el & pen & conv & L)]; [discriminate|].
      destruct conv.
      + pose proof (lv_size _ _ _ _ _ _ _ _ _ _ _ L) as Sz.
        destruct (lv_conv _ _ _ _ _ _ _ _ _ _ _ L eq_refl) as (_ & _ & st2 & ov & sp & A & _ & _ & _ & _ & B).
        exists st, vars, st2. rewrite (lv_next _ _ _ _ _ _ _ _ _ _ _ L). repeat split; auto; [apply L|..];
        destruct (layout_length _ _ _ (B _ _ _ Hdevs Hgens Hdess)) as (_ & E); rewrite E.
        * destruct (B _ _ _ Hdevs Hgens Hdess); auto.
        * f_equal. rewrite (gd_K _ Hg) in Sz. lia.
      + destruct (lv_coll _ _ _ _ _ _ _ _ _ _ _ L eq_refl) as (_ & _ & _ & rw & sp & _ & _ & ->). discriminate.
    - intros Or seed e' ob H. destruct (gd_reset_inv _ _ _ _ _ _ devs gens dess Hg H Hdevs Hgens Hdess) as (k & init & st & _ & _ & _ & D & _ & _ & A & B & _).
      exists k, init, st. destruct (layout_length _ _ _ B) as (_ & E). rewrite E. repeat split; auto. apply B.
  Qed.

  (** C42. *)
  Theorem C42_bookkeeping :
    (** the timestep counts the steps that were executed since the last reset *)
    e_time e = steps_since_reset T e0 0 cs /\
    (** what a reset establishes, whether it returns or raises *)
    (forall Or seed, let e' := fst (env_reset Or T seed e) in
       e_term e' = Some false /\ e_time e' = 0%Z /\ e_eloss e' = n0 /\ e_pen e' = n0) /\
    (** flags of a step *)
    (forall Or a e' out, env_step Or T a e = (e', Ok out) -> so_truncated out = false /\ e_term e' = Some (so_terminated out)) /\
    (** before the first reset every step raises and changes nothing *)
    (forall Or a, (forall c, In c cs -> exists Or' a', c = EStep Or' a') ->
       fst (env_step Or T a e) = e0 /\ exists x, snd (env_step Or T a e) = Err x).
  Proof.
    split; [|split; [|split]].
    - unfold e. rewrite <- (ei_time _ _ _ _ _ _ _ _ _ _ (gd_init _ _ _ _ _ _ _ _ _ _ _ Hg)).
      clear -cs. generalize e0. induction cs as [|c l IH]; intros e1; [reflexivity|].
      cbn [erun fold_left steps_since_reset]. fold (erun T (run_ecall T e1 c) l). rewrite IH. f_equal.
      destruct c as [Or seed|Or a]; cbn [run_ecall].
      + destruct (env_reset Or T seed e1) as (e', r) eqn:E. apply env_reset_const in E. cbn. tauto.
      + destruct (env_stepped Or T a e1); cbn [is_ok andb]; rewrite ?H0; cbn [negb]; auto.
        * subst e2. destruct (write_aux _ _ _); [|destruct H6 as (-> & ->); auto].
          destruct (construct_state _); [|destruct H6 as (-> & ->); auto].
          destruct (observe _ _); [|destruct (e_ospace e1); destruct H6 as (-> & ->); auto].
          destruct (e_ospace e1); [|destruct H6 as (-> & ->); auto].
          destruct (box_contains _ _); destruct H6 as (-> & ->); auto.
        * subst e2. destruct (pydiv _ _); [|destruct H6 as (-> & ->); auto]. cbv zeta in H6.
          destruct (observation_N e1); destruct H6 as (-> & ->); auto.
    - intros Or seed. cbv zeta. destruct (env_reset Or T seed e) as (e', r) eqn:E. apply env_reset_const in E. cbn. tauto.
    - intros Or a e' out H. destruct (gd_step_inv _ _ _ _ _ _ Hg H) as [(Et & _ & -> & sp & _ & ->)|(st & vars & el & pen & conv & L)]; [auto|].
      rewrite (lv_term' _ _ _ _ _ _ _ _ _ _ _ L). destruct conv.
      + destruct (lv_conv _ _ _ _ _ _ _ _ _ _ _ L eq_refl) as (_ & _ & st2 & ov & sp & _ & _ & _ & _ & -> & _). auto.
      + destruct (lv_coll _ _ _ _ _ _ _ _ _ _ _ L eq_refl) as (_ & _ & _ & rw & sp & _ & _ & ->). auto.
    - intros Or a Hall. assert (One : forall Or' a', fst (env_step Or' T a' e0) = e0 /\ exists x, snd (env_step Or' T a' e0) = Err x).
      { intros Or' a'. pose proof (ei_term _ _ _ _ _ _ _ _ _ _ (gd_init _ _ _ _ _ _ _ _ _ _ _ Hg)) as Et. unfold env_step.
        destruct (negb _); [cbn; eauto|]. rewrite Et. cbn. eauto. }
      assert (E : e = e0); [|rewrite E; apply One]. unfold e. clear -Hall One. induction cs as [|c l IH]; [reflexivity|].
      destruct (Hall c (or_introl eq_refl)) as (Or' & a' & ->). cbn [erun fold_left run_ecall]. rewrite (proj1 (One Or' a')).
      apply IH. intros c I. apply Hall. right; auto.
  Qed.

  (** C29.  Terminal states are absorbing. *)
  Theorem C29_absorbing : forall Or a e1 out, env_step Or T a e = (e1, Ok out) -> so_terminated out = true ->
    forall later, (forall c, In c later -> exists Or' a', c = EStep Or' a') ->
      erun T e1 later = e1 /\
      exists sp, e_ospace e1 = Some sp /\
      forall Or' a', valid_action e1 a' ->
        env_step Or' T a' (erun T e1 later) = (e1, Ok (mkOut (repeat n0 (List.length (bx_lo sp))) n0 true false)).
  Proof.
    intros Or a e1 out H Ht later Hl.
    assert (P : e_term e1 = Some true /\ exists sp, e_ospace e1 = Some sp).
    { destruct (gd_step_inv _ _ _ _ _ _ Hg H) as [(Et & _ & -> & sp & Es & _)|(st & vars & el & pen & conv & L)]; [eauto|].
      rewrite (lv_term' _ _ _ _ _ _ _ _ _ _ _ L). destruct conv.
      + destruct (lv_conv _ _ _ _ _ _ _ _ _ _ _ L eq_refl) as (_ & _ & st2 & ov & sp & _ & _ & _ & _ & -> & _). discriminate.
      + destruct (lv_coll _ _ _ _ _ _ _ _ _ _ _ L eq_refl) as (_ & _ & _ & rw & sp & _ & Es & ->). eauto. }
    destruct P as (Et & sp & Es).
    assert (One : forall Or' a', fst (env_step Or' T a' e1) = e1 /\ (valid_action e1 a' -> snd (env_step Or' T a' e1) = Ok (mkOut (repeat n0 (List.length (bx_lo sp))) n0 true false))).
    { intros Or' a'. unfold env_step. destruct (box_contains (e_aspace e1) (mkObs true a')) eqn:V; cbn [negb].
      - rewrite Et. unfold observation_N. rewrite Es. cbn. auto.
      - cbn. split; auto. unfold valid_action. congruence. }
    assert (E : erun T e1 later = e1).
    { clear -Hl One. induction later as [|c l IH]; [reflexivity|].
      destruct (Hl c (or_introl eq_refl)) as (Or' & a' & ->). cbn [erun fold_left run_ecall]. rewrite (proj1 (One Or' a')).
      apply IH. intros c I. apply Hl. right; auto. }
    split; auto. exists sp. split; auto. intros Or' a' V. rewrite E.
    destruct (One Or' a') as (A & B). specialize (B V). destruct (env_step Or' T a' e1); cbn in *; congruence.
  Qed.
End PropEnv.
