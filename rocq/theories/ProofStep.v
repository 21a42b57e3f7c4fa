(** The environment: what each call does to the object, along histories. *)
From Coq Require Import Permutation Sorted.
From Verif Require Import Base Num Devices BusBranch CheckNetwork LoadFlow Simulator EnvArgs Env LibBase LibNum LibSim
  SpecNet ProofNet LibInit SpecSim ProofSim ProofObs ProofHist ProofReset SpecEnv ProofEnv.
Local Open Scope string_scope.
Local Open Scope list_scope.
Local Open Scope num_scope.

Section Step.
  Context {F G : Type} {N : Num F}.
  Notation env := (env F G).
  Notation task := (task F G).

  (** the attributes that no call modifies, and the static part of the simulator *)
  Definition econst (e : env) :=
    (e_K e, e_gamma e, e_clip e, e_auxb e, strip (e_sim e), (e_svals e, e_ovals e, e_ofun e, e_aspace e)).

  Lemma strip_reset Or st s : strip (fst (sim_reset Or st s)) = strip s.
  Proof. apply (strip_run s [CReset Or st]). Qed.
  Lemma strip_transition Or i s : strip (fst (transition Or i s)) = strip s.
  Proof. apply (strip_run s [CTrans Or i]). Qed.

  (** Result of a successful sampling loop: the number of rejected samples, and the accepted one. *)
  Lemma reset_loop_const Or (T : task) rem : forall e e' r, reset_loop Or T rem e = (e', r) ->
    econst e' = econst e /\ e_ospace e' = e_ospace e /\ e_term e' = e_term e /\ e_time e' = e_time e /\
    e_eloss e' = e_eloss e /\ e_pen e' = e_pen e /\ exists cs, e_sim e' = run (e_sim e) cs /\ Forall (fun c => exists st, c = CReset Or st) cs.
  Proof.
    induction rem as [|rem IH]; intros e e' r H; cbn [reset_loop] in H.
    - injection H as <- <-. repeat split; auto. exists []; split; auto.
    - destruct (t_init T (e_rng e)) as [[s0|x] g]; [|injection H as <- <-; repeat split; auto; exists []; split; auto].
      destruct (negb _); [injection H as <- <-; repeat split; auto; exists []; split; auto|].
      destruct (sim_reset Or s0 _) as (s', r0) eqn:E. cbn [e_sim env_set_state env_set_rng] in E.
      assert (Es : s' = run (e_sim e) [CReset Or s0]) by (cbn; rewrite E; auto).
      assert (Ec : forall e1 : env, econst (env_set_sim (env_set_state (env_set_rng e g) (Some s0)) s') = econst e).
      { intros _. unfold econst; cbn. rewrite Es, strip_run. auto. }
      destruct r0 as [found|x]; [|injection H as <- <-; repeat split; auto; exists [CReset Or s0]; split; eauto].
      assert (D : (e', r) = (env_set_sim (env_set_state (env_set_rng e g) (Some s0)) s', Err AttributeError) \/
                  (found = true /\ (e', r) = (env_set_sim (env_set_state (env_set_rng e g) (Some s0)) s', Ok tt)) \/
                  reset_loop Or T rem (env_set_sim (env_set_state (env_set_rng e g) (Some s0)) s') = (e', r)).
      { destruct rem; [left; auto|]. destruct found; [right; left; auto|right; right; auto]. }
      destruct D as [D|[(_ & D)|D]].
      + injection D as -> ->; repeat split; auto; exists [CReset Or s0]; split; eauto.
      + injection D as -> ->; repeat split; auto; exists [CReset Or s0]; split; eauto.
      + apply IH in D as (I1 & I2 & I3 & I4 & I5 & I6 & cs & I7 & I8). rewrite I1, Ec by auto. repeat split; auto.
        exists (CReset Or s0 :: cs). split; [|constructor; eauto]. rewrite I7. cbn [e_sim env_set_sim]. rewrite Es. reflexivity.
  Qed.

  Lemma finish_obs_const (e : env) st e' r : finish_obs e st = (e', r) ->
    econst e' = econst e /\ e_term e' = e_term e /\ e_time e' = e_time e /\ e_eloss e' = e_eloss e /\ e_pen e' = e_pen e /\
    e_state e' = e_state e /\ e_sim e' = e_sim e /\ e_rng e' = e_rng e /\ (forall sp, e_ospace e = Some sp -> e_ospace e' = Some sp).
  Proof.
    unfold finish_obs. destruct (observe e st) as [o|x]; [|intros H; injection H as <- <-; repeat split; auto].
    destruct (e_ospace e) as [sp|] eqn:Eo; cbn [e_ospace env_set_ospace].
    - rewrite Eo. destruct (box_contains sp o); intros H; injection H as <- <-; repeat split; auto; intros; congruence.
    - destruct (box_contains _ o); intros H; injection H as <- <-; repeat split; auto; discriminate.
  Qed.

  Definition resetting (T : task) (seed : option Z) (e : env) : env :=
    env_set_costs (env_set_time (env_set_term (match seed with Some z => env_set_rng e (t_seed T z) | None => e end) (Some false)) 0) n0 n0.
  Lemma env_reset_eq Or (T : task) seed e : env_reset Or T seed e =
    match reset_loop Or T 100 (resetting T seed e) with
    | (e2, Err x) => (e2, Err x)
    | (e2, Ok _) => match construct_state e2 with
                    | Err x => (e2, Err x)
                    | Ok st => finish_obs (env_set_state e2 (Some st)) st
                    end
    end.
  Proof. reflexivity. Qed.
  Lemma resetting_const (T : task) seed e : econst (resetting T seed e) = econst e /\ e_ospace (resetting T seed e) = e_ospace e /\
    e_sim (resetting T seed e) = e_sim e /\ e_term (resetting T seed e) = Some false /\ e_time (resetting T seed e) = 0%Z /\
    e_eloss (resetting T seed e) = n0 /\ e_pen (resetting T seed e) = n0.
  Proof. destruct seed; repeat split; auto. Qed.
  Global Opaque resetting.

  Lemma env_reset_const Or (T : task) seed e e' r : env_reset Or T seed e = (e', r) ->
    econst e' = econst e /\ (forall sp, e_ospace e = Some sp -> e_ospace e' = Some sp) /\
    e_term e' = Some false /\ e_time e' = 0%Z /\ e_eloss e' = n0 /\ e_pen e' = n0 /\ exists cs, e_sim e' = run (e_sim e) cs /\ Forall (fun c => exists st, c = CReset Or st) cs.
  Proof.
    rewrite env_reset_eq. destruct (resetting_const T seed e) as (R1 & R2 & R3 & R4 & R5 & R6 & R7).
    destruct (reset_loop Or T 100 (resetting T seed e)) as (e2, rl) eqn:L.
    apply reset_loop_const in L as (L1 & L2 & L3 & L4 & L5 & L6 & cs & L7 & L8).
    rewrite R1 in L1; rewrite R2 in L2; rewrite R3 in L7; rewrite R4 in L3; rewrite R5 in L4; rewrite R6 in L5; rewrite R7 in L6.
    destruct rl as [u|x]; [|intros H; injection H as <- <-; repeat split; eauto; congruence].
    destruct (construct_state e2) as [st|x]; [|intros H; injection H as <- <-; repeat split; eauto; congruence].
    intros H. apply finish_obs_const in H as (H1 & H2 & H3 & H4 & H5 & H6 & H7 & H8 & H9).
    change (econst (env_set_state e2 (Some st))) with (econst e2) in H1. cbn [e_term e_time e_eloss e_pen e_sim e_ospace env_set_state] in *.
    rewrite H1, H2, H3, H4, H5, H7. repeat split; eauto. intros sp Esp. apply H9. congruence.
  Qed.

  (** What [step] did. *)
  Inductive stepped (Or : oracles F) (T : task) (a : list F) (e : env) : env -> res (step_out F) -> Prop :=
  | SInvalid : ~ valid_action e a -> stepped Or T a e e (Err AssertionError)
  | SBefore : valid_action e a -> e_term e = None -> stepped Or T a e e (Err AttributeError)
  | SAbsorbed n : valid_action e a -> e_term e = Some true -> observation_N e = Ok n ->
      stepped Or T a e e (Ok (mkOut (repeat n0 n) n0 true false))
  | SAbsorbedNo : valid_action e a -> e_term e = Some true -> e_ospace e = None -> stepped Or T a e e (Err AttributeError)
  | SNoState : valid_action e a -> e_term e = Some false -> e_state e = None -> stepped Or T a e e (Err AttributeError)
  | SNext st x g : valid_action e a -> e_term e = Some false -> e_state e = Some st -> t_next T st (e_rng e) = (Err x, g) ->
      stepped Or T a e (env_set_rng e g) (Err x)
  | SSize st vars g : valid_action e a -> e_term e = Some false -> e_state e = Some st -> t_next T st (e_rng e) = (Ok vars, g) ->
      List.length vars <> (n_load (e_sim e) + n_nsgen (e_sim e) + e_K e)%nat -> stepped Or T a e (env_set_rng e g) (Err EnvNextVarsError)
  | STrans st vars g s' x : valid_action e a -> e_term e = Some false -> e_state e = Some st -> t_next T st (e_rng e) = (Ok vars, g) ->
      List.length vars = (n_load (e_sim e) + n_nsgen (e_sim e) + e_K e)%nat ->
      transition Or (step_inputs e vars a) (e_sim e) = (s', Err x) -> stepped Or T a e (env_set_sim (env_set_rng e g) s') (Err x)
  | SConv st vars g s' fl rr el pen e1 r e' : valid_action e a -> e_term e = Some false -> e_state e = Some st -> t_next T st (e_rng e) = (Ok vars, g) ->
      List.length vars = (n_load (e_sim e) + n_nsgen (e_sim e) + e_K e)%nat ->
      transition Or (step_inputs e vars a) (e_sim e) = (s', Ok (fl, rr, el, pen, true)) ->
      e1 = env_set_costs (env_set_term (env_set_sim (env_set_rng e g) s') (Some false)) (clip_eloss e el) (clip_pen e pen) ->
      (** the rest of the step: assemble the state, observe *)
      match write_aux st (skipn (n_load (e_sim e) + n_nsgen (e_sim e)) vars) (e_K e) with
      | Err x => e' = e1 /\ r = Err x
      | Ok st1 =>
          match construct_state (env_set_state e1 (Some st1)) with
          | Err x => e' = env_set_state e1 (Some st1) /\ r = Err x
          | Ok st2 =>
              match observe (env_set_state e1 (Some st2)) st2, e_ospace e with
              | Err x, _ => e' = env_set_state e1 (Some st2) /\ r = Err x
              | Ok o, None => e' = env_set_state e1 (Some st2) /\ r = Err AttributeError
              | Ok o, Some sp =>
                  if box_contains sp o
                  then e' = env_set_time (env_set_state e1 (Some st2)) (e_time e + 1) /\ r = Ok (mkOut (ov_vec o) (- (clip_eloss e el + clip_pen e pen)) false false)
                  else e' = env_set_state e1 (Some st2) /\ r = Err AssertionError
              end
          end
      end -> stepped Or T a e e' r
  | SColl st vars g s' fl rr el pen e1 r e' : valid_action e a -> e_term e = Some false -> e_state e = Some st -> t_next T st (e_rng e) = (Ok vars, g) ->
      List.length vars = (n_load (e_sim e) + n_nsgen (e_sim e) + e_K e)%nat ->
      transition Or (step_inputs e vars a) (e_sim e) = (s', Ok (fl, rr, el, pen, false)) ->
      e1 = env_set_term (env_set_sim (env_set_rng e g) s') (Some true) ->
      match pydiv (- snd (e_clip e)) (n1 - e_gamma e) with
      | Err x => e' = e1 /\ r = Err x
      | Ok rw =>
          let e2 := env_set_state (env_set_costs e1 (fst (e_clip e)) (snd (e_clip e))) (Some (repeat n0 (items_len (e_svals e)))) in
          match observation_N e with
          | Err x => e' = e2 /\ r = Err x
          | Ok n => e' = env_set_time e2 (e_time e + 1) /\ r = Ok (mkOut (repeat n0 n) rw true false)
          end
      end -> stepped Or T a e e' r.

  Lemma env_stepped Or (T : task) a e : stepped Or T a e (fst (env_step Or T a e)) (snd (env_step Or T a e)).
  Proof.
    unfold env_step. destruct (box_contains (e_aspace e) (mkObs true a)) eqn:V; cbn [negb]; [|cbn; apply SInvalid; unfold valid_action; congruence].
    destruct (e_term e) as [[|]|] eqn:Et; [| |apply SBefore; auto].
    { destruct (observation_N e) eqn:On; cbn; [apply SAbsorbed; auto|]. unfold observation_N in On. destruct (e_ospace e) eqn:Eo; [discriminate|]. injection On as <-. apply SAbsorbedNo; auto. }
    destruct (e_state e) as [st|] eqn:Es; [|apply SNoState; auto].
    destruct (t_next T st (e_rng e)) as [[vars|x] g] eqn:En; [|eapply SNext; eauto].
    cbn [e_sim env_set_rng].
    destruct (Nat.eqb_spec (List.length vars) (n_load (e_sim e) + n_nsgen (e_sim e) + e_K e)) as [El|El]; cbn [negb]; [|eapply SSize; eauto].
    change (step_inputs (env_set_rng e g) vars a) with (step_inputs e vars a).
    destruct (transition Or (step_inputs e vars a) (e_sim e)) as [s' [[[[[fl rr] el] pen] conv]|x]] eqn:Tr; [|eapply STrans; eauto].
    destruct conv; cbn [negb].
    - eapply SConv; eauto. cbv zeta.
      change (clip_eloss (env_set_term (env_set_sim (env_set_rng e g) s') (Some false)) el) with (clip_eloss e el).
      change (clip_pen (env_set_term (env_set_sim (env_set_rng e g) s') (Some false)) pen) with (clip_pen e pen).
      set (e1 := env_set_costs _ _ _).
      destruct (write_aux _ _ _) as [st1|x]; [|cbn; auto].
      change (env_set_state (env_set_state e1 (Some st1))) with (env_set_state e1).
      destruct (construct_state _) as [st2|x]; [|cbn; auto].
      destruct (observe _ _) as [o|x]; [|cbn; auto].
      change (e_ospace (env_set_state e1 (Some st2))) with (e_ospace e). destruct (e_ospace e) as [sp|]; [|cbn; auto].
      destruct (box_contains sp o); cbn; auto.
    - eapply SColl; eauto. destruct (pydiv _ _) as [rw|x]; [|cbn; auto]. cbv zeta.
      change (observation_N (env_set_state _ _)) with (observation_N e). destruct (observation_N e); cbn; auto.
  Qed.

  Lemma stepped_const Or (T : task) a e e' r : stepped Or T a e e' r ->
    econst e' = econst e /\ e_ospace e' = e_ospace e /\ (e_sim e' = e_sim e \/ exists inp, e_sim e' = fst (transition Or inp (e_sim e))).
  Proof.
    intros H. destruct H; try (repeat split; auto; fail).
    - split; [|split]; auto; [|right; exists (step_inputs e vars a); cbn; rewrite H4; auto].
      unfold econst; cbn. rewrite <- (strip_transition Or (step_inputs e vars a) (e_sim e)), H4. auto.
    - assert (E : e_sim e' = s' /\ econst e' = econst e1 /\ e_ospace e' = e_ospace e1).
      { subst e1. repeat match type of H6 with context [match ?x with _ => _ end] => destruct x end; destruct H6 as (-> & _); repeat split; auto. }
      destruct E as (E1 & E2 & E3). rewrite E2, E3. subst e1. repeat split; auto.
      + unfold econst; cbn. rewrite <- (strip_transition Or (step_inputs e vars a) (e_sim e)), H4. auto.
      + right. exists (step_inputs e vars a). rewrite H4. auto.
    - assert (E : e_sim e' = s' /\ econst e' = econst e1 /\ e_ospace e' = e_ospace e1).
      { subst e1. cbv zeta in H6. repeat match type of H6 with context [match ?x with _ => _ end] => destruct x end; destruct H6 as (-> & _); repeat split; auto. }
      destruct E as (E1 & E2 & E3). rewrite E2, E3. subst e1. repeat split; auto.
      + unfold econst; cbn. rewrite <- (strip_transition Or (step_inputs e vars a) (e_sim e)), H4. auto.
      + right. exists (step_inputs e vars a). rewrite H4. auto.
  Qed.

  (** ---- along a history ---- *)
  Lemma erun_const (T : task) cs : forall e, econst (erun T e cs) = econst e.
  Proof.
    induction cs as [|c cs IH]; intros e; [reflexivity|]. cbn [erun fold_left]. fold (erun T (run_ecall T e c) cs). rewrite IH.
    destruct c as [Or seed|Or a]; cbn [run_ecall].
    - destruct (env_reset Or T seed e) eqn:E. apply env_reset_const in E. tauto.
    - apply (stepped_const _ _ _ _ _ _ (env_stepped Or T a e)).
  Qed.
  Lemma erun_ospace (T : task) cs : forall e sp, e_ospace e = Some sp -> e_ospace (erun T e cs) = Some sp.
  Proof.
    induction cs as [|c cs IH]; intros e sp H; [auto|]. cbn [erun fold_left]. fold (erun T (run_ecall T e c) cs). apply IH.
    destruct c as [Or seed|Or a]; cbn [run_ecall].
    - destruct (env_reset Or T seed e) eqn:E. apply env_reset_const in E as (_ & E & _). auto.
    - rewrite (proj1 (proj2 (stepped_const _ _ _ _ _ _ (env_stepped Or T a e)))). auto.
  Qed.
  (** the simulator of an environment only undergoes simulator calls: everything proved about histories of the
      simulator holds inside an environment *)
  Lemma run_app (s : sim F) cs cs' : run s (cs ++ cs') = run (run s cs) cs'.
  Proof. apply fold_left_app. Qed.
  Lemma erun_run (T : task) cs : forall e, exists l, e_sim (erun T e cs) = run (e_sim e) l.
  Proof.
    induction cs as [|c cs IH]; intros e; [exists []; auto|]. cbn [erun fold_left]. fold (erun T (run_ecall T e c) cs).
    destruct (IH (run_ecall T e c)) as (l & E). rewrite E. destruct c as [Or seed|Or a]; cbn [run_ecall].
    - destruct (env_reset Or T seed e) as (e', r) eqn:Er. apply env_reset_const in Er as (_ & _ & _ & _ & _ & _ & l' & E' & _).
      exists (l' ++ l). cbn [fst]. rewrite E', run_app. auto.
    - destruct (stepped_const _ _ _ _ _ _ (env_stepped Or T a e)) as (_ & _ & [E'|(inp & E')]); rewrite E'; [eauto|].
      exists (CTrans Or inp :: l). auto.
  Qed.
End Step.
