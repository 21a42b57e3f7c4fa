(** Resets and steps with a documented observation list return. *)
From Verif Require Import Base Num Devices BusBranch CheckNetwork LoadFlow Simulator EnvArgs Env LibBase LibNum LibSim
  SpecNet ProofNet LibInit SpecSim ProofSim ProofObs ProofHist ProofReset ProofDevs SpecEnv ProofEnv ProofStep ProofState ProofDraw ProofEnvOk
  SpecObs ProofObsList ProofObsEnv ProofArgs.
Local Open Scope string_scope.
Local Open Scope list_scope.
Local Open Scope num_scope.

Section Live.
  Context {F G : Type} {N : Num F}.
  Notation env := (env F G).
  Notation task := (task F G).
  Context {nw : network F} {o : obs_arg F} {K : Z} {dt gamma lamb : F} {auxb : option (list (F * F))} {clip : option (option F * option F)} {g : G} {e0 : env}.
  Notation good := (good nw o K dt gamma lamb auxb clip g e0).

  (** the items of a documented list *)
  Lemma documented_items l rs : einit nw o K dt gamma lamb auxb clip g e0 -> tuples_of o = Some l ->
    Forall2 (fun t r => requested (e_sim e0) K t = Some r) l rs -> (forall t, In t l -> ~ i_magn_default t) ->
    exists items B, e_ovals e0 = Some items /\ e_ofun e0 = None /\ Forall (item_ok (e_sim e0) K) items /\ List.concat rs = List.concat (map item_reqs items) /\
      e_ospace e0 = Some (mkBox (map fst B) (map snd B) false) /\ map Some B = map (req_bound (e_sim e0) auxb) (List.concat rs).
  Proof.
    intros I Hl Hr Hd. destruct (tuples_items (e_sim e0) K l rs Hr Hd) as (l1 & items & I1 & I2 & I3 & I4).
    pose proof (ei_obs _ _ _ _ _ _ _ _ _ _ I) as Bo. pose proof (ei_ospace _ _ _ _ _ _ _ _ _ _ I) as So.
    assert (P : e_ovals e0 = Some items /\ e_ofun e0 = None).
    { rewrite (ei_K _ _ _ _ _ _ _ _ _ _ I) in Bo. destruct o as [|lo|f|]; try discriminate; cbn in Hl; injection Hl as <-.
      - cbn [mapM state_tuples add_default_unit bind] in I1. injection I1 as <-. cbn [build_observation] in Bo.
        assert (Ev : expand_all (e_sim e0) (Z.to_nat K) state_items = Ok (svals_of (e_sim e0) (Z.to_nat K))) by reflexivity. unfold state_items in Ev. rewrite Ev in I2. injection I2 as <-.
        rewrite (ei_svals _ _ _ _ _ _ _ _ _ _ I), (ei_K _ _ _ _ _ _ _ _ _ _ I) in Bo.
        change (expand_all (e_sim e0) (Z.to_nat K) (svals_of (e_sim e0) (Z.to_nat K))) with (Ok (svals_of (e_sim e0) (Z.to_nat K))) in Bo. cbn [bind] in Bo. injection Bo as <- <-. auto.
      - cbn [build_observation] in Bo. rewrite I1 in Bo. cbn [bind] in Bo. rewrite I2 in Bo. cbn [bind] in Bo. injection Bo as <- <-. auto. }
    destruct P as (P1 & P2). rewrite P1 in So.
    assert (Ha : forall lb, auxb = Some lb -> List.length lb = Z.to_nat K).
    { intros lb Hb. destruct (Z.eq_dec (Z.of_nat (List.length lb)) K) as [E|E]; [lia|]. exfalso.
      destruct (args_cases (e_sim e0) K dt gamma lamb o auxb) as (A & _). destruct A as (x & A); [unfold bad_args; do 6 right; eauto|].
      pose proof (ei_args _ _ _ _ _ _ _ _ _ _ I). congruence. }
    destruct (items_bounds (e_sim e0) K auxb items I3 Ha) as (B & B1 & B2). exists items, B. rewrite B1 in So. injection So as <-. rewrite I4. auto 8.
  Qed.

  Lemma clip_in_space {NO : NumOrd F} (B : list (F * F)) X : List.length X = List.length B ->
    Forall (fun b => nleb (fst b) (snd b) = true) B -> Forall (fun x => nisnan x = false) X ->
    box_contains (mkBox (map fst B) (map snd B) false) (mkObs true (clip_vec X (map fst B) (map snd B))) = true.
  Proof.
    intros L HB HX. apply contains_inside; cbn [bx_lo bx_hi bx_f32 ov_vec ov_f64]; [rewrite !map_length; auto|]. split; [auto|].
    assert (Hn : forall v, In v (clip_vec X (map fst B) (map snd B)) -> nisnan v = false).
    { revert X L HX. induction HB as [|b B Hb HB IH]; intros [|x X] L HX v I; try discriminate; [destruct I|]. inversion_clear HX.
      cbn [map] in I. rewrite clip_vec_cons in I. destruct I as [<-|I].
      - destruct (np_clip_in x (fst b) (snd b)) as (A & _); auto. apply ord_nan in A. tauto.
      - injection L as L. eapply IH; eauto. }
    unfold inside; cbn [bx_lo bx_hi]. apply clip_inside; [rewrite map_length; auto|rewrite !map_length; auto| |auto].
    clear -HB. induction HB; cbn; constructor; auto.
  Qed.

  (** what is observed after a completed power flow *)
  Lemma observed_ok {NO : NumOrd F} items B (e' : env) st : Forall (item_ok (e_sim e0) K) items -> econst e' = econst e0 -> e_ovals e0 = Some items -> e_ofun e0 = None ->
    e_ospace e' = Some (mkBox (map fst B) (map snd B) false) -> List.length B = List.length (List.concat (map item_reqs items)) ->
    sm_state (e_sim e') = Some (gather_state (e_sim e')) -> e_state e' = Some st -> e_K e' = Z.to_nat K -> (Z.to_nat K <= List.length st)%nat ->
    exists X, map Some X = map (req_value e' st) (List.concat (map item_reqs items)) /\
      observe e' st = Ok (mkObs true (clip_vec X (map fst B) (map snd B))) /\
      (Forall (fun b => nleb (fst b) (snd b) = true) B -> Forall (fun x => nisnan x = false) X ->
       observed e' st = Ok (clip_vec X (map fst B) (map snd B))).
  Proof.
    intros I3 C P1 P2 Es LB Hf Hst HK L. pose proof (econst_strip _ _ C) as S. apply econst_inv in C as (_ & _ & _ & _ & _ & _ & C1 & C2 & _).
    destruct (items_values (e_sim e0) (e_sim e') K e' st items I3 S Hf Hst HK L) as (X & X1 & X2). exists X. split; auto.
    assert (Ob : observe e' st = Ok (mkObs true (clip_vec X (map fst B) (map snd B)))).
    { unfold observe. rewrite C2, P2, C1, P1, Es, X1. reflexivity. }
    split; auto. intros HB HX. unfold observed. rewrite Ob, Es, clip_in_space; auto.
    pose proof (f_equal (@List.length _) X2) as E. rewrite !map_length in E. congruence.
  Qed.

  (** a step after the transition *)
  Lemma step_after Or (T : task) a e st vars gr inp loads gens dess s' fl rr el pen conv : good e -> valid_action e a -> e_term e = Some false -> e_state e = Some st ->
    t_next T st (e_rng e) = (Ok vars, gr) -> ids_of nw LOADS loads -> ids_of nw GENS gens -> ids_of nw STORS dess ->
    List.length vars = (List.length loads + List.length gens + Z.to_nat K)%nat -> layout loads gens dess vars a inp -> (Z.to_nat K <= List.length st)%nat ->
    transition Or inp (e_sim e) = (s', Ok (fl, rr, el, pen, conv)) ->
    let e' := fst (env_step Or T a e) in
    e_sim e' = s' /\ e_rng e' = gr /\ e_ospace e' = e_ospace e /\ econst e' = econst e /\ e_term e' = Some (negb conv) /\
    (conv = true -> exists st', e_state e' = Some st' /\ (Z.to_nat K <= List.length st')%nat /\ e_eloss e' = clip_eloss e el /\ e_pen e' = clip_pen e pen /\
       (forall devs, ids_of nw ALL devs -> state_layout devs gens dess (Z.to_nat K) s' (skipn (List.length loads + List.length gens) vars) st') /\
       (forall ob, observed e' st' = Ok ob -> snd (env_step Or T a e) = Ok (mkOut ob (- (e_eloss e' + e_pen e')) false false))) /\
    (conv = false -> (n1 - e_gamma e =? n0) = false -> forall sp, e_ospace e = Some sp ->
       snd (env_step Or T a e) = Ok (mkOut (repeat n0 (List.length (bx_lo sp))) (- snd (e_clip e) / (n1 - e_gamma e)) true false)) /\
    (conv = false -> (n1 - e_gamma e =? n0) = true -> snd (env_step Or T a e) = Err ZeroDivisionError).
  Proof.
    intros Hg V Ht Hs Hn I2 I3 I4 L La Lk Tr. pose proof (gd_sim0 _ Hg) as Hi. pose proof (gd_strip _ Hg) as S.
    destruct (ids_lists _ _ _ _ _ Hi S) as (A1 & A2 & A3 & A4). pose proof (static_nodup _ _ _ _ _ Hi S) as ND.
    assert (E : transition Or (step_inputs e vars a) (e_sim e) = transition Or inp (e_sim e)).
    { apply transition_agree, (layout_agree _ vars a); [apply step_inputs_layout; auto|]. rewrite <- (A2 _ I2), <- (A3 _ I3), <- (A4 _ I4). auto. }
    assert (L' : List.length vars = (n_load (e_sim e) + n_nsgen (e_sim e) + e_K e)%nat).
    { rewrite L, (A2 _ I2), (A3 _ I3), (gd_K _ Hg), !map_length. reflexivity. }
    rewrite Tr in E. pose proof (stepped_const _ _ _ _ _ _ (env_stepped Or T a e)) as (C & Sp & _).
    destruct (env_stepped Or T a e); try congruence.
    all: repeat match goal with H : _ = Some ?b, H' : _ = Some ?c |- _ => rewrite H in H'; injection H' as <- end;
         repeat match goal with H : _ = (Ok ?b, _), H' : _ = (Ok ?c, _) |- _ => rewrite H in H'; injection H' as <- <- end; try congruence.
    - rewrite E in H4. injection H4 as <- <- <- <- <- ->. cbv zeta.
      assert (La' : List.length (skipn (n_load (e_sim e) + n_nsgen (e_sim e)) vars) = e_K e) by (rewrite skipn_length; lia).
      destruct (write_aux st _ (e_K e)) as [st1|x] eqn:W.
      2:{ exfalso. unfold write_aux in W. rewrite (gd_K _ Hg) in W. rewrite (proj2 (Nat.leb_le _ _) Lk) in W. discriminate. }
      destruct (write_aux_skip _ _ _ _ La' W) as (W1 & W2 & W3).
      assert (Hg1 : good (env_set_state e1 (Some st1))).
      { eapply good_const; [exact Hg|]. subst e1. unfold econst; cbn. rewrite <- (strip_transition Or (step_inputs e vars a) (e_sim e)), E. auto. }
      destruct (ids_ex _ _ _ _ Hi) as (devs & loads' & gens' & dess' & D1 & D2 & D3 & D4).
      assert (Fr : sm_state s' = Some (gather_state s')) by (apply transition_ok in Tr as (_ & _ & ds & v & i & T1); apply trans_fresh in T1; apply T1).
      destruct (gd_construct (env_set_state e1 (Some st1)) st1 Hg1) with (devs := devs) (gens := gens') (dess := dess') as (st2 & Cs & Ly); auto.
      { subst e1. exact Fr. }
      { subst e1. cbn [env_set_state env_set_costs env_set_term env_set_sim env_set_rng e_K]. rewrite W2. exact W1. }
      assert (L2 : (Z.to_nat K <= List.length st2)%nat).
      { destruct Ly as (La2 & M). pose proof (f_equal (@List.length _) M) as Ml. rewrite !app_length, !map_length in Ml. lia. }
      assert (Ly' : forall devs, ids_of nw ALL devs -> state_layout devs gens dess (Z.to_nat K) s' (skipn (List.length loads + List.length gens) vars) st2).
      { intros devs' D1'. destruct (gd_construct (env_set_state e1 (Some st1)) st1 Hg1) with (devs := devs') (gens := gens) (dess := dess) as (st3 & Cs3 & Ly3); auto.
        { subst e1. exact Fr. }
        { subst e1. cbn [env_set_state env_set_costs env_set_term env_set_sim env_set_rng e_K]. rewrite W2. exact W1. }
        rewrite Cs in Cs3. injection Cs3 as <-. subst e1. cbn [env_set_state env_set_costs env_set_term env_set_sim env_set_rng e_K e_sim] in Ly3.
        rewrite <- (gd_K _ Hg), W3 in Ly3. rewrite <- (gd_K _ Hg). rewrite (A3 _ I3) in *. rewrite (A2 _ I2), !map_length. exact Ly3. }
      rewrite Cs in H6.
      split; [|split; [|split; [|split; [|split; [|split; [|split; discriminate]]]]]]; auto.
      + destruct (observe _ _); [|destruct (e_ospace e); destruct H6 as (-> & _); subst e1; auto]. destruct (e_ospace e); [|destruct H6 as (-> & _); subst e1; auto].
        destruct (box_contains _ _); destruct H6 as (-> & _); subst e1; auto.
      + destruct (observe _ _); [|destruct (e_ospace e); destruct H6 as (-> & _); subst e1; auto]. destruct (e_ospace e); [|destruct H6 as (-> & _); subst e1; auto].
        destruct (box_contains _ _); destruct H6 as (-> & _); subst e1; auto.
      + destruct (observe _ _); [|destruct (e_ospace e); destruct H6 as (-> & _); subst e1; auto]. destruct (e_ospace e); [|destruct H6 as (-> & _); subst e1; auto].
        destruct (box_contains _ _); destruct H6 as (-> & _); subst e1; auto.
      + intros _. exists st2.
        destruct (observe (env_set_state e1 (Some st2)) st2) as [ov|x] eqn:Ob.
        2:{ assert (He : e' = env_set_state e1 (Some st2)) by (destruct (e_ospace e); tauto). rewrite He. subst e1. split; [reflexivity|]. do 4 (split; [auto|]).
            intros ob Hob. exfalso. unfold observed in Hob. rewrite Ob in Hob. discriminate. }
        destruct (e_ospace e) as [sp|] eqn:Es.
        2:{ destruct H6 as (-> & _). subst e1. split; [reflexivity|]. do 4 (split; [auto|]). intros ob Hob. exfalso. unfold observed in Hob. rewrite Ob in Hob. cbn in Hob. rewrite Es in Hob. discriminate. }
        destruct (box_contains sp ov) eqn:Bc; destruct H6 as (-> & ->).
        * subst e1. split; [reflexivity|]. do 4 (split; [auto|]). intros ob Hob. unfold observed in Hob.
          match type of Hob with context [observe ?b ?c] => change (observe b c) with (observe (env_set_state (env_set_costs (env_set_term (env_set_sim (env_set_rng e gr) s') (Some false)) (clip_eloss e el) (clip_pen e pen)) (Some st2)) st2) in Hob end.
          rewrite Ob in Hob. cbn [e_ospace env_set_state env_set_time env_set_costs env_set_term env_set_sim env_set_rng] in Hob. rewrite Es, Bc in Hob. injection Hob as <-. reflexivity.
        * subst e1. split; [reflexivity|]. do 4 (split; [auto|]). intros ob Hob. exfalso. unfold observed in Hob. rewrite Ob in Hob.
          cbn [e_ospace env_set_state env_set_time env_set_costs env_set_term env_set_sim env_set_rng] in Hob. rewrite Es, Bc in Hob. discriminate.
    - rewrite E in H4. injection H4 as <- <- <- <- <- ->. cbv zeta in *.
      split; [|split; [|split; [|split; [|split; [|split; [discriminate|split]]]]]]; auto.
      1,2,3: unfold pydiv in H6; destruct (_ =? _); [destruct H6 as (-> & _); subst e1; auto|]; destruct (observation_N e); destruct H6 as (-> & _); subst e1; auto.
      + intros _ Hne sp Es. unfold pydiv in H6. rewrite Hne in H6. unfold observation_N in H6. rewrite Es in H6. destruct H6 as (_ & ->). reflexivity.
      + intros _ Hne. unfold pydiv in H6. rewrite Hne in H6. destruct H6 as (_ & ->). reflexivity.
  Qed.
End Live.
