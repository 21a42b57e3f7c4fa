(** Properties of the environment: steps return, rewards are bounded, collapsing against surviving. *)
From Coq Require Import Reals Lra.
From Verif Require Import Base Num NumXR Devices BusBranch CheckNetwork LoadFlow Simulator EnvArgs Env LibBase LibNum LibSim LibXR
  SpecNet ProofNet LibInit SpecSim ProofSim ProofObs ProofHist ProofReset ProofDevs SpecEnv ProofEnv ProofStep ProofState ProofDraw ProofEnvOk
  SpecObs ProofObsList ProofObsEnv ProofArgs PropObs ProofLive LibC SpecDev SpecPf PropPf.
Local Open Scope string_scope.
Local Open Scope list_scope.
Local Open Scope num_scope.

Set Bullet Behavior "Strict Subproofs".

(** The limits on the two costs that the argument [costs_clipping] gives: absent, there is none. *)
Definition loss_limit {F} {N : Num F} (clip : option (option F * option F)) : F := match clip with Some (Some c, _) => c | _ => ninf end.
Definition penalty_limit {F} {N : Num F} (clip : option (option F * option F)) : F := match clip with Some (_, Some c) => c | _ => ninf end.
Lemma clip_limits {F} {N : Num F} clip : clip_arg clip = (loss_limit clip, penalty_limit clip).
Proof. destruct clip as [([c|] & [c'|])|]; reflexivity. Qed.

Section ReturnsAt.
  Context {F G : Type} {N : Num F} {NO : NumOrd F}.
  Variables (nw : network F) (o : obs_arg F) (K : Z) (dt gamma lamb : F) (auxb : option (list (F * F)))
            (clip : option (option F * option F)) (g : G) (e0 : env F G) (T : task F G) (e : env F G).
  Hypothesis Hg : good nw o K dt gamma lamb auxb clip g e0 e.
  Hypothesis Hsp : forall sp, e_ospace e0 = Some sp -> e_ospace e = Some sp.
  (** the observation is a documented list *)
  Variables (l : list obs_tuple) (rs : list (list req)).
  Hypotheses (Hl : tuples_of o = Some l) (Hr : Forall2 (fun t r => requested (e_sim e0) K t = Some r) l rs) (Hd : forall t, In t l -> ~ i_magn_default t).
  Variables loads gens dess : list Z.
  Hypotheses (Hloads : ids_of nw LOADS loads) (Hgens : ids_of nw GENS gens) (Hdess : ids_of nw STORS dess).

  (** no requested entry is NaN in [e'] *)
  Definition no_nan (e' : env F G) : Prop :=
    forall st r v, e_state e' = Some st -> In r (List.concat rs) -> req_value e' st r = Some v -> nisnan v = false.
  (** the advertised bounds of the requested entries are in order *)
  Definition ordered_bounds : Prop :=
    forall r b, In r (List.concat rs) -> req_bound (e_sim e0) auxb r = Some b -> nleb (fst b) (snd b) = true.

  (** in any environment that has the constants of a constructed one *)
  Lemma returns_at : ordered_bounds ->
    (forall Or a st vars gr inp s' fl rr el pen conv, valid_action e a -> e_term e = Some false -> e_state e = Some st -> (Z.to_nat K <= List.length st)%nat ->
       t_next T st (e_rng e) = (Ok vars, gr) -> List.length vars = (List.length loads + List.length gens + Z.to_nat K)%nat ->
       layout loads gens dess vars a inp -> transition Or inp (e_sim e) = (s', Ok (fl, rr, el, pen, conv)) ->
       let e' := fst (env_step Or T a e) in
       e_sim e' = s' /\ e_rng e' = gr /\ e_term e' = Some (negb conv) /\
       (conv = true -> no_nan e' -> exists ob r, snd (env_step Or T a e) = Ok (mkOut ob r false false)) /\
       (conv = false -> (n1 - gamma =? n0) = false ->
          snd (env_step Or T a e) = Ok (mkOut (repeat n0 (List.length (List.concat rs))) (- snd (clip_arg clip) / (n1 - gamma)) true false))) /\
    (forall Or seed k, (S k < 100)%nat ->
       let tried j := attempt Or (e_sim e0) (state_size e0) (draw T (gen_at T seed e) j) in
       (forall j, (j < k)%nat -> tried j false) -> tried k true -> no_nan (fst (env_reset Or T seed e)) ->
       exists ob, snd (env_reset Or T seed e) = Ok ob).
  Proof.
    intros HB.
    destruct (documented_items l rs (gd_init _ _ _ _ _ _ _ _ _ _ _ Hg) Hl Hr Hd) as (items & B & P1 & P2 & P3 & P4 & P5 & P6).
    assert (Es : e_ospace e = Some (mkBox (map fst B) (map snd B) false)) by auto.
    assert (LB : List.length B = List.length (List.concat rs)) by (pose proof (f_equal (@List.length _) P6) as Q; rewrite !map_length in Q; auto).
    assert (FB : Forall (fun b => nleb (fst b) (snd b) = true) B).
    { apply Forall_forall. intros b Ib. assert (Ib' : In (Some b) (map (req_bound (e_sim e0) auxb) (List.concat rs))) by (rewrite <- P6; apply in_map; auto).
      apply in_map_iff in Ib' as (r & Er & Ir). eapply HB; eauto. }
    assert (FX : forall e' st X, e_state e' = Some st -> no_nan e' -> map Some X = map (req_value e' st) (List.concat (map item_reqs items)) -> Forall (fun x => nisnan x = false) X).
    { intros e' st X Est Nn EX. rewrite <- P4 in EX. apply Forall_forall. intros x Ix. assert (Ix' : In (Some x) (map (req_value e' st) (List.concat rs))) by (rewrite <- EX; apply in_map; auto).
      apply in_map_iff in Ix' as (r & Er & Ir). eapply Nn; eauto. }
    split.
    - intros Or a st vars gr inp s' fl rr el pen conv V Ht Hs Lk Hn Lv La Tr e'.
      destruct (step_after Or T a e st vars gr inp loads gens dess s' fl rr el pen conv Hg V Ht Hs Hn Hloads Hgens Hdess Lv La Lk Tr) as (S1 & S2 & S3 & S4 & S5 & S6 & S7 & _).
      fold e' in S1, S2, S3, S4, S5, S6. split; [auto|]. split; [auto|]. split; [auto|]. split.
      + intros -> Nn. destruct (S6 eq_refl) as (st' & A1 & A2 & A3 & A4 & _ & A5).
        assert (Ce : econst e' = econst e0) by (rewrite S4; apply Hg).
        destruct (observed_ok items B e' st' P3 Ce P1 P2) as (X & X1 & X2 & X3); try congruence.
        * rewrite S1. apply transition_ok in Tr as (_ & _ & ds & v & i & T1). apply trans_fresh in T1. apply T1.
        * apply econst_inv in Ce as (Ck & _). rewrite Ck. apply (ei_K _ _ _ _ _ _ _ _ _ _ (gd_init _ _ _ _ _ _ _ _ _ _ _ Hg)).
        * assert (Fx : Forall (fun x => nisnan x = false) X) by (eapply FX; eauto). rewrite (A5 _ (X3 FB Fx)). eauto.
      + intros -> Hne. pose proof (gd_gamma _ Hg) as Eg. pose proof (gd_clip _ Hg) as Ec.  rewrite Eg, Ec in S7.
        rewrite (S7 eq_refl Hne _ Es). cbn [bx_lo]. rewrite map_length, LB. reflexivity.
    - intros Or seed k Lk tried Hb Ht Nn. destruct (ids_ex _ _ _ _ (gd_sim0 _ Hg)) as (devs & loads' & gens' & dess' & D1 & D2 & D3 & D4).
      destruct (gd_reset Or T seed e k devs gens' dess' Hg Lk Hb Ht D1 D3 D4) as (init & e' & st & A1 & A2 & A3 & A4 & A5 & A6 & A7). rewrite A7. rewrite A1 in Nn.
      destruct (env_reset Or T seed e) as (e1, r) eqn:Er. cbn in A1. subst e1. pose proof (env_reset_const _ _ _ _ _ _ Er) as (C & Sp & _). specialize (Sp _ Es).
      assert (Ce : econst e' = econst e0) by (rewrite C; apply Hg).
      destruct (observed_ok items B e' st P3 Ce P1 P2) as (X & X1 & X2 & X3); try congruence.
      + destruct Ht as (init' & B1 & B2 & B3). rewrite A2 in B1. cbn in B1. injection B1 as <-. rewrite A4. apply (call_fresh (e_sim e0) (CReset Or init)). cbn [returned]. rewrite B3. auto.
      + apply econst_inv in Ce as (Ck & _). rewrite Ck. apply (ei_K _ _ _ _ _ _ _ _ _ _ (gd_init _ _ _ _ _ _ _ _ _ _ _ Hg)).
      + destruct A6 as (La & M). pose proof (f_equal (@List.length _) M) as Ml. rewrite !app_length, !map_length in Ml. lia.
      + assert (Fx : Forall (fun x => nisnan x = false) X) by (eapply FX; eauto). rewrite (X3 FB Fx). eauto.
  Qed.
End ReturnsAt.
Section Returns.
  Context {F G : Type} {N : Num F} {NO : NumOrd F}.
  Variables (nw : network F) (o : obs_arg F) (K : Z) (dt gamma lamb : F) (auxb : option (list (F * F)))
            (clip : option (option F * option F)) (g : G) (e0 : env F G) (T : task F G) (cs : list (ecall F)).
  Hypothesis built : env_init nw o K dt gamma lamb auxb clip g = Ok e0.
  Let e := erun T e0 cs.
  (** the observation is a documented list *)
  Variables (l : list obs_tuple) (rs : list (list req)).
  Hypotheses (Hl : tuples_of o = Some l) (Hr : Forall2 (fun t r => requested (e_sim e0) K t = Some r) l rs) (Hd : forall t, In t l -> ~ i_magn_default t).
  Variables loads gens dess : list Z.
  Hypotheses (Hloads : ids_of nw LOADS loads) (Hgens : ids_of nw GENS gens) (Hdess : ids_of nw STORS dess).

  (** C62. *)
  Theorem C62_step_returns : ordered_bounds auxb e0 rs ->
    (forall Or a st vars gr inp s' fl rr el pen conv, valid_action e a -> e_term e = Some false -> e_state e = Some st -> (Z.to_nat K <= List.length st)%nat ->
       t_next T st (e_rng e) = (Ok vars, gr) -> List.length vars = (List.length loads + List.length gens + Z.to_nat K)%nat ->
       layout loads gens dess vars a inp -> transition Or inp (e_sim e) = (s', Ok (fl, rr, el, pen, conv)) ->
       let e' := fst (env_step Or T a e) in
       e_sim e' = s' /\ e_rng e' = gr /\ e_term e' = Some (negb conv) /\
       (conv = true -> no_nan rs e' -> exists ob r, snd (env_step Or T a e) = Ok (mkOut ob r false false)) /\
       (conv = false -> (n1 - gamma =? n0) = false ->
          snd (env_step Or T a e) = Ok (mkOut (repeat n0 (List.length (List.concat rs))) (- penalty_limit clip / (n1 - gamma)) true false))) /\
    (forall Or seed k, (S k < 100)%nat ->
       let tried j := attempt Or (e_sim e0) (state_size e0) (draw T (gen_at T seed e) j) in
       (forall j, (j < k)%nat -> tried j false) -> tried k true -> no_nan rs (fst (env_reset Or T seed e)) ->
       exists ob, snd (env_reset Or T seed e) = Ok ob).
  Proof.
    pose proof (good_erun _ _ _ _ _ _ _ _ _ _ T cs built) as Hg. fold e in Hg. change (penalty_limit clip) with (snd (loss_limit clip, penalty_limit clip)). rewrite <- (clip_limits clip).
    refine (returns_at nw o K dt gamma lamb auxb clip g e0 T e Hg _ l rs Hl Hr Hd loads gens dess Hloads Hgens Hdess). intros sp. apply erun_ospace.
  Qed.
End Returns.

(** C28, the simulator: the reward that [Simulator.transition] returns. *)
Theorem C28_simulator_reward : forall (F : Type) (N : Num F) Or inp (s s' : sim F) st rew e pen conv,
  transition Or inp s = (s', Ok (st, rew, e, pen, conv)) -> rew = - (e + pen).
Proof.
  intros F N Or inp s s' st rew e pen conv H. apply transition_ok in H as (_ & H & _). unfold compute_reward in H.
  apply bind_ok in H as (pn & _ & H). injection H as <- <- <-. reflexivity.
Qed.

Section Reward.
  Local Open Scope R_scope.
  Context {G : Type}.
  Lemma eloss_clamped C1 (x : XR) : xle (Fin 0) C1 -> nisnan x = false ->
    within (nmul (np_sign x) (np_clip (nabs x) n0 C1)) (nopp C1) C1 /\ clamped x (nopp C1) C1 (nmul (np_sign x) (np_clip (nabs x) n0 C1)).
  Proof.
    intros H Hx. unfold xle in H. set (v := nmul _ _).
    assert (Ev : match C1, x with
                 | Fin c, Fin r => (Rabs r <= c -> v = Fin r) /\ (r < 0 -> c < - r -> v = Fin (- c)) /\ (0 < r -> c < r -> v = Fin c)
                 | _, PInf => v = C1 | _, NInf => v = xopp C1 | _, _ => v = x end).
    { unfold v, np_sign, np_clip, np_max, np_min, nisnan in *.
      destruct C1 as [c| | |]; try discriminate; destruct x as [r| | |]; try discriminate Hx.
      all: cbn [nabs n0 n1 nleb nltb nopp nmul neqb XRnum xabs xleb xltb xopp xmul xeqb orb negb].
      - apply Rleb_spec in H. rewrite !Reqb_refl. cbn [negb orb]. rewrite !orb_false_r. pose proof (Rabs_pos r).
        destruct (Rtotal_order r 0) as [L|[L|L]]; [rewrite (Rabs_left r) in * by auto|subst r; rewrite Rabs_R0 in *|rewrite (Rabs_pos_eq r) in * by lra];
        (split; [intros Q|split; intros Q1 Q2]); try lra; rcmp; cbn; rcmp; cbn; f_equal; lra.
      - apply Rleb_spec in H. cbn. rcmp. cbn. f_equal; lra.
      - apply Rleb_spec in H. cbn. rcmp. cbn. f_equal; lra.
      - rewrite !Reqb_refl. cbn [negb orb]. rewrite !orb_false_r. pose proof (Rabs_pos r).
        destruct (Rtotal_order r 0) as [L|[L|L]]; [rewrite (Rabs_left r) in * by auto|subst r; rewrite Rabs_R0 in *|rewrite (Rabs_pos_eq r) in * by lra];
        rcmp; cbn; f_equal; lra.
      - cbn. rcmp. cbn. rewrite ?inf_sgn_pos by lra. reflexivity.
      - cbn. rcmp. cbn. rewrite ?inf_sgn_pos, ?inf_sgn_neg by lra. reflexivity. }
    clearbody v. unfold within, clamped, within.
    destruct C1 as [c| | |]; try discriminate; destruct x as [r| | |]; try discriminate Hx; try subst v; cbn [nleb nltb nopp XRnum xleb xltb xopp]; rewrite ?Rleb_spec, ?Rltb_spec.
    - apply Rleb_spec in H. destruct Ev as (A & B & D). destruct (Rle_dec (Rabs r) c) as [L|L].
      + rewrite (A L). pose proof (Rle_abs r); pose proof (Rle_abs (- r)) as L2; rewrite Rabs_Ropp in L2.
        cbn [xleb]. rewrite !Rleb_spec. repeat split; intros; try lra; try (f_equal; lra).
      + assert (Q : (r < 0 /\ c < - r) \/ (0 < r /\ c < r)) by (apply Rnot_le_lt in L; destruct (Rle_dec 0 r); [rewrite Rabs_pos_eq in L by auto; right; split; lra|rewrite Rabs_left in L by lra; left; split; lra]).
        destruct Q as [(Q1 & Q2)|(Q1 & Q2)]; [rewrite (B Q1 Q2)|rewrite (D Q1 Q2)]; cbn [xleb]; rewrite !Rleb_spec; repeat split; intros; try lra; try (f_equal; lra).
    - apply Rleb_spec in H. repeat split; intros; try lra; try discriminate; try tauto.
    - apply Rleb_spec in H. repeat split; intros; try lra; try discriminate; try tauto.
    - repeat split; intros; auto; try discriminate.
    - repeat split; intros; auto; try discriminate.
    - repeat split; intros; auto; try discriminate.
  Qed.

  Section At.
  Variables (nw : network XR) (o : obs_arg XR) (K : Z) (dt gamma lamb : XR) (auxb : option (list (XR * XR)))
            (clip : option (option XR * option XR)) (g : G) (e0 : env XR G) (T : task XR G) (e : env XR G).
  Hypothesis Hg : good nw o K dt gamma lamb auxb clip g e0 e.
  Variables loads gens dess : list Z.
  Hypotheses (Hloads : ids_of nw LOADS loads) (Hgens : ids_of nw GENS gens) (Hdess : ids_of nw STORS dess).


  Lemma step_reward_at : forall C1 C2 Or a e' out, clip_arg clip = (C1, C2) -> xle (Fin 0) C1 -> xle (Fin 0) C2 ->
    env_step Or T a e = (e', Ok out) -> so_terminated out = false ->
    exists st vars inp fl rr el pen,
      e_state e = Some st /\ t_next T st (e_rng e) = (Ok vars, e_rng e') /\ layout loads gens dess vars a inp /\
      transition Or inp (e_sim e) = (e_sim e', Ok (fl, rr, el, pen, true)) /\
      so_reward out = nopp (nadd (e_eloss e') (e_pen e')) /\
      (nisnan el = false -> within (e_eloss e') (nopp C1) C1 /\ clamped el (nopp C1) C1 (e_eloss e')) /\
      (nisnan pen = false -> within (e_pen e') n0 C2 /\ clamped pen n0 C2 (e_pen e')) /\
      (forall c1 c2, C1 = Fin c1 -> C2 = Fin c2 -> nisnan el = false -> nisnan pen = false ->
         exists r, so_reward out = Fin r /\ - (c1 + c2) <= r <= c1).
  Proof.
    intros C1 C2 Or a e' out Hc P1 P2 H Ht.
    destruct (gd_step_inv _ _ _ _ _ _ Hg H) as [(_ & _ & _ & sp & _ & ->)|(st & vars & el & pen & conv & L)]; [discriminate|].
    destruct conv; [|destruct (lv_coll _ _ _ _ _ _ _ _ _ _ _ L eq_refl) as (_ & _ & _ & rw & sp & _ & _ & ->); discriminate].
    destruct (lv_conv _ _ _ _ _ _ _ _ _ _ _ L eq_refl) as (E1 & E2 & st2 & ov & sp & _ & _ & _ & _ & -> & _).
    destruct (lv_trans _ _ _ _ _ _ _ _ _ _ _ L) as (fl & rr & Tr). pose proof (gd_sim0 _ Hg) as Hi. pose proof (gd_strip _ Hg) as S.
    destruct (ids_lists _ _ _ _ _ Hi S) as (A1 & A2 & A3 & A4). pose proof (static_nodup _ _ _ _ _ Hi S) as ND.
    exists st, vars, (step_inputs e vars a), fl, rr, el, pen. split; [apply L|]. split; [apply L|].
    split; [rewrite (A2 _ Hloads), (A3 _ Hgens), (A4 _ Hdess); apply step_inputs_layout; auto|]. split; [exact Tr|]. split; [reflexivity|].
    unfold clip_eloss in E1. unfold clip_pen in E2. rewrite (gd_clip _ Hg), Hc in E1, E2. cbn [fst snd] in E1, E2.
    assert (B1 : nisnan el = false -> within (e_eloss e') (nopp C1) C1 /\ clamped el (nopp C1) C1 (e_eloss e')) by (rewrite E1; apply eloss_clamped; auto).
    assert (B2 : nisnan pen = false -> within (e_pen e') n0 C2 /\ clamped pen n0 C2 (e_pen e')) by (rewrite E2; apply clip_clamped; auto).
    split; [exact B1|]. split; [exact B2|]. intros c1 c2 -> -> N1 N2. destruct (B1 N1) as ((W1 & W2) & _). destruct (B2 N2) as ((W3 & W4) & _).
    cbn [so_reward]. clear -W1 W2 W3 W4. destruct (e_eloss e') as [x| | |]; try discriminate. destruct (e_pen e') as [y| | |]; try discriminate.
    cbn in *. rewrite !Rleb_spec in *. eexists. split; [reflexivity|]. lra.
  Qed.

  Lemma reward_bounds_at : forall scs, e_sim e = run (e_sim e0) scs -> forall c1 c2 d l b Or a e' out, clip = Some (Some (Fin c1), Some (Fin c2)) -> 0 <= c1 -> 0 <= c2 ->
    dt = Fin d -> lamb = Fin l -> 0 < d -> 0 < l -> nw_base nw = Fin b -> Forall branch_row_fin (nw_br nw) -> Forall bus_row_fin (nw_bus nw) ->
    numbered nw -> slack_alone nw ->
    env_step Or T a e = (e', Ok out) -> so_terminated out = false ->
    (forall r, In r (of_type 2 nw) -> row_obs (e_sim e') "gen_p_max" r = Fin (row_val (e_sim e') "gen_p_max" r)) ->
    exists x y, e_eloss e' = Fin x /\ e_pen e' = Fin y /\ so_reward out = Fin (- (x + y)) /\ Rabs x <= c1 /\ 0 <= y <= c2 /\ - (c1 + c2) <= - (x + y) <= c1.
  Proof.
    intros scs Es c1 c2 d l b Or a e' out Ec P1 P2 Ed El Hd Hl Eb F1 F2 Hn Sa H Ht Hp.
    destruct (step_reward_at (Fin c1) (Fin c2) Or a e' out) as (st & vars & inp & fl & rr & el & pen & _ & _ & _ & Tr & Rw & B1 & B2 & _); auto.
    { rewrite Ec. reflexivity. } { unfold xle; cbn. apply Rleb_spec; auto. } { unfold xle; cbn. apply Rleb_spec; auto. }
    rewrite Es in Tr. pose proof (gd_sim0 _ Hg) as Hi.
    rewrite Ed, El in Hi.
    destruct (C26_energy_loss nw d (Fin l) (e_sim e0) b scs Or inp (e_sim e') fl rr el pen Hi Eb) as (V & y & _ & -> & _); eauto; [lra|].
    destruct (C27_penalty_partial nw d l (e_sim e0) b scs Or inp (e_sim e') fl rr (Fin y) pen Hi Eb) as (V' & y' & _ & -> & _); eauto.
    assert (Nf : forall z : R, nisnan (Fin z) = false) by (intros z; destruct (nisnan (Fin z)) eqn:Q; [apply xisnan_spec in Q; discriminate|reflexivity]).
    destruct (B1 (Nf _)) as ((W1 & W2) & _). destruct (B2 (Nf _)) as ((W3 & W4) & _).
    rewrite Rw. clear -W1 W2 W3 W4. destruct (e_eloss e') as [x| | |]; try discriminate. destruct (e_pen e') as [z| | |]; try discriminate.
    cbn in *. rewrite !Rleb_spec in *. exists x, z. do 3 (split; [reflexivity|]). split; [apply Rabs_le; lra|]. split; lra.
  Qed.
  End At.

  Variables (nw : network XR) (o : obs_arg XR) (K : Z) (dt gamma lamb : XR) (auxb : option (list (XR * XR)))
            (clip : option (option XR * option XR)) (g : G) (e0 : env XR G) (T : task XR G) (cs : list (ecall XR)).
  Hypothesis built : env_init nw o K dt gamma lamb auxb clip g = Ok e0.
  Let e := erun T e0 cs.
  Variables loads gens dess : list Z.
  Hypotheses (Hloads : ids_of nw LOADS loads) (Hgens : ids_of nw GENS gens) (Hdess : ids_of nw STORS dess).

  (** C28, the environment: the reward of a step that does not collapse, from the costs [el] and [pen] of the
      transition that was simulated. *)
  Theorem C28_step_reward : forall C1 C2 Or a e' out, loss_limit clip = C1 -> penalty_limit clip = C2 -> xle (Fin 0) C1 -> xle (Fin 0) C2 ->
    env_step Or T a e = (e', Ok out) -> so_terminated out = false ->
    exists st vars inp fl rr el pen,
      e_state e = Some st /\ t_next T st (e_rng e) = (Ok vars, e_rng e') /\ layout loads gens dess vars a inp /\
      transition Or inp (e_sim e) = (e_sim e', Ok (fl, rr, el, pen, true)) /\
      so_reward out = nopp (nadd (e_eloss e') (e_pen e')) /\
      (nisnan el = false -> within (e_eloss e') (nopp C1) C1 /\ clamped el (nopp C1) C1 (e_eloss e')) /\
      (nisnan pen = false -> within (e_pen e') n0 C2 /\ clamped pen n0 C2 (e_pen e')) /\
      (forall c1 c2, C1 = Fin c1 -> C2 = Fin c2 -> nisnan el = false -> nisnan pen = false ->
         exists r, so_reward out = Fin r /\ - (c1 + c2) <= r <= c1).
  Proof.
    intros C1 C2 Or a e' out E1 E2. apply (step_reward_at nw o K dt gamma lamb auxb clip g e0 T e (good_erun _ _ _ _ _ _ _ _ _ _ T cs built) loads gens dess Hloads Hgens Hdess).
    rewrite clip_limits, E1, E2. reflexivity.
  Qed.

  (** C28, a cost without a limit is paid in full. *)
  Theorem C28_unlimited : forall Or a e' out, (clip = None \/ exists c, clip = Some (None, c)) -> xle (Fin 0) (penalty_limit clip) ->
    env_step Or T a e = (e', Ok out) -> so_terminated out = false ->
    exists inp fl rr el pen, transition Or inp (e_sim e) = (e_sim e', Ok (fl, rr, el, pen, true)) /\ so_reward out = nopp (nadd (e_eloss e') (e_pen e')) /\
      (nisnan el = false -> e_eloss e' = el) /\
      ((clip = None \/ clip = Some (None, None)) -> nisnan pen = false -> nleb n0 pen = true -> e_pen e' = pen).
  Proof.
    intros Or a e' out Hc P2 H Ht. assert (L1 : loss_limit clip = PInf) by (destruct Hc as [->|(c & ->)]; reflexivity).
    destruct (C28_step_reward PInf (penalty_limit clip) Or a e' out L1 eq_refl eq_refl P2 H Ht) as (st & vars & inp & fl & rr & el & pen & _ & _ & _ & Tr & Rw & B1 & B2 & _).
    exists inp, fl, rr, el, pen. split; [exact Tr|]. split; [exact Rw|]. split.
    - intros Ne. destruct (B1 Ne) as (_ & C & _). apply C. clear -Ne. destruct el; try (split; reflexivity). discriminate Ne.
    - intros Hc' Np Hp. destruct (B2 Np) as (_ & C & _). apply C. split; [exact Hp|]. assert (L2 : penalty_limit clip = PInf) by (destruct Hc' as [->| ->]; reflexivity). rewrite L2. clear -Np. destruct pen; try reflexivity. discriminate Np.
  Qed.

  (** Every simulator of an environment has a history of simulator calls. *)
  Lemma erun_sim : exists scs, e_sim e = run (e_sim e0) scs.
  Proof.
    subst e. clear built Hloads Hgens Hdess. revert e0. induction cs as [|c l IH]; intros e1; [exists []; reflexivity|].
    change (erun T e1 (c :: l)) with (erun T (run_ecall T e1 c) l). destruct (IH (run_ecall T e1 c)) as (k & ->).
    assert (Q : exists k0, e_sim (run_ecall T e1 c) = run (e_sim e1) k0).
    { destruct c as [Or seed|Or a]; cbn [run_ecall].
      - destruct (env_reset Or T seed e1) as (e', r) eqn:E. apply env_reset_const in E as (_ & _ & _ & _ & _ & _ & q & Q & _). exists q. exact Q.
      - pose proof (stepped_const _ _ _ _ _ _ (env_stepped Or T a e1)) as Q. destruct Q as (_ & _ & Q).
        destruct Q as [->|(inp & ->)]; [exists []; reflexivity|exists [CTrans Or inp]; reflexivity]. }
    destruct Q as (k0 & ->). exists (k0 ++ k). unfold run. rewrite fold_left_app. reflexivity.
  Qed.

  (** C28, finite data: the reward is a number between - (c1 + c2) and c1. *)
  Theorem C28_reward_bounds : forall c1 c2 d l b Or a e' out, clip = Some (Some (Fin c1), Some (Fin c2)) -> 0 <= c1 -> 0 <= c2 ->
    dt = Fin d -> lamb = Fin l -> 0 < d -> 0 < l -> nw_base nw = Fin b -> Forall branch_row_fin (nw_br nw) -> Forall bus_row_fin (nw_bus nw) ->
    numbered nw -> slack_alone nw ->
    env_step Or T a e = (e', Ok out) -> so_terminated out = false ->
    (forall r, In r (of_type 2 nw) -> row_obs (e_sim e') "gen_p_max" r = Fin (row_val (e_sim e') "gen_p_max" r)) ->
    exists x y, e_eloss e' = Fin x /\ e_pen e' = Fin y /\ so_reward out = Fin (- (x + y)) /\ Rabs x <= c1 /\ 0 <= y <= c2 /\ - (c1 + c2) <= - (x + y) <= c1.
  Proof.
    destruct erun_sim as (scs & Es).
    exact (reward_bounds_at nw o K dt gamma lamb auxb clip g e0 T e (good_erun _ _ _ _ _ _ _ _ _ _ T cs built) loads gens dess Hloads Hgens Hdess scs Es).
  Qed.
End Reward.
