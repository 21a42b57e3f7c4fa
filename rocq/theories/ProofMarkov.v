(** C91: the state vector determines the future. *)
From Coq Require Import Reals Lra Lia List. Import ListNotations.
From Verif Require Import Base LibBase Num NumXR Devices BusBranch CheckNetwork LoadFlow Simulator EnvArgs Env Anm6 LibXR LibSim.
From Verif Require Import SpecSim SpecEnv SpecAnm6 SpecMarkov ProofSim ProofHist ProofState ProofSoc ProofEnv ProofUnits ProofStep ProofDraw ProofEnvOk.
Local Open Scope string_scope.
Local Open Scope list_scope.

(** ---- two environments that answer the same ---- *)
Section Twin.
  Context {F G : Type} {N : Num F}.
  Notation env := (env F G).
  Definition twin (e e' : env) : Prop :=
    econst e = econst e' /\ e_ospace e = e_ospace e' /\ e_term e = e_term e' /\ e_state e = e_state e' /\
    (e_term e = Some false -> map d_soc (sm_devs (e_sim e)) = map d_soc (sm_devs (e_sim e'))).

  Lemma strip_ids (s s' : sim F) (P : device F -> bool) : (forall d, P (strip_dev d) = P d) -> strip s = strip s' ->
    map d_id (filter P (sm_devs s)) = map d_id (filter P (sm_devs s')).
  Proof. intros HP S. apply strip_devs in S. eapply (map_strip strip_dev d_id); [reflexivity|]. apply strip_dev_filter; auto. Qed.
  Lemma strip_inputs (e e' : env) vars act : strip (e_sim e) = strip (e_sim e') -> step_inputs e vars act = step_inputs e' vars act.
  Proof.
    intros S. unfold step_inputs, n_load, n_nsgen. rewrite <- !(map_length d_id).
    rewrite (strip_ids _ _ is_load ltac:(reflexivity) S), (strip_ids _ _ is_nsgen ltac:(reflexivity) S), (strip_ids _ _ is_stor ltac:(reflexivity) S). reflexivity.
  Qed.

  Lemma twin_step Or (T T' : task F G) act (e e' : env) :
    (forall st, e_state e = Some st -> fst (t_next T st (e_rng e)) = fst (t_next T' st (e_rng e'))) -> twin e e' ->
    snd (env_step Or T act e) = snd (env_step Or T' act e') /\
    (is_ok (snd (env_step Or T act e)) = true -> twin (fst (env_step Or T act e)) (fst (env_step Or T' act e'))).
  Proof.
    destruct e as [K gam clip auxb s sv ov ofn asp osp te ti el pe st g], e' as [K' gam' clip' auxb' s' sv' ov' ofn' asp' osp' te' ti' el' pe' st' g'].
    intros Hn (C & Ho & Ht & Hst & Hs). unfold econst in C. cbn [e_K e_gamma e_clip e_auxb e_sim e_svals e_ovals e_ofun e_aspace e_ospace e_term e_state e_rng] in C, Ho, Ht, Hst, Hs, Hn.
    rewrite !pair_equal_spec in C. destruct C as (((((<- & <-) & <-) & <-) & Sp) & ((<- & <-) & <-) & <-). subst osp' te' st'.
    assert (Cn1 : n_load s = n_load s') by (unfold n_load; rewrite <- !(map_length d_id); f_equal; apply strip_ids; auto).
    assert (Cn2 : n_nsgen s = n_nsgen s') by (unfold n_nsgen; rewrite <- !(map_length d_id); f_equal; apply strip_ids; auto).
    unfold env_step. cbn [e_aspace e_term e_state e_rng].
    destruct (negb _); [split; [reflexivity|discriminate]|].
    destruct te as [[|]|]; [| |split; [reflexivity|discriminate]].
    - unfold observation_N. cbn [e_ospace]. destruct osp; cbn; (split; [reflexivity|]); try discriminate; intros _; repeat split; cbn; auto; try discriminate. unfold econst; cbn. rewrite Sp. reflexivity.
    - destruct st as [st|]; [|split; [reflexivity|discriminate]]. specialize (Hn _ eq_refl).
      destruct (t_next T st g) as [[vars|x] g1], (t_next T' st g') as [[vars'|x'] g1']; cbn in Hn; try discriminate; injection Hn as <-; [|split; [reflexivity|discriminate]].
      unfold env_set_rng. cbn [e_K e_gamma e_clip e_auxb e_sim e_svals e_ovals e_ofun e_aspace e_ospace e_term e_state e_rng e_time e_eloss e_pen]. rewrite Cn1, Cn2.
      destruct (negb _); [split; [reflexivity|discriminate]|]. cbv zeta. unfold env_set_rng. cbn [e_K e_gamma e_clip e_auxb e_sim e_svals e_ovals e_ofun e_aspace e_ospace e_term e_state e_rng e_time e_eloss e_pen].
      rewrite (strip_inputs (mkEnv K gam clip auxb s sv ov ofn asp osp (Some false) ti el pe (Some st) g1) (mkEnv K gam clip auxb s' sv ov ofn asp osp (Some false) ti' el' pe' (Some st) g1') vars act Sp).
      set (inp := step_inputs _ _ _). destruct (transition_dep Or inp s s' Sp (Hs eq_refl)) as (A & B & _).
      destruct (transition Or inp s) as (s1, r), (transition Or inp s') as (s1', r'). cbn [fst snd] in A, B. subst r'.
      destruct r as [[[[[fl rr] el1] pen1] conv]|x]; [|split; [reflexivity|discriminate]]. specialize (B eq_refl). subst s1'.
      destruct conv; cbn [negb].
      + cbn -[clip_eloss clip_pen construct_state observe write_aux box_contains].
        change (clip_eloss (mkEnv K gam clip auxb s1 sv ov ofn asp osp (Some false) ti' el' pe' (Some st) g1') el1) with (clip_eloss (mkEnv K gam clip auxb s1 sv ov ofn asp osp (Some false) ti el pe (Some st) g1) el1).
        change (clip_pen (mkEnv K gam clip auxb s1 sv ov ofn asp osp (Some false) ti' el' pe' (Some st) g1') pen1) with (clip_pen (mkEnv K gam clip auxb s1 sv ov ofn asp osp (Some false) ti el pe (Some st) g1) pen1).
        set (ce := clip_eloss _ _). set (cp := clip_pen _ _).
        destruct (write_aux _ _ _) as [st1|x]; [|split; [reflexivity|discriminate]].
        change (construct_state (mkEnv K gam clip auxb s1 sv ov ofn asp osp (Some false) ti' ce cp (Some st1) g1')) with (construct_state (mkEnv K gam clip auxb s1 sv ov ofn asp osp (Some false) ti ce cp (Some st1) g1)).
        destruct (construct_state _) as [st2|x]; [|split; [reflexivity|discriminate]]. cbn -[observe box_contains].
        change (observe (mkEnv K gam clip auxb s1 sv ov ofn asp osp (Some false) ti' ce cp (Some st2) g1') st2) with (observe (mkEnv K gam clip auxb s1 sv ov ofn asp osp (Some false) ti ce cp (Some st2) g1) st2).
        destruct (observe _ _) as [o|x]; [|split; [reflexivity|discriminate]].
        destruct osp as [sp|]; [|split; [reflexivity|discriminate]].
        destruct (box_contains sp o); [|split; [reflexivity|discriminate]].
        split; [reflexivity|]. intros _. repeat split.
      + cbn -[pydiv]. destruct (pydiv _ _) as [rw|x]; [|split; [reflexivity|discriminate]].
        unfold observation_N. cbn. destruct osp as [sp|]; cbn; [|split; [reflexivity|discriminate]].
        split; [reflexivity|]. intros _. repeat split.
  Qed.

  Lemma step_rng Or (T : task F G) a (e : env) : is_ok (snd (env_step Or T a e)) = true ->
    e_rng (fst (env_step Or T a e)) = match e_term e, e_state e with Some false, Some st => snd (t_next T st (e_rng e)) | _, _ => e_rng e end.
  Proof.
    unfold env_step. destruct (negb _); [discriminate|]. destruct (e_term e) as [[]|]; [| |discriminate].
    - destruct (observation_N e); [reflexivity|discriminate].
    - destruct (e_state e) as [st|]; [|discriminate]. destruct (t_next T st (e_rng e)) as ([vars|x], g); [|discriminate]. cbn [snd].
      repeat match goal with |- is_ok (snd (match ?x with _ => _ end)) = true -> _ => destruct x; try discriminate | |- is_ok (snd (if ?x then _ else _)) = true -> _ => destruct x; try discriminate | |- is_ok (snd (let '(_, _) := ?x in _)) = true -> _ => destruct x; try discriminate end; reflexivity.
  Qed.
  Lemma twin_play (T : task F G) acts : forall e e' : env, no_draws T \/ e_rng e = e_rng e' -> twin e e' -> play T acts e = play T acts e'.
  Proof.
    induction acts as [|(Or, a) acts IH]; intros e e' Nd Tw; [reflexivity|]. cbn [play].
    destruct (twin_step Or T T a e e') as (A & B); [|exact Tw|].
    { intros st _. destruct Nd as [Nd| ->]; [apply Nd|reflexivity]. }
    pose proof (step_rng Or T a e) as R. pose proof (step_rng Or T a e') as R'. destruct Tw as (_ & _ & Tt & Ts & _).
    destruct (env_step Or T a e) as (e1, r), (env_step Or T a e') as (e1', r'). cbn [fst snd] in *. subst r'. f_equal. destruct (is_ok r); auto.
    apply IH; auto. destruct Nd as [Nd|Eg]; [left; exact Nd|right]. rewrite (R eq_refl), (R' eq_refl), Tt, Ts, Eg. reflexivity.
  Qed.
End Twin.

(** ---- equal state vectors, equal states of charge ---- *)
Lemma xmul_inj b x y : b <> 0%R -> xmul x (Fin b) = xmul y (Fin b) -> x = y.
Proof.
  intros Hb. destruct x, y; cbn; unfold inf_sgn; repeat match goal with |- context [if ?q then _ else _] => destruct q end; intros E; try discriminate; try reflexivity; try (exfalso; lra).
  injection E as E. f_equal. apply Rmult_eq_reg_r in E; auto.
Qed.
Lemma layouts_soc (nw : network XR) dt lamb s0 cs cs' b devs gens dess K aux aux' st : let s := run s0 cs in let s' := run s0 cs' in
  sim_init nw dt lamb = Ok s0 -> nw_base nw = Fin b -> b <> 0%R -> ids_of nw STORS dess -> fresh s -> fresh s' ->
  state_layout devs gens dess K s aux st -> state_layout devs gens dess K s' aux' st ->
  map d_soc (sm_devs s) = map d_soc (sm_devs s').
Proof.
  intros s s' H Eb Hb Hd Fr Fr' (_ & L) (_ & L').
  assert (S : strip s = strip s0) by apply strip_run. assert (S' : strip s' = strip s0) by apply strip_run.
  pose proof (static_nodup _ _ _ _ _ H S) as ND. pose proof (static_nodup _ _ _ _ _ H S') as ND'.
  assert (E : reads s "des_soc" "MWh" dess = reads s' "des_soc" "MWh" dess).
  { rewrite L in L'. assert (Q : forall (A : Type) (a a' c c' : list A), List.length a = List.length a' -> a ++ c = a' ++ c' -> c = c').
    { clear. intros A a. induction a as [|x a IH]; intros [|y a'] c c' Hl Ha; try discriminate; auto. injection Ha as _ Ha. injection Hl as Hl. eauto. }
    assert (Q' : forall (A : Type) (a a' c c' : list A), List.length a = List.length a' -> a ++ c = a' ++ c' -> a = a').
    { clear. intros A a. induction a as [|x a IH]; intros [|y a'] c c' Hl Ha; try discriminate; auto. injection Ha as -> Ha. injection Hl as Hl. f_equal. eauto. }
    apply Q in L'; [|unfold reads; rewrite !map_length; reflexivity]. apply Q in L'; [|unfold reads; rewrite !map_length; reflexivity]. apply Q' in L'; [exact L'|unfold reads; rewrite !map_length; reflexivity]. }
  assert (St : map strip_dev (sm_devs s) = map strip_dev (sm_devs s')) by (apply strip_devs; congruence).
  destruct Fr as [Fs Fn], Fr' as [Fs' Fn'].
  apply map_eq_Forall2. apply map_eq_Forall2 in St.
  assert (Gd : forall d d', In d (sm_devs s) -> In d' (sm_devs s') -> strip_dev d = strip_dev d' -> d_soc d = d_soc d').
  { intros d d' I I' Ed. pose proof (strip_dev_fields _ _ Ed) as (Ei & _ & _ & Es & _ & Hs).
    destruct (is_stor d) eqn:Id; [|auto].
    assert (Id' : is_stor d' = true) by (unfold is_stor in *; rewrite <- Es; auto).
    assert (Im : In (d_id d) dess).
    { rewrite (ids_of_filter _ _ _ _ _ _ _ H S Hd). apply in_map, filter_In. split; [exact I|]. rewrite <- (proj1 (proj2 (proj2 (static_types _ _ _ _ _ H S d I)))). exact Id. }
    unfold reads in E. assert (Eo : obs s "des_soc" "MWh" (EId (d_id d)) = obs s' "des_soc" "MWh" (EId (d_id d))).
    { clear -E Im. induction dess as [|x l IH]; [destruct Im|]. cbn [map] in E. injection E as E1 E2. destruct Im as [-> |Im]; auto. }
    unfold s, s' in Eo. rewrite !(units_power_state nw dt lamb s0 _ "des_soc" "MWh" _ H) in Eo by (cbn; tauto). fold s s' in Eo. rewrite Eb in Eo.
    unfold obs in Eo. rewrite Fs, Fs' in Eo. rewrite read_soc_some in Eo by auto. rewrite Ei, read_soc_some in Eo by auto. cbn [option_map] in Eo. injection Eo as Eo. apply xmul_inj in Eo; auto.
    unfold soc_of in Eo. pose proof (Fn d I Id). pose proof (Fn' d' I' Id'). destruct (d_soc d), (d_soc d'); congruence. }
  clear -St Gd. induction St; constructor.
  - apply Gd; cbn; auto.
  - apply IHSt. intros; apply Gd; cbn; auto.
Qed.
