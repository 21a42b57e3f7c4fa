(** Two environments that differ in the order of the branches of their simulators behave alike: lemmas for C76. *)
From Coq Require Import Permutation Sorted.
From Verif Require Import Base Num Devices BusBranch CheckNetwork LoadFlow Simulator EnvArgs Env LibBase SpecNet ProofNet LibInit SpecSim SpecEnv PropMake SpecOrder ProofOrder ProofOrder2.
Local Open Scope string_scope.
Local Open Scope list_scope.
Set Bullet Behavior "Strict Subproofs".

Lemma dget_keys {V W} (d : list (string * V)) (d' : list (string * W)) k : map fst d = map fst d' ->
  (dget String.eqb d k = None /\ dget String.eqb d' k = None) \/ exists v w, dget String.eqb d k = Some v /\ dget String.eqb d' k = Some w.
Proof.
  revert d'. induction d as [|(a, v) d IH]; intros [|(b, w) d'] E; try discriminate E; cbn; auto. cbn in E. injection E as -> E.
  destruct (String.eqb k b); eauto.
Qed.

Section ELike.
  Context {F G : Type} {N : Num F}.
  Context (addA : forall x y z : F, nadd x (nadd y z) = nadd (nadd x y) z) (addC : forall x y : F, nadd x y = nadd y x).

  (** the same environment, up to the order of the branches of its simulator *)
  Definition elike (e e' : env F G) : Prop := exists s', e' = env_set_sim e s' /\ like (e_sim e) s'.

  Lemma extract_like e e' o n : elike e e' -> extract_entry e' o n = extract_entry e o n.
  Proof.
    intros (s' & -> & brs' & st' & -> & P & ND & A). unfold extract_entry. cbn [env_set_sim e_sim e_state e_K sim_set_state sm_state].
    destruct (sm_state (e_sim e)) as [st|], st' as [st'|]; cbn in A; try contradiction; auto. destruct A as (K & R).
    destruct (dget_keys st st' (oi_key o) K) as [(E1 & E2)|(v & w & E1 & E2)]; rewrite E1, E2; auto. destruct (oi_unit o) as [u|]; auto.
    specialize (R (oi_key o) u n). unfold read in R. rewrite E1, E2 in R. unfold dgetE.
    destruct (dget String.eqb v u) as [d|], (dget String.eqb w u) as [d'|]; cbn [bind]; auto; [rewrite R; auto|rewrite R; auto|rewrite <- R; auto].
  Qed.
  Lemma vars_like e e' items : elike e e' -> extract_vars e' items = extract_vars e items.
  Proof.
    intros L. unfold extract_vars. f_equal. apply mapM_ext. intros o _. destruct (item_nodes o); cbn [bind]; auto. apply mapM_ext. intros n _. apply extract_like; auto.
  Qed.
  Lemma elike_fields e e' : elike e e' -> e_K e' = e_K e /\ e_gamma e' = e_gamma e /\ e_clip e' = e_clip e /\ e_svals e' = e_svals e /\ e_ovals e' = e_ovals e /\ e_ofun e' = e_ofun e /\
    e_aspace e' = e_aspace e /\ e_ospace e' = e_ospace e /\ e_term e' = e_term e /\ e_time e' = e_time e /\ e_state e' = e_state e /\ e_rng e' = e_rng e /\ like (e_sim e) (e_sim e').
  Proof. intros (s' & -> & L). repeat split; auto. Qed.
  Lemma observe_like e e' st : elike e e' -> observe e' st = observe e st.
  Proof.
    intros L. destruct (elike_fields _ _ L) as (_ & _ & _ & _ & E1 & E2 & _ & E3 & _). unfold observe. rewrite E1, E2, E3.
    destruct (e_ofun e); auto. destruct (e_ovals e), (e_ospace e); auto. rewrite (vars_like _ _ _ L). reflexivity.
  Qed.
  Ltac el := intros (s' & -> & L); exists s'; split; [reflexivity|exact L].
  Lemma elike_rng e e' g : elike e e' -> elike (env_set_rng e g) (env_set_rng e' g). Proof. el. Qed.
  Lemma elike_state e e' g : elike e e' -> elike (env_set_state e g) (env_set_state e' g). Proof. el. Qed.
  Lemma elike_term e e' g : elike e e' -> elike (env_set_term e g) (env_set_term e' g). Proof. el. Qed.
  Lemma elike_time e e' g : elike e e' -> elike (env_set_time e g) (env_set_time e' g). Proof. el. Qed.
  Lemma elike_costs e e' a b : elike e e' -> elike (env_set_costs e a b) (env_set_costs e' a b). Proof. el. Qed.
  Lemma elike_ospace e e' a : elike e e' -> elike (env_set_ospace e a) (env_set_ospace e' a). Proof. el. Qed.
  Lemma elike_sim e e' s s' : elike e e' -> like s s' -> elike (env_set_sim e s) (env_set_sim e' s').
  Proof. intros (s0 & -> & _) L. exists s'. split; [reflexivity|exact L]. Qed.

  Lemma finish_like e e' st : elike e e' -> elike (fst (finish_obs e st)) (fst (finish_obs e' st)) /\ snd (finish_obs e' st) = snd (finish_obs e st).
  Proof.
    intros L. unfold finish_obs. rewrite (observe_like _ _ _ L). destruct (observe e st) as [o|x]; [|auto].
    destruct (elike_fields _ _ L) as (_ & _ & _ & _ & _ & _ & _ & E3 & _). rewrite E3. destruct (e_ospace e) as [sp|] eqn:Es.
    - rewrite E3, Es. destruct (box_contains sp o); auto.
    - cbn [env_set_ospace e_ospace]. destruct (box_contains _ o); cbn [fst snd]; split; auto; apply elike_ospace; auto.
  Qed.

  Lemma loop_like O T rem : forall e e', elike e e' ->
    elike (fst (reset_loop O T rem e)) (fst (reset_loop O T rem e')) /\ snd (reset_loop O T rem e') = snd (reset_loop O T rem e).
  Proof.
    induction rem as [|rem IH]; intros e e' L; cbn [reset_loop]; [auto|].
    destruct (elike_fields _ _ L) as (_ & _ & _ & _ & _ & _ & _ & _ & _ & _ & _ & Er & Ls). rewrite Er.
    destruct (t_init T (e_rng e)) as ([s0|x], g); [|split; [apply elike_rng; auto|reflexivity]].
    pose proof (elike_state _ _ (Some s0) (elike_rng _ _ g L)) as L1.
    assert (Z : state_size (env_set_state (env_set_rng e' g) (Some s0)) = state_size (env_set_state (env_set_rng e g) (Some s0))).
    { unfold state_size, n_device, n_des, n_nsgen. cbn [env_set_state env_set_rng e_sim e_K]. destruct (like_fields _ _ Ls) as (_ & _ & _ & _ & -> & _). destruct (elike_fields _ _ L) as (-> & _). reflexivity. }
    rewrite Z. destruct (negb _); [split; [auto|reflexivity]|].
    destruct (reset_like addA addC O s0 (e_sim (env_set_state (env_set_rng e g) (Some s0))) (e_sim (env_set_state (env_set_rng e' g) (Some s0)))) as (Lr & Rr); [exact Ls|].
    destruct (sim_reset O s0 (e_sim (env_set_state (env_set_rng e g) (Some s0)))) as (s1, r1).
    destruct (sim_reset O s0 (e_sim (env_set_state (env_set_rng e' g) (Some s0)))) as (s1', r1'). cbn [fst snd] in Lr, Rr. subst r1'.
    pose proof (elike_sim _ _ _ _ L1 Lr) as L2. destruct r1 as [found|x]; [|split; [auto|reflexivity]].
    destruct rem; [split; [auto|reflexivity]|]. destruct found; [split; [auto|reflexivity]|]. apply IH. auto.
  Qed.

  Lemma ereset_like O T seed e e' : elike e e' -> elike (fst (env_reset O T seed e)) (fst (env_reset O T seed e')) /\ snd (env_reset O T seed e') = snd (env_reset O T seed e).
  Proof.
    intros L. unfold env_reset.
    assert (L0 : elike (match seed with Some z => env_set_rng e (t_seed T z) | None => e end) (match seed with Some z => env_set_rng e' (t_seed T z) | None => e' end)).
    { destruct seed; auto. apply elike_rng; auto. }
    set (e0 := match seed with Some z => env_set_rng e (t_seed T z) | None => e end) in *. set (e0' := match seed with Some z => env_set_rng e' (t_seed T z) | None => e' end) in *. clearbody e0 e0'.
    destruct (loop_like O T 100 _ _ (elike_costs _ _ n0 n0 (elike_time _ _ 0%Z (elike_term _ _ (Some false) L0)))) as (L2 & R2).
    destruct (reset_loop O T 100 (env_set_costs (env_set_time (env_set_term e0 (Some false)) 0) n0 n0)) as (e2, r2).
    destruct (reset_loop O T 100 (env_set_costs (env_set_time (env_set_term e0' (Some false)) 0) n0 n0)) as (e2', r2'). cbn [fst snd] in L2, R2. subst r2'.
    destruct r2; [|split; [auto|reflexivity]]. unfold construct_state. destruct (elike_fields _ _ L2) as (_ & _ & _ & -> & _). rewrite (vars_like _ _ _ L2).
    destruct (extract_vars e2 (e_svals e2)) as [st|x]; [|split; [auto|reflexivity]]. apply finish_like, elike_state; auto.
  Qed.

  Lemma estep_like O T a e e' : elike e e' -> elike (fst (env_step O T a e)) (fst (env_step O T a e')) /\ snd (env_step O T a e') = snd (env_step O T a e).
  Proof.
    intros L. destruct (elike_fields _ _ L) as (EK & Eg & Ec & Esv & Eov & Eof & Ea & Eos & Et & Eti & Est & Er & Ls). unfold env_step. rewrite Ea. destruct (negb _); [split; [auto|reflexivity]|].
    rewrite Et. destruct (e_term e) as [[|]|]; [| |split; [auto|reflexivity]].
    { unfold observation_N. rewrite Eos. destruct (e_ospace e); split; auto. }
    rewrite Est. destruct (e_state e) as [st|]; [|split; [auto|reflexivity]]. rewrite Er.
    destruct (t_next T st (e_rng e)) as ([vars|x], g); [|split; [apply elike_rng; auto|reflexivity]].
    pose proof (elike_rng _ _ g L) as L1. cbn [env_set_rng e_sim]. destruct (like_fields _ _ Ls) as (_ & _ & _ & _ & Ed & _).
    assert (En : n_load (e_sim e') = n_load (e_sim e) /\ n_nsgen (e_sim e') = n_nsgen (e_sim e)) by (unfold n_load, n_nsgen; rewrite Ed; auto). destruct En as (-> & ->).
    rewrite EK. destruct (negb _); [split; [auto|reflexivity]|].
    assert (Ei : step_inputs (env_set_rng e' g) vars a = step_inputs (env_set_rng e g) vars a).
    { unfold step_inputs, n_load, n_nsgen. cbn [env_set_rng e_sim]. rewrite Ed. reflexivity. }
    change (mkEnv (e_K e) (e_gamma e) (e_clip e) (e_auxb e) (e_sim e) (e_svals e) (e_ovals e) (e_ofun e) (e_aspace e) (e_ospace e) (e_term e) (e_time e) (e_eloss e) (e_pen e) (e_state e) g) with (env_set_rng e g).
    change (mkEnv (e_K e') (e_gamma e') (e_clip e') (e_auxb e') (e_sim e') (e_svals e') (e_ovals e') (e_ofun e') (e_aspace e') (e_ospace e') (e_term e') (e_time e') (e_eloss e') (e_pen e') (e_state e') g) with (env_set_rng e' g).
    rewrite Ei. destruct (transition_like addA addC O (step_inputs (env_set_rng e g) vars a) _ _ Ls) as (Lt & Rt).
    destruct (transition O _ (e_sim e)) as (s1, r1). destruct (transition O _ (e_sim e')) as (s1', r1'). cbn [fst snd] in Lt, Rt.
    pose proof (elike_sim _ _ _ _ L1 Lt) as L2.
    destruct r1 as [[[[[st1 w] el] pen] conv]|x], r1' as [[[[[st1' w'] el'] pen'] conv']|x']; cbn in Rt; try contradiction; [|subst; split; [auto|reflexivity]].
    destruct Rt as (_ & _ & -> & -> & ->). pose proof (elike_term _ _ (Some (negb conv)) L2) as L3. destruct conv.
    - assert (Cl : clip_eloss (env_set_term (env_set_sim (env_set_rng e' g) s1') (Some (negb true))) el = clip_eloss (env_set_term (env_set_sim (env_set_rng e g) s1) (Some (negb true))) el /\
                   clip_pen (env_set_term (env_set_sim (env_set_rng e' g) s1') (Some (negb true))) pen = clip_pen (env_set_term (env_set_sim (env_set_rng e g) s1) (Some (negb true))) pen).
      { unfold clip_eloss, clip_pen. cbn [env_set_term env_set_sim env_set_rng e_clip]. rewrite Ec. auto. }
      destruct Cl as (-> & ->). set (el1 := clip_eloss _ el). set (pen1 := clip_pen _ pen). pose proof (elike_costs _ _ el1 pen1 L3) as L4.
      destruct (write_aux st _ (e_K e)) as [stw|x]; [|split; [auto|reflexivity]]. pose proof (elike_state _ _ (Some stw) L4) as L5. unfold construct_state.
      destruct (elike_fields _ _ L5) as (_ & _ & _ & -> & _). rewrite (vars_like _ _ _ L5).
      destruct (extract_vars _ _) as [st2|x]; [|split; [auto|reflexivity]]. pose proof (elike_state _ _ (Some st2) L5) as L6.
      rewrite (observe_like _ _ _ L6). destruct (observe _ st2) as [o|x]; [|split; [auto|reflexivity]].
      cbn [env_set_state env_set_costs env_set_term env_set_sim env_set_rng e_ospace e_time] in *. rewrite Eos, Eti.
      destruct (e_ospace e) as [sp|]; [|split; [auto|reflexivity]]. destruct (box_contains sp o); [|split; [auto|reflexivity]]. cbn [fst snd]. split; [apply elike_time; auto|reflexivity].
    - rewrite Ec, Eg. destruct (pydiv _ _) as [r|x]; [|split; [auto|reflexivity]]. pose proof (elike_costs _ _ (fst (e_clip e)) (snd (e_clip e)) L3) as L4.
      rewrite Esv. pose proof (elike_state _ _ (Some (terminal_state (items_len (e_svals e)))) L4) as L5. unfold observation_N.
      cbn [env_set_state env_set_costs env_set_term env_set_sim env_set_rng e_ospace e_time] in *. rewrite Eos, Eti.
      destruct (e_ospace e) as [sp|]; [|split; [auto|reflexivity]]. cbn [fst snd]. split; [apply elike_time; auto|reflexivity].
  Qed.

  (** ---- construction ---- *)
  Definition bget {V} (b : list (string * list (eid * V))) (k : string) (n : eid) : option V :=
    match dget String.eqb b k with Some q => dget eid_eqb q n | None => None end.
  Definition bagree (b b' : fbounds F) : Prop := map fst b = map fst b' /\ forall k n, bget b k n = bget b' k n.

  Lemma space_like (s s' : sim F) : like s s' -> bagree (get_state_space s) (get_state_space s').
  Proof.
    intros (brs' & st' & -> & P & ND & A). split; [reflexivity|]. intros k n. unfold get_state_space, bget.
    cbn [sim_set_state sim_set_branches sm_base sm_buses sm_branches sm_devs dget].
    repeat match goal with |- context [String.eqb k ?b] => destruct (String.eqb k b); [first [reflexivity | apply brd_perm; assumption]|] end. reflexivity.
  Qed.

  Lemma foldM_ext {A B} (f g : B -> A -> res B) l : (forall b a, f b a = g b a) -> forall b, foldM f l b = foldM g l b.
  Proof. intros H. induction l as [|a l IH]; intros b; cbn [foldM]; auto. rewrite H. destruct (g b a); cbn [bind]; auto. Qed.
  Lemma nodes_like key nodes (b b' : fbounds F) K : bagree b b' -> check_nodes key nodes b' K = check_nodes key nodes b K.
  Proof.
    intros (Ek & Eg). unfold check_nodes. destruct nodes as [|l|]; auto. destruct (String.eqb key "aux"); auto. apply foldM_ext. intros _ n.
    specialize (Eg key n). unfold bget in Eg. unfold dgetE. destruct (dget_keys b b' key Ek) as [(E1 & E2)|(v & w & E1 & E2)]; rewrite E1, E2 in *; auto. cbn [bind]. rewrite Eg. reflexivity.
  Qed.
  Lemma args_like K dt lamb gamma o auxb b b' : bagree b b' -> check_env_args K dt lamb gamma o auxb b' = check_env_args K dt lamb gamma o auxb b.
  Proof.
    intros Hb. unfold check_env_args. repeat (match goal with |- bind ?a _ = bind ?a _ => destruct a; cbn [bind]; auto end).
    assert (E : match o with ObsState => Ok tt | ObsList l => check_observation_vars l b' K | ObsFun _ => Ok tt | ObsOther => Err ArgsError end =
                match o with ObsState => Ok tt | ObsList l => check_observation_vars l b K | ObsFun _ => Ok tt | ObsOther => Err ArgsError end).
    { destruct o as [|l| |]; auto. unfold check_observation_vars. apply foldM_ext. intros _ t. unfold check_obs_tuple.
      destruct t as [key nodes|key nodes u|]; auto; destruct (dget String.eqb STATE_VARIABLES key); auto; rewrite (nodes_like _ _ _ _ _ Hb); reflexivity. }
    rewrite E. reflexivity.
  Qed.
  Lemma obounds_like auxb ov b b' : bagree b b' -> observation_bounds b' auxb ov = observation_bounds b auxb ov.
  Proof.
    intros (Ek & Eg). unfold observation_bounds. destruct ov as [l|]; auto.
    match goal with |- bind ?a _ = bind ?c _ => assert (E : a = c); [|rewrite E; reflexivity] end.
    apply mapM_ext. intros o _. destruct (item_nodes o); cbn [bind]; auto. apply mapM_ext. intros n _. unfold entry_bounds. destruct (String.eqb (oi_key o) "aux"); auto.
    specialize (Eg (oi_key o) n). unfold bget in Eg. unfold dgetE. destruct (dget_keys b b' (oi_key o) Ek) as [(E1 & E2)|(v & w & E1 & E2)]; rewrite E1, E2 in *; auto. cbn [bind].
    rewrite Eg. reflexivity.
  Qed.

  Lemma expand_like (s s' : sim F) K o : like s s' -> substr "branch" (oi_key o) = false -> expand_item s' K o = expand_item s K o.
  Proof.
    intros (brs' & st' & -> & _) H. unfold expand_item. cbn [sim_set_state sim_set_branches sm_buses sm_devs sm_branches]. rewrite H. reflexivity.
  Qed.
  Lemma expand_like' (s s' : sim F) K o : like s s' -> oi_nodes o <> NAll -> expand_item s' K o = expand_item s K o.
  Proof. intros _ H. unfold expand_item. destruct (oi_nodes o); auto. congruence. Qed.
  Lemma svals_like (s s' : sim F) K : like s s' -> expand_all s' K state_items = expand_all s K state_items.
  Proof.
    intros L. unfold expand_all. apply mapM_ext. intros o I. apply expand_like; auto. cbn in I. decompose [or] I; try contradiction; subst o; reflexivity.
  Qed.
  (** an accepted tuple has a key of the table *)
  Lemma tuple_key (b : fbounds F) K t : check_obs_tuple b K t = Ok tt ->
    match t with OTBad => False | OT2 k _ | OT3 k _ _ => In k (map fst STATE_VARIABLES) end.
  Proof.
    unfold check_obs_tuple. destruct t as [k n|k n u|]; try discriminate; destruct (dget String.eqb STATE_VARIABLES k) as [us|] eqn:E; try discriminate; intros _;
      apply dget_in in E; try apply (in_map fst) in E; auto; apply seqb_iff.
  Qed.
  Lemma checked_tuples (b : fbounds F) K l : check_observation_vars l b K = Ok tt -> forall t, In t l -> check_obs_tuple b K t = Ok tt.
  Proof.
    unfold check_observation_vars. induction l as [|a l IH]; intros E t I; [destruct I|]. cbn [foldM] in E. apply bind_ok in E as ([] & E1 & E2).
    destruct I as [<-|I]; auto.
  Qed.
  Lemma key_branch k : In k (map fst STATE_VARIABLES) -> substr "branch" k = true -> In k branch_keys.
  Proof. cbn. intros H. decompose [or] H; try contradiction; subst k; cbn; intros E; try discriminate E; tauto. Qed.

  Lemma build_like (s s' : sim F) K sv o (b : fbounds F) Kz : like s s' -> lists_branches o -> (forall l, o = ObsList l -> check_observation_vars l b Kz = Ok tt) ->
    expand_all s K state_items = Ok sv ->
    build_observation s' K sv o = build_observation s K sv o.
  Proof.
    intros L Lb C Esv. unfold build_observation. destruct o as [|l| |]; auto.
    - assert (E : expand_all s' K sv = expand_all s K sv); [|rewrite E; reflexivity]. unfold expand_all. apply mapM_ext. intros o I.
      unfold expand_all in Esv. apply mapM_ok in Esv. destruct (Forall2_in_r _ _ _ _ Esv I) as (o0 & I0 & E0). apply expand_like'; auto.
      unfold expand_item in E0. destruct (oi_nodes o0) eqn:En; [|injection E0 as <-; congruence..]. apply bind_ok in E0 as (ids & _ & E0). injection E0 as <-. cbn. discriminate.
    - cbn [lists_branches] in Lb. specialize (C l eq_refl).
      destruct (mapM add_default_unit l) as [l1|x] eqn:E1; cbn [bind]; auto.
      assert (E : expand_all s' K l1 = expand_all s K l1); [|rewrite E; reflexivity]. unfold expand_all. apply mapM_ext. intros o I.
      apply mapM_ok in E1. destruct (Forall2_in_r _ _ _ _ E1 I) as (t & It & Et). pose proof (tuple_key _ _ _ (checked_tuples _ _ _ C _ It)) as Hk.
      assert (Q : oi_nodes o <> NAll \/ substr "branch" (oi_key o) = false).
      { destruct t as [k n|k n u|]; [| |contradiction].
        - unfold add_default_unit in Et. destruct (dget String.eqb STATE_VARIABLES k); [|discriminate]. apply bind_ok in Et as (uu & _ & Et). injection Et as <-. cbn [oi_nodes oi_key].
          destruct n; try (left; discriminate). right. destruct (substr "branch" k) eqn:Eb; auto. exfalso. destruct (Lb k (key_branch _ Hk Eb)) as (K1 & _). auto.
        - cbn in Et. injection Et as <-. cbn [oi_nodes oi_key]. destruct n; try (left; discriminate). right. destruct (substr "branch" k) eqn:Eb; auto. exfalso. destruct (Lb k (key_branch _ Hk Eb)) as (_ & K1). eapply K1; eauto. }
      destruct Q; [apply expand_like'|apply expand_like]; auto.
  Qed.

  (** [env_init] after its simulator *)
  Lemma einit_like nw nw' o K dt gamma lamb auxb clip g (e : env F G) s s' : sim_init nw dt lamb = Ok s -> sim_init nw' dt lamb = Ok s' -> like s s' -> lists_branches o ->
    env_init nw o K dt gamma lamb auxb clip g = Ok e -> exists e', env_init nw' o K dt gamma lamb auxb clip g = Ok e' /\ elike e e'.
  Proof.
    intros Es Es' L Lb E. unfold env_init in *. rewrite Es in E. rewrite Es'. cbn [bind] in *. pose proof (space_like _ _ L) as Hb.
    rewrite (args_like _ _ _ _ _ _ _ _ Hb). apply bind_ok in E as ([] & E1 & E). rewrite E1. cbn [bind].
    rewrite (svals_like _ _ _ L). apply bind_ok in E as (sv & E2 & E). rewrite E2. cbn [bind].
    assert (C : forall l, o = ObsList l -> check_observation_vars l (get_state_space s) K = Ok tt).
    { intros l ->. unfold check_env_args in E1. apply bind_ok in E1 as (? & _ & E1). apply bind_ok in E1 as (? & _ & E1). apply bind_ok in E1 as (? & _ & E1).
      apply bind_ok in E1 as (? & _ & E1). apply bind_ok in E1 as ([] & E1 & _). auto. }
    rewrite (build_like _ _ _ _ _ _ _ L Lb C E2). apply bind_ok in E as ((ov & fn) & E3 & E). rewrite E3. cbn [bind].
    rewrite (obounds_like _ _ _ _ Hb). apply bind_ok in E as (sp & E4 & E). rewrite E4. cbn [bind]. injection E as <-. eexists. split; [reflexivity|].
    exists s'. split; [|exact L]. unfold env_set_sim. cbn. f_equal. destruct L as (brs' & st' & -> & _). reflexivity.
  Qed.
End ELike.
