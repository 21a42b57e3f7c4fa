(** Properties of the environment: the reward of collapsing against the return of staying alive. *)
From Coq Require Import Reals Lra.
From Coquelicot Require Import Coquelicot.
From Verif Require Import Base Num NumXR Devices BusBranch CheckNetwork LoadFlow Simulator EnvArgs Env LibBase LibNum LibSim LibXR
  SpecNet ProofNet LibInit SpecSim ProofSim ProofObs ProofHist ProofReset ProofDevs SpecEnv ProofEnv ProofStep ProofState ProofDraw ProofEnvOk
  ProofLive PropReward LibEval ExNet ExRun ExEnv.
Local Open Scope string_scope.
Local Open Scope list_scope.
Local Open Scope R_scope.

Set Bullet Behavior "Strict Subproofs".

Section Collapse.
  Context {G : Type}.
  (** The environment after [k] steps, the [j]-th one with solvers and action [c j]. *)
  Fixpoint after (T : task XR G) (e : env XR G) (c : nat -> oracles XR * list XR) (k : nat) : env XR G :=
    match k with
    | O => e
    | S j => fst (env_step (fst (c j)) T (snd (c j)) (after T e c j))
    end.
  (** All the steps return, none of them collapses, and the [k]-th one pays [r k]. *)
  Definition survives (T : task XR G) (e : env XR G) (c : nat -> oracles XR * list XR) (r : nat -> R) : Prop :=
    forall k, exists out, snd (env_step (fst (c k)) T (snd (c k)) (after T e c k)) = Ok out /\ so_terminated out = false /\ so_reward out = Fin (r k).
  Definition discounted (q : R) (r : nat -> R) : nat -> R := fun k => q ^ k * r k.

  Lemma after_erun T e c k : exists cs, after T e c k = erun T e cs.
  Proof.
    induction k as [|k (cs & IH)]; [exists []; reflexivity|]. exists (cs ++ [EStep (fst (c k)) (snd (c k))]).
    cbn [after]. rewrite IH. unfold erun. rewrite fold_left_app. reflexivity.
  Qed.

  Lemma discounted_bounds q r lo hi : 0 <= q < 1 -> (forall k, lo <= r k <= hi) ->
    ex_series (discounted q r) /\ lo / (1 - q) <= Series (discounted q r) <= hi / (1 - q).
  Proof.
    intros Hq Hr. assert (Aq : Rabs q < 1) by (rewrite Rabs_pos_eq; lra).
    assert (Eg : ex_series (fun k => q ^ k)) by (apply ex_series_geom; auto).
    set (M := Rmax (Rabs lo) (Rabs hi)).
    assert (Hm : forall k, Rabs (r k) <= M).
    { intros k. destruct (Hr k). unfold M. apply Rabs_le. pose proof (Rmax_l (Rabs lo) (Rabs hi)). pose proof (Rmax_r (Rabs lo) (Rabs hi)).
      pose proof (Rle_abs hi). pose proof (Rle_abs (- lo)) as Q. rewrite Rabs_Ropp in Q. split; lra. }
    assert (Ex : ex_series (discounted q r)).
    { apply (ex_series_le (V := R_CompleteNormedModule) (discounted q r) (fun k => q ^ k * M)).
      - intros k. unfold discounted. change (norm (q ^ k * r k)) with (Rabs (q ^ k * r k)). rewrite Rabs_mult, (Rabs_pos_eq (q ^ k)) by (apply pow_le; lra).
        apply Rmult_le_compat_l; [apply pow_le; lra|auto].
      - apply ex_series_scal_r. exact Eg. }
    split; [exact Ex|].
    assert (Gs : forall x, ex_series (fun k => q ^ k * x) /\ Series (fun k => q ^ k * x) = x / (1 - q)).
    { intros x. split; [apply ex_series_scal_r; exact Eg|]. rewrite Series_scal_r, Series_geom by auto. unfold Rdiv. ring. }
    assert (Le : forall a b : nat -> R, ex_series a -> ex_series b -> (forall k, a k <= b k) -> Series a <= Series b).
    { intros a b Ea Eb Hab. assert (Hd : 0 <= Series (fun k => b k - a k)).
      { assert (Z : Series (fun _ : nat => 0) = 0).
        { transitivity (Series (fun k => 0 * q ^ k)); [apply Series_ext; intros; ring|rewrite Series_scal_l; ring]. }
        rewrite <- Z. apply Series_le; [intros k; specialize (Hab k); lra|]. apply (ex_series_minus b a); auto. }
      rewrite Series_minus in Hd by auto. lra. }
    destruct (Gs lo) as (G1 & <-). destruct (Gs hi) as (G2 & <-).
    split; apply Le; auto; intros k; unfold discounted; apply Rmult_le_compat_l; try (apply pow_le; lra); apply Hr.
  Qed.

  Variables (nw : network XR) (o : obs_arg XR) (K : Z) (dt lamb : XR) (q : R) (auxb : option (list (XR * XR)))
            (c1 c2 : R) (g : G) (e0 : env XR G) (T : task XR G) (cs : list (ecall XR)).
  Hypothesis built : env_init nw o K dt (Fin q) lamb auxb (Some (Some (Fin c1), Some (Fin c2))) g = Ok e0.
  Let e := erun T e0 cs.

  (** the reward of a step whose costs are not NaN *)
  Lemma finite_reward cs' Or a e' out r : 0 <= c1 -> 0 <= c2 -> env_step Or T a (erun T e0 cs') = (e', Ok out) -> so_terminated out = false -> so_reward out = Fin r ->
    - (c1 + c2) <= r <= c1.
  Proof.
    intros P1 P2 H Ht Hr. pose proof (good_erun _ _ _ _ _ _ _ _ _ _ T cs' built) as Hg. pose proof (gd_sim0 _ Hg) as Hi.
    destruct (ids_ex _ _ _ _ Hi) as (devs & loads & gens & dess & D1 & D2 & D3 & D4).
    destruct (gd_step_inv _ _ _ _ _ _ Hg H) as [(_ & _ & _ & sp & _ & ->)|(st & vars & el & pen & conv & L)]; [discriminate|].
    destruct conv; [|destruct (lv_coll _ _ _ _ _ _ _ _ _ _ _ L eq_refl) as (_ & _ & _ & rw & sp & _ & _ & ->); discriminate].
    destruct (lv_conv _ _ _ _ _ _ _ _ _ _ _ L eq_refl) as (E1 & E2 & st2 & ov & sp & _ & _ & _ & _ & -> & _). cbn [so_reward] in Hr.
    unfold clip_eloss in E1. unfold clip_pen in E2. rewrite (gd_clip _ Hg) in E1, E2. cbn [clip_arg fst snd] in E1, E2.
    destruct (e_eloss e') as [x| | |] eqn:Ex; destruct (e_pen e') as [y| | |] eqn:Ey; try discriminate. cbn in Hr. injection Hr as Hr.
    assert (N1 : nisnan el = false).
    { destruct (nisnan el) eqn:Q; auto. apply xisnan_spec in Q. subst el. discriminate. }
    assert (N2 : nisnan pen = false).
    { destruct (nisnan pen) eqn:Q; auto. apply xisnan_spec in Q. subst pen. discriminate. }
    assert (P1' : xle (Fin 0) (Fin c1)) by (unfold xle; cbn; apply Rleb_spec; auto).
    destruct (eloss_clamped (Fin c1) el P1' N1) as ((W1 & W2) & _). rewrite <- E1 in W1, W2.
    assert (P2' : nleb n0 (Fin c2) = true) by (cbn; apply Rleb_spec; auto).
    destruct (clip_clamped pen n0 (Fin c2) P2' N2) as ((W3 & W4) & _). rewrite <- E2 in W3, W4.
    cbn in W1, W2, W3, W4. rewrite !Rleb_spec in *. lra.
  Qed.

  (** C30, for gamma < 1: what a collapsing step pays, and how much less an endless continuation without a
      collapse can return. *)
  Theorem C30_collapse_partial : 0 <= c1 -> 0 <= c2 -> 0 <= q < 1 ->
    (forall Or a e' out, e_term e = Some false -> env_step Or T a e = (e', Ok out) -> so_terminated out = true ->
       so_reward out = Fin (- c2 / (1 - q))) /\
    (forall c r, survives T e c r ->
       ex_series (discounted q r) /\
       - c2 / (1 - q) - c1 / (1 - q) <= Series (discounted q r) <= c1 / (1 - q) /\
       ((forall k, - c2 <= r k) -> - c2 / (1 - q) <= Series (discounted q r))).
  Proof.
    intros P1 P2 Hq. pose proof (good_erun _ _ _ _ _ _ _ _ _ _ T cs built) as Hg. fold e in Hg. split.
    - intros Or a e' out Ht H Hc. destruct (gd_step_inv _ _ _ _ _ _ Hg H) as [(Ht' & _)|(st & vars & el & pen & conv & L)]; [congruence|].
      destruct conv; [destruct (lv_conv _ _ _ _ _ _ _ _ _ _ _ L eq_refl) as (_ & _ & st2 & ov & sp & _ & _ & _ & _ & -> & _); discriminate|].
      destruct (lv_coll _ _ _ _ _ _ _ _ _ _ _ L eq_refl) as (_ & _ & _ & rw & sp & D & _ & ->). cbn [so_reward].
      rewrite (gd_clip _ Hg), (gd_gamma _ Hg) in D. unfold pydiv in D. destruct (neqb _ _); [discriminate|]. injection D as <-.
      cbn. destruct (Req_EM_T _ 0) as [Z|Z]; [exfalso; lra|reflexivity].
    - intros c r Hs.
      assert (Hb : forall k, - (c1 + c2) <= r k <= c1).
      { intros k. destruct (Hs k) as (out & H & Ht & Hr). destruct (after_erun T e c k) as (cs' & Ea). rewrite Ea in H.
        destruct (env_step (fst (c k)) T (snd (c k)) (erun T e cs')) as (e', rs) eqn:St. cbn in H. subst rs.
        unfold e in St. assert (Er : erun T (erun T e0 cs) cs' = erun T e0 (cs ++ cs')) by (unfold erun; rewrite fold_left_app; reflexivity). rewrite Er in St.
        eapply finite_reward; eauto. }
      destruct (discounted_bounds q r _ _ Hq Hb) as (Ex & A & B). split; [auto|]. split.
      + split; auto. eapply Rle_trans; [|exact A]. right. field. lra.
      + intros Hc. assert (Hb' : forall k, - c2 <= r k <= c1) by (intros k; split; [auto|apply Hb]). apply (discounted_bounds q r _ _ Hq Hb').
  Qed.
End Collapse.

(** C30 refuted, 1: an environment (gamma = 9/10, c1 = 1, c2 = 10) where collapsing pays -100 and surviving for
    ever with the same action returns less, because the energy loss is paid on top of the clipped penalty. *)
Theorem C30_collapse_better_refuted : exists (nw : network XR) (e0 : env XR nat) (T : task XR nat) e a Or Or',
  env_init nw ObsState 1 (Fin (1/4)) (Fin (9/10)) (Fin 100) None (Some (Some (Fin 1), Some (Fin 10))) 0%nat = Ok e0 /\
  e = fst (env_reset Or T None e0) /\ is_ok (snd (env_reset Or T None e0)) = true /\
  (exists e' out, env_step Or' T a e = (e', Ok out) /\ so_terminated out = true /\ so_reward out = Fin (-100)) /\
  exists r, survives T e (fun _ => (Or, a)) r /\ ex_series (discounted (9/10) r) /\ Series (discounted (9/10) r) < -100.
Proof.
  destruct (ex_built 2 (9/10) 1 10) as (e0 & B); [lra|lra|].
  destruct (exe_reset 2 (9/10) 1 10 e0 ltac:(lra) ltac:(lra) B [] None) as (e & ob & R & L).
  exists (ex_nwk (2/10) 2), e0, ex_task, e, ex_idle_act, ex_or, ex_or2. split; [exact B|].
  cbn [erun fold_left] in R. rewrite R. split; [reflexivity|]. split; [reflexivity|]. split.
  - destruct (exe_collapse 2 (9/10) 1 10 e0 ltac:(lra) ltac:(lra) B e L) as (Q & _). destruct Q as (e' & Q); [lra|]. do 2 eexists. split; [exact Q|].
    split; [reflexivity|]. cbn [so_reward]. f_equal. lra.
  - exists (fun _ => - (1/16 + 10)). 
    assert (Lk : forall k, exlive 2 e0 5 (after ex_task e (fun _ => (ex_or, ex_idle_act)) k)).
    { induction k; [exact L|]. cbn [after fst snd]. destruct (exe_step 2 (9/10) 1 10 e0 ltac:(lra) ltac:(lra) B _ ltac:(lra) ltac:(lra) IHk) as (e' & ob' & E & L'). rewrite E. exact L'. }
    split.
    + intros k. cbn [fst snd]. destruct (exe_step 2 (9/10) 1 10 e0 ltac:(lra) ltac:(lra) B _ ltac:(lra) ltac:(lra) (Lk k)) as (e' & ob' & E & L'). rewrite E. eexists. split; [reflexivity|].
      split; [reflexivity|]. cbn [so_reward]. do 3 f_equal. rewrite Rabs_left by lra. apply Rmin_left. lra.
    + destruct (discounted_bounds (9/10) (fun _ => - (1/16 + 10)) (- (1/16 + 10)) (- (1/16 + 10))) as (Ex & A & A2); [lra|intros; lra|]. split; [exact Ex|]. lra.
Qed.
(** C30 refuted, 2: gamma = 1 is accepted, and then a collapsing step raises ZeroDivisionError. *)
Theorem C30_gamma_one_refuted : exists (nw : network XR) (e0 : env XR nat) (T : task XR nat) a Or Or',
  env_init nw ObsState 1 (Fin (1/4)) (Fin 1) (Fin 100) None (Some (Some (Fin 1), Some (Fin 10))) 0%nat = Ok e0 /\
  is_ok (snd (env_reset Or T None e0)) = true /\
  snd (env_step Or' T a (fst (env_reset Or T None e0))) = Err ZeroDivisionError.
Proof.
  destruct (ex_built 2 1 1 10) as (e0 & B); [lra|lra|].
  destruct (exe_reset 2 1 1 10 e0 ltac:(lra) ltac:(lra) B [] None) as (e & ob & R & L).
  exists (ex_nwk (2/10) 2), e0, ex_task, ex_idle_act, ex_or, ex_or2. split; [exact B|].
  cbn [erun fold_left] in R. rewrite R. split; [reflexivity|]. cbn [fst].
  destruct (exe_collapse 2 1 1 10 e0 ltac:(lra) ltac:(lra) B e L) as (_ & Q). apply Q. reflexivity.
Qed.
