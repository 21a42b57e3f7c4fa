(** Two simulators that differ in the order of their branches behave alike: lemmas for C76. *)
From Coq Require Import Permutation Sorted.
From Verif Require Import Base Num Devices BusBranch CheckNetwork LoadFlow Simulator EnvArgs Env LibBase SpecNet ProofNet LibInit SpecSim SpecEnv PropMake SpecOrder ProofOrder.
Local Open Scope string_scope.
Local Open Scope list_scope.
Set Bullet Behavior "Strict Subproofs".

Lemma eid_eqb_iff a b : eid_eqb a b = true <-> a = b.
Proof.
  destruct a, b; cbn; try (split; [discriminate|intros H; discriminate H]).
  - rewrite Z.eqb_eq. split; congruence.
  - rewrite andb_true_iff, !Z.eqb_eq. split; [intros (-> & ->); auto|intros H; injection H; auto].
Qed.
Lemma dget_perm {K V} (keqb : K -> K -> bool) (Hk : forall a b, keqb a b = true <-> a = b) (d d' : list (K * V)) k :
  Permutation d d' -> NoDup (map fst d) -> dget keqb d k = dget keqb d' k.
Proof.
  intros P ND. assert (ND' : NoDup (map fst d')) by (eapply Permutation_NoDup; [apply Permutation_map; exact P|auto]).
  destruct (dget keqb d k) as [v|] eqn:E.
  - symmetry. apply (dget_nodup _ Hk); auto. eapply Permutation_in; [exact P|]. eapply dget_in; eauto.
  - symmetry. apply (dget_none _ Hk). apply (dget_none _ Hk) in E. intros I. apply E. eapply Permutation_in; [apply Permutation_map, Permutation_sym; exact P|auto].
Qed.
Lemma fold_left_perm {A B} (f : A -> B -> A) l l' : (forall a x y, f (f a x) y = f (f a y) x) -> Permutation l l' -> forall a, fold_left f l a = fold_left f l' a.
Proof.
  intros C. induction 1; intros a; cbn; auto. { rewrite C. reflexivity. } rewrite IHPermutation1. auto.
Qed.

Section Like.
  Context {F : Type} {N : Num F}.
  Context (addA : forall x y z : F, nadd x (nadd y z) = nadd (nadd x y) z) (addC : forall x y : F, nadd x y = nadd y x).

  Definition bkeys (brs : list (branch F)) : list (Z * Z) := map (fun b => (ln_f b, ln_t b)) brs.
  Definition agree_opt (st st' : option (fstate F)) : Prop :=
    match st, st' with None, None => True | Some a, Some b => agree a b | _, _ => False end.
  (** the same simulator, up to the order of its branches *)
  Definition like (s s' : sim F) : Prop :=
    exists brs' st', s' = sim_set_state (sim_set_branches s brs') st' /\ Permutation (sm_branches s) brs' /\ NoDup (bkeys (sm_branches s)) /\ agree_opt (sm_state s) st'.

  Lemma brd_perm {V} (g : branch F -> V) brs brs' n : Permutation brs brs' -> NoDup (bkeys brs) ->
    dget eid_eqb (map (fun b => (EBr (ln_f b) (ln_t b), g b)) brs) n = dget eid_eqb (map (fun b => (EBr (ln_f b) (ln_t b), g b)) brs') n.
  Proof.
    intros P ND. apply (dget_perm _ eid_eqb_iff); [apply Permutation_map; auto|]. rewrite map_map. cbn [fst].
    replace (map (fun x => EBr (ln_f x) (ln_t x)) brs) with (map (fun p => EBr (fst p) (snd p)) (bkeys brs)) by (unfold bkeys; rewrite map_map; reflexivity).
    apply FinFun.Injective_map_NoDup; auto. intros (a & b) (c & d) E. cbn in E. injection E as -> ->. reflexivity.
  Qed.
  Lemma gather_like s brs' st' : Permutation (sm_branches s) brs' -> NoDup (bkeys (sm_branches s)) ->
    agree (gather_state s) (gather_state (sim_set_state (sim_set_branches s brs') st')).
  Proof.
    intros P ND. split; [reflexivity|]. intros k u n. unfold gather_state, read.
    cbn [sim_set_state sim_set_branches sm_base sm_buses sm_branches sm_devs dget].
    repeat match goal with |- context [String.eqb k ?b] => destruct (String.eqb k b); [cbn [dget]; repeat match goal with |- context [String.eqb u ?c] => destruct (String.eqb u c); [first [reflexivity | apply brd_perm; assumption]|] end; reflexivity|] end.
    reflexivity.
  Qed.

  Lemma like_devs s s' ds : like s s' -> like (sim_set_devs s ds) (sim_set_devs s' ds).
  Proof. intros (brs' & st' & -> & P & ND & A). exists brs', st'. repeat split; auto. Qed.
  Lemma like_buses s s' bs : like s s' -> like (sim_set_buses s bs) (sim_set_buses s' bs).
  Proof. intros (brs' & st' & -> & P & ND & A). exists brs', st'. repeat split; auto. Qed.
  Lemma like_conv s s' c : like s s' -> like (sim_set_conv s c) (sim_set_conv s' c).
  Proof. intros (brs' & st' & -> & P & ND & A). exists brs', st'. repeat split; auto. Qed.
  Lemma like_state s s' st st' : like s s' -> agree_opt st st' -> like (sim_set_state s st) (sim_set_state s' st').
  Proof. intros (brs' & st0 & -> & P & ND & A) A'. exists brs', st'. repeat split; auto. Qed.
  Lemma like_fields s s' : like s s' -> sm_dt s' = sm_dt s /\ sm_lamb s' = sm_lamb s /\ sm_base s' = sm_base s /\ sm_buses s' = sm_buses s /\ sm_devs s' = sm_devs s /\
    sm_Y s' = sm_Y s /\ sm_conv s' = sm_conv s.
  Proof. intros (brs' & st' & -> & _). repeat split. Qed.
  Lemma like_gather s s' : like s s' -> agree (gather_state s) (gather_state s').
  Proof. intros (brs' & st' & -> & P & ND & A). apply gather_like; auto. Qed.

  Lemma branch_flow_key bs br br' : branch_flow bs br = Ok br' -> (ln_f br', ln_t br') = (ln_f br, ln_t br).
  Proof. unfold branch_flow. destruct (find_bus bs (ln_f br)), (find_bus bs (ln_t br)); try discriminate. intros E. injection E as <-. reflexivity. Qed.
  Lemma flow_err bs brs e : mapM (branch_flow bs) brs = Err e -> e = KeyError.
  Proof.
    induction brs as [|b brs IH]; cbn [mapM]; [discriminate|]. destruct (branch_flow bs b) eqn:E; cbn [bind].
    - destruct (mapM (branch_flow bs) brs); cbn [bind]; [discriminate|]. intros Q. apply IH. congruence.
    - intros Q. injection Q as <-. unfold branch_flow in E. destruct (find_bus bs (ln_f b)), (find_bus bs (ln_t b)); congruence.
  Qed.
  Lemma flow_keys bs brs r : mapM (branch_flow bs) brs = Ok r -> bkeys r = bkeys brs.
  Proof. intros E. apply mapM_ok in E. unfold bkeys. induction E as [|b b' l l' E H IH]; cbn; auto. rewrite (branch_flow_key _ _ _ E), IH. reflexivity. Qed.

  Lemma flow_like lin xtol s s' : like s s' ->
    like (fst (solve_load_flow lin xtol s)) (fst (solve_load_flow lin xtol s')) /\ snd (solve_load_flow lin xtol s') = snd (solve_load_flow lin xtol s).
  Proof.
    intros L. pose proof L as (brs' & st' & -> & P & ND & A). unfold solve_load_flow, n_bus. cbn [sim_set_state sim_set_branches sm_base sm_buses sm_branches sm_devs sm_Y].
    destruct (solve_pfe lin _ _ _ (sm_Y s) xtol) as [[[v i] stable]|x]; cbn [bind]; [|auto].
    destruct (mapM (bus_update v i) _) as [bs|x]; cbn [bind]; [|auto]. destruct (mapM (dev_slack_update bs) _) as [ds|x]; cbn [bind]; [|auto].
    destruct (mapM (branch_flow bs) (sm_branches s)) as [brs|x] eqn:E1; cbn [bind].
    - destruct (mapM_perm _ _ _ P _ E1) as (r' & E2 & P2). rewrite E2. cbn [bind fst snd]. split; auto. exists r', st'. split; [reflexivity|]. cbn [sim_set_branches sim_set_devs sim_set_buses sm_branches sm_state]. split; auto. split; auto.
      rewrite (flow_keys _ _ _ E1). auto.
    - destruct (mapM (branch_flow bs) brs') as [r'|x'] eqn:E2; cbn [bind].
      + exfalso. destruct (mapM_perm _ _ _ (Permutation_sym P) _ E2) as (r & E3 & _). congruence.
      + apply flow_err in E1, E2. subst. auto.
  Qed.

  Lemma reward_like s s' : like s s' -> compute_reward s' = compute_reward s.
  Proof.
    intros (brs' & st' & -> & P & ND & A). unfold compute_reward, energy_loss, penalty_of. cbn [sim_set_state sim_set_branches sm_base sm_buses sm_branches sm_devs sm_dt sm_lamb].
    destruct (foldM bus_penalty (sm_buses s) n0); cbn [bind]; auto. rewrite (fold_left_perm branch_penalty _ _ ltac:(intros; unfold branch_penalty; rewrite <- !addA; f_equal; apply addC) P). reflexivity.
  Qed.

  Lemma transition_like O inp s s' : like s s' ->
    like (fst (transition O inp s)) (fst (transition O inp s')) /\ same_result (snd (transition O inp s)) (snd (transition O inp s')).
  Proof.
    intros L. destruct (like_fields _ _ L) as (E1 & E2 & E3 & E4 & E5 & E6 & E7). unfold transition. rewrite E1, E3, E5.
    destruct (devs_transition _ _ _ _ _) as (ds, [u|x]); [|split; [apply like_devs; auto|reflexivity]].
    cbn [sim_set_devs sm_buses]. rewrite E4.
    match goal with |- context [solve_load_flow (o_lin O) xtol_pfe (sim_set_buses (sim_set_devs s ds) ?b)] =>
      pose proof (flow_like (o_lin O) xtol_pfe _ _ (like_buses _ _ b (like_devs _ _ ds L))) as (L3 & R3) end.
    change (mkSim (sm_dt s) (sm_lamb s) (sm_base s) (sm_buses s) (sm_branches s) ds (sm_Y s) (sm_state s) (sm_conv s)) with (sim_set_devs s ds).
    change (mkSim (sm_dt s') (sm_lamb s') (sm_base s') (sm_buses s') (sm_branches s') ds (sm_Y s') (sm_state s') (sm_conv s')) with (sim_set_devs s' ds).
    change (sm_buses (sim_set_devs s ds)) with (sm_buses s) in *. change (sm_buses (sim_set_devs s' ds)) with (sm_buses s') in *. rewrite ?E4 in *.
    destruct (solve_load_flow _ _ (sim_set_buses (sim_set_devs s ds) _)) as (s3, r3). destruct (solve_load_flow _ _ (sim_set_buses (sim_set_devs s' ds) _)) as (s3', r3'). cbn [fst snd] in L3, R3. subst r3'.
    destruct r3 as [conv|x]; [|split; [auto|reflexivity]].
    pose proof (like_conv _ _ (Some conv) L3) as L4. pose proof (like_gather _ _ L4) as A4.
    assert (L5 : like (sim_set_state (sim_set_conv s3 (Some conv)) (Some (gather_state (sim_set_conv s3 (Some conv)))))
                      (sim_set_state (sim_set_conv s3' (Some conv)) (Some (gather_state (sim_set_conv s3' (Some conv)))))) by (apply like_state; auto).
    rewrite (reward_like _ _ L5). destruct (compute_reward _) as [[[r e] pen]|x]; cbn [fst snd]; split; auto; cbn; auto.
  Qed.

  Lemma reset_like O init s s' : like s s' ->
    like (fst (sim_reset O init s)) (fst (sim_reset O init s')) /\ snd (sim_reset O init s') = snd (sim_reset O init s).
  Proof.
    intros L. destruct (like_fields _ _ L) as (E1 & E2 & E3 & E4 & E5 & E6 & E7). unfold sim_reset, n_device, n_des, n_nsgen. rewrite E5, E3.
    assert (L0 : like (sim_set_state s None) (sim_set_state s' None)) by (apply like_state; auto; exact I).
    destruct (reset_inputs _ _ _ _ _ _ _) as [inp|x]; [|auto]. destruct (mapM (dev_pre_soc inp) (sm_devs s)) as [ds|x]; [|auto].
    destruct (transition_like O inp _ _ (like_devs _ _ ds L0)) as (L1 & R1).
    destruct (transition O inp (sim_set_devs (sim_set_state s None) ds)) as (s1, r1). destruct (transition O inp (sim_set_devs (sim_set_state s' None) ds)) as (s1', r1'). cbn [fst snd] in L1, R1.
    destruct r1 as [[[[[st w] e] p] conv]|x], r1' as [[[[[st' w'] e'] p'] conv']|x']; cbn in R1; try contradiction; [|subst; auto].
    destruct R1 as (_ & _ & _ & _ & ->). destruct (like_fields _ _ L1) as (_ & _ & _ & _ & -> & _).
    destruct (set_socs _ _ _) as (ds2, [u|x]); cbn [fst snd]; split; auto; [|apply like_devs; auto].
    apply like_state; [apply like_devs; auto|]. cbn. apply like_gather. apply like_devs; auto.
  Qed.
End Like.
