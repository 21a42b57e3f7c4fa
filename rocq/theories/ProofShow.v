(** Proofs for C86: from the environment to the page. *)
From Coq Require Import Reals Lra Lia Sorted.
From Verif Require Import Base Num NumXR Devices BusBranch CheckNetwork LoadFlow Simulator EnvArgs Env Anm6 Message SvgLabels Page LibBase LibNum LibXR LibSim LibInit
  SpecNet SpecSim SpecEnv SpecDev SpecAnm6 SpecRender SpecMessage SpecPage
  ProofSim ProofObs ProofHist ProofEnv ProofStep ProofDraw ProofEasy ProofMessage PropEasy2 PropRender.
From Coq Require Import List. Import ListNotations.
Local Open Scope string_scope.
Local Open Scope list_scope.
Set Bullet Behavior "Strict Subproofs".

Section Show.
  Context {F G : Type} {N : Num F}.
  Notation anm6 := (anm6 F G).

  (** ---- what was sent ---- *)
  Section Sent.
  Context (nw : network F) (dt lamb : F) (s0 : sim F) (H0 : sim_init nw dt lamb = Ok s0).
  Lemma send_ok up (a : anm6) f : simok s0 (e_sim (a_env a)) -> send_frame up a = Ok f -> pictures a f.
  Proof.
    intros Sk E. assert (C : exists c, rd_cur (a_rd a) = Some c /\ In c (rd_live (a_rd a))).
    { unfold send_frame in E. destruct (sm_state _) as [st|]; [|discriminate E]. do 6 (apply bind_ok in E as (? & _ & E)). destruct (rd_cur (a_rd a)) as [c|]; [|discriminate E].
      exists c. split; [reflexivity|]. destruct (existsb (Nat.eqb c) (rd_live (a_rd a))) eqn:X; [|rewrite andb_false_r in E; discriminate E].
      apply existsb_exists in X as (c' & I & Q). apply Nat.eqb_eq in Q. subst c'. exact I. }
    destruct C as (c & Ec & L). destruct (send_cases nw dt lamb s0 up a c H0 Sk Ec L) as [(f' & E' & P)|((x & E') & _)]; [|congruence].
    rewrite E in E'. injection E' as <-. exact P.
  Qed.
  Lemma update_sent skip up (a : anm6) : simok s0 (e_sim (a_env a)) -> let a' := fst (render_update skip up a) in
    rd_frames (a_rd a') = rd_frames (a_rd a) \/ exists f, pictures a f /\ rd_frames (a_rd a') = rd_frames (a_rd a) ++ [f].
  Proof.
    intros Sk. unfold render_update. destruct (Z.eqb _ _); [left; reflexivity|]. destruct (negb _); [left; reflexivity|]. set (r := rd_set_skipped _ _).
    destruct (send_frame up (a_set_rd a r)) as [f|x] eqn:E; [|left; reflexivity]. right. exists f. split; [|reflexivity]. apply (pictures_rd a r). apply (send_ok up); [exact Sk|exact E].
  Qed.
  Lemma render_sent human skip started up (a : anm6) : simok s0 (e_sim (a_env a)) -> let a' := fst (anm6_render human skip started up a) in
    rd_frames (a_rd a') = rd_frames (a_rd a) \/ exists f, pictures a f /\ rd_frames (a_rd a') = rd_frames (a_rd a) ++ [f].
  Proof.
    intros Sk. unfold anm6_render. destruct (rd_mode _); [apply update_sent; exact Sk|]. destruct (negb human); [left; reflexivity|]. destruct started; [|left; reflexivity].
    set (r := mkRs _ _ _ _ _ _ _). pose proof (update_sent skip up (a_set_rd a r) Sk) as U. cbv zeta in U.
    destruct (render_update skip up (a_set_rd a r)) as (a2, [u|x]); cbn [fst] in *; (destruct U as [U|(f & P & U)]; [left|right; exists f; split; [apply (pictures_rd a r); exact P|]]; exact U).
  Qed.
  Lemma sent_before ro cs (a0 : anm6) f : simok s0 (e_sim (a_env a0)) -> rd_frames (a_rd a0) = [] -> In f (rd_frames (a_rd (arun ro a0 cs))) ->
    exists cs1 cs2, cs = cs1 ++ cs2 /\ pictures (arun ro a0 cs1) f.
  Proof.
    intros Sk E0. induction cs as [|c cs IH] using rev_ind; [cbn; rewrite E0; intros []|]. intros I.
    assert (Old : In f (rd_frames (a_rd (arun ro a0 cs))) -> exists cs1 cs2, cs ++ [c] = cs1 ++ cs2 /\ pictures (arun ro a0 cs1) f).
    { intros J. destruct (IH J) as (c1 & c2 & -> & P). exists c1, (c2 ++ [c]). split; [rewrite app_assoc; reflexivity|exact P]. }
    unfold arun in I at 1. rewrite fold_left_app in I. cbn [fold_left] in I. fold (arun ro a0 cs) in I.
    destruct c as [Or T seed date|Or T act|d|human skip started up|]; cbn [run_acall] in I.
    - destruct (reset_rd Or T ro seed date (arun ro a0 cs)) as [(ob & _ & E)|(x & _ & E)]; destruct (anm6_reset _ _ _ _ _ _); cbn [fst] in *; rewrite E in I; auto.
    - pose proof (step_rd Or T act (arun ro a0 cs)) as E. destruct (anm6_step _ _ _ _). cbn [fst] in *. rewrite E in I. auto.
    - auto.
    - pose proof (render_sent human skip started up (arun ro a0 cs) (simok_arun s0 ro cs a0 Sk)) as R. cbv zeta in R. destruct (anm6_render _ _ _ _ _). cbn [fst] in *.
      destruct R as [E|(f' & P & E)]; rewrite E in I; [auto|]. apply in_app_or in I as [I|[<-|[]]]; [auto|]. exists cs, [ARender human skip started up]. auto.
    - auto.
  Qed.
  End Sent.

  (** ---- the first message at any later moment ---- *)
  Lemma econst_arun ro cs : forall a : anm6, econst (a_env (arun ro a cs)) = econst (a_env a).
  Proof.
    induction cs as [|c cs IH]; intros a; [auto|]. change (arun ro a (c :: cs)) with (arun ro (fst (run_acall ro a c)) cs). rewrite IH. destruct c as [Or T seed date|Or T act|d|human skip started up|]; cbn [run_acall]; auto.
    - unfold anm6_reset. destruct (env_reset Or T seed (a_env a)) as (e', r) eqn:Er. apply env_reset_const in Er as (E & _).
      destruct r as [ob|x]; [|exact E]. destruct date; [exact E|]. destruct (random_date ro 0 (e_rng e')). cbn. exact E.
    - unfold anm6_step. pose proof (stepped_const _ _ _ _ _ _ (env_stepped Or T act (a_env a))) as (E & _ & _).
      destruct (env_step Or T act (a_env a)) as (e', [ob|x]); [|exact E]. cbn [fst] in E. destruct (a_date a); [destruct (a_date_init a)|]; exact E.
    - destruct (render_keeps human skip started up a) as (A & _). destruct (anm6_render human skip started up a). cbn [fst] in *. rewrite A. reflexivity.
  Qed.

  (** ---- the 6-bus network ---- *)
  Notation nw6 := (anm6_network (F := F)).
  Lemma anm6_buses : buses_of nw6 [0; 1; 2; 3; 4; 5]%Z.
  Proof.
    split; [repeat constructor; lia|]. intros i. cbn [nw_bus anm6_network]. split.
    - intros I. cbn in I. decompose [or] I; try contradiction; subst i; (eexists; unshelve (once (split; [pick|reflexivity]))).
    - intros (r & I & E). cbn in I. decompose [or] I; try contradiction; subst r; cbn in E; injection E as <-; cbn; tauto.
  Qed.
  Lemma vmin6 r : In r (nw_bus nw6) -> br_vmin r <> None.
  Proof. cbn [nw_bus anm6_network]. intros I. cbn in I. decompose [or] I; try contradiction; subst r; discriminate. Qed.
  Context (dt lamb : F) (s0 : sim F) (H0 : sim_init nw6 dt lamb = Ok s0).
  Lemma counts6 : List.length (sm_devs s0) = 7%nat /\ List.length (sm_buses s0) = 6%nat /\ List.length (sm_branches s0) = 5%nat /\ List.length (filter is_stor (sm_devs s0)) = 1%nat.
  Proof.
    destruct (ids_lists _ _ _ _ _ H0 eq_refl) as (L1 & _ & _ & L4). destruct anm6_ids as (A1 & _ & _ & A4).
    split; [rewrite <- (map_length d_id), <- (L1 _ A1); reflexivity|]. split; [rewrite <- (map_length b_id), <- (buses_list nw6 dt lamb s0 H0 _ anm6_buses); reflexivity|].
    split; [|rewrite <- (map_length d_id), <- (L4 _ A4); reflexivity].
    destruct (sim_init_built _ _ _ _ H0) as (bs & ds & B). pose proof (bt_brs _ _ _ _ _ _ B) as E. apply mapM_length in E. exact E.
  Qed.
  Lemma msg_fits clip : fits_msg (msg_of s0 clip).
  Proof.
    destruct counts6 as (C1 & C2 & C3 & C4). unfold fits_msg, msg_of. cbn [im_type im_p im_q im_s im_soc im_vmin im_vmax]. rewrite !map_length, C1, C2, C3, C4.
    do 7 (split; [reflexivity|]). destruct (msg_describes nw6 dt lamb s0 H0 clip vmin6) as (D & _ & _). destruct anm6_ids as (A1 & _). destruct (D _ A1) as (T & _).
    cbn [msg_of im_type] in T. generalize dependent (map d_type (sm_devs s0)). intros ts T i t Ei Ht.
    assert (J : forall j, nth_error [0; 1; 2; 3; 4; 5; 6]%Z i = Some j -> j = Z.of_nat i) by (do 7 (destruct i as [|i]; [intros j Q; injection Q as <-; reflexivity|]); destruct i; discriminate).
    assert (Q : exists j r, nth_error [0; 1; 2; 3; 4; 5; 6]%Z i = Some j /\ In r (nw_dev nw6) /\ dr_id r = Some j /\ dr_type r = Some t).
    { revert i Ei J. clear -T. intros i Ei _. revert i Ei. induction T as [|x y l l' P _ IH]; intros [|i] Ei; try discriminate Ei; cbn [nth_error] in *.
      - injection Ei as ->. destruct P as (r & P1 & P2 & P3). exists x, r. auto.
      - destruct (IH i Ei) as (j & r & Q). exists j, r. exact Q. }
    destruct Q as (j & r & Ej & Ir & Er & Et). apply J in Ej. subst j. cbn [nw_dev anm6_network] in Ir. cbn in Ir. clear -Ir Er Et Ht.
    decompose [or] Ir; try contradiction; subst r; cbn in Er, Et; injection Er as Er; injection Et as <-; lia.
  Qed.
  Lemma frame_fits (a : anm6) f : strip (e_sim (a_env a)) = strip s0 -> pictures a f -> fits_frame f.
  Proof.
    intros S P. destruct counts6 as (C1 & C2 & C3 & C4).
    assert (Len : forall k u l, column (e_sim (a_env a)) k u l -> List.length l = List.length (elements s0 k)).
    { intros k u l C. apply (f_equal (@List.length _)) in C. rewrite !map_length in C. unfold elements in C |- *. rewrite (state_space_static _ s0 S) in C. exact C. }
    assert (Ef : filter (fun _ : device F => true) (sm_devs s0) = sm_devs s0) by (clear; induction (sm_devs s0); cbn; f_equal; auto).
    unfold fits_frame. rewrite (Len _ _ _ (pc_p _ _ P)), (Len _ _ _ (pc_q _ _ P)), (Len _ _ _ (pc_s _ _ P)), (Len _ _ _ (pc_soc _ _ P)), (Len _ _ _ (pc_v _ _ P)), (pc_costs _ _ P).
    unfold elements, get_state_space. cbn [dget String.eqb Ascii.eqb Bool.eqb]. rewrite !map_length, Ef, C1, C2, C3, C4. repeat split.
  Qed.
End Show.
