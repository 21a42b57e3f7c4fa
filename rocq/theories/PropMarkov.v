(** C91: the state is Markov.  The theorems, and concrete cases. *)
From Coq Require Import Reals Lra Lia List. Import ListNotations.
From Verif Require Import Base LibBase Num NumXR Devices BusBranch CheckNetwork LoadFlow Simulator EnvArgs Env Anm6 LibXR LibSim.
From Verif Require Import SpecSim SpecEnv SpecAnm6 SpecMpc SpecMarkov ProofSim ProofHist ProofState ProofSoc ProofEnv ProofUnits ProofStep ProofDraw ProofEnvOk ProofVals ProofMarkov PropExec ProofEasy PropEasy PropEasy2 PropEasy4 ExNet ExRun ExEnv.
Local Open Scope string_scope.
Local Open Scope list_scope.

Section Live.
  Context {G : Type} {nw : network XR} {o : obs_arg XR} {K : Z} {dt gamma lamb : XR} {auxb : option (list (XR * XR))} {clip : option (option XR * option XR)} {g : G} {e0 : env XR G}.
  Notation good := (good nw o K dt gamma lamb auxb clip g e0).
  Lemma live_state (T : task XR G) e c devs gens dess : good e -> live_call T e c -> ids_of nw ALL devs -> ids_of nw GENS gens -> ids_of nw STORS dess ->
    let e' := run_ecall T e c in e_term e' = Some false /\ exists st aux, e_state e' = Some st /\ state_layout devs gens dess (Z.to_nat K) (e_sim e') aux st.
  Proof.
    intros Hg L H1 H2 H3 e'. unfold e'. destruct c as [Or seed|Or a]; cbn [live_call run_ecall] in *.
    - destruct (env_reset Or T seed e) as (e1, [ob|x]) eqn:E; [|discriminate]. cbn [fst].
      destruct (gd_reset_inv _ _ _ _ _ _ _ _ _ Hg E H1 H2 H3) as (k & init & st & _ & _ & _ & _ & _ & _ & A & B & _). apply env_reset_const in E. split; [tauto|eauto].
    - destruct L as (out & Eo & Nt). destruct (env_step Or T a e) as (e1, r) eqn:E. cbn [snd fst] in *. subst r.
      destruct (gd_step_inv _ _ _ _ _ _ Hg E) as [(_ & _ & _ & sp & _ & ->)|(st & vars & el & pen & conv & L)]; [discriminate|]. rewrite (lv_term' _ _ _ _ _ _ _ _ _ _ _ L). destruct conv.
      + destruct (lv_conv _ _ _ _ _ _ _ _ _ _ _ L eq_refl) as (_ & _ & st2 & ov & sp & A & _ & _ & _ & _ & B). split; [reflexivity|eauto].
      + destruct (lv_coll _ _ _ _ _ _ _ _ _ _ _ L eq_refl) as (_ & _ & _ & rw & sp & _ & _ & ->). discriminate.
  Qed.
End Live.

Lemma init_rng {F G} {N : Num F} nw o K dt gamma lamb auxb clip (g g' : G) (e0 e0' : env F G) :
  env_init nw o K dt gamma lamb auxb clip g = Ok e0 -> env_init nw o K dt gamma lamb auxb clip g' = Ok e0' -> e0' = env_set_rng e0 g'.
Proof.
  unfold env_init. destruct (sim_init nw dt lamb) as [s|]; [|discriminate]. cbn [bind]. destruct (check_env_args _ _ _ _ _ _ _); [|discriminate]. cbn [bind].
  destruct (expand_all _ _ _) as [sv|]; [|discriminate]. cbn [bind]. destruct (build_observation _ _ _ _) as [(ov, ofn)|]; [|discriminate]. cbn [bind]. destruct (observation_bounds _ _ _); [|discriminate].
  cbn. intros A B. injection A as <-. injection B as <-. reflexivity.
Qed.

(** Two environments built with the same arguments, whatever their generators and their histories, are in the same state vector, advertise the same observation space and
    neither draws in [next_vars] (or their generators are in the same state): they answer the same to every sequence of actions. *)
Theorem C91_markov : forall (G : Type) (nw : network XR) o K dt gamma lamb auxb clip (g g' : G) e0 e0' (T : task XR G) cs c cs' c' b,
  env_init nw o K dt gamma lamb auxb clip g = Ok e0 -> env_init nw o K dt gamma lamb auxb clip g' = Ok e0' -> nw_base nw = Fin b ->
  live_call T (erun T e0 cs) c -> live_call T (erun T e0' cs') c' ->
  let e := erun T e0 (cs ++ [c]) in let e' := erun T e0' (cs' ++ [c']) in
  e_state e = e_state e' -> e_ospace e = e_ospace e' -> no_draws T \/ e_rng e = e_rng e' ->
  forall acts, play T acts e = play T acts e'.
Proof.
  intros G nw o K dt gamma lamb auxb clip g g' e0 e0' T cs c cs' c' b B B' Eb L L' e e' Es Eo Nd acts.
  pose proof (init_rng _ _ _ _ _ _ _ _ _ _ _ _ B B') as E0.
  assert (Ee : e = run_ecall T (erun T e0 cs) c) by (unfold e, erun; rewrite fold_left_app; reflexivity).
  assert (Ee' : e' = run_ecall T (erun T e0' cs') c') by (unfold e', erun; rewrite fold_left_app; reflexivity).
  pose proof (good_erun _ _ _ _ _ _ _ _ _ _ T cs B) as G1. pose proof (good_erun _ _ _ _ _ _ _ _ _ _ T cs' B') as G1'.
  pose proof (gd_sim0 _ G1) as H0. pose proof (base_pos _ _ _ _ H0 b Eb) as Hb.
  pose proof (ids_of_ex _ _ _ _ ALL H0) as Ha. pose proof (ids_of_ex _ _ _ _ GENS H0) as Hg. pose proof (ids_of_ex _ _ _ _ STORS H0) as Hd.
  destruct (live_state T _ c _ _ _ G1 L Ha Hg Hd) as (Te & st & aux & St & Ly). destruct (live_state T _ c' _ _ _ G1' L' Ha Hg Hd) as (Te' & st' & aux' & St' & Ly').
  pose proof (live_fresh _ _ _ _ _ _ _ _ _ _ T _ c G1 L) as Fr. pose proof (live_fresh _ _ _ _ _ _ _ _ _ _ T _ c' G1' L') as Fr'.
  rewrite <- Ee in *. rewrite <- Ee' in *. assert (st' = st) by congruence. subst st'.
  destruct (erun_run T (cs ++ [c]) e0) as (l & El). destruct (erun_run T (cs' ++ [c']) e0') as (l' & El'). fold e in El. fold e' in El'. rewrite E0 in El'. cbn [e_sim env_set_rng] in El'.
  apply twin_play; [exact Nd|]. split; [|split; [exact Eo|split; [congruence|split; [exact Es|]]]].
  - unfold e, e'. rewrite !erun_const, E0. reflexivity.
  - intros _. rewrite El, El' in *. eapply layouts_soc; eauto. lra.
Qed.

(** ---- ANM6Easy ---- *)
Section Easy.
  Context {G : Type} (ro : rng_ops XR G) (sf : Z -> G).
  (** what an episode of ANM6Easy keeps *)
  Definition easy_live (g : G) (e0 : env XR G) (a : anm6 XR G) : Prop := reach6 g e0 a /\ simrun (e_sim e0) a /\ (forall sp, e_ospace e0 = Some sp -> e_ospace (a_env a) = Some sp) /\
    e_term (a_env a) = Some false /\ a_date a <> None /\ a_date_init a <> None /\ fresh (e_sim (a_env a)) /\
    forall devs gens dess, ids_of (anm6_network (F := XR)) ALL devs -> ids_of (anm6_network (F := XR)) GENS gens -> ids_of (anm6_network (F := XR)) STORS dess ->
      exists st aux, e_state (a_env a) = Some st /\ state_layout devs gens dess 1 (e_sim (a_env a)) aux st.
  Lemma easy_live_step g e0 Or act a a' out : easy_live g e0 a -> easy_step Or ro sf act a = (a', Ok out) -> so_terminated out = false -> easy_live g e0 a'.
  Proof.
    intros (R & S & O & T & D1 & D2 & Fr & Ly) Es Nt. pose proof (easy_step_reach g e0 Or ro sf act a R) as R'. pose proof (sr_step (e_sim e0) Or ro sf act a S) as S'. rewrite Es in R', S'. cbn [fst] in R', S'.
    unfold easy_step, anm6_step in Es. destruct (env_step Or _ act (a_env a)) as (e', [o|x]) eqn:Ev; [|discriminate].
    destruct (a_date a) as [d|]; [|contradiction]. destruct (a_date_init a) as [di|]; [|contradiction]. injection Es as <- ->. cbn [a_env a_set_dates a_set_env a_date a_date_init] in *.
    destruct R as (Hg & _).
    destruct (gd_step_inv _ _ _ _ _ _ Hg Ev) as [(_ & _ & _ & sp & _ & ->)|(st & vars & el & pen & conv & L)]; [discriminate|].
    destruct conv; [|destruct (lv_coll _ _ _ _ _ _ _ _ _ _ _ L eq_refl) as (_ & _ & _ & rw & sp & _ & _ & ->); discriminate].
    split; [exact R'|]. split; [exact S'|]. split. { intros sp Sp. cbn. pose proof (env_stepped Or (easy_task ro sf (e_sim (a_env a))) act (a_env a)) as P. rewrite Ev in P. apply stepped_const in P as (_ & P & _). cbn [fst] in P. rewrite P. auto. }
    split; [exact (lv_term' _ _ _ _ _ _ _ _ _ _ _ L)|]. split; [discriminate|]. split; [discriminate|].
    split. { destruct (lv_trans _ _ _ _ _ _ _ _ _ _ _ L) as (fl & rr & Tr). apply transition_ok in Tr as (_ & _ & ds' & v & i & T1). eapply trans_fresh; eauto. }
    intros devs gens dess H1 H2 H3. destruct (lv_conv _ _ _ _ _ _ _ _ _ _ _ L eq_refl) as (_ & _ & st2 & ov & sp & A & _ & _ & _ & _ & B). eexists _, _. split; [exact A|]. apply B; auto.
  Qed.
  Lemma easy_live_stepping g e0 n a a' : stepping ro sf alive n a a' -> easy_live g e0 a -> easy_live g e0 a'.
  Proof.
    induction 1 as [|n a a1 a2 Or act out St IH Es Nt|n a a1 Or act St IH Nv|n a a1 human skip started up St IH|n a a1 St IH]; auto; intros L; specialize (IH L).
    - exact (easy_live_step g e0 Or act a1 a2 out IH Es Nt).
    - rename Nv into Nq. unfold easy_step, anm6_step, env_step. unfold valid_action in Nq. destruct (box_contains _ _); [contradiction Nq; reflexivity|]. cbn [negb fst]. destruct a1; exact IH.
    - destruct (render_keeps human skip started up a1) as (A1 & A2 & A3 & A4 & _). destruct IH as (R & S & O & T & D1 & D2 & Fr & Ly). unfold easy_live, reach6, simrun in *. rewrite A1, A2, A3, A4. auto 12.
  Qed.
  Lemma easy_live_reset g a0 cs Or seed date a1 ob : easy_make g = Ok a0 -> easy_reset Or ro sf seed date (run6 ro sf a0 cs) = (a1, Ok ob) -> easy_live g (a_env a0) a1.
  Proof.
    intros B H. pose proof (kept_run ro sf g a0 cs _ (kept_start g a0 B)) as K. pose proof (kept_reset ro sf g a0 Or seed date _ K) as K1. rewrite H in K1. cbn [fst] in K1. destruct K1 as (K1 & K2 & K3).
    split; [exact K1|]. split; [exact K2|]. split; [exact K3|]. destruct K as ((Hg & _) & _). destruct (anm6_ids (F := XR)) as (I1 & I2 & I3 & I4).
    unfold easy_reset, anm6_reset in H. destruct (env_reset Or _ seed _) as (e', [ob2|x]) eqn:E; [|discriminate].
    destruct (gd_reset_inv _ _ _ _ _ _ _ _ _ Hg E I1 I3 I4) as (q & init & st & _ & _ & At & D & _ & Si & Es & Ly & _).
    assert (Ee : e_sim (a_env a1) = e_sim e' /\ e_term (a_env a1) = e_term e' /\ e_state (a_env a1) = e_state e' /\ a_date a1 <> None /\ a_date_init a1 <> None).
    { clear -H Es. destruct date as [d|]; [|destruct (random_date ro 0 (e_rng e')) as (d, gr)]; cbn in H; rewrite Es in H; destruct (xtrunc (last st (Fin 0))); try discriminate H; injection H as <- _; repeat split; discriminate. }
    destruct Ee as (Ee & Et & Est & Ed & Ed'). split; [rewrite Et; apply env_reset_const in E; tauto|]. split; [exact Ed|]. split; [exact Ed'|]. rewrite Ee, Est. split.
    - rewrite Si. destruct At as (init' & A1 & _ & A3). rewrite D in A1. cbn [fst] in A1. injection A1 as <-. apply (call_fresh (e_sim (a_env a0)) (CReset Or init)). cbn [returned]. rewrite A3. reflexivity.
    - intros devs gens dess H1 H2 H3. destruct (gd_reset_inv _ _ _ _ _ _ _ _ _ Hg E H1 H2 H3) as (q' & init' & st' & _ & _ & _ & _ & _ & _ & Es' & Ly' & _). eexists _, _. split; [exact Es'|exact Ly'].
  Qed.

  Definition dated (a : anm6 XR G) : Prop := a_date a <> None /\ a_date_init a <> None.
  Lemma twin_play6 acts : forall a b, twin (a_env a) (a_env b) -> dated a -> dated b -> play6 ro sf acts a = play6 ro sf acts b.
  Proof.
    induction acts as [|(Or, act) acts IH]; intros a b Tw (Da1 & Da2) (Db1 & Db2); [reflexivity|]. cbn [play6].
    destruct (twin_step Or (easy_task ro sf (e_sim (a_env a))) (easy_task ro sf (e_sim (a_env b))) act (a_env a) (a_env b)) as (A & B); [intros; reflexivity|exact Tw|].
    unfold easy_step, anm6_step. destruct (env_step Or _ act (a_env a)) as (e1, r), (env_step Or _ act (a_env b)) as (e1', r'). cbn [fst snd] in *. subst r'.
    destruct r as [out|x]; [|reflexivity]. destruct (a_date a); [|contradiction]. destruct (a_date_init a); [|contradiction]. destruct (a_date b); [|contradiction]. destruct (a_date_init b); [|contradiction].
    cbn [is_ok]. f_equal. apply IH; [apply B; reflexivity|split; discriminate|split; discriminate].
  Qed.
  Lemma easy_make_space g (a0 : anm6 XR G) : easy_make g = Ok a0 -> easy_env g = Ok (a_env a0) /\ exists sp, e_ospace (a_env a0) = Some sp.
  Proof.
    intros H. unfold easy_make in H. apply bind_ok in H as (e & He & H). unfold anm6_init in H. apply bind_ok in H as (v & _ & H). apply bind_ok in H as (len & _ & H). injection H as <-. cbn [a_env]. split; [exact He|].
    unfold easy_env, env_init in He. apply bind_ok in He as (s & _ & He). apply bind_ok in He as (u & _ & He). apply bind_ok in He as (sv & _ & He). apply bind_ok in He as ((ov, ofn) & Eo & He). apply bind_ok in He as (osp & Ep & He).
    injection He as <-. cbn [e_ospace]. cbn [build_observation] in Eo. apply bind_ok in Eo as (lv & _ & Eo). injection Eo as <- <-. unfold observation_bounds in Ep. apply bind_ok in Ep as (bs & _ & Ep). injection Ep as <-. eauto.
  Qed.
End Easy.

(** Two episodes of ANM6Easy (any seeds, histories and dates, any numbers of steps, both still running) that are in the same state vector have the same future: every sequence
    of actions gets the same observations, rewards and ends. *)
Theorem C91_easy : forall (G : Type) (ro : rng_ops XR G) sf g g' a0 b0 cs cs' Or Or' seed seed' date date' a1 b1 ob ob' n n' a b,
  easy_make g = Ok a0 -> easy_make g' = Ok b0 ->
  easy_reset Or ro sf seed date (run6 ro sf a0 cs) = (a1, Ok ob) -> easy_reset Or' ro sf seed' date' (run6 ro sf b0 cs') = (b1, Ok ob') ->
  stepping ro sf alive n a1 a -> stepping ro sf alive n' b1 b -> e_state (a_env a) = e_state (a_env b) ->
  forall acts, play6 ro sf acts a = play6 ro sf acts b.
Proof.
  intros G ro sf g g' a0 b0 cs cs' Or Or' seed seed' date date' a1 b1 ob ob' n n' a b Ba Bb Ra Rb Sa Sb Es acts.
  destruct (easy_make_space g a0 Ba) as (Ia & sp & Osp). destruct (easy_make_space g' b0 Bb) as (Ib & _).
  pose proof (init_rng _ _ _ _ _ _ _ _ _ _ _ _ Ia Ib) as E0.
  destruct (easy_live_stepping ro sf g _ n a1 a Sa (easy_live_reset ro sf g a0 cs Or seed date a1 ob Ba Ra)) as ((Ga & _) & (l & El) & Oa & Ta & Da & Da' & Fa & La).
  destruct (easy_live_stepping ro sf g' _ n' b1 b Sb (easy_live_reset ro sf g' b0 cs' Or' seed' date' b1 ob' Bb Rb)) as ((Gb & _) & (l' & El') & Obb & Tb & Db & Db' & Fb & Lb).
  apply twin_play6; [|split; assumption|split; assumption].
  destruct (anm6_ids (F := XR)) as (I1 & I2 & I3 & I4). destruct (La _ _ _ I1 I3 I4) as (st & aux & Est & Ly). destruct (Lb _ _ _ I1 I3 I4) as (st' & aux' & Est' & Ly'). assert (st' = st) by congruence. subst st'.
  split; [|split; [|split; [congruence|split; [exact Es|]]]].
  - rewrite (gd_const _ _ _ _ _ _ _ _ _ _ _ Ga), (gd_const _ _ _ _ _ _ _ _ _ _ _ Gb), E0. reflexivity.
  - rewrite (Oa _ Osp). symmetry. apply Obb. rewrite E0. exact Osp.
  - intros _. rewrite E0 in El'. cbn [e_sim env_set_rng] in El'. rewrite El, El' in *. eapply (layouts_soc (anm6_network (F := XR)) _ _ (e_sim (a_env a0)) l l' 100); [apply (gd_sim0 _ Ga)|reflexivity|lra|exact I4|exact Fa|exact Fb|exact Ly|exact Ly'].
Qed.

Print Assumptions C91_markov.
Print Assumptions C91_easy.

(** C91: an episode after one step and another after two; the clocks differ, the state vectors and the generators agree. *)
Example C91_ex : exists (e0 : env XR nat) (cs cs' : list (ecall XR)), let c := EStep ex_or ex_idle_act in let e := erun ex_task e0 (cs ++ [c]) in let e' := erun ex_task e0 (cs' ++ [c]) in
  ex_args 2 (9/10) 1 100 = Ok e0 /\ nw_base (ex_nwk (2/10) 2) = Fin 10 /\ live_call ex_task (erun ex_task e0 cs) c /\ live_call ex_task (erun ex_task e0 cs') c /\
  e_state e = e_state e' /\ e_ospace e = e_ospace e' /\ e_rng e = e_rng e' /\ e_time e <> e_time e'.
Proof.
  destruct (ex_built 2 (9/10) 1 100) as (e0 & B); [lra|lra|].
  destruct (exe_reset_rng 2 (9/10) 1 100 e0 ltac:(lra) ltac:(lra) B [] (Some 1%Z)) as (ea & oa & Ra & La & Ga). destruct (exe_reset_rng 2 (9/10) 1 100 e0 ltac:(lra) ltac:(lra) B [] (Some 0%Z)) as (eb & obb & Rb & Lb & Gb).
  destruct (exe_step_state 2 (9/10) 1 100 e0 ltac:(lra) ltac:(lra) B ea ltac:(lra) ltac:(lra) La) as (ea1 & oa1 & Sa & La1 & Sim & Ga1 & sta & Sta & Lya).
  destruct (exe_step_state 2 (9/10) 1 100 e0 ltac:(lra) ltac:(lra) B eb ltac:(lra) ltac:(lra) Lb) as (eb1 & ob1 & Sb & Lb1 & _ & Gb1 & _).
  destruct (exe_step_state 2 (9/10) 1 100 e0 ltac:(lra) ltac:(lra) B eb1 ltac:(lra) ltac:(lra) Lb1) as (eb2 & ob2 & Sb2 & _ & Simb & Gb2 & stb & Stb & Lyb).
  exists e0, [EReset ex_or (Some 1%Z)], [EReset ex_or (Some 0%Z); EStep ex_or ex_idle_act]. cbv zeta.
  assert (App : forall cs c, erun ex_task e0 (cs ++ [c]) = run_ecall ex_task (erun ex_task e0 cs) c) by (intros; unfold erun; rewrite fold_left_app; reflexivity).
  assert (E1 : erun ex_task e0 [EReset ex_or (Some 1%Z)] = ea).
  { pose proof (App [] (EReset ex_or (Some 1%Z))) as A. cbn [app] in A. rewrite A. cbn [run_ecall]. rewrite Ra. reflexivity. }
  assert (E0 : erun ex_task e0 [EReset ex_or (Some 0%Z)] = eb).
  { pose proof (App [] (EReset ex_or (Some 0%Z))) as A. cbn [app] in A. rewrite A. cbn [run_ecall]. rewrite Rb. reflexivity. }
  assert (E2 : erun ex_task e0 [EReset ex_or (Some 0%Z); EStep ex_or ex_idle_act] = eb1).
  { pose proof (App [EReset ex_or (Some 0%Z)] (EStep ex_or ex_idle_act)) as A. cbn [app] in A. rewrite A, E0. cbn [run_ecall]. rewrite Sb. reflexivity. }
  assert (E3 : erun ex_task e0 ([EReset ex_or (Some 1%Z)] ++ [EStep ex_or ex_idle_act]) = ea1).
  { rewrite App, E1. cbn [run_ecall]. rewrite Sa. reflexivity. }
  assert (E4 : erun ex_task e0 ([EReset ex_or (Some 0%Z); EStep ex_or ex_idle_act] ++ [EStep ex_or ex_idle_act]) = eb2).
  { rewrite App, E2. cbn [run_ecall]. rewrite Sb2. reflexivity. }
  split; [exact B|]. split; [reflexivity|].
  split; [rewrite E1; cbn [live_call]; eexists; rewrite Sa; split; reflexivity|]. split; [rewrite E2; cbn [live_call]; eexists; rewrite Sb2; split; reflexivity|].
  cbn [gen_at ex_task t_seed Z.to_nat] in Ga, Gb.
  split.
  { rewrite E3, E4, Sta, Stb. f_equal. destruct Lya as (_ & Lya), Lyb as (_ & Lyb). rewrite Sim, Ga in Lya. rewrite Simb, Gb1, Gb in Lyb. change (S (Pos.to_nat 1)) with 2%nat in Lya. change (S (S 0)) with 2%nat in Lyb. rewrite <- Lya in Lyb. clear -Lyb. revert sta Lyb.
    induction stb as [|x l IH]; intros [|y m] E; try discriminate; auto. cbn in E. injection E as -> E. f_equal. auto. }
  split.
  { destruct (e_ospace e0) as [sp|] eqn:Eo; [rewrite !(erun_ospace ex_task _ _ _ Eo); reflexivity|].
    exfalso. pose proof (good_erun _ _ _ _ _ _ _ _ _ _ ex_task [] B) as Hg. destruct (ProofObsEnv.built_in (gd_init _ _ _ _ _ _ _ _ _ _ _ Hg) ltac:(discriminate)) as (items & sp & _ & _ & E & _). congruence. }
  split; [rewrite E3, E4, Ga1, Gb2, Gb1, Ga, Gb; reflexivity|].
  rewrite E3, E4.
  assert (Tm : forall cs e e' out, e = erun ex_task e0 cs -> env_step ex_or ex_task ex_idle_act e = (e', Ok out) -> so_terminated out = false -> e_time e' = (e_time e + 1)%Z).
  { intros cs e e' out -> Es Nt. pose proof (good_erun _ _ _ _ _ _ _ _ _ _ ex_task cs B) as Hg. destruct (gd_step_inv _ _ _ _ _ _ Hg Es) as [(_ & _ & _ & sp & _ & ->)|(st & vars & el & pen & conv & L)]; [discriminate|]. exact (lv_time _ _ _ _ _ _ _ _ _ _ _ L). }
  rewrite (Tm _ _ _ _ (eq_sym E1) Sa eq_refl), (Tm _ _ _ _ (eq_sym E2) Sb2 eq_refl). destruct Lb as ((cb & Ecb) & _). rewrite (Tm cb eb eb1 _ Ecb Sb eq_refl).
  apply env_reset_const in Ra, Rb. destruct Ra as (_ & _ & _ & Ta & _). destruct Rb as (_ & _ & _ & Tb & _). rewrite Ta, Tb. lia.
Qed.
