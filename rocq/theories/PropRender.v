(** Rendering: frame skipping (C54), server processes (C55), initialisation of the browsers (C56). *)
From Coq Require Import Znumtheory.
From Verif Require Import Base Num Devices BusBranch CheckNetwork LoadFlow Simulator EnvArgs Env Anm6 LibBase LibNum LibSim
  SpecNet ProofNet LibInit SpecSim ProofSim ProofObs ProofHist ProofReset SpecEnv ProofEnv ProofStep ProofState ProofDraw ProofEnvOk SpecAnm6 ProofEasy SpecRender.
Local Open Scope string_scope.
Local Open Scope list_scope.
Set Bullet Behavior "Strict Subproofs".

Section Render.
  Context {F G : Type} {N : Num F}.
  Notation env := (env F G). Notation anm6 := (anm6 F G).

  (** ---- what is shown ---- *)
  Lemma lookup_all {A} (key : A -> eid) (f : A -> F) l : NoDup (map key l) ->
    map Some (map snd (map (fun x => (key x, f x)) l)) = map (dget eid_eqb (map (fun x => (key x, f x)) l)) (map key l).
  Proof.
    intros ND. rewrite !map_map. cbn [snd]. apply map_ext_in. intros x I. symmetry. apply (dget_objs key f); auto.
  Qed.
  Definition shown_units : list (string * string) :=
    [("dev_p", "MW"); ("dev_q", "MVAr"); ("branch_s", "MVA"); ("des_soc", "MWh"); ("gen_p_max", "MW"); ("bus_v_magn", "pu")].
  Lemma column_vals nw dt lamb (s0 s : sim F) st k u : sim_init nw dt lamb = Ok s0 -> strip s = strip s0 -> gathered s0 s -> sm_state s = Some st ->
    In (k, u) shown_units -> exists l, dict_vals st k u = Ok l /\ column s k u l.
  Proof.
    intros H S Gt E I. destruct Gt as [Gt|(s1 & Pf & Gs & _)]; [congruence|]. rewrite E in Gs. injection Gs as ->.
    assert (S1 : strip s1 = strip s0) by (apply from_pf_strip in Pf; auto).
    pose proof (static_nodup _ _ _ _ _ H S1) as N1. pose proof (static_bus_nodup _ _ _ _ _ H S1) as N2. pose proof (static_br_nodup _ _ _ _ _ H S1) as N3.
    unfold column, elements. rewrite (state_space_static s s1) by congruence. unfold obs. rewrite E. unfold dict_vals, read.
    cbn [In shown_units] in I. decompose [or] I; try contradiction; match goal with K : _ = _ |- _ => injection K as <- <- end;
      (eexists; split; [reflexivity|]).
    - refine (eq_trans (lookup_all (fun d => EId (d_id d)) _ _ _) _); [apply eid_nodup, NoDup_filter; auto|]. cbn. rewrite !map_map. reflexivity.
    - refine (eq_trans (lookup_all (fun d => EId (d_id d)) _ _ _) _); [apply eid_nodup, NoDup_filter; auto|]. cbn. rewrite !map_map. reflexivity.
    - refine (eq_trans (lookup_all (fun b => EBr (ln_f b) (ln_t b)) _ _ _) _); [auto|]. cbn. rewrite !map_map. reflexivity.
    - refine (eq_trans (lookup_all (fun d => EId (d_id d)) _ _ _) _); [apply eid_nodup, NoDup_filter; auto|]. cbn. rewrite !map_map. reflexivity.
    - refine (eq_trans (lookup_all (fun d => EId (d_id d)) _ _ _) _); [apply eid_nodup, NoDup_filter; auto|]. cbn. rewrite !map_map. reflexivity.
    - refine (eq_trans (lookup_all (fun d => EId (b_id d)) _ _ _) _); [apply eid_nodup; auto|]. cbn. rewrite !map_map. reflexivity.
  Qed.

  (** the simulator of an environment that has been used *)
  Definition simok (s0 s : sim F) : Prop := strip s = strip s0 /\ gathered s0 s.
  Lemma send_cases nw dt lamb (s0 : sim F) up (a : anm6) c : sim_init nw dt lamb = Ok s0 -> simok s0 (e_sim (a_env a)) ->
    rd_cur (a_rd a) = Some c -> In c (rd_live (a_rd a)) ->
    (exists f, send_frame up a = Ok f /\ pictures a f) \/
    (exists x, send_frame up a = Err x) /\ (up = false \/ sm_state (e_sim (a_env a)) = None \/ a_date a = None).
  Proof.
    intros H (S & Gt) Ec L. unfold send_frame. destruct (sm_state (e_sim (a_env a))) as [st|] eqn:E; [|right; eauto].
    assert (C : forall k u, In (k, u) shown_units -> exists l, dict_vals st k u = Ok l /\ column (e_sim (a_env a)) k u l) by (intros; eapply column_vals; eauto).
    destruct (C "dev_p" "MW") as (l1 & -> & C1); [cbn; tauto|]. destruct (C "dev_q" "MVAr") as (l2 & -> & C2); [cbn; tauto|].
    destruct (C "branch_s" "MVA") as (l3 & -> & C3); [cbn; tauto|]. destruct (C "des_soc" "MWh") as (l4 & -> & C4); [cbn; tauto|].
    destruct (C "gen_p_max" "MW") as (l5 & -> & C5); [cbn; tauto|]. destruct (C "bus_v_magn" "pu") as (l6 & -> & C6); [cbn; tauto|].
    cbn [bind]. rewrite Ec. replace (existsb (Nat.eqb c) (rd_live (a_rd a))) with true by (symmetry; apply existsb_exists; exists c; split; [auto|apply Nat.eqb_refl]).
    destruct up; [|right; cbn; eauto]. cbn [andb]. destruct (a_date a) as [d|] eqn:Ed; [|right; eauto].
    left. eexists. split; [reflexivity|]. split; cbn; auto.
    destruct (sm_conv _) as [[|]|]; cbn; split; congruence.
  Qed.
  Lemma simok_step s0 Or T act (a : anm6) : simok s0 (e_sim (a_env a)) -> simok s0 (e_sim (a_env (fst (anm6_step Or T act a)))).
  Proof.
    intros (S & Gt). unfold anm6_step. pose proof (stepped_const _ _ _ _ _ _ (env_stepped Or T act (a_env a))) as (_ & _ & E).
    assert (K : simok s0 (e_sim (fst (env_step Or T act (a_env a))))).
    { destruct E as [E|(inp & E)]; rewrite E; [split; auto|]. split; [rewrite strip_transition; auto|]. apply gathered_trans; auto. }
    destruct (env_step _ _ _ _) as (e', [ob|x]); [|auto]. destruct (a_date a); [destruct (a_date_init a)|]; auto.
  Qed.
  Lemma simok_reset s0 Or T ro seed date (a : anm6) : simok s0 (e_sim (a_env a)) -> simok s0 (e_sim (a_env (fst (anm6_reset Or T ro seed date a)))).
  Proof.
    intros (S & Gt). unfold anm6_reset. destruct (env_reset Or T seed (a_env a)) as (e', r) eqn:Er.
    apply env_reset_const in Er as (_ & _ & _ & _ & _ & _ & l' & E' & _).
    assert (K : simok s0 (e_sim e')).
    { rewrite E'. clear E'. revert S Gt. generalize (e_sim (a_env a)). induction l' as [|c l' IH]; intros s S Gt; [split; auto|].
      cbn [run fold_left]. apply IH; [rewrite strip_run_call; auto|apply gathered_call; auto]. }
    destruct r as [ob|x]; [|auto]. destruct date; [auto|]. destruct (random_date ro 0 (e_rng e')); auto.
  Qed.
  Lemma simok_arun s0 ro cs : forall a : anm6, simok s0 (e_sim (a_env a)) -> simok s0 (e_sim (a_env (arun ro a cs))).
  Proof.
    induction cs as [|c cs IH]; intros a H; [auto|]. apply IH. destruct c; cbn [run_acall].
    - pose proof (simok_reset s0 Or T ro seed date a H) as K. destruct (anm6_reset _ _ _ _ _ _); auto.
    - pose proof (simok_step s0 Or T action a H) as K. destruct (anm6_step _ _ _ _); auto.
    - auto.
    - destruct (render_keeps human skip started up a) as (A & _). destruct (anm6_render human skip started up a). cbn [fst] in *. rewrite A. auto.
    - auto.
  Qed.

  (** ---- frame skipping ---- *)
  Definition skipping (k : Z) (m : nat) (a : anm6) : Prop :=
    match m with
    | O => rd_mode (a_rd a) = false
    | S _ => rd_mode (a_rd a) = true /\ rd_skipped (a_rd a) = (Z.of_nat m mod (k + 1))%Z /\ exists c, rd_cur (a_rd a) = Some c /\ In c (rd_live (a_rd a))
    end.
  Lemma step_rd Or T act (a : anm6) : a_rd (fst (anm6_step Or T act a)) = a_rd a.
  Proof. unfold anm6_step. destruct (env_step _ _ _ _) as (e', [ob|x]); [|auto]. destruct (a_date a); [destruct (a_date_init a)|]; auto. Qed.
  Lemma reset_rd Or T ro seed date (a : anm6) :
    (exists ob, snd (anm6_reset Or T ro seed date a) = Ok ob /\ a_rd (fst (anm6_reset Or T ro seed date a)) = a_rd a) \/
    (exists x, snd (anm6_reset Or T ro seed date a) = Err x /\ a_rd (fst (anm6_reset Or T ro seed date a)) = rd_set_mode (a_rd a) false).
  Proof.
    unfold anm6_reset. destruct (env_reset Or T seed (a_env a)) as (e', [ob|x]); [left; exists ob|right; exists x; auto].
    destruct date; [auto|]. destruct (random_date ro 0 (e_rng e')); auto.
  Qed.
  (** one call to the updating branch *)
  Lemma update_cases k m up (a : anm6) : (0 <= k)%Z -> rd_skipped (a_rd a) = (Z.of_nat m mod (k + 1))%Z ->
    let a1 := a_set_rd a (rd_set_skipped (a_rd a) (Z.of_nat (S m) mod (k + 1))) in
    ((k + 1 | Z.of_nat (S m))%Z -> (exists f, send_frame up a1 = Ok f /\ snd (render_update k up a) = Ok tt /\
         fst (render_update k up a) = a_set_rd a1 (mkRs (rd_mode (a_rd a)) (Z.of_nat (S m) mod (k + 1)) (rd_isr (a_rd a)) (rd_live (a_rd a)) (rd_cur (a_rd a)) (rd_next (a_rd a)) (rd_frames (a_rd a) ++ [f]))) \/
       (exists x, send_frame up a1 = Err x /\ render_update k up a = (a1, Err x))) /\
    (~ (k + 1 | Z.of_nat (S m))%Z -> render_update k up a = (a1, Ok tt)).
  Proof.
    intros Hk Es a1. unfold render_update. replace (Z.eqb (k + 1) 0) with false by (symmetry; apply Z.eqb_neq; lia).
    rewrite Es. rewrite Zplus_mod_idemp_l. replace (Z.of_nat m + 1)%Z with (Z.of_nat (S m)) by lia. fold a1.
    split; intros D.
    - replace (Z.eqb (Z.of_nat (S m) mod (k + 1)) 0) with true by (symmetry; apply Z.eqb_eq, Zdivide_mod; auto). cbn [negb]. destruct (send_frame up a1) as [f|x] eqn:E; [left; exists f; auto|right; exists x; auto].
    - destruct (Z.eqb_spec (Z.of_nat (S m) mod (k + 1)) 0) as [E|E]; [|reflexivity]. exfalso. apply D. apply Zmod_divide; [lia|auto].
  Qed.
  Lemma pictures_rd (a : anm6) r f : pictures (a_set_rd a r) f <-> pictures a f.
  Proof. split; intros []; constructor; auto. Qed.

  Context (nw : network F) (dt lamb : F) (s0 : sim F) (H0 : sim_init nw dt lamb = Ok s0).
  Lemma render_cases k m human started up (a : anm6) : (0 <= k)%Z -> skipping k m a -> simok s0 (e_sim (a_env a)) -> (m = 0%nat -> human = true /\ started = true) ->
    let a' := fst (anm6_render human k started up a) in let r := snd (anm6_render human k started up a) in
    skipping k (S m) a' /\
    ((k + 1 | Z.of_nat (S m))%Z -> r = Ok tt /\ (exists f, pictures a f /\ rd_frames (a_rd a') = rd_frames (a_rd a) ++ [f]) \/
      r <> Ok tt /\ rd_frames (a_rd a') = rd_frames (a_rd a) /\ (up = false \/ sm_state (e_sim (a_env a)) = None \/ a_date a = None)) /\
    (~ (k + 1 | Z.of_nat (S m))%Z -> r = Ok tt /\ rd_frames (a_rd a') = rd_frames (a_rd a)).
  Proof.
    intros Hk Sk Ok0 Hm.
    assert (One : forall (a : anm6) c, simok s0 (e_sim (a_env a)) -> rd_mode (a_rd a) = true -> rd_skipped (a_rd a) = (Z.of_nat m mod (k + 1))%Z -> rd_cur (a_rd a) = Some c -> In c (rd_live (a_rd a)) ->
      let a' := fst (render_update k up a) in let r := snd (render_update k up a) in
      (rd_mode (a_rd a') = true /\ rd_skipped (a_rd a') = (Z.of_nat (S m) mod (k + 1))%Z /\ rd_cur (a_rd a') = Some c /\ In c (rd_live (a_rd a'))) /\
      ((k + 1 | Z.of_nat (S m))%Z -> r = Ok tt /\ (exists f, pictures a f /\ rd_frames (a_rd a') = rd_frames (a_rd a) ++ [f]) \/
        r <> Ok tt /\ rd_frames (a_rd a') = rd_frames (a_rd a) /\ (up = false \/ sm_state (e_sim (a_env a)) = None \/ a_date a = None)) /\
      (~ (k + 1 | Z.of_nat (S m))%Z -> r = Ok tt /\ rd_frames (a_rd a') = rd_frames (a_rd a))).
    { clear a Sk Ok0 Hm. intros a c Oka Ma Es Ec L. destruct (update_cases k m up a Hk Es) as (U1 & U2). cbv zeta in U1, U2 |- *.
      set (a1 := a_set_rd a (rd_set_skipped (a_rd a) (Z.of_nat (S m) mod (k + 1)))) in *.
      destruct (Zdivide_dec (k + 1) (Z.of_nat (S m))) as [D|D].
      - specialize (U1 D). clear U2. destruct U1 as [(f & E1 & E2 & E3)|(x & E1 & E2)].
        + rewrite E2, E3. cbn [a_rd a_set_rd rd_mode rd_skipped rd_cur rd_live rd_frames]. split; [auto|]. split; [|tauto]. intros _. left. split; [auto|]. exists f. split; [|auto].
          destruct (send_cases nw dt lamb s0 up a1 c H0 Oka Ec L) as [(f' & E1' & P)|((x & E1') & _)]; [|congruence].
          rewrite E1 in E1'. injection E1' as <-. apply (pictures_rd a (rd_set_skipped (a_rd a) (Z.of_nat (S m) mod (k + 1)))). exact P.
        + rewrite E2. cbn [fst snd]. split; [cbn; auto|]. split; [|tauto]. intros _. right. split; [discriminate|]. split; [reflexivity|].
          destruct (send_cases nw dt lamb s0 up a1 c H0 Oka Ec L) as [(f' & E1' & P)|(_ & P)]; [congruence|]. exact P.
      - rewrite (U2 D). cbn [fst snd]. split; [cbn; auto|]. split; [tauto|]. intros _. split; [auto|reflexivity]. }
    unfold anm6_render. destruct m as [|m].
    - cbn [skipping] in Sk. rewrite Sk. destruct (Hm eq_refl) as (-> & ->). cbn [negb].
      set (a1 := a_set_rd a _). specialize (One a1 (rd_next (a_rd a)) Ok0 eq_refl). cbn [Z.of_nat] in One. rewrite Zmod_0_l in One. specialize (One eq_refl eq_refl (or_introl eq_refl)).
      cbv zeta in One. destruct (render_update k up a1) as (a2, [u|x]); cbn [fst snd] in One |- *; destruct One as ((M1 & M2 & M3 & M4) & D1 & D2).
      + split; [split; [auto|split; [exact M2|eauto]]|]. destruct u. split; [|intros ND; destruct (D2 ND) as (_ & D2'); split; [auto|exact D2']]. intros D. destruct (D1 D) as [(_ & f & P & E)|(K & _)]; [|congruence].
        left. split; [auto|]. exists f. split; [|exact E]. apply pictures_rd in P. exact P.
      + split; [split; [auto|split; [exact M2|eauto]]|]. split; [|intros ND; destruct (D2 ND); discriminate]. intros D. destruct (D1 D) as [(K & _)|(K & E)]; [discriminate|]. right. split; [auto|]. exact E.
    - cbn [skipping] in Sk. destruct Sk as (Ma & Es & c & Ec & L). rewrite Ma. destruct (One a c Ok0 Ma Es Ec L) as ((M1 & M2 & M3 & M4) & D1 & D2).
      split; [split; [auto|split; [auto|eauto]]|]. auto.
  Qed.
  Lemma session_inv ro k m (a a' : anm6) : (0 <= k)%Z -> session ro k m a a' -> simok s0 (e_sim (a_env a)) -> skipping k m a' /\ simok s0 (e_sim (a_env a')).
  Proof.
    intros Hk. induction 1 as [a|m a a1 Or T act Hs IH|m a a1 d Hs IH|m a a1 Or T seed date Hs IH R|m a a1 human started up Hs IH R]; intros Hsim; try specialize (IH Hsim).
    - split; auto.
    - destruct IH as (A & B). split; [|apply simok_step; auto]. unfold skipping. rewrite step_rd. exact A.
    - destruct IH as (A & B). split; [exact A|exact B].
    - destruct IH as (A & B). split; [|apply simok_reset; auto]. unfold skipping in *. destruct (reset_rd Or T ro seed date a1) as [(ob & E1 & E2)|(x & E1 & E2)]; rewrite E2; [exact A|].
      destruct R as [->|(ob & R)]; [reflexivity|congruence].
    - destruct IH as (A & B). split; [apply (render_cases k m human started up a1); auto|]. destruct (render_keeps human k started up a1) as (E & _). cbv zeta in E. rewrite E. auto.
  Qed.
End Render.

(** ---- C54 ---- *)
(** C54.  With a constant [skip_frames = k], whatever the calls made in between (but [close], and a [reset] that raises), the call number [m]
    to [render] sends a frame iff [k + 1] divides [m]; the frame shows the current date, state and costs.  Such a call raises, sending nothing, only if
    the server cannot be reached or the environment has never been reset.  No other call sends a frame. *)
Theorem C54_every_kth_call : forall (F G : Type) (N : Num F) (nw : network F) o K dt gamma lamb auxb clip (g : G) e0 a0 ro cs k m a,
  env_init nw o K dt gamma lamb auxb clip g = Ok e0 -> anm6_init dt e0 = Ok a0 -> (0 <= k)%Z -> session ro k m (arun ro a0 cs) a ->
  (forall human started up, (m = 0%nat -> human = true /\ started = true) ->
    let '(a', r) := anm6_render human k started up a in
    ((k + 1 | Z.of_nat (m + 1))%Z ->
       r = Ok tt /\ (exists f, pictures a f /\ rd_frames (a_rd a') = rd_frames (a_rd a) ++ [f]) \/
       r <> Ok tt /\ rd_frames (a_rd a') = rd_frames (a_rd a) /\ (up = false \/ sm_state (e_sim (a_env a)) = None \/ a_date a = None)) /\
    (~ (k + 1 | Z.of_nat (m + 1))%Z -> r = Ok tt /\ rd_frames (a_rd a') = rd_frames (a_rd a))) /\
  (forall c, match c with ARender _ _ _ _ => False | _ => True end -> rd_frames (a_rd (fst (run_acall ro a c))) = rd_frames (a_rd a)).
Proof.
  intros F G N nw o K dt gamma lamb auxb clip g e0 a0 ro cs k m a B A Hk Ss. apply env_init_inv in B. pose proof (ei_sim _ _ _ _ _ _ _ _ _ _ B) as Hs.
  assert (K0 : simok (e_sim e0) (e_sim (a_env a0))).
  { unfold anm6_init in A. apply bind_ok in A as (u & _ & A). apply bind_ok in A as (len & _ & A). injection A as <-. split; [reflexivity|]. apply (gathered_run _ _ _ _ [] Hs). }
  destruct (session_inv nw dt lamb (e_sim e0) Hs ro k m _ a Hk Ss (simok_arun _ ro cs a0 K0)) as (Sk & Ok1). split.
  - intros human started up Hm. destruct (render_cases nw dt lamb (e_sim e0) Hs k m human started up a Hk Sk Ok1 Hm) as (_ & R). replace (m + 1)%nat with (S m) by lia.
    destruct (anm6_render human k started up a) as (a', r). exact R.
  - intros c Hc. destruct c; cbn [run_acall]; try contradiction.
    + destruct (reset_rd Or T ro seed date a) as [(ob & _ & E)|(x & _ & E)]; destruct (anm6_reset _ _ _ _ _ _); cbn [fst] in *; rewrite E; reflexivity.
    + pose proof (step_rd Or T action a) as E. destruct (anm6_step _ _ _ _). cbn [fst] in *. rewrite E. reflexivity.
    + reflexivity.
    + reflexivity.
Qed.

(** ---- C55 ---- *)
Section Servers.
  Context {F G : Type} {N : Num F}.
  Notation anm6 := (anm6 F G).
  Definition servers_ok (a : anm6) : Prop :=
    let r := a_rd a in
    if rd_mode r then rd_isr r = true /\ exists c, rd_cur r = Some c /\ rd_live r = [c] else rd_live r = [].
  Lemma update_rd skip up (a : anm6) : let a' := fst (render_update skip up a) in
    rd_mode (a_rd a') = rd_mode (a_rd a) /\ rd_isr (a_rd a') = rd_isr (a_rd a) /\ rd_cur (a_rd a') = rd_cur (a_rd a) /\ rd_live (a_rd a') = rd_live (a_rd a) /\ rd_next (a_rd a') = rd_next (a_rd a).
  Proof. unfold render_update. destruct (Z.eqb _ _); [auto|]. destruct (negb _); [auto|]. destruct (send_frame _ _); auto. Qed.
  Lemma close_live (a : anm6) : servers_ok a -> rd_live (a_rd (anm6_close a)) = [].
  Proof.
    unfold servers_ok, anm6_close. cbn [a_rd a_set_rd rd_live]. destruct (rd_mode (a_rd a)).
    - intros (-> & c & -> & ->). cbn. rewrite Nat.eqb_refl. reflexivity.
    - intros ->. destruct (rd_isr (a_rd a)); [|auto]. destruct (rd_cur (a_rd a)); reflexivity.
  Qed.
  Lemma servers_run ro cs : forall a : anm6, servers_ok a -> tidy ro a cs -> servers_ok (arun ro a cs).
  Proof.
    induction cs as [|c cs IH]; intros a H Ht; [exact H|]. destruct Ht as (T1 & T2). unfold arun. cbn [fold_left]. apply IH; [|exact T2]. clear IH T2. destruct c as [Or T seed date|Or T action|d|human skip started up|].
    - unfold servers_ok in *. cbn [run_acall] in *. pose proof (reset_rd Or T ro seed date a) as R. destruct (anm6_reset Or T ro seed date a) as (a', r). cbn [fst snd] in *.
      destruct R as [(ob & _ & ->)|(x & -> & ->)]; [exact H|]. cbn. destruct (rd_mode (a_rd a)); [specialize (T1 eq_refl); discriminate|exact H].
    - unfold servers_ok in *. cbn [run_acall]. pose proof (step_rd Or T action a) as R. destruct (anm6_step Or T action a). cbn [fst] in *. rewrite R. exact H.
    - exact H.
    - cbn [run_acall] in T1 |- *. unfold anm6_render in *. unfold servers_ok in H. destruct (rd_mode (a_rd a)) eqn:M.
      + pose proof (update_rd skip up a) as U. destruct (render_update skip up a) as (a', r). cbn [fst] in *. destruct U as (U1 & U2 & U3 & U4 & _). unfold servers_ok. rewrite U1, U2, U3, U4, M. exact H.
      + destruct human; cbn [negb] in *; [|unfold servers_ok; cbn [fst]; rewrite M; exact H]. specialize (T1 eq_refl eq_refl). destruct started; [|discriminate].
        match goal with |- context [render_update skip up ?x] => pose proof (update_rd skip up x) as U; destruct (render_update skip up x) as (a', [u|x']) end; [|discriminate].
        cbn [fst] in *. destruct U as (U1 & U2 & U3 & U4 & _). unfold servers_ok. cbn [a_rd a_set_rd rd_set_isr rd_mode rd_isr rd_cur rd_live] in *. rewrite U1, U3, U4, H. split; [auto|]. eauto.
    - cbn [run_acall fst]. unfold servers_ok at 1. cbn [rd_mode a_rd anm6_close a_set_rd]. apply close_live; auto.
  Qed.
End Servers.
(** C55, what holds: as long as no reset made while rendering and no first call to [render] raises, at most one pair of servers runs, and none
    after [close]. *)
Theorem C55_servers_partial : forall (F G : Type) (N : Num F) dt e0 (a0 : anm6 F G) ro cs,
  anm6_init dt e0 = Ok a0 -> tidy ro a0 cs ->
  (List.length (rd_live (a_rd (arun ro a0 cs))) <= 1)%nat /\ rd_live (a_rd (arun ro a0 (cs ++ [AClose]))) = [].
Proof.
  intros F G N dt e0 a0 ro cs A T. assert (H : servers_ok a0).
  { unfold anm6_init in A. apply bind_ok in A as (u & _ & A). apply bind_ok in A as (len & _ & A). injection A as <-. reflexivity. }
  pose proof (servers_run ro cs a0 H T) as S. split.
  - unfold servers_ok in S. destruct (rd_mode _); [destruct S as (_ & c & _ & ->)|rewrite S]; cbn; lia.
  - unfold arun. rewrite fold_left_app. cbn [fold_left run_acall fst]. apply close_live. exact S.
Qed.
(** C55 is false otherwise.  Rendering before the first reset raises, and leaves a pair of servers that [close] does not stop; rendering again
    starts a second pair. *)
Theorem C55_render_before_reset_refuted : forall (F G : Type) (N : Num F) (nw : network F) o K dt gamma lamb auxb clip (g : G) e0 a0 ro,
  env_init nw o K dt gamma lamb auxb clip g = Ok e0 -> anm6_init dt e0 = Ok a0 ->
  let r := ARender true 0 true true in
  snd (run_acall ro a0 r) <> None /\
  List.length (rd_live (a_rd (arun ro a0 [r; AClose]))) = 1%nat /\ List.length (rd_live (a_rd (arun ro a0 [r; AClose; r]))) = 2%nat.
Proof.
  intros F G N nw o K dt gamma lamb auxb clip g e0 a0 ro B A r. apply env_init_inv in B. pose proof (ei_sim _ _ _ _ _ _ _ _ _ _ B) as Hs.
  assert (St : sm_state (e_sim e0) = None) by (destruct (sim_init_built _ _ _ _ Hs) as (bs & ds & Bt); apply Bt).
  unfold anm6_init in A. apply bind_ok in A as (u & _ & A). apply bind_ok in A as (len & _ & A). injection A as <-.
  unfold arun, r. cbn [fold_left run_acall]. unfold anm6_render, render_update, send_frame. cbn. rewrite !St. cbn. rewrite !St. cbn. repeat split; discriminate.
Qed.
(** ... and so does a reset that raises while rendering: the environment forgets that it is rendering. *)
Theorem C55_failed_reset_refuted : forall (F G : Type) (N : Num F) (a : anm6 F G) ro Or T seed date x,
  rd_mode (a_rd a) = true -> List.length (rd_live (a_rd a)) = 1%nat -> snd (run_acall ro a (AReset Or T seed date)) = Some x ->
  List.length (rd_live (a_rd (arun ro a [AReset Or T seed date; ARender true 0 true true]))) = 2%nat.
Proof.
  intros F G N a ro Or T seed date x M L E. unfold arun. cbn [fold_left]. cbn [run_acall] in *. pose proof (reset_rd Or T ro seed date a) as R.
  destruct (anm6_reset Or T ro seed date a) as (a', r). cbn [fst snd] in *. destruct R as [(ob & -> & _)|(y & _ & R)]; [discriminate|].
  unfold anm6_render. rewrite R. cbn [rd_mode rd_set_mode negb].
  match goal with |- context [render_update ?s ?u ?x] => pose proof (update_rd s u x) as U; destruct (render_update s u x) as (a2, [v|z]) end;
    cbn [fst] in *; destruct U as (_ & _ & _ & U & _); cbn [a_rd a_set_rd rd_set_isr rd_live] in *; rewrite U, <- L; reflexivity.
Qed.

(** ---- C56 ---- *)
Section Ws.
  Context {M : Type}.
  Lemma ws_run_app (s : ws_state M) es es' : ws_run s (es ++ es') = (fst (ws_run (fst (ws_run s es)) es'), snd (ws_run s es) ++ snd (ws_run (fst (ws_run s es)) es')).
  Proof.
    revert s; induction es as [|e es IH]; intros s; [cbn; destruct (ws_run s es'); auto|]. cbn [app ws_run]. destruct (ws_step s e) as (s1, o1). rewrite IH.
    destruct (ws_run s1 es) as (s2, o2). cbn [fst snd]. rewrite app_assoc. reflexivity.
  Qed.
  Lemma received_app (s : ws_state M) es es' c : received s (es ++ es') c = received s es c ++ received (fst (ws_run s es)) es' c.
  Proof. unfold received. rewrite ws_run_app. cbn [snd]. rewrite filter_app, map_app. reflexivity. Qed.
  Lemma received_cons (s : ws_state M) e es c : received s (e :: es) c = map snd (filter (fun x => Nat.eqb (fst x) c) (snd (ws_step s e))) ++ received (fst (ws_step s e)) es c.
  Proof. unfold received. cbn [ws_run]. destruct (ws_step s e) as (s1, o1). cbn [fst snd]. destruct (ws_run s1 es). cbn [snd]. rewrite filter_app, map_app. reflexivity. Qed.
  (** a client that does not connect in [es] only gets updates in [es]; it gets none if it was not connected *)
  Lemma received_old (s : ws_state M) es c : ~ connects c es -> Forall is_update (received s es c) /\ (~ In c (ws_conn s) -> received s es c = []).
  Proof.
    revert s; induction es as [|e es IH]; intros s Nc; [split; [constructor|auto]|].
    rewrite received_cons. destruct (IH (fst (ws_step s e))) as (I1 & I2); [intros K; apply Nc; right; exact K|].
    assert (O : Forall is_update (map snd (filter (fun x => Nat.eqb (fst x) c) (snd (ws_step s e)))) /\ (~ In c (ws_conn s) -> map snd (filter (fun x => Nat.eqb (fst x) c) (snd (ws_step s e))) = [] /\ ~ In c (ws_conn (fst (ws_step s e))))).
    { destruct e as [c'|c' [m|m]|c']; cbn [ws_step fst snd ws_conn].
      - assert (Ne : c' <> c) by (intros ->; apply Nc; left; reflexivity).
        assert (E : filter (fun x => Nat.eqb (fst x) c) (match ws_init s with Some (m, c0) => if Nat.eqb c' c0 then [] else [(c', m)] | None => [] end) = []).
        { destruct (ws_init s) as [(m, c0)|]; [destruct (Nat.eqb c' c0)|]; cbn; auto. replace (Nat.eqb c' c) with false by (symmetry; apply Nat.eqb_neq; auto). reflexivity. }
        rewrite E. split; [constructor|]. intros H. split; [auto|]. intros I. apply in_app_iff in I as [I|[I|[]]]; auto.
      - split; [constructor|auto].
      - split.
        + apply Forall_forall. intros x I. apply in_map_iff in I as ((k, y) & <- & I). apply filter_In in I as (I & _). apply in_map_iff in I as (z & I & _). injection I as _ <-. exists m. reflexivity.
        + intros H. split; [|auto]. assert (E : filter (fun x : nat * ws_msg M => Nat.eqb (fst x) c) (map (fun k => (k, MUpdate m)) (ws_conn s)) = []); [|rewrite E; auto].
          induction (ws_conn s) as [|k l IHl]; [auto|]. cbn. destruct (Nat.eqb_spec k c); [exfalso; apply H; left; auto|]. apply IHl. intros I. apply H. right; auto.
      - split; [constructor|]. intros H. split; [auto|]. intros I. apply filter_In in I as (I & _). auto. }
    destruct O as (O1 & O2). split; [apply Forall_app; auto|]. intros H. destruct (O2 H) as (-> & O3). rewrite (I2 O3). reflexivity.
  Qed.
  Lemma conn_fresh (s : ws_state M) es c : ~ connects c es -> ~ In c (ws_conn s) -> ~ In c (ws_conn (fst (ws_run s es))).
  Proof.
    revert s; induction es as [|e es IH]; intros s Nc H; [auto|]. cbn [ws_run].
    assert (K : ~ In c (ws_conn (fst (ws_step s e)))).
    { destruct e as [c'|c' [m|m]|c']; cbn [ws_step fst ws_conn]; auto.
      - intros I. apply in_app_iff in I as [I|[I|[]]]; auto. subst c'. apply Nc. left. reflexivity.
      - intros I. apply filter_In in I as (I & _). auto. }
    destruct (ws_step s e) as (s1, o1). cbn [fst] in K. specialize (IH s1 (fun K' => Nc (or_intror K')) K). destruct (ws_run s1 es). exact IH.
  Qed.
  (** [ws_init] after a schedule: the last init message processed *)
  Lemma init_of (es : list (ws_event M)) : forall s, (inits es \/ ws_init s <> None) -> (forall m0 c0, ws_init s = Some (m0, c0) -> exists m, m0 = MInit m) ->
    exists m c0, ws_init (fst (ws_run s es)) = Some (MInit m, c0) /\ (In (WMsg c0 (MInit m)) es \/ ws_init s = Some (MInit m, c0)).
  Proof.
    induction es as [|e es IH]; intros s H W.
    - cbn. destruct H as [(c & m & [])|H]. destruct (ws_init s) as [(m0, c0)|] eqn:E; [|congruence]. destruct (W _ _ eq_refl) as (m & ->). eauto.
    - cbn [ws_run]. assert (K : exists m c0, ws_init (fst (ws_run (fst (ws_step s e)) es)) = Some (MInit m, c0) /\ (In (WMsg c0 (MInit m)) es \/ ws_init (fst (ws_step s e)) = Some (MInit m, c0))).
      { apply IH.
        - destruct e as [c'|c' [m|m]|c']; cbn [ws_step fst ws_init]; try (right; discriminate);
            (destruct H as [(c & m' & [K|K])|H]; [discriminate|left; exists c, m'; exact K|right; exact H]).
        - destruct e as [c'|c' [m|m]|c']; cbn [ws_step fst ws_init]; auto. intros m0 c0 K. injection K as <- _. eauto. }
      destruct K as (m & c0 & K1 & K2). destruct (ws_step s e) as (s1, o1) eqn:E. cbn [fst] in K1, K2. exists m, c0. split; [destruct (ws_run s1 es); exact K1|].
      destruct K2 as [K2|K2]; [left; right; exact K2|]. destruct e as [c'|c' [m'|m']|c']; cbn [ws_step] in E; injection E as <- _; cbn [ws_init] in K2; auto.
      injection K2 as <- <-. left. left. reflexivity.
  Qed.
End Ws.
(** C56, what holds: a browser that connects after the server has processed an init message (and does so once) receives first that message,
    then updates only. *)
Theorem C56_late_client_partial : forall (M : Type) (es1 es2 : list (ws_event M)) c,
  inits es1 -> ~ connects c es1 -> ~ connects c es2 -> (forall m, ~ In (WMsg c m) es1) ->
  exists m us, received ws_empty (es1 ++ WConnect c :: es2) c = MInit m :: us /\ (exists c0, In (WMsg c0 (MInit m)) es1) /\ Forall is_update us.
Proof.
  intros M es1 es2 c Hi N1 N2 Ns. rewrite received_app, received_cons.
  rewrite (proj2 (received_old ws_empty es1 c N1)) by (cbn; auto). cbn [app].
  destruct (init_of es1 ws_empty (or_introl Hi)) as (m & c0 & E & S); [discriminate|]. destruct S as [S|S]; [|discriminate].
  cbn [ws_step fst snd]. rewrite E. assert (Ne : c <> c0) by (intros ->; apply (Ns (MInit m)); auto).
  replace (Nat.eqb c c0) with false by (symmetry; apply Nat.eqb_neq; auto). cbn [filter fst]. rewrite Nat.eqb_refl. cbn [map snd app].
  exists m. eexists. split; [reflexivity|]. split; [eauto|]. apply received_old. auto.
Qed.
(** ... but a browser that connects before the init message is processed never receives it, only updates. *)
Theorem C56_early_client_refuted : forall (M : Type) (es1 es2 : list (ws_event M)) c,
  ~ inits es1 -> ~ connects c es1 -> ~ connects c es2 -> Forall is_update (received ws_empty (es1 ++ WConnect c :: es2) c).
Proof.
  intros M es1 es2 c Ni N1 N2. rewrite received_app, received_cons. rewrite (proj2 (received_old ws_empty es1 c N1)) by (cbn; auto).
  assert (E : ws_init (fst (ws_run ws_empty es1)) = None).
  { clear N1. assert (K : forall s : ws_state M, ws_init s = None -> ws_init (fst (ws_run s es1)) = None); [|apply K; reflexivity].
    induction es1 as [|e es1 IH]; intros s Hs; [auto|]. cbn [ws_run]. assert (Ni' : ~ inits es1) by (intros (c' & m & K); apply Ni; exists c', m; right; exact K).
    destruct (ws_step s e) as (s1, o1) eqn:Ee. assert (H1 : ws_init s1 = None).
    { destruct e as [c'|c' [m|m]|c']; cbn [ws_step] in Ee; injection Ee as <- _; auto. exfalso. apply Ni. exists c', m. left. reflexivity. }
    specialize (IH Ni' s1 H1). destruct (ws_run s1 es1). exact IH. }
  cbn [ws_step fst snd]. rewrite E. cbn [filter map app]. apply received_old; auto.
Qed.
(** The schedule of [rendering.start], which opens the browser before it sends the init message: the environment connects (0), the browser
    connects (1), the init message arrives, and a first frame is sent (by connection 2): the browser gets the frame without the init message. *)
Theorem C56_refuted : forall (M : Type) (init frame : M),
  let es := [WConnect 0; WConnect 1; WMsg 0 (MInit init); WLeave 0; WConnect 2; WMsg 2 (MUpdate frame)]%nat in
  received ws_empty es 1 = [MUpdate frame] /\ received ws_empty es 2 = [MInit init; MUpdate frame].
Proof. intros. split; reflexivity. Qed.
Example C56_late_ex : let es1 := [WConnect 0; WMsg 0 (MInit tt); WLeave 0]%nat in let es2 := [WConnect 2; WMsg 2 (MUpdate tt)]%nat in
  inits es1 /\ ~ connects 1 es1 /\ ~ connects 1 es2 /\ (forall m, ~ In (WMsg 1%nat m) es1) /\
  received ws_empty (es1 ++ WConnect 1 :: es2)%nat 1 = [MInit tt; MUpdate tt].
Proof.
  cbv zeta. split; [exists 0%nat, tt; cbn; tauto|]. split; [intros H; cbn in H; decompose [or] H; try discriminate; auto|].
  split; [intros H; cbn in H; decompose [or] H; try discriminate; auto|]. split; [|reflexivity]. intros m H; cbn in H; decompose [or] H; try discriminate; auto.
Qed.

Print Assumptions C54_every_kth_call.
Print Assumptions C55_servers_partial.
Print Assumptions C55_render_before_reset_refuted.
Print Assumptions C55_failed_reset_refuted.
Print Assumptions C56_late_client_partial.
Print Assumptions C56_early_client_refuted.
Print Assumptions C56_refuted.
