(** C72: the calendar of ANM6 environments.  C73: dates and renderings do not influence the physics. *)
From Verif Require Import Base Num Devices BusBranch CheckNetwork LoadFlow Simulator EnvArgs Env Anm6 LibBase SpecSim SpecEnv SpecAnm6 SpecDates ProofDraw ProofEasy.
Local Open Scope string_scope.
Local Open Scope list_scope.
Set Bullet Behavior "Strict Subproofs".

Section Dates.
  Context {F G : Type} {N : Num F}.
  Notation anm6 := (anm6 F G).

  Lemma since_dates n (a b : anm6) d : since n a b -> a_date a = Some d -> a_date_init a = Some d ->
    a_len b = a_len a /\ a_date b = Some (d + a_len a * Z.of_nat n)%Z /\ a_date_init b = Some d /\
    a_year b = match n with O => a_year a | _ => (a_len a * Z.of_nat n / 1440 / 365)%Z end.
  Proof.
    induction 1; intros Hd Hi.
    - repeat split; auto. rewrite Hd. f_equal. lia.
    - destruct (IHsince Hd Hi) as (L1 & E1 & E2 & E3). unfold anm6_step in H0. destruct (env_step _ _ _ _) as (e', [o|x]); [|discriminate].
      rewrite E1, E2 in H0. apply (f_equal fst) in H0. cbn [fst] in H0. subst a2. cbn [a_len a_date a_date_init a_year a_set_dates a_set_env]. rewrite L1.
      assert (E4 : (d + a_len a * Z.of_nat n + a_len a = d + a_len a * Z.of_nat (S n))%Z) by lia. rewrite E4.
      assert (E5 : (d + a_len a * Z.of_nat (S n) - d = a_len a * Z.of_nat (S n))%Z) by lia. rewrite E5. tauto.
    - destruct (IHsince Hd Hi) as (L1 & E1 & E2 & E3). unfold anm6_step in H0. destruct (env_step _ _ _ _) as (e', [o|x']).
      + rewrite E1, E2 in H0. discriminate.
      + injection H0 as <- _. cbn. auto.
    - destruct (render_keeps human skip started up a1) as (A & B & D & E & Y). rewrite B, D, E, Y. auto.
    - cbn. auto.
  Qed.

  (** C72.  After a reset that returned and [n] steps that returned, the date is the start date plus [n] timesteps; the start date is the one given,
      or 00:00 of the [j]-th day after January 1st, 2020, [j] being what [np_random.integers(1, 365)] gives; [year_count] is the number of
      whole 365-day periods since. *)
  Theorem C72_calendar : forall (ro : rng_ops F G) Or T seed date (a a1 : anm6) ob, anm6_reset Or T ro seed date a = (a1, Ok ob) ->
    exists d0, match date with
               | Some d => d0 = d
               | None => exists g, d0 = (1440 * fst (r_int ro 1%Z 365%Z g))%Z
               end /\
      forall n b, since n a1 b -> a_date b = Some (d0 + a_len a * Z.of_nat n)%Z /\ a_date_init b = Some d0 /\
        a_year b = ((a_len a * Z.of_nat n) / (365 * 1440))%Z.
  Proof.
    intros ro Or T seed date a a1 ob H. unfold anm6_reset in H. destruct (env_reset Or T seed (a_env a)) as (e', [o|x]); [|discriminate].
    assert (S : forall d0 n b, a_date a1 = Some d0 -> a_date_init a1 = Some d0 -> a_year a1 = 0%Z -> a_len a1 = a_len a -> since n a1 b ->
      a_date b = Some (d0 + a_len a * Z.of_nat n)%Z /\ a_date_init b = Some d0 /\ a_year b = ((a_len a * Z.of_nat n) / (365 * 1440))%Z).
    { intros d0 n b A B C L Sn. destruct (since_dates n a1 b d0 Sn A B) as (_ & D & E & Y). rewrite L in *. split; [auto|]. split; [auto|]. rewrite Y.
      destruct n; [rewrite C, Z.mul_0_r; reflexivity|]. rewrite Z.div_div by lia. reflexivity. }
    destruct date as [d|].
    - injection H as <- _. exists d. split; [reflexivity|]. intros n b. apply S; reflexivity.
    - unfold random_date in H. destruct (r_int ro 1%Z 365%Z (e_rng e')) as (j, g') eqn:E. injection H as <- _. exists (1440 * j)%Z.
      split; [exists (e_rng e'); rewrite E; reflexivity|]. intros n b. apply S; reflexivity.
  Qed.
  (** [reset_date] starts the calendar again; the year count follows at the next step. *)
  Theorem C72_reset_date : forall (a : anm6) d n b, since n (reset_date d a) b ->
    a_date b = Some (d + a_len a * Z.of_nat n)%Z /\ a_date_init b = Some d /\ (n <> O -> a_year b = ((a_len a * Z.of_nat n) / (365 * 1440))%Z).
  Proof.
    intros a d n b Sn. destruct (since_dates n _ b d Sn eq_refl eq_refl) as (_ & D & E & Y). cbn [reset_date a_set_dates a_len] in *. split; [auto|]. split; [auto|].
    intros Hn. rewrite Y. destruct n; [congruence|]. rewrite Z.div_div by lia. reflexivity.
  Qed.
  (** its documentation says that it also resets the year count *)
  Theorem C72_year_count_kept : forall (a : anm6) d, a_year (reset_date d a) = a_year a.
  Proof. reflexivity. Qed.

  (** ---- C73 ---- *)
  Lemma same_refl (a : anm6) : same a a. Proof. repeat split; auto. Qed.
  Lemma same_sym (a b : anm6) : same a b -> same b a. Proof. intros (A & B & C). repeat split; try tauto. auto. Qed.
  Lemma same_reset ro Or T seed date date' (a b : anm6) : same a b -> option_map (fun _ => 0%Z) date = option_map (fun _ => 0%Z) date' ->
    snd (anm6_reset Or T ro seed date a) = snd (anm6_reset Or T ro seed date' b) /\ same (fst (anm6_reset Or T ro seed date a)) (fst (anm6_reset Or T ro seed date' b)).
  Proof.
    intros (E & Sd & Si) Hd. unfold anm6_reset. rewrite E. destruct (env_reset Or T seed (a_env b)) as (e', [o|x]).
    - destruct date as [d|], date' as [d'|]; try discriminate Hd.
      + split; [reflexivity|]. repeat split; cbn; try discriminate.
      + destruct (random_date ro 0 (e_rng e')) as (d, g'). split; [reflexivity|]. repeat split; cbn; try discriminate.
    - split; [reflexivity|]. split; [reflexivity|]. split; assumption.
  Qed.
  Lemma same_step Or T action (a b : anm6) : same a b ->
    snd (anm6_step Or T action a) = snd (anm6_step Or T action b) /\ same (fst (anm6_step Or T action a)) (fst (anm6_step Or T action b)).
  Proof.
    intros (E & Sd & Si). unfold anm6_step. rewrite E. destruct (env_step Or T action (a_env b)) as (e', [o|x]).
    - destruct (a_date a) as [d|] eqn:Da, (a_date b) as [d'|] eqn:Db; try (exfalso; destruct Sd as (Sd1 & Sd2); discriminate (Sd1 eq_refl) || discriminate (Sd2 eq_refl)).
      + destruct (a_date_init a) as [i|] eqn:Ia, (a_date_init b) as [i'|] eqn:Ib; try (exfalso; destruct Si as (S1 & S2); discriminate (S1 eq_refl) || discriminate (S2 eq_refl)).
        * split; [reflexivity|]. repeat split; cbn; try discriminate.
        * split; [reflexivity|]. split; [reflexivity|]. cbn. rewrite Da, Db, Ia, Ib. split; [exact Sd|tauto].
      + split; [reflexivity|]. split; [reflexivity|]. cbn. rewrite Da, Db. split; [tauto|exact Si].
    - split; [reflexivity|]. split; [reflexivity|]. split; assumption.
  Qed.
  Lemma same_render human skip started up (a b : anm6) : same a b -> same (fst (anm6_render human skip started up a)) b.
  Proof. intros (E & Sd & Si). destruct (render_keeps human skip started up a) as (A & _ & D & I & _). unfold same. rewrite A, D, I. auto. Qed.

  (** C73.  Whatever the dates passed to resets and [reset_date] and wherever the environment is rendered or closed: the same resets and steps
      give the same answers and leave the same environment. *)
  Theorem C73_dates_irrelevant : forall (ro : rng_ops F G) cs cs' (a b : anm6), same a b -> undated cs = undated cs' ->
    answers ro a cs = answers ro b cs' /\ a_env (arun ro a cs) = a_env (arun ro b cs').
  Proof.
    intros ro.
    (* calls that only draw, at the head of the second history *)
    assert (head : forall cs' (b : anm6), exists b' cs'', same b b' /\ undated cs' = undated cs'' /\ answers ro b cs' = answers ro b' cs'' /\ arun ro b cs' = arun ro b' cs'' /\
      match cs'' with ARender _ _ _ _ :: _ | AClose :: _ => False | _ => True end).
    { induction cs' as [|c cs' IH]; intros b; [exists b, []; repeat split; auto; try apply same_refl|].
      destruct c as [Or T seed date|Or T action|d|human skip started up|].
      - exists b, (AReset Or T seed date :: cs'). repeat split; auto.
      - exists b, (AStep Or T action :: cs'). repeat split; auto.
      - exists b, (AResetDate d :: cs'). repeat split; auto.
      - destruct (IH (fst (run_acall ro b (ARender human skip started up)))) as (b' & cs'' & Sb & U & An & Ar & Hd). exists b', cs''.
        split; [|split; [exact U|split; [exact An|split; [exact Ar|exact Hd]]]].
        pose proof (same_render human skip started up b b (same_refl b)) as K. cbn [run_acall] in Sb. destruct (anm6_render human skip started up b) as (x, y). cbn [fst] in *.
        destruct Sb as (A & B & C), K as (A' & B' & C'). repeat split; try tauto. congruence.
      - destruct (IH (fst (run_acall ro b AClose))) as (b' & cs'' & Sb & U & An & Ar & Hd). exists b', cs''.
        split; [exact Sb|split; [exact U|split; [exact An|split; [exact Ar|exact Hd]]]]. }
    assert (tr : forall a b c : anm6, same a b -> same b c -> same a c).
    { intros a b c (A & B & C) (A' & B' & C'). repeat split; try tauto. congruence. }
    induction cs as [|c cs IH]; intros cs' a b Sab U.
    - destruct (head cs' b) as (b' & cs'' & Sb & U' & An & Ar & Hd). rewrite U' in U. rewrite An, Ar.
      destruct cs'' as [|[] cs'']; try discriminate U; try contradiction. split; [reflexivity|]. cbn. destruct Sab, Sb. congruence.
    - destruct c as [Or T seed date|Or T action|d|human skip started up|].
      + destruct (head cs' b) as (b' & cs'' & Sb & U' & An & Ar & Hd). rewrite U' in U. rewrite An, Ar. pose proof (tr _ _ _ Sab Sb) as Sb'.
        destruct cs'' as [|[Or' T' seed' date'| | | |] cs'']; try discriminate U; try contradiction. cbn [undated] in U. injection U as -> -> -> Ud U.
        destruct (same_reset ro Or' T' seed' date date' a b' Sb' Ud) as (R & S'). cbn [answers answer_of]. unfold arun. cbn [fold_left]. cbn [run_acall].
        rewrite R. destruct (anm6_reset Or' T' ro seed' date a) as (a2, r), (anm6_reset Or' T' ro seed' date' b') as (b2, r'). cbn [fst] in *.
        destruct (IH cs'' a2 b2 S' U) as (X & Y). rewrite X. split; [reflexivity|exact Y].
      + destruct (head cs' b) as (b' & cs'' & Sb & U' & An & Ar & Hd). rewrite U' in U. rewrite An, Ar. pose proof (tr _ _ _ Sab Sb) as Sb'.
        destruct cs'' as [|[|Or' T' action'| | |] cs'']; try discriminate U; try contradiction. cbn [undated] in U. injection U as -> -> -> U.
        destruct (same_step Or' T' action' a b' Sb') as (R & S'). cbn [answers answer_of]. unfold arun. cbn [fold_left]. cbn [run_acall].
        rewrite R. destruct (anm6_step Or' T' action' a) as (a2, r), (anm6_step Or' T' action' b') as (b2, r'). cbn [fst] in *.
        destruct (IH cs'' a2 b2 S' U) as (X & Y). rewrite X. split; [reflexivity|exact Y].
      + destruct (head cs' b) as (b' & cs'' & Sb & U' & An & Ar & Hd). rewrite U' in U. rewrite An, Ar. pose proof (tr _ _ _ Sab Sb) as Sb'.
        destruct cs'' as [|[| |d'| |] cs'']; try discriminate U; try contradiction. cbn [undated] in U. injection U as U.
        assert (S' : same (reset_date d a) (reset_date d' b')) by (split; [apply Sb'|split; split; discriminate]).
        exact (IH cs'' _ _ S' U).
      + cbn [undated] in U. pose proof (same_render human skip started up a b Sab) as S'. cbn [answers answer_of app]. unfold arun. cbn [fold_left]. cbn [run_acall].
        destruct (anm6_render human skip started up a) as (a2, r). exact (IH cs' a2 b S' U).
      + cbn [undated] in U. exact (IH cs' (anm6_close a) b Sab U).
  Qed.

  (** C73.  Not giving a start date costs one draw of the generator, made after the initial state was found; nothing else differs. *)
  Theorem C73_random_start : forall (ro : rng_ops F G) Or T seed d (a : anm6),
    let '(a1, r1) := anm6_reset Or T ro seed (Some d) a in
    let '(a2, r2) := anm6_reset Or T ro seed None a in
    r1 = r2 /\ forall ob, r1 = Ok ob ->
      let g := e_rng (a_env a1) in
      a_date a1 = Some d /\ a_date a2 = Some (1440 * fst (r_int ro 1%Z 365%Z g))%Z /\ a_env a2 = env_set_rng (a_env a1) (snd (r_int ro 1%Z 365%Z g)).
  Proof.
    intros ro Or T seed d a. unfold anm6_reset. destruct (env_reset Or T seed (a_env a)) as (e', [o|x]).
    - unfold random_date. destruct (r_int ro 1%Z 365%Z (e_rng e')) as (j, g') eqn:E. split; [reflexivity|]. intros ob _. cbn. rewrite E. cbn. split; [reflexivity|].
      split; [reflexivity|]. reflexivity.
    - split; [reflexivity|]. intros ob K. discriminate K.
  Qed.

  (** ---- ANM6Easy: its steps do not draw ---- *)
  Lemma easy_env_step Or ro sf act (e : env F G) g s :
    env_step Or (easy_task ro sf s) act (env_set_rng e g) =
    (env_set_rng (fst (env_step Or (easy_task ro sf s) act e)) g, snd (env_step Or (easy_task ro sf s) act e)).
  Proof.
    unfold env_step. cbn [t_next easy_task].
    change (e_aspace (env_set_rng e g)) with (e_aspace e). destruct (negb (box_contains _ _)); [reflexivity|].
    change (e_term (env_set_rng e g)) with (e_term e). destruct (e_term e) as [[]|]; [| |reflexivity].
    { change (observation_N (env_set_rng e g)) with (observation_N e). destruct (observation_N e); reflexivity. }
    change (e_state (env_set_rng e g)) with (e_state e). destruct (e_state e) as [st|]; [|reflexivity].
    destruct (easy_next st) as [vars|x]; [|reflexivity]. cbv zeta.
    cbn [e_sim env_set_rng e_K e_rng]. destruct (negb (Nat.eqb _ _)); [reflexivity|].
    change (step_inputs (env_set_rng (env_set_rng e g) g) vars act) with (step_inputs (env_set_rng e (e_rng e)) vars act).
    destruct (transition Or _ (e_sim e)) as (s', [[[[[? ?] el] pen] conv]|x]); [|reflexivity].
    destruct conv.
    - destruct (write_aux _ _ _) as [st1|]; [|reflexivity].
      match goal with |- context [construct_state ?E] => match E with context [env_set_rng (env_set_rng e g) g] => set (E1 := E) end end.
      match goal with |- context [construct_state ?E] => match E with context [env_set_rng e (e_rng e)] => change (construct_state E1) with (construct_state E); destruct (construct_state E) end end; [|reflexivity].
      match goal with |- context [observe ?E ?o] => match E with context [env_set_rng e (e_rng e)] => 
         match goal with |- context [observe ?E' o] => match E' with context [E1] => change (observe E' o) with (observe E o) end end; destruct (observe E o) end end; [|reflexivity].
      cbn [e_ospace env_set_state env_set_costs env_set_term env_set_sim env_set_rng]. subst E1. cbn [e_ospace env_set_state env_set_costs env_set_term env_set_sim env_set_rng].
      destruct (e_ospace e) as [sp|]; [|reflexivity]. destruct (box_contains _ _); reflexivity.
    - cbn [e_clip e_gamma env_set_rng]. destruct (pydiv _ _); [|reflexivity].
      unfold observation_N. cbn [e_ospace env_set_state env_set_costs env_set_term env_set_sim env_set_rng]. destruct (e_ospace e); reflexivity.
  Qed.

  Definition close6 (a b : anm6) : Prop := env_set_rng (a_env a) (e_rng (a_env b)) = a_env b /\ (a_date a = None <-> a_date b = None) /\ (a_date_init a = None <-> a_date_init b = None).
  Lemma close6_reset Or ro sf seed date date' (a b : anm6) : e_sim (a_env a) = e_sim (a_env b) ->
    (forall T, env_reset Or T seed (a_env a) = env_reset Or T seed (a_env b)) -> (a_date a = None <-> a_date b = None) -> (a_date_init a = None <-> a_date_init b = None) ->
    snd (easy_reset Or ro sf seed date a) = snd (easy_reset Or ro sf seed date' b) /\ close6 (fst (easy_reset Or ro sf seed date a)) (fst (easy_reset Or ro sf seed date' b)).
  Proof.
    intros Es Er Sd Si. unfold easy_reset, anm6_reset. rewrite Es, Er. destruct (env_reset Or _ seed (a_env b)) as (e', [o|x]).
    - assert (K : forall (a1 b1 : anm6) d d', env_set_rng (a_env a1) (e_rng (a_env b1)) = a_env b1 -> a_date a1 = Some d -> a_date_init a1 = Some d -> a_date b1 = Some d' -> a_date_init b1 = Some d' ->
        let fin (c : anm6) := match a_date c, e_state (a_env c) with
          | Some d, Some st => match ntrunc (last st n0) with Some k => (reset_date (d + k * a_len c)%Z c, Ok o) | None => (c, Err ValueError) end
          | _, _ => (c, Err TypeErr) end in
        snd (fin a1) = snd (fin b1) /\ close6 (fst (fin a1)) (fst (fin b1))).
      { intros a1 b1 d d' E1 E2 E3 E4 E5 fin. subst fin. cbv beta. assert (E6 : e_state (a_env a1) = e_state (a_env b1)) by (rewrite <- E1; reflexivity).
        rewrite E2, E4, E6. unfold close6. destruct (e_state (a_env b1)) as [st|]; [destruct (ntrunc _)|]; cbn [fst snd reset_date a_set_dates a_env a_date a_date_init];
          (split; [reflexivity|split; [exact E1|split; split; congruence]]). }
      assert (Eta : forall g, env_set_rng (env_set_rng e' g) (e_rng e') = e') by (destruct e'; reflexivity).
      assert (Eta' : env_set_rng e' (e_rng e') = e') by (destruct e'; reflexivity).
      destruct date as [d|], date' as [d'|]; try destruct (random_date ro 0 (e_rng e')) as (dd, gg); eapply K; cbn; try reflexivity; auto.
    - split; [reflexivity|]. split; [destruct e'; reflexivity|]. split; assumption.
  Qed.
  Lemma close6_step Or ro sf action (a b : anm6) : close6 a b ->
    snd (easy_step Or ro sf action a) = snd (easy_step Or ro sf action b) /\ close6 (fst (easy_step Or ro sf action a)) (fst (easy_step Or ro sf action b)).
  Proof.
    intros (E & Sd & Si). unfold easy_step, anm6_step. assert (Es : e_sim (a_env a) = e_sim (a_env b)) by (rewrite <- E; reflexivity). rewrite Es.
    set (T := easy_task ro sf (e_sim (a_env b))).
    assert (Eb : env_step Or T action (a_env b) = (env_set_rng (fst (env_step Or T action (a_env a))) (e_rng (a_env b)), snd (env_step Or T action (a_env a)))).
    { unfold T. rewrite <- easy_env_step, E. reflexivity. }
    rewrite Eb. clear Eb E Es. destruct (env_step Or T action (a_env a)) as (e', [o|x]); cbn [fst snd].
    - destruct (a_date a) as [d|] eqn:Da, (a_date b) as [d'|] eqn:Db; try (exfalso; destruct Sd as (Sd1 & Sd2); discriminate (Sd1 eq_refl) || discriminate (Sd2 eq_refl)).
      + destruct (a_date_init a) as [i|] eqn:Ia, (a_date_init b) as [i'|] eqn:Ib; try (exfalso; destruct Si as (S1 & S2); discriminate (S1 eq_refl) || discriminate (S2 eq_refl)).
        * split; [reflexivity|]. split; [reflexivity|]. cbn. split; split; discriminate.
        * split; [reflexivity|]. split; [reflexivity|]. cbn. rewrite Da, Db, Ia, Ib. split; [exact Sd|tauto].
      + split; [reflexivity|]. split; [reflexivity|]. cbn. rewrite Da, Db. split; [tauto|exact Si].
    - split; [reflexivity|]. split; [reflexivity|]. split; assumption.
  Qed.
  Lemma close6_run ro sf cs cs' : Forall2 alike cs cs' -> forall a b : anm6, close6 a b -> answers6 ro sf a cs = answers6 ro sf b cs'.
  Proof.
    induction 1 as [|c c' cs cs' Lk Fc IH]; intros a b C; [reflexivity|]. destruct Lk; cbn [answers6 answer6 run_call6].
    - destruct C as (E & Sd & Si). assert (Es : e_sim (a_env a) = e_sim (a_env b)) by (rewrite <- E; reflexivity).
      destruct (close6_reset Or ro sf (Some z) date date' a b Es) as (R & C'); auto.
      { intros T. unfold env_reset. assert (Eg : env_set_rng (a_env a) (t_seed T z) = env_set_rng (a_env b) (t_seed T z)) by (rewrite <- E; reflexivity). rewrite Eg. reflexivity. }
      rewrite R. f_equal. apply IH, C'.
    - destruct (close6_step Or ro sf action a b C) as (R & C'). rewrite R. f_equal. apply IH, C'.
    - apply IH. destruct C as (E & Sd & Si). destruct (render_keeps human skip started up a) as (A & _ & D & I & _), (render_keeps human' skip' started' up' b) as (A' & _ & D' & I' & _).
      unfold close6. rewrite A, A', D, D', I, I'. auto.
    - apply IH. exact C.
  Qed.

  (** C73.  In ANM6Easy the start date, given or not, does not influence the answers either, until a reset without a seed. *)
  Theorem C73_easy_start : forall (ro : rng_ops F G) sf Or seed date date' (a a1 a2 : anm6) r1 r2 cs cs',
    easy_reset Or ro sf seed date a = (a1, r1) -> easy_reset Or ro sf seed date' a = (a2, r2) -> Forall2 alike cs cs' ->
    r1 = r2 /\ answers6 ro sf a1 cs = answers6 ro sf a2 cs'.
  Proof.
    intros ro sf Or seed date date' a a1 a2 r1 r2 cs cs' R1 R2 Al. destruct (close6_reset Or ro sf seed date date' a a) as (R & C); try tauto.
    rewrite R1, R2 in R, C. split; [exact R|]. apply (close6_run ro sf cs cs' Al), C.
  Qed.
End Dates.
Print Assumptions C72_calendar.
Print Assumptions C72_reset_date.
Print Assumptions C73_dates_irrelevant.
Print Assumptions C73_random_start.
Print Assumptions C73_easy_start.
