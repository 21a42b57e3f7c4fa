(** C92: ANM6Easy is fully observable.  The observation is the state vector, except that the power of the slack generator is cut at its limits. *)
From Coq Require Import Reals Lra Lia.
From Verif Require Import Base Num NumXR Devices BusBranch CheckNetwork LoadFlow Simulator EnvArgs Env Anm6 LibBase LibNum LibSim LibXR LibEval LibInit
  SpecSim ProofSim ProofObs ProofSoc ProofReset ProofUnits SpecDev SpecQp ProofVals ProofBounds ProofDevs SpecEnv SpecObs ProofEnv ProofStep ProofState ProofDraw ProofEnvOk PropEnv PropObs
  ProofResetIn SpecAnm6 ProofEasy ProofAnm6 PropEasy PropEasy2 PropEasy3 PropEasy4 PropSet PropTotal ProofTotal PropExec SpecTotal.
Local Open Scope string_scope.
Local Open Scope list_scope.
Local Open Scope R_scope.
Set Bullet Behavior "Strict Subproofs".

(** [ob] shows the state vector of [a]: its 18 entries, number 0 and number 7 (P and Q of the slack generator, in MW and MVAr) cut at 200 in absolute value. *)
Definition state_shown {G} (a : anm6 XR G) (ob : list XR) : Prop :=
  exists st, e_state (a_env a) = Some st /\ List.length st = 18%nat /\ List.length ob = 18%nat /\
    (forall k, k <> 0%nat -> k <> 7%nat -> nth_error ob k = nth_error st k) /\
    (forall k x v, k = 0%nat \/ k = 7%nat -> nth_error st k = Some x -> nth_error ob k = Some v -> shown (Fin (-200), Fin 200) x v).

Lemma scenario_range (s1 s2 s3 lo hi : R) k : (k < 96)%nat -> lo <= s1 <= hi -> lo <= s2 <= hi -> lo <= s3 <= hi -> lo <= scenario s1 s2 s3 k <= hi.
Proof.
  intros Hk H1 H2 H3.
  assert (Rm : forall a x y, (a <= k <= a + 8)%nat -> lo <= x <= hi -> lo <= y <= hi -> lo <= ramp k a x y <= hi).
  { intros a x y B Hx Hy. unfold ramp.
    assert (T : 0 <= IZR (Z.of_nat k - Z.of_nat a) / 8 <= 1). { assert (0 <= IZR (Z.of_nat k - Z.of_nat a) <= 8) by (split; apply IZR_le; lia). lra. }
    set (t := IZR (Z.of_nat k - Z.of_nat a)) in *. replace (x + (y - x) * t / 8) with (x * (1 - t / 8) + y * (t / 8)) by field. nra. }
  assert (Sp : forall a b, between k a b = true <-> (a <= k <= b)%nat) by (intros a b; unfold between; rewrite andb_true_iff, !Nat.leb_le; tauto).
  assert (Sn : forall a b, between k a b = false -> ~ (a <= k <= b)%nat) by (intros a b E; rewrite <- Sp; congruence).
  unfold scenario. destruct (between k 0 24) eqn:A1; [exact H1|]. destruct (between k 92 95) eqn:A2; [exact H1|]. cbn [orb].
  destruct (between k 32 44) eqn:A3; [exact H2|]. destruct (between k 72 84) eqn:A4; [exact H2|]. cbn [orb]. destruct (between k 52 64) eqn:A5; [exact H3|].
  destruct (between k 24 32) eqn:A6; [apply Rm; auto; apply Sp, A6|]. destruct (between k 44 52) eqn:A7; [apply Rm; auto; apply Sp, A7|]. destruct (between k 64 72) eqn:A8; [apply Rm; auto; apply Sp, A8|].
  apply Rm; auto. clear -Hk Sn A1 A2 A3 A4 A5 A6 A7 A8. apply Sn in A1, A2, A3, A4, A5, A6, A7, A8. lia.
Qed.

(** advertised bounds of the entries *)
Lemma ax_bound (s : sim XR) key u i lo hi : sm_devs s = ax_devs -> sm_base s = Fin 100 ->
  In (key, u, i, (lo, hi)) [("dev_p", "MW", 0%Z, (-200, 200)); ("dev_p", "MW", 1%Z, (-10, 0)); ("dev_p", "MW", 2%Z, (0, 30)); ("dev_p", "MW", 3%Z, (-30, 0)); ("dev_p", "MW", 4%Z, (0, 50));
    ("dev_p", "MW", 5%Z, (-30, 0)); ("dev_p", "MW", 6%Z, (-50, 50)); ("dev_q", "MVAr", 0%Z, (-200, 200)); ("dev_q", "MVAr", 1%Z, (-2, 0)); ("dev_q", "MVAr", 2%Z, (-30, 30)); ("dev_q", "MVAr", 3%Z, (-6, 0));
    ("dev_q", "MVAr", 4%Z, (-50, 50)); ("dev_q", "MVAr", 5%Z, (-6, 0)); ("dev_q", "MVAr", 6%Z, (-50, 50)); ("des_soc", "MWh", 6%Z, (0, 100)); ("gen_p_max", "MW", 2%Z, (0, 30)); ("gen_p_max", "MW", 4%Z, (0, 50));
    ("gen_p_max", "pu", 2%Z, (0, 30/100)); ("gen_p_max", "pu", 4%Z, (0, 50/100)); ("des_soc", "pu", 6%Z, (0, 1)); ("dev_p", "pu", 2%Z, (0, 30/100)); ("dev_p", "pu", 4%Z, (0, 50/100)); ("dev_p", "pu", 6%Z, (-50/100, 50/100));
    ("dev_q", "pu", 2%Z, (-30/100, 30/100)); ("dev_q", "pu", 4%Z, (-50/100, 50/100)); ("dev_q", "pu", 6%Z, (-50/100, 50/100))] -> bound s key u (EId i) = Some (Fin lo, Fin hi).
Proof.
  intros Ed Eb I. cbn [In] in I.
  repeat (destruct I as [E|I]; [injection E as <- <- <- <- <-; unfold bound, get_state_space; rewrite Ed, Eb; cbn; unfold ax_slack, ax_load, ax_rer, ax_stor; xeval; do 2 f_equal; f_equal; lra|]). destruct I.
Qed.

(** what a transition leaves for the generators and the storage unit, per unit *)
Definition flex_fits (s : sim XR) : Prop :=
  (forall i lo hi l h, In (i, (lo, hi), (l, h)) [(2%Z, (0, 30), (-30, 30)); (4%Z, (0, 50), (-50, 50)); (6%Z, (-50, 50), (-50, 50))] ->
    exists p q, obs s "dev_p" "pu" (EId i) = Some (Fin p) /\ obs s "dev_q" "pu" (EId i) = Some (Fin q) /\ lo / 100 <= p <= hi / 100 /\ l / 100 <= q <= h / 100) /\
  (forall i hi, In (i, hi) [(2%Z, 30); (4%Z, 50)] -> exists p, obs s "gen_p_max" "pu" (EId i) = Some (Fin p) /\ 0 <= p <= hi / 100).
Lemma ax_rowof i t : In (i, t) [(2, 2); (4, 2); (6, 3)]%Z -> exists r, In r (nw_dev anm6x) /\ dr_id r = Some i /\ dr_type r = Some t.
Proof. intros I. cbn [In] in I. decompose [or] I; try contradiction; match goal with H : (_, _) = _ |- _ => injection H as <- <- end; eexists; unshelve (once (split; [pick|split; reflexivity])). Qed.
Lemma xle_inv a b : xle (Fin a) (Fin b) -> a <= b.
Proof. intros H. apply Rleb_spec. exact H. Qed.
Lemma trans_fits (s0 z s1 : sim XR) Or inp out : sim_init anm6x easy_dt (nofZ 100) = Ok s0 -> strip z = strip s0 -> transition Or inp z = (s1, Ok out) -> qp_sound 0 (o_qp Or) -> flex_fits s1.
Proof.
  intros Hs Sz T Q. assert (Ax : sm_devs s0 = ax_devs /\ sm_base s0 = Fin 100). { destruct (ax_sim easy_dt (nofZ 100)) as (s & Es & Ed & Eb & _). rewrite Es in Hs. injection Hs as <-. auto. } destruct Ax as (Ed & Eb).
  assert (B := fun key u i lo hi => ax_bound s0 key u i lo hi Ed Eb). split.
  - intros i lo hi l h I.
    assert (Ty : exists t r, In t [1; 2; 3]%Z /\ In r (nw_dev anm6x) /\ dr_id r = Some i /\ dr_type r = Some t).
    { cbn [In] in I. decompose [or] I; try contradiction; match goal with H : _ = _ |- _ => injection H as <- <- <- <- <- end;
        [destruct (ax_rowof 2 2) as (r & R)|destruct (ax_rowof 4 2) as (r & R)|destruct (ax_rowof 6 3) as (r & R)]; try (cbn; tauto); eexists; exists r; (split; [|exact R]); cbn; tauto. }
    destruct Ty as (t & r & It & Ir & Ei & Et).
    destruct (C09_any _ _ _ _ Hs _ Sz _ _ _ _ T r i Ir Ei 0 Q) as (p & q & lo1 & hi1 & lo2 & hi2 & P1 & P2 & B1 & B2 & X1 & X2 & X3 & X4).
    { rewrite Et. cbn [In] in It. decompose [or] It; try contradiction; subst t; tauto. }
    exists p, q. split; [exact P1|]. split; [exact P2|].
    assert (C1 : bound s0 "dev_p" "pu" (EId i) = Some (Fin (lo / 100), Fin (hi / 100)) /\ bound s0 "dev_q" "pu" (EId i) = Some (Fin (l / 100), Fin (h / 100))).
    { cbn [In] in I. decompose [or] I; try contradiction; match goal with H : _ = _ |- _ => injection H as <- <- <- <- <- end;
        try replace (0 / 100) with 0 by lra; split; apply B; cbn [In]; repeat (try (left; reflexivity); right). }
    destruct C1 as (C1 & C2). rewrite C1 in B1. rewrite C2 in B2. injection B1 as <- <-. injection B2 as <- <-. apply xle_inv in X1, X2, X3, X4. lra.
  - intros i hi I.
    destruct (ax_rowof i 2) as (r & Ir & Ei & Et). { cbn [In] in *. decompose [or] I; try contradiction; match goal with H : _ = _ |- _ => injection H as <- <- end; tauto. }
    destruct (C08_any _ _ _ _ Hs 100 eq_refl _ Sz _ _ _ _ T r i Ir Ei 0 Q (or_intror Et)) as (x & lo & h & pot & p & _ & B1 & P1 & _ & W & _).
    assert (C1 : bound s0 "gen_p_max" "pu" (EId i) = Some (Fin 0, Fin (hi / 100))).
    { cbn [In] in I. decompose [or] I; try contradiction; match goal with H : _ = _ |- _ => injection H as <- <- end; apply B; cbn [In]; repeat (try (left; reflexivity); right). }
    rewrite C1 in B1. injection B1 as <- <-. destruct W as (W1 & W2). destruct pot as [x'| | |]; try discriminate. exists x'. split; [exact P1|]. apply xle_inv in W1, W2. lra.
Qed.
Lemma trans_soc6 (s0 z s1 : sim XR) Or inp out v : sim_init anm6x easy_dt (nofZ 100) = Ok s0 -> strip z = strip s0 -> transition Or inp z = (s1, Ok out) ->
  obs s1 "des_soc" "pu" (EId 6) = Some v -> v = NaN \/ exists c, v = Fin c /\ 0 <= c <= 1.
Proof.
  intros Hs Sz T O. destruct out as [[[[fl rr] el] pen] conv]. destruct (transition_ok _ _ _ _ _ _ _ _ _ T) as (_ & _ & ds & vv & ii & Tk).
  assert (Ax : sm_devs s0 = ax_devs /\ sm_base s0 = Fin 100). { destruct (ax_sim easy_dt (nofZ 100)) as (s & Es & Ed & Eb & _). rewrite Es in Hs. injection Hs as <-. auto. } destruct Ax as (Ed & Eb).
  assert (S1 : strip s1 = strip s0) by (rewrite <- Sz; apply Tk).
  unfold obs in O. rewrite (tk_state _ _ _ _ _ _ _ _ Tk) in O. apply read_soc in O. destruct O as (d & I & Ei & ->). apply filter_In in I. destruct I as [I Ist].
  unfold is_stor in Ist. destruct (d_spec d) as [| |t] eqn:Sp; try discriminate.
  pose proof (trans_soc _ _ _ _ Hs _ _ _ _ _ _ _ _ Tk Sz d t I Sp) as W. apply (soc_ok_dev _ _ _ _ Hs _ _ _ _ S1 I Sp) in W.
  rewrite <- Ei in W. destruct W as (lo & hi & Bd & W). rewrite (ax_bound s0 "des_soc" "pu" 6 0 1 Ed Eb) in Bd by (cbn [In]; repeat (try (left; reflexivity); right)). injection Bd as <- <-.
  destruct W as [W|(W1 & W2)]; [left; apply xisnan_spec; exact W|right]. destruct (soc_of d) as [c| | |]; try discriminate. exists c. split; [reflexivity|]. apply xle_inv in W1, W2. lra.
Qed.

Lemma shown_in lo hi x v : lo <= hi -> x = NaN \/ (exists y, x = Fin y /\ lo <= y <= hi) -> shown (Fin lo, Fin hi) x v -> v = x.
Proof.
  intros L [->|(y & -> & Hy)] S; [exact S|]. unfold shown in S. rewrite (proj2 (xisnan_false (Fin y))) in S by discriminate. cbn [fst snd] in S. apply S; [apply xle_Fin; lra|]. split; apply xle_Fin; lra.
Qed.

Lemma skip_hd {A} n : forall l : list A, nth_error (skipn n l) 0 = nth_error l n.
Proof. induction n as [|n IH]; intros [|y l]; cbn [skipn nth_error]; auto. apply IH. Qed.
Lemma map_Some_inj {A} : forall l m : list A, map Some l = map Some m -> l = m.
Proof. induction l as [|x l IH]; intros [|y m] H; cbn in H; try discriminate; auto. injection H as -> H. f_equal. auto. Qed.
(** an environment whose simulator holds values of the day shows its state *)
Section Show.
  Context {G : Type} (s0 : sim XR) (Hs : sim_init anm6x easy_dt (nofZ 100) = Ok s0) (e : env XR G) (l : list (call XR)) (El : e_sim e = run s0 l) (EK : e_K e = 1%nat).
  Context (st aux X ob : list XR) (B : list (XR * XR)) (k : nat).
  Context (Ly : state_layout [0; 1; 2; 3; 4; 5; 6]%Z [2; 4]%Z [6]%Z 1 (e_sim e) aux st).
  Context (HX : map Some X = map (req_value e st) (List.concat ax_reqs)).
  Context (HB : map Some B = map (req_bound s0 (Some [(n0, nsub (ndiv (nofZ 24) easy_dt) n1)])) (List.concat ax_reqs)).
  Context (Sh : shows B X ob) (Ff : flex_fits (e_sim e)) (Day : easy_day (e_sim e) k) (Hk : (k < 96)%nat).
  Context (Soc : forall v, obs (e_sim e) "des_soc" "MWh" (EId 6) = Some v -> v = NaN \/ exists c, v = Fin c /\ 0 <= c <= 100).
  Context (t : R) (Ht : 0 <= t <= 95) (Ti : nth_error st 17 = Some (Fin t)).

  Lemma st_len : List.length st = 18%nat.
  Proof. destruct Ly as (La & E). apply (f_equal (@List.length _)) in E. unfold reads in E. rewrite map_length, !app_length, !map_length in E. rewrite La in E. exact E. Qed.
  Lemma X_is_st : X = st.
  Proof.
    assert (H : map Some X = map Some st).
    { rewrite HX. destruct Ly as (La & E). rewrite E. unfold ax_reqs. cbn [List.concat app map]. unfold req_value. rewrite st_len, EK. cbn [String.eqb Ascii.eqb Bool.eqb]. unfold reads. cbn [map app].
      do 17 f_equal. destruct aux as [|x [|]]; try discriminate La. cbn [map]. f_equal.
      pose proof (f_equal (fun q => nth_error q 17) E) as Q. unfold reads in Q. cbn [map app] in Q. rewrite nth_error_map in Q. destruct (nth_error st 17) as [y|] eqn:Ey; [|discriminate]. cbn in Q. injection Q as ->.
      change (18 - 1)%nat with 17%nat. change (Z.to_nat 0) with 0%nat. rewrite <- Ey. apply skip_hd. }
    apply map_Some_inj. exact H.
  Qed.

  Lemma pu_value key u i p : In (key, u) power_units -> obs (e_sim e) key "pu" i = Some (Fin p) -> obs (e_sim e) key u i = Some (Fin (p * 100)).
  Proof. intros I O. rewrite El in O |- *. rewrite (units_power_state _ _ _ _ _ _ _ _ Hs I), O. reflexivity. Qed.
  Lemma entry_range key u i lo hi v :
    In (key, u, i, (lo, hi)) [("dev_p", "MW", 1%Z, (-10, 0)); ("dev_p", "MW", 2%Z, (0, 30)); ("dev_p", "MW", 3%Z, (-30, 0)); ("dev_p", "MW", 4%Z, (0, 50));
      ("dev_p", "MW", 5%Z, (-30, 0)); ("dev_p", "MW", 6%Z, (-50, 50)); ("dev_q", "MVAr", 1%Z, (-2, 0)); ("dev_q", "MVAr", 2%Z, (-30, 30)); ("dev_q", "MVAr", 3%Z, (-6, 0));
      ("dev_q", "MVAr", 4%Z, (-50, 50)); ("dev_q", "MVAr", 5%Z, (-6, 0)); ("dev_q", "MVAr", 6%Z, (-50, 50)); ("des_soc", "MWh", 6%Z, (0, 100)); ("gen_p_max", "MW", 2%Z, (0, 30)); ("gen_p_max", "MW", 4%Z, (0, 50))] ->
    obs (e_sim e) key u (EId i) = Some v -> v = NaN \/ exists y, v = Fin y /\ lo <= y <= hi.
  Proof.
    intros I O.
    assert (Ld : forall i s1 s2 s3 lo hi, In (i, (s1, s2, s3)) [(1, (-1, -5, -2)); (3, (-4, -10, -20)); (5, (0, -25, 0))]%Z -> lo <= IZR s1 <= hi -> lo <= IZR s2 <= hi -> lo <= IZR s3 <= hi ->
      exists x, obs (e_sim e) "dev_p" "MW" (EId i) = Some (Fin x) /\ obs (e_sim e) "dev_q" "MVAr" (EId i) = Some (Fin (2 / 10 * x)) /\ lo <= x <= hi).
    { intros j s1 s2 s3 a b J A1 A2 A3. destruct (proj1 Day j s1 s2 s3 J) as (P & Q). eexists. split; [exact P|]. split; [exact Q|]. apply scenario_range; auto. }
    destruct (Ld 1%Z (-1)%Z (-5)%Z (-2)%Z (-10) 0) as (x1 & P1 & Q1 & R1); try (cbn; auto; lra). destruct (Ld 3%Z (-4)%Z (-10)%Z (-20)%Z (-30) 0) as (x3 & P3 & Q3 & R3); try (cbn; auto; lra).
    destruct (Ld 5%Z 0%Z (-25)%Z 0%Z (-30) 0) as (x5 & P5 & Q5 & R5); try (cbn; auto 6; lra). clear Ld.
    destruct Ff as (F1 & F2).
    destruct (F1 2%Z 0 30 (-30) 30) as (p2 & q2 & P2 & Q2 & R2 & R2'); [cbn; auto|]. destruct (F1 4%Z 0 50 (-50) 50) as (p4 & q4 & P4 & Q4 & R4 & R4'); [cbn; auto|].
    destruct (F1 6%Z (-50) 50 (-50) 50) as (p6 & q6 & P6 & Q6 & R6 & R6'); [cbn; auto|]. destruct (F2 2%Z 30) as (m2 & M2 & N2); [cbn; auto|]. destruct (F2 4%Z 50) as (m4 & M4 & N4); [cbn; auto|].
    apply (pu_value _ "MW") in P2, P4, P6, M2, M4; try (cbn; tauto). apply (pu_value _ "MVAr") in Q2, Q4, Q6; try (cbn; tauto).
    cbn [In] in I. decompose [or] I; try contradiction; match goal with H : (_, _, _, _) = _ |- _ => injection H as <- <- <- <- <- end; try (apply Soc; exact O);
      (match goal with H : obs _ ?a ?b ?c = Some (Fin ?z) |- _ => match type of O with obs _ a b c = _ => rewrite H in O; injection O as <-; right; exists z; split; [reflexivity|lra] end end).
  Qed.

  Lemma shown_state : List.length ob = 18%nat /\ (forall j, j <> 0%nat -> j <> 7%nat -> nth_error ob j = nth_error st j) /\
    (forall j x v, j = 0%nat \/ j = 7%nat -> nth_error st j = Some x -> nth_error ob j = Some v -> shown (Fin (-200), Fin 200) x v).
  Proof.
    assert (Ax : sm_devs s0 = ax_devs /\ sm_base s0 = Fin 100). { destruct (ax_sim easy_dt (nofZ 100)) as (s & Es & Ed & Eb & _). rewrite Es in Hs. injection Hs as <-. auto. } destruct Ax as (Ed & Eb).
    pose proof X_is_st as EX. pose proof st_len as Ls. destruct Sh as (L1 & L2 & S). rewrite EX in L1, L2, S. rewrite Ls in L1, L2. split; [exact L1|].
    assert (EB : map Some B = map (fun b : R * R => Some (Fin (fst b), Fin (snd b))) [(-200, 200); (-10, 0); (0, 30); (-30, 0); (0, 50); (-30, 0); (-50, 50); (-200, 200); (-2, 0); (-30, 30); (-6, 0); (-50, 50); (-6, 0); (-50, 50); (0, 100); (0, 30); (0, 50); (0, 95)]).
    { rewrite HB. unfold ax_reqs. cbn [List.concat app map fst snd]. unfold req_bound. cbn [String.eqb Ascii.eqb Bool.eqb].
      assert (Ea : nth_error [(n0, nsub (ndiv (nofZ 24) easy_dt) n1)] (Z.to_nat 0) = Some (Fin 0, Fin 95)).
      { cbn [nth_error Z.to_nat]. unfold easy_dt. rewrite nrat_XR by lia. cbn [n0 n1 nofZ ndiv nsub XRnum]. rewrite xdiv_Fin by lra. cbn [xsub]. do 2 f_equal. f_equal. lra. }
      rewrite Ea. repeat (apply (f_equal2 cons); [first [reflexivity|apply (ax_bound s0 _ _ _ _ _ Ed Eb); cbn [In]; repeat (try (left; reflexivity); right)]|]). reflexivity. }
    destruct Ly as (La & EL). unfold reads in EL. cbn [map app] in EL.
    assert (Rd : forall j x, nth_error st j = Some x -> nth_error (map Some st) j = Some (Some x)) by (intros j x N; rewrite nth_error_map, N; reflexivity).
    assert (Bd : forall j b, nth_error (map (fun b : R * R => Some (Fin (fst b), Fin (snd b))) [(-200, 200); (-10, 0); (0, 30); (-30, 0); (0, 50); (-30, 0); (-50, 50); (-200, 200); (-2, 0); (-30, 30); (-6, 0); (-50, 50); (-6, 0); (-50, 50); (0, 100); (0, 30); (0, 50); (0, 95)]) j = Some (Some b) -> nth_error B j = Some b).
    { intros j b N. rewrite <- EB, nth_error_map in N. destruct (nth_error B j); [|discriminate]. cbn in N. congruence. }
    rewrite EL in Rd. split.
    - intros j N0 N7. destruct (Nat.lt_ge_cases j 18) as [Lj|Lj]; [|rewrite (proj2 (nth_error_None ob j)), (proj2 (nth_error_None st j)) by lia; reflexivity].
      destruct (nth_error st j) as [x|] eqn:Nx; [|apply nth_error_None in Nx; lia]. destruct (nth_error ob j) as [v|] eqn:Nv; [|apply nth_error_None in Nv; lia]. f_equal.
      assert (Rx := Rd j x Nx). assert (Sx := fun b Nb => S j b x v Nb Nx Nv). clear Rd.
      assert (Go : forall key u i lo hi, nth_error B j = Some (Fin lo, Fin hi) -> lo <= hi -> obs (e_sim e) key u (EId i) = Some x -> (obs (e_sim e) key u (EId i) = Some x -> x = NaN \/ exists y, x = Fin y /\ lo <= y <= hi) -> v = x).
      { intros key u i lo hi Nb Lb Ob Rg. exact (shown_in lo hi x v Lb (Rg Ob) (Sx _ Nb)). }
      destruct j as [|j]; [congruence|].
      do 16 (destruct j as [|j]; [first [exfalso; apply N7; reflexivity|cbn [nth_error] in Rx; injection Rx as Rx; eapply Go; [apply Bd; cbn; reflexivity|lra|exact Rx|]; apply entry_range; cbn [In]; repeat (try (left; reflexivity); right)]|]).
      destruct j as [|j]; [|lia].
      refine (shown_in 0 95 _ _ _ _ (Sx _ _)); [lra| |apply Bd; reflexivity]. rewrite Ti in Nx. injection Nx as <-. right. exists t. auto.
    - intros j x v J Nx Nv. apply (S j _ x v); auto. apply Bd. destruct J as [->| ->]; reflexivity.
  Qed.
End Show.

Lemma kept_stepping {G} (ro : rng_ops XR G) sf g (a0 : anm6 XR G) P n a a' : stepping ro sf P n a a' ->
  (reach6 g (a_env a0) a /\ simrun (e_sim (a_env a0)) a /\ forall sp, e_ospace (a_env a0) = Some sp -> e_ospace (a_env a) = Some sp) ->
  reach6 g (a_env a0) a' /\ simrun (e_sim (a_env a0)) a' /\ forall sp, e_ospace (a_env a0) = Some sp -> e_ospace (a_env a') = Some sp.
Proof.
  intros St K. induction St as [a|n a a3 a4 Or act out St IH E _|n a a3 Or act St IH E|n a a3 hu sk st up St IH|n a a3 St IH]; auto.
  - pose proof (kept_step ro sf g a0 Or act _ (IH K)) as Q. rewrite E in Q. exact Q.
  - apply kept_step; auto.
  - apply kept_render; auto.
Qed.
Lemma layout_17 (s : sim XR) (aux st : list XR) : state_layout [0; 1; 2; 3; 4; 5; 6]%Z [2; 4]%Z [6]%Z 1 s aux st -> List.length st = 18%nat.
Proof. intros (La & E). apply (f_equal (@List.length _)) in E. unfold reads in E. rewrite map_length, !app_length, !map_length in E. rewrite La in E. exact E. Qed.

(** C92.  In ANM6Easy the observation returned by a reset, and by every later step that does not end the episode, is the state vector, up to the limits of the
    slack generator: any history, any actions, an optimisation solver whose points satisfy the constraints. *)
Theorem C92_observed : forall (G : Type) (ro : rng_ops XR G) sf g a0 cs Or0 seed date a1 ob,
  rng_sound ro -> easy_make g = Ok a0 -> easy_reset Or0 ro sf seed date (run6 ro sf a0 cs) = (a1, Ok ob) -> qp_sound 0 (o_qp Or0) ->
  state_shown a1 ob /\
  forall n a Or act a2 out, stepping ro sf alive6 n a1 a -> qp_sound 0 (o_qp Or) -> easy_step Or ro sf act a = (a2, Ok out) -> so_terminated out = false -> state_shown a2 (so_obs out).
Proof.
  intros G ro sf g a0 cs Or0 seed date a1 ob Rs B H Q0.
  pose proof (kept_run ro sf g a0 cs _ (kept_start g a0 B)) as K. pose proof (kept_reset ro sf g a0 Or0 seed date _ K) as K1. rewrite H in K1. cbn [fst] in K1.
  destruct (start_facts clock_XR g a0 B) as (e0 & R0 & E0 & Hs & Sr). rewrite E0 in K, K1. set (s0 := e_sim e0) in *.
  assert (Ax : sm_devs s0 = ax_devs /\ sm_base s0 = Fin 100). { destruct (ax_sim easy_dt (nofZ 100)) as (s & Es & Ed & Eb & _). rewrite Es in Hs. injection Hs as <-. auto. } destruct Ax as (Ed & Eb).
  destruct (observation_list_at anm6x ObsState 1 (easy_dt : XR) easy_gamma (nofZ 100) (Some [(n0, nsub (ndiv (nofZ 24) easy_dt) n1)]) (Some (Some n1, Some (nofZ 100))) g s0 state_tuples ax_reqs Hs ax_args eq_refl (ax_requested s0 Ed) e6_plain)
    as (e0' & Bs & I0 & Es0 & Sp0 & HB & A).
  assert (e0' = e0).
  { rewrite <- E0. clear -B I0. unfold easy_make in B. apply bind_ok in B as (e & E & B). unfold anm6_init in B. apply bind_ok in B as (? & _ & B). apply bind_ok in B as (? & _ & B). injection B as <-.
    cbn [a_env]. unfold easy_env in E. congruence. }
  subst e0'.
  destruct (anm6_ids (F := XR)) as (D1 & D2 & D3 & D4).
  destruct (C63_reset_values G ro sf g a0 cs Or0 seed date a1 ob Rs B H) as (t0 & Ht0 & Ti0 & Day0).
  assert (Ha : forall t : Z, (0 <= t < 96)%Z -> 0 <= IZR t <= 95) by (intros t Ht; split; [apply IZR_le; lia|apply (IZR_le t 95); lia]).
  split.
  - destruct K as (R & (l & El) & Sp). destruct K1 as (_ & (l1 & El1) & _). specialize (Sp _ Sp0).
    destruct (C47_initial_soc clock_XR ro sf g a0 B cs Or0 seed date a1 ob H) as (lo & hi & g1 & st' & Bd & Est' & N14 & O14).
    destruct R as (Hg & _). destruct (A (easy_task ro sf (e_sim (a_env (run6 ro sf a0 cs)))) _ Hg Sp) as (Ar & _).
    unfold easy_reset, anm6_reset in H. destruct (env_reset Or0 _ seed _) as (e', [ob'|x]) eqn:E; [|discriminate].
    destruct (Ar _ _ _ _ E) as (st & X & Es & HX & Sh).
    destruct (gd_reset_inv _ _ _ _ _ _ _ _ _ Hg E D1 D3 D4) as (k & init & st2 & _ & _ & At & D & _ & Si & Es2 & Ly & _).
    rewrite Es in Es2. injection Es2 as <-.
    assert (Rs' : sim_reset Or0 init s0 = (e_sim e', Ok true)).
    { destruct At as (init' & A1 & _ & A3). rewrite D in A1. cbn [fst] in A1. injection A1 as <-. unfold s0. rewrite Si. destruct (sim_reset Or0 init (e_sim e0)); cbn in *; congruence. }
    assert (Ea : e_sim (a_env a1) = e_sim e' /\ e_state (a_env a1) = e_state e' /\ ob' = ob).
    { destruct date as [d|]; [|destruct (random_date ro 0 (e_rng e')) as (d, gr)]; cbn in H; rewrite Es in H; (destruct (xtrunc _); [|discriminate H]); injection H as <- <-; cbn; auto. }
    destruct Ea as (Ea1 & Ea2 & ->). rewrite Ea1 in *. rewrite Ea2, Es in Est'. injection Est' as <-.
    destruct (reset_is_transition _ _ _ _ Hs _ _ _ D1 D3 D4 Or0 init _ _ _ eq_refl Rs') as (inp & z & s1 & out & T & Ra).
    pose proof (trans_fits s0 z s1 Or0 inp out Hs (ra_strip _ _ _ _ _ _ _ _ _ _ _ Ra) T Q0) as (F1 & F2). pose proof (ra_obs _ _ _ _ _ _ _ _ _ _ _ Ra) as Ob.
    change (Z.to_nat 1) with 1%nat in Ly. pose proof (layout_17 _ _ _ Ly) as Ls.
    destruct (shown_state s0 Hs e' l1 El1) with (st := st) (aux := skipn (List.length init - 1) init) (X := X) (ob := ob) (B := Bs) (k := Z.to_nat t0) (t := IZR t0) as (W1 & W2 & W3); auto.
    + exact (gd_K _ (good_reset _ _ _ _ _ _ _ _ Hg E)).
    + split; [intros i lo' hi' l' h' I|intros i hi' I]; [destruct (F1 _ _ _ _ _ I) as (p & q & P)|destruct (F2 _ _ I) as (p & P)]; [exists p, q|exists p]; rewrite !Ob by discriminate; exact P.
    + lia.
    + intros v Ov. rewrite O14, N14 in Ov. injection Ov as <-. rewrite E0 in Bd. fold s0 in Bd. rewrite (ax_bound s0 "des_soc" "pu" 6 0 1 Ed Eb) in Bd by (cbn [In]; repeat (try (left; reflexivity); right)). injection Bd as <- <-.
      destruct (rs_unif _ Rs (Fin 0) (Fin 1) g1 ltac:(apply xle_Fin; lra)) as (U1 & U2). destruct (fst (r_unif ro (Fin 0) (Fin 1) g1)) as [c| | |]; try discriminate. apply xle_inv in U1, U2.
      right. exists (c / 100 * 100). cbn [ndiv nmul nofZ XRnum]. rewrite xdiv_Fin by lra. split; [reflexivity|lra].
    + unfold time_index in Ti0. rewrite Ea2, Es, Ls in Ti0. exact Ti0.
    + exists st. rewrite Ea2. auto 6.
  - intros n a Or act a2 out St Q E2 Tf. pose proof (kept_stepping ro sf g a0 alive6 n a1 a St) as Ka. rewrite E0 in Ka. destruct (Ka K1) as ((Hg & _) & (l & El) & Sp). clear Ka. specialize (Sp _ Sp0).
    destruct (C44_time_index XR G _ ro sf g a0 cs Or0 seed date a1 ob clock_XR Rs B H) as (t1 & Ht1 & At1).
    destruct (At1 (Datatypes.S n) a2 (SStep _ _ _ _ _ _ _ _ _ _ St E2 Tf)) as (Ti & _).
    destruct (C63_step_values G ro sf g a0 cs Or0 seed date a1 ob Rs B H) as (t2 & Ht2 & _ & Dy). specialize (Dy n a Or act a2 out St E2 Tf).
    destruct (A (easy_task ro sf (e_sim (a_env a))) _ Hg Sp) as (_ & As).
    pose proof (sr_step _ Or ro sf act a (ex_intro _ l El)) as (l2 & El2). rewrite E2 in El2. cbn [fst] in El2.
    unfold easy_step, anm6_step in E2. destruct (env_step Or _ act (a_env a)) as (e', [o|x]) eqn:E; [|discriminate].
    assert (Ea : a_env a2 = e' /\ o = out) by (destruct (a_date a); [destruct (a_date_init a)|]; injection E2 as <- E'; try discriminate; split; auto; congruence).
    destruct Ea as (Ea & ->). clear E2. destruct (As _ _ _ _ E Tf) as (st & X & Es & HX & Sh).
    destruct (gd_step_inv _ _ _ _ _ _ Hg E) as [(_ & _ & _ & sp & _ & ->)|(st1 & vars & el & pen & conv & L)]; [discriminate|].
    destruct conv; [|destruct (lv_coll _ _ _ _ _ _ _ _ _ _ _ L eq_refl) as (_ & _ & _ & rw & sp & _ & _ & ->); discriminate].
    destruct (lv_conv _ _ _ _ _ _ _ _ _ _ _ L eq_refl) as (_ & _ & st2 & ov & sp & Es2 & _ & _ & _ & _ & Ly). specialize (Ly _ _ _ D1 D3 D4). rewrite Es in Es2. injection Es2 as <-.
    destruct (lv_trans _ _ _ _ _ _ _ _ _ _ _ L) as (fl & rr & Tr). rewrite El in Tr. rewrite Ea in *.
    change (Z.to_nat 1) with 1%nat in Ly. pose proof (layout_17 _ _ _ Ly) as Ls.
    match type of Ly with state_layout _ _ _ _ _ ?x _ => destruct (shown_state s0 Hs e' l2 El2) with (st := st) (aux := x) (X := X) (ob := so_obs out) (B := Bs) (k := Z.to_nat ((t2 + Z.of_nat n + 1) mod 96)) (t := IZR ((t1 + Z.of_nat (Datatypes.S n)) mod 96)) as (W1 & W2 & W3); auto end.
    + pose proof (stepped_const _ _ _ _ _ _ (env_stepped Or (easy_task ro sf (e_sim (a_env a))) act (a_env a))) as (C & _). rewrite E in C. exact (gd_K _ (good_const _ _ Hg C)).
    + exact (trans_fits s0 _ _ _ _ _ Hs (strip_run s0 l) Tr Q).
    + pose proof (Z.mod_pos_bound (t2 + Z.of_nat n + 1) 96). lia.
    + intros v Ov. pose proof (fun v => trans_soc6 s0 _ _ _ _ _ v Hs (strip_run s0 l) Tr) as Sc. rewrite El2 in Ov, Sc. fold s0 in Ov, Sc. rewrite (units_power_state _ _ _ _ l2 "des_soc" "MWh" (EId 6) Hs) in Ov by (cbn; tauto).
      destruct (obs (run s0 l2) "des_soc" "pu" (EId 6)) as [w|]; [|discriminate]. cbn [option_map] in Ov. injection Ov as <-. destruct (Sc w eq_refl) as [->|(c & -> & Hc)]; [left; reflexivity|right].
      exists (c * 100). split; [reflexivity|lra].
    + apply Ha. apply Z.mod_pos_bound. lia.
    + unfold time_index in Ti. rewrite Ea, Es, Ls in Ti. exact Ti.
    + exists st. rewrite Ea. auto 6.
Qed.

(** The hypotheses are met: sound generators and solvers exist, and the environment can be built (C74 says when the reset returns). *)
Example C92_ex : exists (a0 : anm6 XR nat) Or, rng_sound low_rng /\ easy_make 0%nat = Ok a0 /\ qp_sound 0 (o_qp Or) /\ good_oracles Or /\
  forall sf cs date, answers6 low_rng sf (e_sim (a_env a0)) (run6 low_rng sf a0 cs) (E6Reset Or None date) /\
    forall a1 ob, easy_reset Or low_rng sf None date (run6 low_rng sf a0 cs) = (a1, Ok ob) -> state_shown a1 ob /\
      forall a2 out, easy_step Or low_rng sf idle6 a1 = (a2, Ok out) -> so_terminated out = false -> state_shown a2 (so_obs out).
Proof.
  destruct C06_solver_exists as (qp & Qs & Qe & Qc). destruct (C74_constructed nat 0%nat) as (a0 & B). exists a0, (mkOr qp gauss_solve).
  assert (Go : good_oracles (mkOr qp gauss_solve)) by (split; [exact Qe|split; [exact Qc|apply C68_linear_solver_exists]]).
  split; [apply low_sound|]. split; [exact B|]. split; [exact Qs|]. split; [exact Go|]. intros sf cs date. split; [apply (C74_easy_resets nat low_rng sf 0%nat a0); auto using low_sound|].
  intros a1 ob H. destruct (C92_observed nat low_rng sf 0%nat a0 cs _ None date a1 ob low_sound B H Qs) as (A1 & A2). split; [exact A1|].
  intros a2 out E T. exact (A2 0%nat a1 (mkOr qp gauss_solve) idle6 a2 out (SNone _ _ _ a1) Qs E T).
Qed.

Print Assumptions C92_observed.
