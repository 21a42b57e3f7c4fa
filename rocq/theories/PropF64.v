(** C87: penalties and rewards in binary64, the arithmetic the program runs with. *)
From Coq Require Import ZArith Reals Lra Floats List.
From Verif Require Import Base Num NumXR NumFloat Devices BusBranch CheckNetwork LoadFlow Simulator EnvArgs Env LibBase LibNum LibSim
  SpecNet ProofNet LibInit SpecSim ProofSim ProofObs SpecEnv ProofEnv ProofStep ProofState ProofDraw ProofEnvOk PropReward ProofPf Anm6 SpecAnm6 ProofEasy PropEasy LibF64 SpecF64 ProofF64.
Import ListNotations.
Local Open Scope string_scope.
Local Open Scope list_scope.
Set Bullet Behavior "Strict Subproofs".

Lemma init_row_bus (L : libm) (r : bus_row float) b : bus_init (N := Fnum L) r = Ok b -> br_vmax r = Some (b_vmax b) /\ b_vmin b = br_vmin r.
Proof.
  intros Mb. unfold bus_init in Mb. apply bind_ok in Mb as (id & _ & Mb). apply bind_ok in Mb as (ty & _ & Mb). cbv zeta in Mb. apply bind_ok in Mb as (u1 & _ & Mb). apply bind_ok in Mb as (kv & _ & Mb).
  apply bind_ok in Mb as (vmax & Ev & Mb). apply bind_ok in Mb as (u2 & _ & Mb). apply bind_ok in Mb as (u3 & _ & Mb). injection Mb as <-. cbn. destruct (br_vmax r) as [v|]; [|discriminate]. destruct (nltb v n0); [discriminate|]. injection Ev as <-. auto.
Qed.
Lemma init_row_br (L : libm) (r : branch_row float) base ids b : branch_init (N := Fnum L) r base ids = Ok b ->
  lr_f r = Some (ln_f b) /\ lr_t r = Some (ln_t b) /\ ln_rate b = match lr_rate r with None => PrimFloat.infinity | Some v => PrimFloat.div v base end.
Proof.
  intros H. unfold branch_init in H. apply bind_ok in H as (f & Hf & H). apply bind_ok in H as (t & Ht & H). do 4 (apply bind_ok in H as (? & _ & H)). apply bind_ok in H as (rt & Hr & H).
  do 2 (apply bind_ok in H as (? & _ & H)). injection H as <-. cbn. split; [destruct (lr_f r); [destruct (zmem _ _)|]; congruence|]. split; [destruct (lr_t r); [destruct (zmem _ _)|]; congruence|].
  destruct (lr_rate r); [destruct (nltb _ _); [discriminate|]|]; injection Hr as <-; reflexivity.
Qed.
Lemma dt_lamb64 (L : libm) (nw : network float) dt lamb s0 s : sim_init (N := Fnum L) nw dt lamb = Ok s0 -> strip (N := Fnum L) s = strip (N := Fnum L) s0 -> sm_dt s = dt /\ sm_lamb s = lamb.
Proof.
  intros H S. assert (A : sm_dt s = sm_dt s0 /\ sm_lamb s = sm_lamb s0) by (unfold strip in S; injection S; auto). destruct A as (-> & ->).
  unfold sim_init in H. repeat (apply bind_ok in H as (? & _ & H)). injection H as <-. auto.
Qed.
Lemma strip_br64 (L : libm) (b b' : branch float) : strip_br (N := Fnum L) b = strip_br (N := Fnum L) b' -> ln_f b = ln_f b' /\ ln_t b = ln_t b' /\ ln_rate b = ln_rate b'.
Proof. unfold strip_br. intros H. injection H. auto. Qed.

(** C87, the penalty: at least 0, and 0 exactly when every reported limit is respected; no rounding hides a violation. *)
Theorem C87_penalty : forall (L : libm) (nw : network float) dt lamb s0 cs Or inp s' st rew el pen conv,
  sim_init (N := Fnum L) nw dt lamb = Ok s0 -> transition (N := Fnum L) Or inp (run (N := Fnum L) s0 cs) = (s', Ok (st, rew, el, pen, conv)) ->
  limits_numbers nw -> readings_finite nw s' -> PrimFloat.leb 1 (dt * lamb) = true -> PrimFloat.ltb (dt * lamb) infinity = true ->
  PrimFloat.leb 0 pen = true /\ (PrimFloat.eqb pen 0 = true <-> respected nw s').
Proof.
  intros L nw dt lamb s0 cs Or inp s' st rew el pen conv H0 Tr (N1 & N2) (F1 & F2) K1 K2. apply transition_ok in Tr as (_ & Rw & ds & v & i & T).
  assert (S1 : strip (N := Fnum L) s' = strip (N := Fnum L) s0) by (rewrite (tk_strip _ _ _ _ _ _ _ _ T); apply strip_run).
  pose proof (tk_state _ _ _ _ _ _ _ _ T) as Es. destruct (dt_lamb64 L nw dt lamb s0 s' H0 S1) as (Ed & El).
  unfold compute_reward in Rw. apply bind_ok in Rw as (pn & Pn & Rw). injection Rw as _ _ <-.
  unfold penalty_of in Pn. apply bind_ok in Pn as (a & Ha & Pn). injection Pn as <-. rewrite Ed, El. cbn [nmul Fnum].
  destruct (sim_init_built _ _ _ _ H0) as (bs & dvs & B). assert (NB : NoDup (map b_id (sm_buses s'))) by (eapply static_bus_nodup; eauto).
  assert (NR : NoDup (map (fun b => EBr (ln_f b) (ln_t b)) (sm_branches s'))) by (eapply static_br_nodup; eauto).
  (* buses *)
  assert (Rv : forall b, In b (sm_buses s') -> obs s' "bus_v_magn" "pu" (EId (b_id b)) = Some (cabs (N := Fnum L) (b_v b))).
  { intros b I. unfold obs. rewrite Es. apply (read_bus (N := Fnum L) s' "bus_v_magn" "pu" (fun x => cabs (N := Fnum L) (b_v x))); auto. cbn; tauto. }
  assert (Rb : forall b, In b (sm_buses s') -> exists r, In r (nw_bus nw) /\ br_id r = Some (b_id b) /\ br_vmax r = Some (b_vmax b) /\ b_vmin b = br_vmin r).
  { intros b I. destruct (static_bus _ _ _ S1 I) as (b0 & I0 & E0). destruct (bt_bus_row B _ I0) as (rb & b1 & Ir & Mb & Eq). subst b0. exists rb. split; auto.
    pose proof (bus_init_id _ _ Mb) as Ei. destruct (init_row_bus L _ _ Mb) as (E1 & E2). apply strip_bus_fields in E0 as (G1 & _ & _ & G4 & G5 & _). cbn in G1, G4, G5. rewrite <- G1, <- G4, <- G5. auto. }
  assert (Rs : forall b, In b (sm_branches s') -> obs s' "branch_s" "pu" (EBr (ln_f b) (ln_t b)) = Some (ln_smax b)).
  { intros b I. unfold obs. rewrite Es. apply (read_br (N := Fnum L) s' "branch_s" "pu" ln_smax); auto. cbn; tauto. }
  assert (Rr : forall b, In b (sm_branches s') -> exists r, In r (nw_br nw) /\ lr_f r = Some (ln_f b) /\ lr_t r = Some (ln_t b) /\ ln_rate b = rating nw r).
  { intros b I. destruct (static_br _ _ _ S1 I) as (b0 & I0 & E0). destruct (bt_br_row B _ I0) as (r & Ir & Mb). exists r. split; auto. destruct (init_row_br L _ _ _ _ Mb) as (E1 & E2 & E3).
    destruct (strip_br64 L _ _ E0) as (G1 & G2 & G3). unfold rating. rewrite <- E3, <- G1, <- G2, <- G3. auto. }
  assert (Z0 : zv 0%float /\ nnv 0%float) by (split; [reflexivity|]; unfold nnv; rewrite fval_0; cbn; apply Rleb_spec; lra). destruct Z0 as (Z0 & P0).
  destruct (buses64 L (sm_buses s') 0%float a Ha P0) as (Pa & Za).
  { intros b I. destruct (Rb b I) as (r & Ir & Ei & Ev & Em). destruct (F1 r (b_id b) Ir Ei) as (x & Ex & Fx). rewrite (Rv b I) in Ex. injection Ex as <-. split; auto. split; [apply (N1 r); auto|]. intros lo El'. apply (N1 r); auto. left. congruence. }
  destruct (branches64 L (sm_branches s') a Pa) as (Pb & Zb).
  { intros b I. destruct (Rr b I) as (r & Ir & Ef & Et & Er). destruct (F2 r (ln_f b) (ln_t b) Ir Ef Et) as (x & Ex & Fx). rewrite (Rs b I) in Ex. injection Ex as <-. split; [|rewrite Er; apply N2; auto].
    unfold fin64 in *. rewrite fval_ltb, !fval_abs in *. destruct (fval (ln_smax b)); try discriminate Fx. reflexivity. }
  destruct (weigh _ (dt * lamb) Pb K1 K2) as (Pw & Zw). split; [apply nnv_leb; exact Pw|]. rewrite zv_eqb, Zw, Zb, Za. split.
  - intros ((_ & A1) & A2). split.
    + intros r k lo hi x Ir Ek Elo Ehi Ex. destruct (bt_bus_row_inv B r Ir) as (b0 & Mb & I0). pose proof (bus_init_id _ _ Mb) as Ei.
      assert (Ib : In k (map b_id (sm_buses s'))). { rewrite (map_strip (strip_bus (N := Fnum L)) b_id _ _ (fun _ => eq_refl) (strip_buses _ _ S1)). apply in_map_iff. eexists. split; [|exact I0]. cbn. congruence. }
      apply in_map_iff in Ib as (b & Eb & Ib). destruct (Rb b Ib) as (r' & Ir' & E1 & E2 & E3).
      assert (r' = r). { destruct (bt_wf _ _ _ _ _ _ B) as (_ & _ & _ & _ & W4 & _). eapply (nodup_inj br_id (nw_bus nw)); eauto. congruence. } subst r'.
      rewrite <- Eb, (Rv b Ib) in Ex. injection Ex as <-. assert (hi = b_vmax b) by congruence. subst hi. apply A1; auto. congruence.
    + intros r f t x Ir Ef Et Ex. destruct (bt_br_row_inv B r Ir) as (b0 & I0 & Mb). destruct (init_row_br L _ _ _ _ Mb) as (E1 & E2 & E3).
      pose proof (strip_branches _ _ S1) as Sb. pose proof (in_map (strip_br (N := Fnum L)) _ _ I0) as Ib. rewrite <- Sb in Ib. apply in_map_iff in Ib as (b & Eb & Ib). destruct (strip_br64 L _ _ Eb) as (G1 & G2 & G3).
      rewrite E1 in Ef. rewrite E2 in Et. injection Ef as <-. injection Et as <-. rewrite <- G1, <- G2, (Rs b Ib) in Ex. injection Ex as <-. unfold rating. rewrite <- E3, <- G3. apply A2; auto.
  - intros (A1 & A2). split; [split; auto|].
    + intros b lo I El'. destruct (Rb b I) as (r & Ir & E1 & E2 & E3). apply (A1 r (b_id b)); auto. congruence.
    + intros b I. destruct (Rr b I) as (r & Ir & Ef & Et & Er). rewrite Er. apply (A2 r (ln_f b) (ln_t b)); auto.
Qed.
(** C87: whatever is reported, the penalty is at least 0 or NaN. *)
Theorem C87_penalty_sign : forall (L : libm) (nw : network float) dt lamb s0 cs Or inp s' st rew el pen conv,
  sim_init (N := Fnum L) nw dt lamb = Ok s0 -> transition (N := Fnum L) Or inp (run (N := Fnum L) s0 cs) = (s', Ok (st, rew, el, pen, conv)) ->
  PrimFloat.leb 0 (dt * lamb) = true -> num64 pen -> PrimFloat.leb 0 pen = true.
Proof.
  intros L nw dt lamb s0 cs Or inp s' st rew el pen conv H0 Tr K Np. apply transition_ok in Tr as (_ & Rw & ds & v & i & T).
  assert (S1 : strip (N := Fnum L) s' = strip (N := Fnum L) s0) by (rewrite (tk_strip _ _ _ _ _ _ _ _ T); apply strip_run). destruct (dt_lamb64 L nw dt lamb s0 s' H0 S1) as (Ed & El).
  unfold compute_reward in Rw. apply bind_ok in Rw as (pn & Pn & Rw). injection Rw as _ _ <-. apply nnv_leb. destruct (penalty_nnn L s' pn Pn) as [Q|Q]; auto; [rewrite Ed, El; auto|].
  apply num64_val in Np. contradiction.
Qed.

Section Rewards.
  Context {G : Type}.
  Variables (L : libm) (nw : network float) (o : obs_arg float) (K : Z) (dt gamma lamb : float) (auxb : option (list (float * float)))
            (clip : option (option float * option float)) (g : G) (e0 e : env float G) (T : task float G).
  #[local] Instance NF : Num float := Fnum L.
  Hypothesis Hg : good nw o K dt gamma lamb auxb clip g e0 e.

  Lemma loss64 c x : PrimFloat.leb 0 c = true -> nisnan x = false -> between64 (- c)%float (nmul (np_sign x) (np_clip (nabs x) n0 c)) c.
  Proof.
    unfold NF. intros Hc Hx. assert (Ha : nisnan (N := Fnum L) (PrimFloat.abs x) = false). { destruct (nisnan (N := Fnum L) (PrimFloat.abs x)) eqn:Q; auto. apply (nan_val L) in Q. rewrite fval_abs in Q. rewrite num_nan in Hx. destruct (fval x); cbn in *; discriminate. }
    pose proof (clip64 L (PrimFloat.abs x) 0 c Ha Hc) as (C1 & C2). cbn [nabs n0 Fnum]. set (y := np_clip (N := Fnum L) (PrimFloat.abs x) 0%float c) in *.
    assert (Sg : (fval (np_sign (N := Fnum L) x) = Fin 1 \/ fval (np_sign (N := Fnum L) x) = Fin (-1) \/ (fval (np_sign (N := Fnum L) x) = Fin 0 /\ fval y = Fin 0))%R).
    { unfold np_sign. rewrite Hx. cbn [nltb n0 n1 nopp Fnum]. rewrite !fval_ltb, fval_0. destruct (xltb (Fin 0) (fval x)) eqn:P; [left; apply one64|]. destruct (xltb (fval x) (Fin 0)) eqn:Q.
      - right; left. rewrite fval_opp, one64. cbn. first [reflexivity|f_equal; lra].
      - right; right. split; [reflexivity|]. assert (Ex : fval x = Fin 0). { rewrite num_nan in Hx. destruct (fval x) as [r| | |]; cbn in *; try discriminate. f_equal. rbool. lra. }
        assert (Ex' : fval (PrimFloat.abs x) = Fin 0) by (rewrite fval_abs, Ex; cbn; rewrite Rabs_R0; reflexivity).
        unfold y. rewrite (np_clip_id (N := Fnum L)); auto; cbn [nleb Fnum]; rewrite fval_leb, Ex'; [cbn; apply Rleb_spec; lra|]. rewrite fval_leb in Hc. exact Hc. }
    unfold between64 in *. rewrite !fval_leb in *. rewrite fval_0 in *. cbn [nmul Fnum]. rewrite fval_mul, fval_opp.
    destruct Sg as [Sg|[Sg|(Sg & Sy)]]; rewrite Sg.
    - rewrite xmul_1, xrnd_fix. split; auto. apply (xle_trans _ (Fin 0)); auto. destruct (fval c); cbn in *; try discriminate; auto. rbool. lra.
    - rewrite xmul_m1, <- (fval_opp y), xrnd_fix, (fval_opp y). destruct (fval c), (fval y); cbn in *; try discriminate; auto; split; auto; rbool; lra.
    - rewrite Sy. cbn [xmul xrnd]. rewrite Rmult_0_l, frnd_0. destruct (fval c); cbn in *; try discriminate; auto; split; auto; rbool; lra.
  Qed.
  Lemma sum64 c1 c2 x y : PrimFloat.leb 0 c1 = true -> PrimFloat.leb 0 c2 = true -> between64 (- c1)%float x c1 -> between64 0 y c2 ->
    (num64 (- (x + y))%float -> between64 (- (c1 + c2))%float (- (x + y))%float c1) /\ (fin64 c1 \/ fin64 c2 -> num64 (- (x + y))%float).
  Proof.
    unfold between64. intros H1 H2 (A1 & A2) (B1 & B2). rewrite !fval_leb in *. rewrite fval_0 in *. rewrite ?fval_opp in *. rewrite !fval_add.
    assert (Lo : xadd (fval x) (fval y) <> NaN -> xleb (xopp (fval c1)) (xadd (fval x) (fval y)) = true) by (clear -A1 B1 H1; intros Hn; destruct (fval c1), (fval x), (fval y); cbn in *; try discriminate; try congruence; auto; rbool; lra).
    assert (Up : xadd (fval x) (fval y) <> NaN -> xleb (xadd (fval x) (fval y)) (xadd (fval c1) (fval c2)) = true) by (clear -A2 B2 H1 H2; intros Hn; destruct (fval c1), (fval c2), (fval x), (fval y); cbn in *; try discriminate; try congruence; auto; rbool; lra).
    split.
    - intros Nn. apply num64_val in Nn. rewrite fval_opp, fval_add in Nn. assert (Hn : xadd (fval x) (fval y) <> NaN) by (intros Q; rewrite Q in Nn; apply Nn; reflexivity).
      specialize (Lo Hn). specialize (Up Hn). apply xrnd_mono in Lo, Up. rewrite <- (fval_opp c1), xrnd_fix, (fval_opp c1) in Lo. clear - Lo Up.
      destruct (xrnd (xadd (fval x) (fval y))), (xrnd (xadd (fval c1) (fval c2))), (fval c1); cbn in *; try discriminate; auto; split; auto; rbool; lra.
    - intros Fc. unfold num64. rewrite fval_eqb, fval_opp, fval_add. assert (Hn : xadd (fval x) (fval y) <> NaN).
      { destruct Fc as [Fc|Fc]; apply fin64_val in Fc as (r & Fc); rewrite Fc in *; clear -A1 A2 B1 B2 H1 H2; destruct (fval x), (fval y); cbn in *; try discriminate; auto. }
      assert (Q : xrnd (xadd (fval x) (fval y)) <> NaN). { destruct (xadd (fval x) (fval y)); try discriminate; auto. cbn. destruct (frnd_spec r) as [(_ & ->)|[(_ & ->)|(_ & ->)]]; discriminate. }
      destruct (xrnd (xadd (fval x) (fval y))); cbn; auto; try congruence. apply Reqb_refl.
  Qed.

  Lemma reward_at : forall Or a e' out, let c1 := loss_limit clip in let c2 := penalty_limit clip in PrimFloat.leb 0 c1 = true -> PrimFloat.leb 0 c2 = true ->
    env_step Or T a e = (e', Ok out) -> so_terminated out = false ->
    exists inp fl rr el pen, transition Or inp (e_sim e) = (e_sim e', Ok (fl, rr, el, pen, true)) /\
      (num64 (so_reward out) -> between64 (- (c1 + c2))%float (so_reward out) c1) /\
      (num64 el -> num64 pen -> fin64 c1 \/ fin64 c2 -> num64 (so_reward out)).
  Proof.
    intros Or a e' out c1 c2 P1 P2 H Ht.
    destruct (gd_step_inv _ _ _ _ _ _ Hg H) as [(_ & _ & _ & sp & _ & ->)|(st & vars & el & pen & conv & Lv)]; [discriminate|].
    destruct conv; [|destruct (lv_coll _ _ _ _ _ _ _ _ _ _ _ Lv eq_refl) as (_ & _ & _ & rw & sp & _ & _ & ->); discriminate].
    destruct (lv_conv _ _ _ _ _ _ _ _ _ _ _ Lv eq_refl) as (E1 & E2 & st2 & ov & sp & _ & _ & _ & _ & -> & _). destruct (lv_trans _ _ _ _ _ _ _ _ _ _ _ Lv) as (fl & rr & Tr).
    exists (step_inputs e vars a), fl, rr, el, pen. split; [exact Tr|]. cbn [so_reward]. unfold clip_eloss in E1. unfold clip_pen in E2. rewrite (gd_clip _ Hg), clip_limits in E1, E2. cbn [fst snd] in E1, E2. fold c1 in E1. fold c2 in E2.
    assert (B1 : num64 el -> between64 (- c1)%float (e_eloss e') c1). { intros Ne. rewrite E1. apply loss64; auto. unfold nisnan. unfold num64 in Ne. cbn [neqb NF Fnum]. rewrite Ne. reflexivity. }
    assert (B2 : num64 pen -> between64 0 (e_pen e') c2). { intros Ne. rewrite E2. apply (clip64 L); auto. unfold nisnan. unfold num64 in Ne. cbn [neqb NF Fnum]. rewrite Ne. reflexivity. }
    assert (D1 : fval el = NaN -> fval (e_eloss e') = NaN). { intros Q. apply (nan_val L) in Q. rewrite E1. unfold np_sign. unfold NF. rewrite Q. apply (nan_val L) in Q. cbn [nmul Fnum]. rewrite fval_mul, Q. reflexivity. }
    assert (D2 : fval pen = NaN -> fval (e_pen e') = NaN). { intros Q. rewrite E2. unfold NF. rewrite (np_clip_nan (N := Fnum L)); auto. apply nan_val. exact Q. }
    assert (Nm : forall x, fval x <> NaN -> num64 x) by (intros x Hx; unfold num64; rewrite fval_eqb; destruct (fval x); cbn; try congruence; apply Reqb_refl).
    cbn [nopp nadd NF Fnum]. split.
    - intros Nr. assert (V : fval (- (e_eloss e' + e_pen e'))%float <> NaN) by (apply num64_val; exact Nr). rewrite fval_opp, fval_add in V.
      assert (N1 : num64 el) by (apply Nm; intros Q; apply D1 in Q; rewrite Q in V; apply V; reflexivity).
      assert (N2 : num64 pen) by (apply Nm; intros Q; apply D2 in Q; rewrite Q in V; apply V; destruct (fval (e_eloss e')); reflexivity).
      destruct (sum64 c1 c2 (e_eloss e') (e_pen e') P1 P2 (B1 N1) (B2 N2)) as (A & _). apply A. exact Nr.
    - intros N1 N2 Fc. destruct (sum64 c1 c2 (e_eloss e') (e_pen e') P1 P2 (B1 N1) (B2 N2)) as (_ & A). auto.
  Qed.

  Lemma collapse_at : forall Or a e' out, let c2 := penalty_limit clip in PrimFloat.leb 0 c2 = true -> num64 gamma ->
    env_step Or T a e = (e', Ok out) -> so_terminated out = true ->
    (e' = e /\ so_reward out = 0%float) \/ (so_reward out = (- c2) / (1 - gamma) /\ PrimFloat.leb (so_reward out) (- c2) = true)%float.
  Proof.
    intros Or a e' out c2 P2 Ng H Ht.
    destruct (gd_step_inv _ _ _ _ _ _ Hg H) as [(_ & _ & Ee & sp & _ & ->)|(st & vars & el & pen & conv & Lv)]; [left; auto|]. right.
    destruct conv; [destruct (lv_conv _ _ _ _ _ _ _ _ _ _ _ Lv eq_refl) as (_ & _ & st2 & ov & sp & _ & _ & _ & _ & -> & _); discriminate|].
    destruct (lv_coll _ _ _ _ _ _ _ _ _ _ _ Lv eq_refl) as (_ & _ & _ & rw & sp & D & _ & ->). cbn [so_reward]. rewrite (gd_clip _ Hg), clip_limits, (gd_gamma _ Hg) in D. cbn [snd] in D. fold c2 in D.
    unfold pydiv in D. cbn [neqb nsub n1 n0 nopp ndiv NF Fnum] in D. destruct (PrimFloat.eqb (1 - gamma) 0) eqn:Z; [discriminate|]. injection D as <-. split; [reflexivity|].
    assert (Gb : (exists r, fval gamma = Fin r /\ 0 <= r <= 1)%R).
    { pose proof (ei_args _ _ _ _ _ _ _ _ _ _ (gd_init _ _ _ _ _ _ _ _ _ _ _ Hg)) as A. unfold check_env_args in A. do 3 (apply bind_ok in A as (? & _ & A)). apply bind_ok in A as ([] & A0 & _). apply raise_if_ok in A0. cbn [nltb n0 n1 NF Fnum] in A0. rewrite !fval_ltb, fval_0, one64 in A0.
      apply num64_val in Ng. apply Bool.orb_false_iff in A0 as (A1 & A2). destruct (fval gamma) as [r| | |]; cbn in A1, A2; try discriminate; try congruence. exists r. split; auto. rbool. lra. }
    destruct Gb as (r & Er & Hr). pose proof (fval_sub 1%float gamma) as Es. rewrite Er, one64 in Es. cbn [xsub xadd xopp xrnd] in Es.
    assert (R1 : (r < 1)%R). { destruct (Req_dec r 1) as [->|]; [|lra]. exfalso. rewrite fval_eqb, Es, fval_0 in Z. rewrite Rminus_eq_0, frnd_0 in Z. cbn in Z. rewrite Reqb_refl in Z. discriminate. }
    assert (S1 : xltb (Fin 0) (frnd (1 - r)) = true) by (apply (frnd_sub_pos gamma 1%float r 1%R); auto; apply one64).
    assert (S2 : xleb (frnd (1 - r)) (frnd 1) = true) by (apply frnd_mono; lra). rewrite (frnd_fix 1%float 1%R one64) in S2.
    destruct (frnd (1 - r)) as [d| | |]; try discriminate. cbn in S1, S2. rbool. rewrite fval_leb, (fval_div _ _ d Es) by lra. rewrite !fval_opp, Es. rewrite fval_leb, fval_0 in P2.
    destruct (fval c2) as [c| | |] eqn:Ec; cbn in P2; try discriminate.
    - cbn [xopp xdiv]. destruct (Req_EM_T d 0); [lra|]. cbn [xrnd]. rbool. assert (Eo : fval (- c2)%float = Fin (- c)) by (rewrite fval_opp, Ec; reflexivity). rewrite <- (frnd_fix _ _ Eo). apply frnd_mono.
      apply Rmult_le_reg_r with d; [lra|]. unfold Rdiv. rewrite Rmult_assoc, Rinv_l by lra. nra.
    - cbn. destruct (Rlt_dec d 0); [lra|reflexivity].
  Qed.
End Rewards.

(** C87, the reward of a step that does not end the episode: between -(c1 + c2), rounded, and c1; it is a number when the two costs are and one of the limits is finite. *)
Theorem C87_reward : forall (G : Type) (L : libm) (nw : network float) o K dt gamma lamb auxb clip (g : G) e0 (T : task float G) cs Or a e' out,
  let e := erun (N := Fnum L) T e0 cs in let c1 := loss_limit (N := Fnum L) clip in let c2 := penalty_limit (N := Fnum L) clip in
  env_init (N := Fnum L) nw o K dt gamma lamb auxb clip g = Ok e0 -> PrimFloat.leb 0 c1 = true -> PrimFloat.leb 0 c2 = true ->
  env_step (N := Fnum L) Or T a e = (e', Ok out) -> so_terminated out = false ->
  exists inp fl rr el pen, transition (N := Fnum L) Or inp (e_sim e) = (e_sim e', Ok (fl, rr, el, pen, true)) /\
    (num64 (so_reward out) -> between64 (- (c1 + c2))%float (so_reward out) c1) /\
    (num64 el -> num64 pen -> fin64 c1 \/ fin64 c2 -> num64 (so_reward out)).
Proof. intros G L nw o K dt gamma lamb auxb clip g e0 T cs Or a e' out e c1 c2 B. apply (reward_at L nw o K dt gamma lamb auxb clip g e0 e T). apply (good_erun (N := Fnum L)). exact B. Qed.

(** C87, a step that ends the episode costs at least the largest penalty of any other step; an ended episode is free. *)
Theorem C87_collapse : forall (G : Type) (L : libm) (nw : network float) o K dt gamma lamb auxb clip (g : G) e0 (T : task float G) cs Or a e' out,
  let e := erun (N := Fnum L) T e0 cs in let c2 := penalty_limit (N := Fnum L) clip in
  env_init (N := Fnum L) nw o K dt gamma lamb auxb clip g = Ok e0 -> PrimFloat.leb 0 c2 = true -> num64 gamma ->
  env_step (N := Fnum L) Or T a e = (e', Ok out) -> so_terminated out = true ->
  (e' = e /\ so_reward out = 0%float) \/ (so_reward out = (- c2) / (1 - gamma) /\ PrimFloat.leb (so_reward out) (- c2) = true)%float.
Proof. intros G L nw o K dt gamma lamb auxb clip g e0 T cs Or a e' out e c2 B. apply (collapse_at L nw o K dt gamma lamb auxb clip g e0 e T). apply (good_erun (N := Fnum L)). exact B. Qed.

(** C87, the 6-bus task: after any calls, the reward of a step is between -101 and 1 or NaN, 0 once the episode has ended, and -20000 up to rounding when it ends. *)
Theorem C87_easy : forall (G : Type) (L : libm) (ro : rng_ops float G) sf g a0 cs Or act a' out, small_ints_exact L ->
  easy_make (N := Fnum L) g = Ok a0 -> easy_step (N := Fnum L) Or ro sf act (run6 (N := Fnum L) ro sf a0 cs) = (a', Ok out) ->
  (so_terminated out = false /\ (num64 (so_reward out) -> between64 (-101) (so_reward out) 1)) \/
  (so_terminated out = true /\ (so_reward out = 0 \/ (PrimFloat.ltb (-20000) (so_reward out) = true /\ PrimFloat.ltb (so_reward out) (-0x1.387ffffffffp+14) = true)))%float.
Proof.
  intros G L ro sf g a0 cs Or act a' out Se Mk St. pose proof (clock_float L Se) as Ck. destruct (easy_make_inv (N := Fnum L) g a0 Ck Mk) as (e0 & R0 & _).
  pose proof (run6_reach (N := Fnum L) g e0 ro sf cs a0 R0) as (Hg & _). set (b := run6 (N := Fnum L) ro sf a0 cs) in *.
  unfold easy_step, anm6_step in St. destruct (env_step (N := Fnum L) Or (easy_task (N := Fnum L) ro sf (e_sim (a_env b))) act (a_env b)) as (e', [o|x]) eqn:E; [|discriminate].
  assert (Eo : o = out) by (destruct (a_date b); [destruct (a_date_init b)|]; injection St as _ St; congruence). subst o. clear St.
  destruct (so_terminated out) eqn:Te; [right|left]; (split; [reflexivity|]).
  - destruct (collapse_at L _ _ _ _ _ _ _ _ _ _ _ _ Hg Or act e' out eq_refl eq_refl E Te) as [(_ & H)|(H & _)]; [left; exact H|right]. rewrite H. vm_compute. auto.
  - destruct (reward_at L _ _ _ _ _ _ _ _ _ _ _ _ Hg Or act e' out eq_refl eq_refl E Te) as (inp & fl & rr & el & pen & _ & H & _). intros Nr. specialize (H Nr). exact H.
Qed.
Print Assumptions C87_penalty.
Print Assumptions C87_penalty_sign.
Print Assumptions C87_reward.
Print Assumptions C87_collapse.
Print Assumptions C87_easy.
