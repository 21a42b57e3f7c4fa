(** Power flow: C15-C18, C20-C27.  The pi-model of a branch, the power leaving a bus and the losses are
    defined on complex numbers from the rows of the network file in SpecPf.v. *)
From Coq Require Import Reals Lra Lia.
From Coquelicot Require Import Complex.
From Verif Require Import Base Num NumXR LibXR LibC Devices BusBranch CheckNetwork LoadFlow Simulator LibBase LibNum LibEval LibSim SpecDev SpecSim
  SpecPf SpecNr ProofSim ProofBr ProofY ProofNr ProofPf ProofBal ProofLoss ProofGap ExNet ExRun ExTwo.
Local Open Scope string_scope.
Local Open Scope list_scope.
Local Open Scope R_scope.

Lemma strip_dt_lamb (s s' : sim XR) : strip s = strip s' -> sm_dt s = sm_dt s' /\ sm_lamb s = sm_lamb s'.
Proof. unfold strip. intros H. injection H. auto. Qed.
Lemma init_dt_lamb (nw : network XR) dt lamb s0 : sim_init nw dt lamb = Ok s0 -> sm_dt s0 = dt /\ sm_lamb s0 = lamb.
Proof. unfold sim_init. intros H. repeat (apply bind_ok in H as (? & _ & H)). injection H as <-. auto. Qed.

Lemma some_fin a b : Some (Fin a) = Some (Fin b) -> a = b.
Proof. congruence. Qed.

(** C15.  The rows of the admittance matrix times any voltage vector are the currents of the pi-models. *)
Theorem C15_kcl : forall (nw : network XR) dt lamb s0 b,
  sim_init nw dt lamb = Ok s0 -> nw_base nw = Fin b -> Forall branch_row_fin (nw_br nw) ->
  (forall k, In (Some k) (map br_id (nw_bus nw)) -> (0 <= k)%Z) ->
  forall (V : Z -> C) (k : nat), (k < List.length (sm_Y s0))%nat ->
    nth_error (mat_vec (sm_Y s0) (map (fun j => up (V (Z.of_nat j))) (seq 0 (List.length (sm_Y s0))))) k =
    Some (up (current_out nw V (Z.of_nat k))).
Proof. intros nw dt lamb s0 b H0 Eb Hr Hid V k Hk. apply (C15_lemma nw dt lamb s0 H0 b Eb Hr Hid V k Hk). Qed.

(** C16.  Whatever the end voltages, a branch of the file dissipates r/(r^2+x^2) |V_f/t - V_t|^2. *)
Theorem C16_passive : forall (r : branch_row XR) b ids br,
  0 < b -> branch_row_fin r -> branch_init r (Fin b) ids = Ok br ->
  forall vf vt : C, exists pf pt,
    ln_pfrom (branch_update br (up vf) (up vt)) = Fin pf /\ ln_pto (branch_update br (up vf) (up vt)) = Fin pt /\
    pf + pt = row_r r / (row_r r * row_r r + row_x r * row_x r) * (Cmod (vf / row_t r - vt)%C * Cmod (vf / row_t r - vt)%C) /\
    0 <= pf + pt.
Proof.
  intros r b ids br Hb Hf E vf vt. pose proof (branch_init_of r b ids br Hb Hf E) as B.
  destruct (update_pi r b br B vf vt) as (_ & _ & P1 & _ & P2 & _). exists (fst (s_from r vf vt)), (fst (s_to r vf vt)).
  split; [exact P1|]. split; [exact P2|]. split; [exact (loss_val r b br B vf vt)|exact (loss_nonneg r b br B vf vt)].
Qed.

(** C17.  Convergence means that the AC power-flow equations hold to 1e-5. *)
Theorem C17_pfe_holds : forall (nw : network XR) dt lamb s0 b cs,
  sim_init nw dt lamb = Ok s0 -> nw_base nw = Fin b -> Forall branch_row_fin (nw_br nw) -> numbered nw ->
  sm_state (run s0 cs) <> None -> sm_conv (run s0 cs) = Some true ->
  exists V : Z -> C, volts (run s0 cs) (bus_ids nw) V /\ V 0%Z = RtoC 1 /\
    (forall k, In k (bus_ids nw) -> k <> 0%Z -> exists P Q,
       sumX (map (row_obs (run s0 cs) "dev_p") (rows_at nw k)) = Fin P /\
       sumX (map (row_obs (run s0 cs) "dev_q") (rows_at nw k)) = Fin Q /\
       Rabs (fst (power_out nw V k) - P) <= / 100000 /\ Rabs (snd (power_out nw V k) - Q) <= / 100000).
Proof.
  intros nw dt lamb s0 b cs H0 Eb Hr Hn Hs Hc.
  destruct (pf_reach nw dt lamb s0 H0 b Eb Hr Hn cs Hs Hc) as (s1 & V & Es & S1 & PS). exists V.
  split; [apply (st_volts nw dt lamb s0 H0 b Hn (run s0 cs) s1 V Es S1 PS)|]. split; [apply (ps_V0 _ _ _ _ PS)|].
  intros k Hk Hk0. apply (st_eq nw dt lamb s0 H0 b Hn (run s0 cs) s1 V Es S1 PS k Hk Hk0).
Qed.

(** C18.  At most 100 Newton steps are taken, each while the residual exceeds the tolerance; the solver
    stops with the residual not above the tolerance or after 100 steps; it reports success exactly when
    the final residual is a number not above the tolerance.  Holds for every number type. *)
Theorem C18_newton : forall (F : Type) (N : Num F) (lin : lin_solver F) nbus p q Y tol v i st,
  solve_pfe lin nbus p q Y tol = Ok (v, i, st) ->
  exists n g Fv d, (n <= 100)%nat /\ nr_steps lin p q Y tol (flat nbus) n g /\ residual p q Y g Fv d /\
    (n = 100%nat \/ nltb tol d = false) /\ v = construct_v g /\ mat_vecE Y v = Ok i /\
    (st = true <-> nisnan d = false /\ nleb d tol = true).
Proof. intros F N lin nbus p q Y tol v i st H. apply solve_inv; auto. Qed.
(** Over the extended reals: success means that no residual is infinite or NaN and that each is at most
    the tolerance in absolute value. *)
Theorem C18_no_nan : forall (lin : lin_solver XR) nbus p q Y t v i st,
  solve_pfe lin nbus p q Y (Fin t) = Ok (v, i, st) ->
  exists n g Fv d, (n <= 100)%nat /\ nr_steps lin p q Y (Fin t) (flat nbus) n g /\ residual p q Y g Fv d /\ v = construct_v g /\
    (st = true <-> Forall (fun y => exists r, y = Fin r /\ Rabs r <= t) Fv).
Proof.
  intros lin nbus p q Y t v i st H. destruct (solve_inv _ _ _ _ _ _ _ _ _ H) as (n & g & Fv & d & A & B & R & _ & Ev & _ & St).
  exists n, g, Fv, d. split; [auto|]. split; [auto|]. split; [auto|]. split; [auto|].
  rewrite <- (norm_inf_le Fv d t (proj2 R)). rewrite St. split; [intros [_ K]; exact K|].
  intros K. split; [|exact K]. apply xisnan_false. intros ->. discriminate K.
Qed.

(** C20.  When only the slack generator is attached to the slack bus, generation plus storage minus loads
    equals the branch losses. *)
Theorem C20_power_balance : forall (nw : network XR) dt lamb s0 b cs,
  sim_init nw dt lamb = Ok s0 -> nw_base nw = Fin b -> Forall branch_row_fin (nw_br nw) -> numbered nw -> slack_alone nw ->
  sm_state (run s0 cs) <> None -> sm_conv (run s0 cs) = Some true ->
  exists V : Z -> C, volts (run s0 cs) (bus_ids nw) V /\ 0 <= losses nw V /\
    (forall r, In r (nw_dev nw) -> row_obs (run s0 cs) "dev_p" r = Fin (row_val (run s0 cs) "dev_p" r)) /\
    Rabs (sumR (map (row_val (run s0 cs) "dev_p") (nw_dev nw)) - losses nw V) <= INR (List.length (nw_bus nw) - 1) * / 100000.
Proof.
  intros nw dt lamb s0 b cs H0 Eb Hr Hn Al Hs Hc.
  destruct (pf_reach nw dt lamb s0 H0 b Eb Hr Hn cs Hs Hc) as (s1 & V & Es & S1 & PS). exists V.
  split; [apply (st_volts nw dt lamb s0 H0 b Hn (run s0 cs) s1 V Es S1 PS)|]. split; [apply (st_losses nw b s1 V PS)|].
  split; [|apply (st_total nw dt lamb s0 H0 b Eb Hr Hn (run s0 cs) s1 V Es S1 PS Al)].
  apply (st_fin nw dt lamb s0 H0 b Hn (run s0 cs) s1 V Es S1 PS Al).
Qed.


(** C21, the part that holds: the slack generator is given the whole power leaving the slack bus, so the
    nodal balance holds there when no other device is attached to it. *)
Theorem C21_slack_balance_partial : forall (nw : network XR) dt lamb s0 b cs,
  sim_init nw dt lamb = Ok s0 -> nw_base nw = Fin b -> Forall branch_row_fin (nw_br nw) -> numbered nw -> slack_alone nw ->
  sm_state (run s0 cs) <> None -> sm_conv (run s0 cs) = Some true ->
  exists V : Z -> C, volts (run s0 cs) (bus_ids nw) V /\
    sumX (map (row_obs (run s0 cs) "dev_p") (rows_at nw 0)) = Fin (fst (power_out nw V 0%Z)) /\
    sumX (map (row_obs (run s0 cs) "dev_q") (rows_at nw 0)) = Fin (snd (power_out nw V 0%Z)).
Proof.
  intros nw dt lamb s0 b cs H0 Eb Hr Hn Al Hs Hc.
  destruct (pf_reach nw dt lamb s0 H0 b Eb Hr Hn cs Hs Hc) as (s1 & V & Es & S1 & PS). exists V.
  split; [apply (st_volts nw dt lamb s0 H0 b Hn (run s0 cs) s1 V Es S1 PS)|].
  destruct (slack_rows0 nw dt lamb s0 H0 Hn Al) as (r & -> & I & Ty).
  destruct (st_slack nw dt lamb s0 H0 b (run s0 cs) s1 V Es S1 PS r I Ty) as [E1 E2].
  cbn [map sumX fold_right]. rewrite E1, E2. cbn [xadd]. rewrite !Rplus_0_r. auto.
Qed.

Ltac fin_rows := repeat apply Forall_cons; try apply Forall_nil; repeat apply Forall_cons; try apply Forall_nil; intros ? E_; inversion E_; exact (fin_Fin _).
Lemma two_numbered (nw : network XR) r0 r1 : nw_bus nw = [r0; r1] \/ nw_bus nw = [r1; r0] -> br_id r0 = Some 0%Z -> br_id r1 = Some 1%Z ->
  br_type r1 <> Some 0%Z -> numbered nw.
Proof.
  intros E E0 E1 T. split.
  - intros k. destruct E as [-> | ->]; cbn; rewrite E0, E1; (split; [intros [H|[H|[]]]; injection H as <-; lia|]);
      intros H; assert (K : (k = 0 \/ k = 1)%Z) by lia; destruct K as [->| ->]; auto.
  - intros r I Tr. assert (K : r = r0 \/ r = r1) by (destruct E as [E|E]; rewrite E in I; cbn in I; intuition auto). destruct K as [->| ->]; auto. contradiction.
Qed.
Ltac two_buses := first [apply (two_numbered _ (tb_busS 0) (tb_busO 1))|apply (two_numbered _ (ex_bus0 _) ex_bus1)]; [auto|auto|auto|discriminate].
Lemma tb_numbered lb : numbered (tb_nw 0 1 lb). Proof. two_buses. Qed.
Lemma tg_numbered : numbered tg_nw. Proof. two_buses. Qed.
Lemma ex_numbered k w : numbered (ex_nwk k w). Proof. apply (two_numbered _ (ex_bus0 w) ex_bus1); [right|auto|auto|discriminate]; auto. Qed.
Lemma tb_fin i j k : Forall branch_row_fin (nw_br (tb_nw i j k)). Proof. fin_rows. Qed.
Lemma tg_fin : Forall branch_row_fin (nw_br tg_nw). Proof. fin_rows. Qed.
Lemma ex_br_fin k w : Forall branch_row_fin (nw_br (ex_nwk k w)). Proof. fin_rows. Qed.
Lemma ex_bus_fin k w : Forall bus_row_fin (nw_bus (ex_nwk k w)). Proof. fin_rows. Qed.
Lemma ex_alone k w : slack_alone (ex_nwk k w).
Proof. intros r [<-|[<-|[<-|[<-|[]]]]]; cbn; auto; discriminate. Qed.
Lemma tb_run00 : run tb_sim00 [CReset tb_or (tb_vec 5)] = done tb_pf00.
Proof. cbn [run fold_left run_call]. rewrite tb_reset00. reflexivity. Qed.
Lemma tb_run01 : run tb_sim01 [CReset tb_or (tb_vec (5/2))] = done tb_pf01.
Proof. cbn [run fold_left run_call]. rewrite tb_reset01. reflexivity. Qed.
Lemma tb_run10 : run tb_sim10 [CReset tb_or (tb_vec (5/2))] = done tb_pf10.
Proof. cbn [run fold_left run_call]. rewrite tb_reset10. reflexivity. Qed.
Lemma tg_run : run tg_sim [CReset tb_or tg_vec] = done tg_pf.
Proof. cbn [run fold_left run_call]. rewrite tg_reset. reflexivity. Qed.
Lemma ex_runk k w soc : -1 <= k <= 1 -> run (ex_simk k w) [CReset ex_or (ex_veck k soc)] = ex_sim1k k w (Fin (soc / 10)).
Proof. intros H. cbn [run fold_left run_call]. rewrite ex_resetk by auto. reflexivity. Qed.

(** C21 is false in general: with a load on the slack bus, the slack generator is still given only the
    power leaving the bus (0 here), and the load draws 0.5 p.u. from nowhere. *)
Theorem C21_slack_balance_refuted : exists (nw : network XR) s0 b cs,
  sim_init nw (Fin (1/4)) (Fin 100) = Ok s0 /\ nw_base nw = Fin b /\ Forall branch_row_fin (nw_br nw) /\ numbered nw /\
  sm_state (run s0 cs) <> None /\ sm_conv (run s0 cs) = Some true /\
  exists V : Z -> C, volts (run s0 cs) (bus_ids nw) V /\ fst (power_out nw V 0%Z) = 0 /\
    sumX (map (row_obs (run s0 cs) "dev_p") (rows_at nw 0)) = Fin (-1/2).
Proof.
  exists (tb_nw 0 1 0), tb_sim00, 10, [CReset tb_or (tb_vec 5)].
  assert (A : sm_state (run tb_sim00 [CReset tb_or (tb_vec 5)]) <> None) by (rewrite tb_run00; discriminate).
  assert (B : sm_conv (run tb_sim00 [CReset tb_or (tb_vec 5)]) = Some true) by (rewrite tb_run00; reflexivity).
  split; [apply tb_init00|]. split; [reflexivity|]. split; [apply tb_fin|]. split; [apply tb_numbered|]. split; [exact A|]. split; [exact B|].
  destruct (pf_reach (tb_nw 0 1 0) _ _ _ tb_init00 10 eq_refl (tb_fin _ _ _) (tb_numbered 0) _ A B) as (s1 & V & Es & S1 & PS).
  exists V. split; [apply (st_volts _ _ _ _ tb_init00 10 (tb_numbered 0) _ s1 V Es S1 PS)|].
  destruct (st_slack _ _ _ _ tb_init00 10 _ s1 V Es S1 PS (tb_slack 0) (or_introl eq_refl) eq_refl) as [E1 _].
  rewrite tb_run00 in E1 |- *. change (Fin 0 = Fin (fst (power_out (tb_nw 0 1 0) V 0%Z))) in E1. injection E1 as E1.
  split; [auto|]. change (xadd (Fin 0) (xadd (Fin (-1/2)) (Fin 0)) = Fin (-1/2)). cbn [xadd]. f_equal. lra.
Qed.

(** C22, what the code does: the slack voltage of a converged state is always 1 p.u., while the
    advertised value is the VMAX of the slack bus; they agree exactly when VMAX = 1. *)
Theorem C22_slack_voltage_partial : forall (nw : network XR) dt lamb s0 b cs r vm,
  sim_init nw dt lamb = Ok s0 -> nw_base nw = Fin b -> Forall branch_row_fin (nw_br nw) -> numbered nw ->
  In r (nw_bus nw) -> br_type r = Some 0%Z -> br_vmax r = Some (Fin vm) ->
  sm_state (run s0 cs) <> None -> sm_conv (run s0 cs) = Some true ->
  exists v, obs (run s0 cs) "bus_v_magn" "pu" (EId 0) = Some (Fin v) /\ obs (run s0 cs) "bus_v_ang" "rad" (EId 0) = Some (Fin 0) /\
    bound (run s0 cs) "bus_v_magn" "pu" (EId 0) = Some (Fin vm, Fin vm) /\ (vm = 1 -> v = vm).
Proof.
  intros nw dt lamb s0 b cs r vm H0 Eb Hr Hn I Ty Ev Hs Hc.
  destruct (pf_reach nw dt lamb s0 H0 b Eb Hr Hn cs Hs Hc) as (s1 & V & Es & S1 & PS). exists 1.
  destruct (st_slack_v nw dt lamb s0 H0 b Hn (run s0 cs) s1 V Es S1 PS) as [A B]. split; [exact A|]. split; [exact B|].
  split; [rewrite bound_run; exact (slack_bound nw dt lamb s0 H0 Hn r (Fin vm) I Ty Ev)|intros ->; reflexivity].
Qed.
Theorem C22_slack_voltage_refuted : exists (nw : network XR) s0 b cs v lo hi,
  sim_init nw (Fin (1/4)) (Fin 100) = Ok s0 /\ nw_base nw = Fin b /\ Forall branch_row_fin (nw_br nw) /\ numbered nw /\
  sm_state (run s0 cs) <> None /\ sm_conv (run s0 cs) = Some true /\
  obs (run s0 cs) "bus_v_magn" "pu" (EId 0) = Some (Fin v) /\
  bound (run s0 cs) "bus_v_magn" "pu" (EId 0) = Some (Fin lo, Fin hi) /\ lo = 2 /\ hi = 2 /\ v = 1.
Proof.
  exists (ex_nwk (2/10) 2), (ex_simk (2/10) 2), 10, [CReset ex_or (ex_veck (2/10) 50)], 1, 2, 2.
  assert (I : sim_init (ex_nwk (2/10) 2) (Fin (1/4)) (Fin 100) = Ok (ex_simk (2/10) 2)) by (apply ex_initk; lra).
  assert (Rn := ex_runk (2/10) 2 50 ltac:(lra)).
  assert (A : sm_state (run (ex_simk (2/10) 2) [CReset ex_or (ex_veck (2/10) 50)]) <> None) by (rewrite Rn; discriminate).
  assert (B : sm_conv (run (ex_simk (2/10) 2) [CReset ex_or (ex_veck (2/10) 50)]) = Some true) by (rewrite Rn; reflexivity).
  split; [exact I|]. split; [reflexivity|]. split; [apply ex_br_fin|]. split; [apply ex_numbered|]. split; [exact A|]. split; [exact B|].
  destruct (pf_reach _ _ _ _ I 10 eq_refl (ex_br_fin _ _) (ex_numbered _ _) _ A B) as (s1 & V & Es & S1 & PS).
  destruct (st_slack_v _ _ _ _ I 10 (ex_numbered _ _) _ s1 V Es S1 PS) as [E1 _]. split; [exact E1|].
  split; [rewrite bound_run; reflexivity|]. auto.
Qed.

(** C23, what holds: with IDs 0..N-1 and slack 0 the equations of the topology hold (C17).  With an ID
    beyond N-1 no transition ever returns. *)
Theorem C23_gap_always_fails : forall (nw : network XR) dt lamb s0 b cs Or inp,
  sim_init nw dt lamb = Ok s0 -> nw_base nw = Fin b -> Forall branch_row_fin (nw_br nw) ->
  (forall k, In (Some k) (map br_id (nw_bus nw)) -> (0 <= k)%Z) ->
  (exists k, In (Some k) (map br_id (nw_bus nw)) /\ (Z.of_nat (List.length (nw_bus nw)) <= k)%Z) ->
  is_ok (snd (transition Or inp (run s0 cs))) = false.
Proof. intros nw dt lamb s0 b cs Or inp H0 Eb Hr. exact (gap_lemma nw dt lamb s0 H0 b Eb Hr cs Or inp). Qed.
(** C23 is false: the network [nw] and two copies with other bus IDs are all accepted; with the same
    inputs and the same solvers, [nw] converges with 0.5 p.u. at the load bus; exchanging the two IDs
    gives 1 p.u. at the load bus and 0.5 p.u. at the slack bus; doubling the IDs, every transition raises. *)
Theorem C23_numbering_refuted : exists (nw : network XR) s0 s1 s2 Or init inp,
  let swap := fun k => (1 - k)%Z in let double := fun k => (2 * k)%Z in
  sim_init nw (Fin (1/4)) (Fin 100) = Ok s0 /\
  sim_init (rename swap nw) (Fin (1/4)) (Fin 100) = Ok s1 /\ sim_init (rename double nw) (Fin (1/4)) (Fin 100) = Ok s2 /\
  snd (sim_reset Or init s0) = Ok true /\ snd (sim_reset Or init s1) = Ok true /\
  obs (run s0 [CReset Or init]) "bus_v_magn" "pu" (EId 0) = Some (Fin 1) /\
  obs (run s0 [CReset Or init]) "bus_v_magn" "pu" (EId 1) = Some (Fin (1/2)) /\
  obs (run s1 [CReset Or init]) "bus_v_magn" "pu" (EId (swap 0%Z)) = Some (Fin (1/2)) /\
  obs (run s1 [CReset Or init]) "bus_v_magn" "pu" (EId (swap 1%Z)) = Some (Fin 1) /\
  is_ok (snd (transition Or inp (run s0 [CReset Or init]))) = true /\
  forall cs, is_ok (snd (transition Or inp (run s2 cs))) = false.
Proof.
  exists (tb_nw 0 1 1), tb_sim01, tb_sim10, tb_sim02, tb_or, (tb_vec (5/2)), (tb_in (5/2)). cbv zeta.
  split; [apply tb_init01|]. split; [change (rename _ (tb_nw 0 1 1)) with (tb_nw 1 0 0); apply tb_init10|].
  split; [change (rename _ (tb_nw 0 1 1)) with (tb_nw 0 2 2); apply tb_init02|].
  split; [rewrite tb_reset01; reflexivity|]. split; [rewrite tb_reset10; reflexivity|]. rewrite tb_run01, tb_run10.
  assert (C1 : cabs (xc 1 0) = Fin 1) by (apply cabs_real; lra). assert (C2 : cabs (xc (1/2) 0) = Fin (1/2)) by (apply cabs_real; lra).
  split; [rewrite <- C1; reflexivity|]. split; [rewrite <- C2; reflexivity|]. split; [rewrite <- C2; reflexivity|]. split; [rewrite <- C1; reflexivity|].
  split; [rewrite tb_step01; reflexivity|]. intros cs.
  apply (C23_gap_always_fails (tb_nw 0 2 2) _ _ _ 10 cs _ _ tb_init02 eq_refl (tb_fin _ _ _)).
  - cbn. intros k [H|[H|[]]]; injection H as <-; lia.
  - exists 2%Z. cbn. split; [auto|lia].
Qed.

(** C24, when the active power at the from end is not zero: |branch_s| is the larger apparent power of
    the two ends and the sign is that of P_from. *)
Theorem C24_branch_s_partial : forall (nw : network XR) dt lamb s0 b cs,
  sim_init nw dt lamb = Ok s0 -> nw_base nw = Fin b -> Forall branch_row_fin (nw_br nw) -> numbered nw ->
  sm_state (run s0 cs) <> None -> sm_conv (run s0 cs) = Some true ->
  exists V : Z -> C, volts (run s0 cs) (bus_ids nw) V /\
    forall r f t, In r (nw_br nw) -> lr_f r = Some f -> lr_t r = Some t -> exists x,
      obs (run s0 cs) "branch_s" "pu" (EBr f t) = Some (Fin x) /\
      obs (run s0 cs) "branch_p" "pu" (EBr f t) = Some (Fin (fst (s_from r (V f) (V t)))) /\
      obs (run s0 cs) "branch_q" "pu" (EBr f t) = Some (Fin (snd (s_from r (V f) (V t)))) /\
      (0 < fst (s_from r (V f) (V t)) -> x = Rmax (Cmod (s_from r (V f) (V t))) (Cmod (s_to r (V f) (V t)))) /\
      (fst (s_from r (V f) (V t)) < 0 -> x = - Rmax (Cmod (s_from r (V f) (V t))) (Cmod (s_to r (V f) (V t)))).
Proof.
  intros nw dt lamb s0 b cs H0 Eb Hr Hn Hs Hc.
  destruct (pf_reach nw dt lamb s0 H0 b Eb Hr Hn cs Hs Hc) as (s1 & V & Es & S1 & PS). exists V.
  split; [apply (st_volts nw dt lamb s0 H0 b Hn (run s0 cs) s1 V Es S1 PS)|].
  intros r f t I Ef Et. destruct (st_branch nw dt lamb s0 H0 b (run s0 cs) s1 V Es S1 PS r f t I Ef Et) as (B1 & B2 & B3 & _).
  eexists. split; [exact B3|]. split; [exact B1|]. split; [exact B2|]. unfold p_from, s_max. rewrite Ef, Et. cbn [vat].
  split; intros H; destruct (Rlt_dec 0 (fst (s_from r (V f) (V t)))); try lra; destruct (Rlt_dec (fst (s_from r (V f) (V t))) 0); lra.
Qed.
(** ... it is false at P_from = 0: half a per-unit of reactive power is reported as 0. *)
Theorem C24_branch_s_refuted : exists (nw : network XR) s0 b cs r f t,
  sim_init nw (Fin (1/4)) (Fin 100) = Ok s0 /\ nw_base nw = Fin b /\ Forall branch_row_fin (nw_br nw) /\ numbered nw /\
  sm_state (run s0 cs) <> None /\ sm_conv (run s0 cs) = Some true /\
  In r (nw_br nw) /\ lr_f r = Some f /\ lr_t r = Some t /\
  obs (run s0 cs) "branch_s" "pu" (EBr f t) = Some (Fin 0) /\
  exists V : Z -> C, volts (run s0 cs) (bus_ids nw) V /\ s_from r (V f) (V t) = (0, 1/2) /\ 1/2 <= Cmod (s_from r (V f) (V t)).
Proof.
  exists tg_nw, tg_sim, 10, [CReset tb_or tg_vec], (tb_line 0 1 0 1 1), 0%Z, 1%Z.
  assert (A : sm_state (run tg_sim [CReset tb_or tg_vec]) <> None) by (rewrite tg_run; discriminate).
  assert (B : sm_conv (run tg_sim [CReset tb_or tg_vec]) = Some true) by (rewrite tg_run; reflexivity).
  split; [apply tg_init|]. split; [reflexivity|]. split; [apply tg_fin|]. split; [apply tg_numbered|]. split; [exact A|]. split; [exact B|].
  split; [left; reflexivity|]. split; [reflexivity|]. split; [reflexivity|]. split; [rewrite tg_run; reflexivity|].
  destruct (pf_reach tg_nw _ _ _ tg_init 10 eq_refl tg_fin tg_numbered _ A B) as (s1 & V & Es & S1 & PS).
  exists V. split; [apply (st_volts _ _ _ _ tg_init 10 tg_numbered _ s1 V Es S1 PS)|].
  destruct (st_branch _ _ _ _ tg_init 10 _ s1 V Es S1 PS (tb_line 0 1 0 1 1) 0%Z 1%Z (or_introl eq_refl) eq_refl eq_refl) as (B1 & B2 & _).
  rewrite tg_run in B1, B2. change (Some (Fin 0) = Some (Fin (fst (s_from (tb_line 0 1 0 1 1) (V 0%Z) (V 1%Z))))) in B1. apply some_fin in B1.
  change (Some (Fin (1/2)) = Some (Fin (snd (s_from (tb_line 0 1 0 1 1) (V 0%Z) (V 1%Z))))) in B2. apply some_fin in B2.
  assert (E : s_from (tb_line 0 1 0 1 1) (V 0%Z) (V 1%Z) = (0, 1/2)).
  { rewrite (surjective_pairing (s_from _ _ _)). rewrite <- B1, <- B2. reflexivity. }
  split; [exact E|]. rewrite E. pose proof (Cmod_sq (0, 1/2)) as Q. cbn [fst snd] in Q. pose proof (Cmod_ge_0 (0, 1/2)). nra.
Qed.

(** C25, what is reported: the real part of the current entering the from end.  It equals the modulus, up
    to sign, exactly when the current is real. *)
Theorem C25_branch_current_partial : forall (nw : network XR) dt lamb s0 b cs,
  sim_init nw dt lamb = Ok s0 -> nw_base nw = Fin b -> Forall branch_row_fin (nw_br nw) -> numbered nw ->
  sm_state (run s0 cs) <> None -> sm_conv (run s0 cs) = Some true ->
  exists V : Z -> C, volts (run s0 cs) (bus_ids nw) V /\
    forall r f t, In r (nw_br nw) -> lr_f r = Some f -> lr_t r = Some t -> exists x,
      obs (run s0 cs) "branch_i_magn" "pu" (EBr f t) = Some (Fin x) /\
      Rabs x <= Cmod (pi_from r (V f) (V t)) /\ (Rabs x = Cmod (pi_from r (V f) (V t)) <-> snd (pi_from r (V f) (V t)) = 0).
Proof.
  intros nw dt lamb s0 b cs H0 Eb Hr Hn Hs Hc.
  destruct (pf_reach nw dt lamb s0 H0 b Eb Hr Hn cs Hs Hc) as (s1 & V & Es & S1 & PS). exists V.
  split; [apply (st_volts nw dt lamb s0 H0 b Hn (run s0 cs) s1 V Es S1 PS)|].
  intros r f t I Ef Et. destruct (st_branch nw dt lamb s0 H0 b (run s0 cs) s1 V Es S1 PS r f t I Ef Et) as (_ & _ & _ & B4).
  eexists. split; [exact B4|]. set (z := pi_from r (V f) (V t)). pose proof (Cmod_sq z) as Q. pose proof (Cmod_ge_0 z) as G.
  pose proof (Rabs_pos (fst z)) as G'. assert (Q' : Rabs (fst z) * Rabs (fst z) = fst z * fst z) by (rewrite <- Rabs_mult, Rabs_pos_eq; auto; nra).
  split; [nra|]. split; intros H; [nra|]. rewrite H in Q. nra.
Qed.
Theorem C25_branch_current_refuted : exists (nw : network XR) s0 b cs r f t,
  sim_init nw (Fin (1/4)) (Fin 100) = Ok s0 /\ nw_base nw = Fin b /\ Forall branch_row_fin (nw_br nw) /\ numbered nw /\
  sm_state (run s0 cs) <> None /\ sm_conv (run s0 cs) = Some true /\
  In r (nw_br nw) /\ lr_f r = Some f /\ lr_t r = Some t /\
  obs (run s0 cs) "branch_i_magn" "pu" (EBr f t) = Some (Fin 0) /\
  exists V : Z -> C, volts (run s0 cs) (bus_ids nw) V /\ 1/2 <= Cmod (pi_from r (V f) (V t)).
Proof.
  exists tg_nw, tg_sim, 10, [CReset tb_or tg_vec], (tb_line 0 1 0 1 1), 0%Z, 1%Z.
  assert (A : sm_state (run tg_sim [CReset tb_or tg_vec]) <> None) by (rewrite tg_run; discriminate).
  assert (B : sm_conv (run tg_sim [CReset tb_or tg_vec]) = Some true) by (rewrite tg_run; reflexivity).
  destruct (pf_reach tg_nw _ _ _ tg_init 10 eq_refl tg_fin tg_numbered _ A B) as (s1 & V & Es & S1 & PS).
  destruct (st_branch _ _ _ _ tg_init 10 _ s1 V Es S1 PS (tb_line 0 1 0 1 1) 0%Z 1%Z (or_introl eq_refl) eq_refl eq_refl) as (B1 & B2 & _ & B4).
  rewrite tg_run in B1, B2. change (Some (Fin 0) = Some (Fin (fst (s_from (tb_line 0 1 0 1 1) (V 0%Z) (V 1%Z))))) in B1. apply some_fin in B1.
  change (Some (Fin (1/2)) = Some (Fin (snd (s_from (tb_line 0 1 0 1 1) (V 0%Z) (V 1%Z))))) in B2. apply some_fin in B2.
  unfold s_from in B1, B2. rewrite (ps_V0 _ _ _ _ PS) in *. set (z := pi_from (tb_line 0 1 0 1 1) (RtoC 1) (V 1%Z)) in *.
  unfold Cmult, Cconj, RtoC in B1, B2. cbn [fst snd] in B1, B2.
  assert (F1 : fst z = 0) by lra. assert (F2 : snd z = -1/2) by lra.
  split; [apply tg_init|]. split; [reflexivity|]. split; [apply tg_fin|]. split; [apply tg_numbered|]. split; [exact A|]. split; [exact B|].
  split; [left; reflexivity|]. split; [reflexivity|]. split; [reflexivity|]. split; [rewrite B4, F1; reflexivity|].
  exists V. split; [apply (st_volts _ _ _ _ tg_init 10 tg_numbered _ s1 V Es S1 PS)|]. rewrite (ps_V0 _ _ _ _ PS). fold z.
  pose proof (Cmod_sq z) as Q. rewrite F1, F2 in Q. pose proof (Cmod_ge_0 z). nra.
Qed.

(** C26.  The energy loss of a converged transition is (branch losses - storage injections + curtailed
    renewable power) times the duration of a step. *)
Theorem C26_energy_loss : forall (nw : network XR) d lamb s0 b cs Or inp s' st rew e pen,
  sim_init nw (Fin d) lamb = Ok s0 -> nw_base nw = Fin b -> 0 <= d -> Forall branch_row_fin (nw_br nw) -> numbered nw -> slack_alone nw ->
  transition Or inp (run s0 cs) = (s', Ok (st, rew, e, pen, true)) ->
  (forall r, In r (of_type 2 nw) -> row_obs s' "gen_p_max" r = Fin (row_val s' "gen_p_max" r)) ->
  exists (V : Z -> C) y, volts s' (bus_ids nw) V /\ e = Fin y /\
    Rabs (y - (losses nw V - sumR (map (row_val s' "dev_p") (of_type 3 nw)) +
               sumR (map (fun r => Rmax 0 (row_val s' "gen_p_max" r - row_val s' "dev_p" r)) (of_type 2 nw))) * d)
      <= INR (List.length (nw_bus nw) - 1) * / 100000 * d.
Proof.
  intros nw d lamb s0 b cs Or inp s' st rew e pen H0 Eb Hd Hr Hn Al T Hp.
  apply transition_ok in T as (-> & Rw & ds & v & i & T).
  destruct (pf_trans nw (Fin d) lamb s0 H0 b Eb Hr Hn Or inp _ s' ds v i (strip_run s0 cs) T) as (V & PS).
  assert (S1 : strip s' = strip s0) by (rewrite (tk_strip _ _ _ _ _ _ _ _ T); apply strip_run).
  pose proof (tk_state _ _ _ _ _ _ _ _ T) as Es.
  assert (Ed : sm_dt s' = Fin d) by (rewrite (proj1 (strip_dt_lamb _ _ S1)); apply (init_dt_lamb nw _ lamb s0 H0)).
  pose proof (st_energy nw (Fin d) lamb s0 H0 b Hn s' s' V Es S1 PS d Al Ed Hp) as E.
  pose proof (st_total nw (Fin d) lamb s0 H0 b Eb Hr Hn s' s' V Es S1 PS Al) as K.
  unfold compute_reward in Rw. apply bind_ok in Rw as (pn & _ & Rw). rewrite E in Rw. injection Rw as _ <- _.
  eexists V, _. split; [apply (st_volts nw (Fin d) lamb s0 H0 b Hn s' s' V Es S1 PS)|]. split; [reflexivity|].
  match goal with |- Rabs (?x * d - ?y * d) <= _ => replace (x * d - y * d) with ((x - y) * d) by ring end.
  rewrite Rabs_mult, (Rabs_pos_eq d) by auto. apply Rmult_le_compat_r; auto.
  match goal with |- Rabs ?x <= _ => match type of K with Rabs ?y <= _ => replace x with y by ring end end. exact K.
Qed.

(** C27.  The penalty of a converged transition is non-negative; it is zero iff every bus voltage is
    within its limits and no branch with P_from <> 0 exceeds its rating at either end. *)
Theorem C27_penalty_partial : forall (nw : network XR) d l s0 b cs Or inp s' st rew e pen,
  sim_init nw (Fin d) (Fin l) = Ok s0 -> nw_base nw = Fin b -> 0 < d -> 0 < l ->
  Forall branch_row_fin (nw_br nw) -> Forall bus_row_fin (nw_bus nw) -> numbered nw ->
  transition Or inp (run s0 cs) = (s', Ok (st, rew, e, pen, true)) ->
  exists (V : Z -> C) y, volts s' (bus_ids nw) V /\ pen = Fin y /\ 0 <= y /\
    (y = 0 <->
     (forall r k, In r (nw_bus nw) -> br_id r = Some k -> row_vmin r <= Cmod (V k) <= row_vmax r) /\
     (forall r f t, In r (nw_br nw) -> lr_f r = Some f -> lr_t r = Some t -> fst (s_from r (V f) (V t)) <> 0 ->
        under_rate r b (Cmod (s_from r (V f) (V t))) /\ under_rate r b (Cmod (s_to r (V f) (V t))))).
Proof.
  intros nw d l s0 b cs Or inp s' st rew e pen H0 Eb Hd Hl Hr Hf Hn T.
  apply transition_ok in T as (-> & Rw & ds & v & i & T).
  destruct (pf_trans nw (Fin d) (Fin l) s0 H0 b Eb Hr Hn Or inp _ s' ds v i (strip_run s0 cs) T) as (V & PS).
  assert (S1 : strip s' = strip s0) by (rewrite (tk_strip _ _ _ _ _ _ _ _ T); apply strip_run).
  pose proof (tk_state _ _ _ _ _ _ _ _ T) as Es. pose proof (init_dt_lamb nw _ _ s0 H0) as [D1 D2]. pose proof (strip_dt_lamb _ _ S1) as [D3 D4].
  unfold compute_reward in Rw. apply bind_ok in Rw as (pn & Pn & Rw). injection Rw as _ _ <-.
  destruct (st_penalty nw (Fin d) (Fin l) s0 H0 b s' V S1 PS d l pn) as (y & Ey & Hy & Iff); try congruence; auto.
  exists V, y. split; [apply (st_volts nw (Fin d) (Fin l) s0 H0 b Hn s' s' V Es S1 PS)|]. split; [auto|]. split; [auto|].
  assert (Um : forall r f t, lr_f r = Some f -> lr_t r = Some t -> under_rate r b (s_max r V) <->
     under_rate r b (Cmod (s_from r (V f) (V t))) /\ under_rate r b (Cmod (s_to r (V f) (V t)))).
  { intros r f t E1 E2. unfold under_rate, s_max. rewrite E1, E2. cbn [vat]. destruct (lr_rate r) as [[m| | |]|]; try tauto.
    split; [intros H; split; eapply Rle_trans; [apply Rmax_l|exact H|apply Rmax_r|exact H]|intros [A B]; apply Rmax_lub; auto]. }
  rewrite Iff. split; intros [A B]; (split; [intros; apply A; auto|]).
  - intros r f t I Ef Et Np. apply (Um r f t Ef Et). apply B; auto. unfold p_from. rewrite Ef, Et. exact Np.
  - intros r I Np. destruct (br_ends_in nw (Fin d) (Fin l) s0 H0 Hn r I) as (f & t & Ef & Et & _).
    apply (Um r f t Ef Et). apply (B r f t); auto. unfold p_from in Np. rewrite Ef, Et in Np. exact Np.
Qed.
(** ... the restriction P_from <> 0 cannot be dropped: a purely reactive line of rating 0.1 p.u. carries
    0.5 p.u. and the penalty is 0. *)
Theorem C27_penalty_refuted : exists (nw : network XR) s0 b cs Or inp s' st rew e r f t,
  sim_init nw (Fin (1/4)) (Fin 100) = Ok s0 /\ nw_base nw = Fin b /\ Forall branch_row_fin (nw_br nw) /\ numbered nw /\
  transition Or inp (run s0 cs) = (s', Ok (st, rew, e, Fin 0, true)) /\
  In r (nw_br nw) /\ lr_f r = Some f /\ lr_t r = Some t /\
  exists V : Z -> C, volts s' (bus_ids nw) V /\ ~ under_rate r b (Cmod (s_from r (V f) (V t))).
Proof.
  exists tg_nw, tg_sim, 10, [CReset tb_or tg_vec], tb_or, tg_in, (done tg_pf), (gather_state (done tg_pf)), (Fin 0), (Fin 0), (tb_line 0 1 0 1 1), 0%Z, 1%Z.
  assert (T : transition tb_or tg_in (run tg_sim [CReset tb_or tg_vec]) = (done tg_pf, Ok (gather_state (done tg_pf), Fin 0, Fin 0, Fin 0, true)))
    by (rewrite tg_run; apply tg_step).
  split; [apply tg_init|]. split; [reflexivity|]. split; [apply tg_fin|]. split; [apply tg_numbered|]. split; [exact T|].
  split; [left; reflexivity|]. split; [reflexivity|]. split; [reflexivity|].
  apply transition_ok in T as (_ & _ & ds & v & i & T).
  destruct (pf_trans _ _ _ _ tg_init 10 eq_refl tg_fin tg_numbered tb_or tg_in _ _ ds v i (strip_run _ _) T) as (V & PS).
  assert (S1 : strip (done tg_pf) = strip tg_sim) by reflexivity. assert (Es : sm_state (done tg_pf) = Some (gather_state (done tg_pf))) by reflexivity.
  exists V. split; [apply (st_volts _ _ _ _ tg_init 10 tg_numbered _ _ V Es S1 PS)|].
  destruct (st_branch _ _ _ _ tg_init 10 _ _ V Es S1 PS (tb_line 0 1 0 1 1) 0%Z 1%Z (or_introl eq_refl) eq_refl eq_refl) as (_ & B2 & _).
  change (Some (Fin (1/2)) = Some (Fin (snd (s_from (tb_line 0 1 0 1 1) (V 0%Z) (V 1%Z))))) in B2. apply some_fin in B2.
  set (z := s_from _ _ _) in *. change (~ Cmod z <= 1 / 10). pose proof (Cmod_sq z) as Q. rewrite <- B2 in Q. pose proof (Cmod_ge_0 z).
  pose proof (Rle_0_sqr (fst z)) as W. unfold Rsqr in W. intros K. nra.
Qed.

(** ---- the hypotheses are met: network of ExNet.v (slack generator, load, renewable generator and
    storage unit on two buses), after a reset that converged in one Newton iteration to 0.5 p.u. ---- *)
Definition pf_calls : list (call XR) := [CReset ex_or (ex_veck (2/10) 50)].
Example C17_C20_C21_C22_C24_C25_ex :
  sim_init ex_nw (Fin (1/4)) (Fin 100) = Ok ex_sim0 /\ nw_base ex_nw = Fin 10 /\ Forall branch_row_fin (nw_br ex_nw) /\
  numbered ex_nw /\ slack_alone ex_nw /\ bus_ids ex_nw = [0; 1]%Z /\
  sm_state (run ex_sim0 pf_calls) <> None /\ sm_conv (run ex_sim0 pf_calls) = Some true /\
  obs (run ex_sim0 pf_calls) "bus_v_magn" "pu" (EId 1) = Some (Fin (1/2)) /\
  map (row_obs (run ex_sim0 pf_calls) "dev_p") (rows_at ex_nw 1) = [Fin (1/20); Fin (-5/10); Fin (2/10)] /\
  obs (run ex_sim0 pf_calls) "branch_s" "pu" (EBr 0 1) = Some (Fin (1/2)).
Proof.
  unfold pf_calls. rewrite ex_runk by lra. split; [apply ex_init|]. split; [reflexivity|]. split; [apply ex_br_fin|]. split; [apply ex_numbered|].
  split; [apply ex_alone|]. split; [reflexivity|]. split; [discriminate|]. split; [reflexivity|].
  split; [rewrite <- (cabs_real (1/2)) by lra; reflexivity|]. split; [reflexivity|reflexivity].
Qed.
Example C15_ex : sim_init ex_nw (Fin (1/4)) (Fin 100) = Ok ex_sim0 /\ sm_Y ex_sim0 = ex_Y /\
  (forall k, In (Some k) (map br_id (nw_bus ex_nw)) -> (0 <= k)%Z).
Proof. split; [apply ex_init|]. split; [reflexivity|]. cbn. intros k [H|[H|[]]]; injection H as <-; lia. Qed.
(** a transformer with ratio 0.95, a phase shift and charging is accepted *)
Example C16_ex : let r := mkBranchRow (Some 0%Z) (Some 1%Z) (cell (1/10)) (cell (3/10)) (cell (1/50)) (cell 30) (cell (95/100)) (cell 30) in
  0 < 100 /\ branch_row_fin r /\ is_ok (branch_init r (Fin 100) [0; 1]%Z) = true.
Proof.
  cbv zeta. split; [lra|]. split; [fin_rows|]. unfold branch_init, series_of, shunt_of, tap_of, cell. xeval. reflexivity.
Qed.
Example C18_ex : solve_pfe ex_lin 2 [Fin (-1/4)] [Fin 0] ex_Y xtol_pfe = Ok ([xc 1 0; xc (1/2) 0], [xc (1/2) 0; xc (-1/2) 0], true) /\
  xtol_pfe = Fin (1/100000).
Proof. split; [apply ex_solve|apply tb_xtol]. Qed.
Example C23_ex : sim_init (tb_nw 0 2 2) (Fin (1/4)) (Fin 100) = Ok tb_sim02 /\ map br_id (nw_bus (tb_nw 0 2 2)) = [Some 0; Some 2]%Z.
Proof. split; [apply tb_init02|reflexivity]. Qed.
Example C26_C27_ex :
  (exists s' st, transition ex_or ex_in (run ex_sim0 pf_calls) = (s', Ok (st, Fin (-1/16), Fin (1/16), Fin 0, true)) /\
   forall r, In r (of_type 2 ex_nw) -> row_obs s' "gen_p_max" r = Fin (row_val s' "gen_p_max" r)) /\ Forall bus_row_fin (nw_bus ex_nw) /\
  (** ... with a slack bus limited to 2 p.u.: penalty 25 *)
  exists s' st rew e, transition ex_or ex_in (run (ex_simk (2/10) 2) pf_calls) = (s', Ok (st, rew, e, Fin 25, true)).
Proof.
  unfold pf_calls. rewrite !ex_runk by lra. split; [|split; [apply ex_bus_fin|]].
  - do 2 eexists. split; [apply ex_trans; lra|]. intros r [<-|[]]. reflexivity.
  - rewrite ex_transk by lra. do 4 eexists. replace (25 * Rabs (1 - 2)) with 25; [reflexivity|]. rewrite Rabs_left by lra. lra.
Qed.

Print Assumptions C15_kcl.
Print Assumptions C16_passive.
Print Assumptions C17_pfe_holds.
Print Assumptions C18_newton.
Print Assumptions C18_no_nan.
Print Assumptions C20_power_balance.
Print Assumptions C21_slack_balance_partial.
Print Assumptions C21_slack_balance_refuted.
Print Assumptions C22_slack_voltage_partial.
Print Assumptions C22_slack_voltage_refuted.
Print Assumptions C23_gap_always_fails.
Print Assumptions C23_numbering_refuted.
Print Assumptions C24_branch_s_partial.
Print Assumptions C24_branch_s_refuted.
Print Assumptions C25_branch_current_partial.
Print Assumptions C25_branch_current_refuted.
Print Assumptions C26_energy_loss.
Print Assumptions C27_penalty_partial.
Print Assumptions C27_penalty_refuted.
