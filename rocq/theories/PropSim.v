(** Properties of histories of simulator calls: C01, C02, C33, C34. *)
From Coq Require Import Floats Reals Lra.
From Verif Require Import Base Num NumXR NumFloat Devices BusBranch CheckNetwork LoadFlow Simulator LibNum LibXR LibEval SpecSim
  ProofSoc ProofHist ProofReset ExNet ExRun.
Local Open Scope string_scope.
Local Open Scope list_scope.
Local Open Scope R_scope.

(** C01: after any history of [reset] (with in-range SoC entries) and [transition] calls, each
    reported state of charge is within the advertised bounds, or NaN; any number type whose
    order satisfies [NumOrd], any inputs, any behaviour of the solvers, calls that raise
    included. *)
Theorem C01_soc_in_range : forall (F : Type) (N : Num F) (NO : NumOrd F) nw dt lamb s0 cs,
  sim_init nw dt lamb = Ok s0 -> Forall (call_soc_ok s0) cs ->
  forall i v, obs (run s0 cs) "des_soc" "pu" i = Some v ->
  exists lo hi, bound s0 "des_soc" "pu" i = Some (lo, hi) /\ (nisnan v = true \/ within v lo hi).
Proof. exact C01_soc. Qed.
(** C01 for exact arithmetic, and for IEEE-754 binary64 with any libm. *)
Theorem C01_soc_in_range_exact : forall (nw : network XR) dt lamb s0 cs,
  sim_init nw dt lamb = Ok s0 -> Forall (call_soc_ok s0) cs ->
  forall i v, obs (run s0 cs) "des_soc" "pu" i = Some v ->
  exists lo hi, bound s0 "des_soc" "pu" i = Some (lo, hi) /\ (v = NaN \/ within v lo hi).
Proof.
  intros nw dt lamb s0 cs H C i v K. destruct (C01_soc XR _ _ _ _ _ _ _ H C i v K) as (lo & hi & A & [B|B]);
    exists lo, hi; split; auto. left. apply xisnan_spec; auto.
Qed.
Theorem C01_soc_in_range_float : forall (L : libm) (nw : network float) dt lamb s0 cs,
  sim_init (N := Fnum L) nw dt lamb = Ok s0 -> Forall (call_soc_ok (N := Fnum L) s0) cs ->
  forall i v, obs (run (N := Fnum L) s0 cs) "des_soc" "pu" i = Some v ->
  exists lo hi, bound (N := Fnum L) s0 "des_soc" "pu" i = Some (lo, hi) /\
    (PrimFloat.eqb v v = false \/ (PrimFloat.leb lo v = true /\ PrimFloat.leb v hi = true)).
Proof.
  intros L nw dt lamb s0 cs H C i v K.
  destruct (C01_soc float (Fnum L) (Ford L) _ _ _ _ _ H C i v K) as (lo & hi & A & [B|B]);
    exists lo, hi; split; auto. left. apply negb_true_iff in B. exact B.
Qed.

(** the hypotheses are met: a reset at 50 MWh, then two steps of the example network *)
Definition ex_calls2 : list (call XR) := [CReset ex_or (ex_vec 50); CTrans ex_or ex_in; CTrans ex_or ex_in].
Lemma ex_soc_ok soc : 0 <= soc <= 100 -> soc_entries_ok ex_sim0 (ex_vec soc).
Proof.
  intros H k i lo hi c K B C. destruct k as [|k]; [|destruct k; discriminate]. cbn in C. inversion C; subst.
  cbn in K. inversion K; subst. cbn in B. inversion B; subst. cbn [sm_base ex_simk ndiv XRnum]. rewrite xdiv_Fin by lra.
  split; apply Rleb_spec; lra.
Qed.
Lemma ex_run2 : run ex_sim0 ex_calls2 = ex_sim1 (Fin (50/10 - 1/72 - 1/72)).
Proof. unfold run, ex_calls2. cbn [fold_left run_call]. rewrite ex_reset. cbn [fst]. rewrite !ex_trans by lra. cbn [fst]. rewrite ex_trans by lra. reflexivity. Qed.
Example C01_ex : sim_init ex_nw (Fin (1/4)) (Fin 100) = Ok ex_sim0 /\ Forall (call_soc_ok ex_sim0) ex_calls2 /\
  obs (run ex_sim0 ex_calls2) "des_soc" "pu" (EId 3) = Some (Fin (50/10 - 1/72 - 1/72)) /\
  bound ex_sim0 "des_soc" "pu" (EId 3) = Some (Fin 0, Fin 10).
Proof.
  split; [exact ex_init|]. split; [apply Forall_cons; [apply ex_soc_ok; lra|repeat constructor]|].
  rewrite ex_run2. split; reflexivity.
Qed.

(** C02: [reset] reports exactly the SoC entries of its argument (in p.u.) ... *)
Theorem C02_reset_soc_copied : forall (F : Type) (N : Num F) nw dt lamb s0 cs Or init s' conv k i,
  sim_init nw dt lamb = Ok s0 -> sim_reset Or init (run s0 cs) = (s', Ok conv) ->
  nth_error (storage_ids s0) k = Some i ->
  exists c, nth_error init (2 * n_device s0 + k) = Some c /\ obs s' "des_soc" "pu" i = Some (ndiv c (nw_base nw)).
Proof. exact @reset_soc. Qed.
(** ... so an out-of-range entry makes the reported SoC leave its advertised range. *)
Theorem C02_refuted : exists (nw : network XR) dt lamb s0 Or init s' i v lo hi,
  sim_init nw dt lamb = Ok s0 /\ sim_reset Or init s0 = (s', Ok true) /\
  List.length init = (2 * n_device s0 + n_des s0 + n_nsgen s0)%nat /\
  obs s' "des_soc" "pu" i = Some (Fin v) /\ bound s' "des_soc" "pu" i = Some (Fin lo, Fin hi) /\ ~ lo <= v <= hi.
Proof.
  exists ex_nw, (Fin (1/4)), (Fin 100), ex_sim0, ex_or, (ex_vec 500), (ex_sim1 (Fin (500/10))), (EId 3), (500/10), 0, 10.
  split; [exact ex_init|]. split; [apply ex_reset|]. do 3 (split; [reflexivity|]). lra.
Qed.
Example C02_ex : sim_init ex_nw (Fin (1/4)) (Fin 100) = Ok ex_sim0 /\
  sim_reset ex_or (ex_vec 50) (run ex_sim0 []) = (ex_sim1 (Fin (50/10)), Ok true) /\
  nth_error (storage_ids ex_sim0) 0 = Some (EId 3).
Proof. split; [exact ex_init|]. split; [apply ex_reset|reflexivity]. Qed.

(** C33: [reset] erases history. *)
Theorem C33_reset_erases_history : forall (F : Type) (N : Num F) nw dt lamb (s0 : sim F) cs cs' Or init,
  sim_init nw dt lamb = Ok s0 ->
  snd (sim_reset Or init (run s0 cs)) = snd (sim_reset Or init (run s0 cs')) /\
  (is_ok (snd (sim_reset Or init (run s0 cs))) = true ->
   fst (sim_reset Or init (run s0 cs)) = fst (sim_reset Or init (run s0 cs'))) /\
  (forall key unit_ i, obs (fst (sim_reset Or init (run s0 cs))) key unit_ i =
                       obs (fst (sim_reset Or init (run s0 cs'))) key unit_ i).
Proof. exact @C33_lemma. Qed.
Example C33_ex : sim_init ex_nw (Fin (1/4)) (Fin 100) = Ok ex_sim0 /\
  is_ok (snd (sim_reset ex_or (ex_vec 50) (run ex_sim0 []))) = true /\
  run ex_sim0 [] <> run ex_sim0 ex_calls2.
Proof.
  split; [exact ex_init|]. split; [cbn [run fold_left]; rewrite ex_reset; reflexivity|].
  rewrite ex_run2. cbn [run fold_left]. unfold ex_simk, ex_sim1k, ex_simpf. intros H. injection H. discriminate.
Qed.

(** C34: a transition depends on the past only through the states of charge. *)
Theorem C34_markov : forall (F : Type) (N : Num F) nw dt lamb (s0 : sim F) cs c cs' c' Or inp,
  sim_init nw dt lamb = Ok s0 ->
  returned (run s0 cs) c -> returned (run s0 cs') c' ->
  let s := run s0 (cs ++ [c]) in let s' := run s0 (cs' ++ [c']) in
  (forall i, obs s "des_soc" "pu" i = obs s' "des_soc" "pu" i) ->
  snd (transition Or inp s) = snd (transition Or inp s') /\
  (is_ok (snd (transition Or inp s)) = true -> fst (transition Or inp s) = fst (transition Or inp s')).
Proof. exact @C34_lemma. Qed.

(** two different histories that end with the same SoC *)
Example C34_ex : let cs := [CReset ex_or (ex_vec 50); CTrans ex_or ex_in] in let c := CReset ex_or (ex_vec 40) in
  sim_init ex_nw (Fin (1/4)) (Fin 100) = Ok ex_sim0 /\
  returned (run ex_sim0 cs) c /\ returned (run ex_sim0 []) c /\
  (forall i, obs (run ex_sim0 (cs ++ [c])) "des_soc" "pu" i = obs (run ex_sim0 ([] ++ [c])) "des_soc" "pu" i).
Proof.
  cbv zeta. split; [exact ex_init|].
  assert (E : snd (sim_reset ex_or (ex_vec 40) (run ex_sim0 [CReset ex_or (ex_vec 50); CTrans ex_or ex_in])) =
              snd (sim_reset ex_or (ex_vec 40) (run ex_sim0 []))).
  { apply (C33_lemma _ _ _ _ _ _ _ _ ex_init). }
  split; [cbn [returned]; rewrite E; cbn [run fold_left]; rewrite ex_reset; reflexivity|].
  split; [cbn [returned run fold_left]; rewrite ex_reset; reflexivity|].
  intros i. unfold run. rewrite !fold_left_app. cbn [fold_left run_call].
  pose proof (C33_lemma ex_nw (Fin (1/4)) (Fin 100) ex_sim0 [CReset ex_or (ex_vec 50); CTrans ex_or ex_in] [] ex_or (ex_vec 40) ex_init) as K.
  apply (proj2 (proj2 K)).
Qed.

Print Assumptions C02_reset_soc_copied.
Print Assumptions C02_refuted.
Print Assumptions C01_soc_in_range.
Print Assumptions C01_soc_in_range_exact.
Print Assumptions C01_soc_in_range_float.
Print Assumptions C33_reset_erases_history.
Print Assumptions C34_markov.
