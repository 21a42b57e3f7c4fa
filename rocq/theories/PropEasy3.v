(** C63 for resets: the first point of the documented day that an ANM6Easy episode shows. *)
From Coq Require Import Reals Lra Sorted.
From Verif Require Import Base Num NumXR Devices BusBranch CheckNetwork LoadFlow Simulator EnvArgs Env Anm6 LibBase LibNum LibSim LibXR LibEval
  ProofNet LibInit SpecSim ProofSim ProofObs ProofSoc ProofReset ProofUnits SpecDev ProofVals ProofBounds ProofDevs SpecEnv ProofEnv ProofStep ProofState ProofDraw ProofEnvOk PropEnv
  ProofResetIn SpecAnm6 ProofEasy PropEasy PropEasy2.
Local Open Scope string_scope.
Local Open Scope list_scope.
Local Open Scope R_scope.
Set Bullet Behavior "Strict Subproofs".

Lemma table_nth i l k : In (i, l) [(1%Z, nth 0 P_loads []); (3%Z, nth 1 P_loads []); (5%Z, nth 2 P_loads []); (2%Z, nth 0 P_maxs []); (4%Z, nth 1 P_maxs [])] ->
  nth_error (table i) k = nth_error (l : list XR) k.
Proof. intros I. cbn [In] in I. decompose [or] I; try contradiction; match goal with H : (_, _) = _ |- _ => injection H as <- <- end; reflexivity. Qed.
Lemma easy_init_entries {G} (ro : rng_ops XR G) s g v g' : rng_sound ro -> easy_init ro s g = (Ok v, g') ->
  exists t0, (0 <= t0 < 96)%Z /\ skipn (List.length v - 1) v = [nofZ t0] /\ let k := Z.to_nat t0 in
    nth_error v 1 = nth_error (table 1) k /\ nth_error v 3 = nth_error (table 3) k /\ nth_error v 5 = nth_error (table 5) k /\
    nth_error v 15 = nth_error (table 2) k /\ nth_error v 16 = nth_error (table 4) k.
Proof.
  intros Rs. unfold easy_init. pose proof (rs_int ro Rs 0%Z 96%Z g ltac:(lia)) as B. destruct (r_int ro 0%Z 96%Z g) as (t0, g1). cbn [fst] in B.
  destruct (let* d2 := find_dev s 2 in _) as [(d2, d4)|x]; [|discriminate].
  destruct (r_unif ro (d_qmin d2) (d_qmax d2) g1) as (q2, g2). destruct (r_unif ro (d_qmin d4) (d_qmax d4) g2) as (q4, g3).
  destruct (let* d6 := find_dev s 6 in dev_soc_rng d6) as [(lo, hi)|x]; [|discriminate].
  destruct (r_unif ro lo hi g3) as (soc, g4). intros H. apply (f_equal fst) in H. cbn [fst] in H.
  apply bind_ok in H as (l1 & E1 & H). apply bind_ok in H as (l3 & E3 & H). apply bind_ok in H as (l5 & E5 & H). apply bind_ok in H as (m2 & E2 & H).
  apply bind_ok in H as (m4 & E4 & H). apply bind_ok in H as (? & _ & H). apply bind_ok in H as (? & _ & H). apply bind_ok in H as (? & _ & H).
  apply nth_res_ok in E1, E3, E5, E2, E4.
  injection H as <-. exists t0. split; [auto|]. split; [reflexivity|]. cbn zeta.
  rewrite (table_nth 1 (nth 0 P_loads [])), (table_nth 3 (nth 1 P_loads [])), (table_nth 5 (nth 2 P_loads [])), (table_nth 2 (nth 0 P_maxs [])), (table_nth 4 (nth 1 P_maxs [])) by (cbn [In]; auto 10).
  rewrite E1, E3, E5, E2, E4. auto 10.
Qed.

(** C63, resets: whatever happened before, a reset that returned leaves in the simulator the values of the documented day at the quarter
    of an hour that the state reports. *)
Theorem C63_reset_values : forall (G : Type) (ro : rng_ops XR G) sf g a0 cs Or seed date a1 ob,
  rng_sound ro -> easy_make g = Ok a0 -> easy_reset Or ro sf seed date (run6 ro sf a0 cs) = (a1, Ok ob) ->
  exists t0, (0 <= t0 < 96)%Z /\ time_index a1 = Some (nofZ t0) /\ easy_day (e_sim (a_env a1)) (Z.to_nat t0).
Proof.
  intros G ro sf g a0 cs Or seed date a1 ob Rs B H. destruct (start_facts clock_XR g a0 B) as (e0 & R0 & E0 & Hs & Sr).
  pose proof (sr_run6 _ ro sf cs _ Sr) as (l & El). pose proof (run6_reach g e0 ro sf cs a0 R0) as (Hg & _).
  assert (Sr1 : simrun (e_sim e0) a1). { pose proof (sr_reset (e_sim e0) Or ro sf seed date _ (ex_intro _ l El)) as S. rewrite H in S. exact S. }
  destruct Sr1 as (l1 & El1). destruct (anm6_ids (F := XR)) as (D1 & D2 & D3 & D4).
  unfold easy_reset, anm6_reset in H. destruct (env_reset Or _ seed _) as (e', [ob'|x]) eqn:E; [|discriminate].
  destruct (gd_reset_inv _ _ _ _ _ _ _ _ _ Hg E D1 D3 D4) as (k & init & st & _ & _ & At & D & _ & Si & Es & Ly & _).
  assert (Rs' : sim_reset Or init (e_sim e0) = (e_sim e', Ok true)).
  { destruct At as (init' & A1 & _ & A3). rewrite D in A1. cbn [fst] in A1. injection A1 as <-. rewrite Si. destruct (sim_reset Or init (e_sim e0)); cbn in *; congruence. }
  apply draw_is_init in D as (g0 & Ei). destruct (easy_init_entries _ _ _ _ _ Rs Ei) as (t0 & Ht & Sk & V1 & V3 & V5 & V2 & V4).
  destruct (layout_length _ _ _ _ _ _ _ Ly) as (_ & Sk'). change (Z.to_nat 1) with 1%nat in Sk'. rewrite Sk in Sk'. destruct (last_skip _ _ Sk') as (Nl & La).
  assert (Ea : e_sim (a_env a1) = e_sim e' /\ e_state (a_env a1) = e_state e').
  { destruct date as [d|]; [|destruct (random_date ro 0 (e_rng e')) as (d, gr)]; cbn in H; rewrite Es in H; (destruct (xtrunc _); [|discriminate H]); injection H as <- _; cbn; auto. }
  destruct Ea as (Ea1 & Ea2). exists t0. split; [auto|]. split. { unfold time_index. rewrite Ea2, Es. exact Nl. }
  apply (in_mw _ _ Hs _ _ El1). rewrite Ea1.
  destruct (reset_is_transition _ _ _ _ Hs _ _ _ D1 D3 D4 Or init _ _ _ eq_refl Rs') as (inp & z & s1 & out & T & A).
  assert (Hk : (Z.to_nat t0 < 96)%nat) by lia.
  assert (Row : forall i, In i [1; 3; 5]%Z -> exists r, In r (nw_dev (anm6_network (F := XR))) /\ dr_id r = Some i /\ dr_type r = Some (-1)%Z).
  { intros i I. cbn [In] in I. decompose [or] I; try contradiction; subst i; eexists; unshelve (once (split; [pick|split; reflexivity])). }
  destruct (easy_values _ _ _ _ _ _ (Z.to_nat t0) Hs (ra_strip _ _ _ _ _ _ _ _ _ _ _ A) T Hk) as (W1 & W2 & W3).
  - intros i I. destruct (Row i I) as (r & Ir & Ei' & Ty). cbn in I. destruct I as [<-|[<-|[<-|[]]]];
      [rewrite <- V1; symmetry; apply (ra_load _ _ _ _ _ _ _ _ _ _ _ A 1 1 r)|rewrite <- V3; symmetry; apply (ra_load _ _ _ _ _ _ _ _ _ _ _ A 3 3 r)|rewrite <- V5; symmetry; apply (ra_load _ _ _ _ _ _ _ _ _ _ _ A 5 5 r)]; auto.
  - intros i I. cbn in I. destruct I as [<-|[<-|[]]]; [rewrite <- V2; symmetry; apply (ra_pot _ _ _ _ _ _ _ _ _ _ _ A 0 2)|rewrite <- V4; symmetry; apply (ra_pot _ _ _ _ _ _ _ _ _ _ _ A 1 4)]; reflexivity.
  - pose proof (ra_obs _ _ _ _ _ _ _ _ _ _ _ A) as Ob. split; [|split].
    + intros i s1' s2 s3 I. rewrite !Ob by discriminate. apply W1; auto.
    + destruct W2 as (x & X1 & X2). exists x. rewrite Ob by discriminate. auto.
    + destruct W3 as (x & X1 & X2). exists x. rewrite Ob by discriminate. auto.
Qed.
Print Assumptions C63_reset_values.
