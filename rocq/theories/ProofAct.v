(** A plan of the optimal power flow of the MPC agents on the 6-bus network, for every forecast within the limits of the loads. *)
From Coq Require Import Reals Lra Sorted.
From Verif Require Import Base Num NumXR Devices BusBranch CheckNetwork LoadFlow Simulator EnvArgs Env Anm6 Mpc LibBase LibNum LibSim LibXR LibEval SpecNet ProofNet LibInit SpecSim ProofSim ProofObs SpecDev
  SpecQp SpecPf SpecEnv ProofEnv ProofVals SpecMpc ProofPlan SpecOpf ProofOpf ProofAtt2 ProofAtt3 PropEasy PropEasy2 ProofAnm6.
Local Open Scope string_scope.
Local Open Scope list_scope.
Local Open Scope R_scope.
Set Bullet Behavior "Strict Subproofs".

Definition a6_I : index := mkIndex [0; 1; 2; 3; 4; 5; 6]%Z [0; 1; 2; 3; 4; 5]%Z [1; 3; 5]%Z [2; 4]%Z [6]%Z [0]%Z.
Lemma a6_index : index_of anm6x a6_I.
Proof.
  destruct (anm6_ids (F := XR)) as (D1 & D2 & D3 & D4). repeat (split; [assumption|]). split; [|split; [repeat constructor|]].
  - split; [repeat constructor|]. intros i. split.
    + intros [<-|[]]. eexists _, 0%Z. split; [left; reflexivity|]. cbn. auto 10.
    + intros (r & t & Ir & Ei & Et & It). cbn in Ir, It. decompose [or] Ir; try contradiction; subst r; cbn in Ei, Et; injection Ei as <-; injection Et as <-; intuition (try lia; cbn; auto).
  - intros k. cbn. split; [intros H; decompose [or] H; try contradiction; subst; auto 10|]. intros H. decompose [or] H; try contradiction; match goal with E : Some _ = Some k |- _ => injection E as <- end; auto 10.
Qed.
Lemma a6_contiguous : contiguous anm6x.
Proof.
  intros k. cbn. split; [intros H; decompose [or] H; try contradiction; match goal with E : Some _ = Some k |- _ => injection E as <- end; lia|].
  intros H. assert (E : (k = 0 \/ k = 1 \/ k = 2 \/ k = 3 \/ k = 4 \/ k = 5)%Z) by lia. decompose [or] E; subst; auto 10.
Qed.
Lemma a6_unshifted : Forall unshifted (nw_br anm6x).
Proof. cbn [nw_br anm6_network]. repeat (constructor; [right; reflexivity|]). constructor. Qed.
(** the susceptances, from the root *)
Definition a6_sus (k : nat) : R := dc_sus (nth k (nw_br anm6x) (mkBranchRow None None None None None None None None)).
Lemma a6_sus_pos k : (k < 5)%nat -> 5 < a6_sus k.
Proof.
  intros H. do 5 (destruct k as [|k]; [unfold a6_sus, dc_sus, row_x, row_r, val_or; cbn [nth nw_br anm6_network lr_x lr_r lr_tap]; rewrite !nrat_XR by lia; cbn [nofZ XRnum]; lra|]). lia.
Qed.

Section Plan.
  Context (s0 : sim XR) (d : R) (lamb : XR) (Hs : sim_init anm6x (Fin d) lamb = Ok s0).
  Lemma a6_bounds : bound s0 "dev_p" "pu" (EId 2) = Some (Fin 0, Fin (3/10)) /\ bound s0 "dev_p" "pu" (EId 4) = Some (Fin 0, Fin (5/10)) /\
    bound s0 "dev_p" "pu" (EId 6) = Some (Fin (-5/10), Fin (5/10)) /\ bound s0 "des_soc" "pu" (EId 6) = Some (Fin 0, Fin 1).
  Proof.
    destruct (C10_lemma _ _ _ _ Hs 100 eq_refl _ 2%Z (anm6_row 2 _ eq_refl) eq_refl) as (_ & C2 & _). destruct (C2 (or_intror (or_intror eq_refl))) as (Q2 & _).
    destruct (C10_lemma _ _ _ _ Hs 100 eq_refl _ 4%Z (anm6_row 4 _ eq_refl) eq_refl) as (_ & C4 & _). destruct (C4 (or_intror (or_intror eq_refl))) as (Q4 & _).
    destruct (C10_lemma _ _ _ _ Hs 100 eq_refl _ 6%Z (anm6_row 6 _ eq_refl) eq_refl) as (_ & _ & C6). destruct (C6 eq_refl) as (Q6 & _ & sm & Sm & Bs).
    cbn [dr_socmax] in Sm. injection Sm as <-. clear C2 C4 C6.
    unfold PMIN, PMAX, SOCMIN in *. cbn [dr_pmin dr_pmax dr_socmin or_else nofZ XRnum] in Q2, Q4, Q6, Bs. rewrite !xdiv_Fin in Q2, Q4, Q6, Bs by lra.
    rewrite Q2, Q4, Q6, Bs. repeat split; do 2 f_equal; try f_equal; lra.
  Qed.
  Context (eff c0 : Z -> R) (PL PG : list (list R)) (k : nat).
  Context (HL : forall n i, (n < k)%nat -> In i [1; 3; 5]%Z -> -3/10 <= forecast [1; 3; 5]%Z PL n i <= 0).
  Context (HG : forall n i, (n < k)%nat -> In i [2; 4]%Z -> 0 <= forecast [2; 4]%Z PG n i) (Hc : 0 <= c0 6%Z <= 1).
  (** no generation, no storage: the slack device feeds the loads *)
  Definition idle_stage (l1 l3 l5 : R) : rstage :=
    let t1 := (l1 + l3 + l5) / a6_sus 0 in let t2 := t1 + (l3 + l5) / a6_sus 1 in
    mkRstage [0; t1; t2; t1 + l1 / a6_sus 2; t2 + l3 / a6_sus 3; t2 + l5 / a6_sus 4] [- (l1 + l3 + l5); l1; 0; l3; 0; l5; 0] [0] [0].
  Definition idle_plan : list rstage := map (fun n => let l := forecast [1; 3; 5]%Z PL n in idle_stage (l 1%Z) (l 3%Z) (l 5%Z)) (seq 0 k).
  Lemma idle_soc n : planned_soc (eff 6%Z) d (c0 6%Z) (map (fun x => (charge a6_I x 6%Z, discharge a6_I x 6%Z)) (firstn n idle_plan)) = c0 6%Z.
  Proof.
    unfold idle_plan. rewrite firstn_map, map_map. generalize (firstn n (seq 0 k)). intros l. unfold planned_soc. generalize (c0 6%Z). induction l as [|x l IH]; intros c; [reflexivity|].
    cbn [map fold_left fst snd]. rewrite <- (IH c) at 2. f_equal. unfold charge, discharge, entry. cbn. unfold Rdiv. ring.
  Qed.
  Lemma idle_opf : opf_plan anm6x s0 a6_I d eff c0 0%Z PL PG k idle_plan.
  Proof.
    destruct a6_bounds as (B2 & B4 & B6 & Bs).
    assert (P0 := a6_sus_pos 0 ltac:(lia)). assert (P1 := a6_sus_pos 1 ltac:(lia)). assert (P2 := a6_sus_pos 2 ltac:(lia)). assert (P3 := a6_sus_pos 3 ltac:(lia)). assert (P4 := a6_sus_pos 4 ltac:(lia)).
    split; [unfold idle_plan; rewrite map_length, seq_length; auto|]. split.
    { apply Forall_forall. intros st I. apply in_map_iff in I as (n & <- & _). repeat split. }
    intros n st E. assert (Hn : (n < k)%nat). { assert (Q : nth_error idle_plan n <> None) by congruence. apply nth_error_Some in Q. unfold idle_plan in Q. rewrite map_length, seq_length in Q. exact Q. }
    assert (E' := E). unfold idle_plan in E'. rewrite nth_error_map, (nth_error_nth' _ 0%nat), seq_nth in E' by (rewrite ?seq_length; auto). cbn [option_map Nat.add] in E'. injection E' as <-.
    pose proof (HL n 1%Z Hn ltac:(cbn; auto)) as L1. pose proof (HL n 3%Z Hn ltac:(cbn; auto)) as L3. pose proof (HL n 5%Z Hn ltac:(cbn; auto)) as L5.
    set (l1 := forecast _ PL n 1%Z) in *. set (l3 := forecast _ PL n 3%Z) in *. set (l5 := forecast _ PL n 5%Z) in *.
    constructor.
    - intros j Ij. cbn [a6_I ix_buses ix_all] in *.
      unfold planned_at, dc_out. change (nw_br anm6x) with (map (fun k => nth k (nw_br anm6x) (mkBranchRow None None None None None None None None)) (seq 0 5)). rewrite map_map. cbn [seq map].
      change (dc_sus (nth 0 (nw_br anm6x) (mkBranchRow None None None None None None None None))) with (a6_sus 0). 
      change (dc_sus (nth 1 (nw_br anm6x) (mkBranchRow None None None None None None None None))) with (a6_sus 1). 
      change (dc_sus (nth 2 (nw_br anm6x) (mkBranchRow None None None None None None None None))) with (a6_sus 2). 
      change (dc_sus (nth 3 (nw_br anm6x) (mkBranchRow None None None None None None None None))) with (a6_sus 3). 
      change (dc_sus (nth 4 (nw_br anm6x) (mkBranchRow None None None None None None None None))) with (a6_sus 4).
      unfold idle_stage. revert P0 P1 P2 P3 P4. generalize (a6_sus 0), (a6_sus 1), (a6_sus 2), (a6_sus 3), (a6_sus 4). intros b0 b1 b2 b3 b4 P0 P1 P2 P3 P4.
      cbn in Ij. decompose [or] Ij; try contradiction; subst j; unfold angle, rows_at; cbn; unfold entry; cbn; field; repeat split; lra.
    - intros j Ij. assert (Pi : 2 < PI) by (pose proof PI2_1; lra).
      assert (Dv : forall x y M, 5 < y -> - M <= x <= 0 -> - (M / 5) <= x / y <= 0).
      { intros x y M Hy Hx. assert (0 < / y < / 5) by (split; [apply Rinv_0_lt_compat; lra|apply Rinv_lt_contravar; lra]). unfold Rdiv. nra. }
      pose proof (Dv (l1 + l3 + l5) _ (9/10) P0 ltac:(lra)). pose proof (Dv (l3 + l5) _ (6/10) P1 ltac:(lra)). pose proof (Dv l1 _ (3/10) P2 ltac:(lra)). pose proof (Dv l3 _ (3/10) P3 ltac:(lra)). pose proof (Dv l5 _ (3/10) P4 ltac:(lra)).
      cbn in Ij. decompose [or] Ij; try contradiction; subst j; unfold angle, entry; cbn -[a6_sus PI]; lra.
    - reflexivity.
    - intros i Ii. cbn in Ii. decompose [or] Ii; try contradiction; subst i; reflexivity.
    - intros i Ii. cbn in Ii. decompose [or] Ii; try contradiction; subst i; rewrite in_bounds_fin by eassumption; unfold inject, entry; cbn; (split; [lra|]); apply HG; cbn; auto.
    - intros i Ii. cbn in Ii. decompose [or] Ii; try contradiction; subst i. rewrite !in_bounds_fin by eassumption. rewrite idle_soc. unfold inject, charge, discharge, entry; cbn. lra.
  Qed.
End Plan.
