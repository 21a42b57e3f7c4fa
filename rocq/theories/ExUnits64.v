(** C88 beside a binary64 run on the 6-bus network. *)
From Coq Require Import Floats ZArith List Bool.
From Verif Require Import Base Num NumFloat Devices BusBranch CheckNetwork LoadFlow Simulator EnvArgs Env Anm6 Exec SpecSim SpecEnv SpecAnm6 SpecF64 ExFloat ExF64 PropUnits64.
Import ListNotations.
Local Open Scope string_scope.
Local Open Scope list_scope.

(** the functions of ExFloat.v, with an atan2 that stays within [-pi, pi] *)
Definition pi64 : float := 0x1.921fb54442d18p+1.
Definition catan2 (y x : float) : float := let t := tatan2 y x in if PrimFloat.leb (- pi64) t then if PrimFloat.leb t pi64 then t else pi64 else (- pi64)%float.
Definition clibm : libm := mkLibm tsin tcos catan2 (ffmod tlibm) (ftrunc tlibm).
Definition cor : oracles float := mkOr (proj_qp (N := Fnum clibm)) (gauss_solve (N := Fnum clibm)).
Definition cnet : network float := anm6_network (N := Fnum clibm).
Definition calls : list (call float) := [CReset cor [0; -1; 1; -1; 1; -1; 0; 0; 0; 0; 0; 0; 0; 0; 50; 1; 1]%float; CTrans cor (inp64 (-1) 1)].
Lemma clibm_range : atan2_in_range clibm.
Proof.
  intros y x. right. unfold between64. cbn [fatan2 clibm]. unfold catan2. change 0x1.921fb54442d18p+1%float with pi64. change (-0x1.921fb54442d18p+1)%float with (- pi64)%float.
  destruct (PrimFloat.leb (- pi64) (tatan2 y x)) eqn:A; [|split; vm_compute; reflexivity]. destruct (PrimFloat.leb (tatan2 y x) pi64) eqn:B; [auto|split; vm_compute; reflexivity].
Qed.
Definition inb (s0 : sim float) (k u : string) (i : eid) : bool := match obs (run (N := Fnum clibm) s0 calls) k u i, bound (N := Fnum clibm) s0 k u i with
  | Some v, Some (lo, hi) => PrimFloat.leb lo v && PrimFloat.leb v hi | _, _ => false end.
Definition run_in : bool := match sim_init (N := Fnum clibm) cnet 0.25%float 100%float with
  | Ok s0 => forallb (fun q => inb s0 (fst (fst q)) (snd (fst q)) (snd q))
      [("dev_p", "pu", EId 1); ("dev_p", "MW", EId 1); ("dev_q", "pu", EId 6); ("dev_q", "MVAr", EId 6); ("bus_p", "pu", EId 3); ("bus_p", "MW", EId 3);
       ("des_soc", "pu", EId 6); ("des_soc", "MWh", EId 6); ("branch_s", "pu", EBr 0 1); ("branch_s", "MVA", EBr 0 1);
       ("bus_v_ang", "rad", EId 4); ("bus_v_ang", "degree", EId 4); ("branch_i_ang", "rad", EBr 1 2); ("branch_i_ang", "degree", EBr 1 2);
       ("bus_v_magn", "pu", EId 0); ("bus_v_magn", "kV", EId 0); ("bus_v_magn", "kV", EId 5); ("bus_i_magn", "pu", EId 2); ("bus_i_magn", "kA", EId 2)]
  | _ => false end.
(** All hypotheses of C88 are met and all its conclusions hold of this run; the charge in MWh is one that the reset and the transition leave in the range. *)
Example C88_ex : run_in = true /\ atan2_in_range clibm /\ fin64 (nw_base cnet) /\ Forall (fun r => exists i kv, br_id r = Some i /\ br_kv r = Some kv /\ fin64 kv) (nw_bus cnet).
Proof.
  split; [vm_compute; reflexivity|]. split; [exact clibm_range|]. split; [vm_compute; reflexivity|].
  repeat constructor; eexists _, _; (split; [reflexivity|split; [reflexivity|vm_compute; reflexivity]]).
Qed.
Lemma cinit : exists s0, sim_init (N := Fnum clibm) cnet 0.25%float 100%float = Ok s0 /\ forallb (fun i => match bound (N := Fnum clibm) s0 "des_soc" "pu" i with Some (lo, hi) => PrimFloat.leb lo (50 / sm_base s0) && PrimFloat.leb (50 / sm_base s0) hi | None => false end) (storage_ids (N := Fnum clibm) s0) && Nat.eqb (List.length (storage_ids (N := Fnum clibm) s0)) 1 && Nat.eqb (n_device s0) 7 = true.
Proof.
  destruct (sim_init (N := Fnum clibm) cnet 0.25%float 100%float) as [s0|] eqn:E; [|vm_compute in E; discriminate E]. exists s0. split; [reflexivity|]. revert s0 E.
  assert (H : match sim_init (N := Fnum clibm) cnet 0.25%float 100%float with Ok s0 => forallb (fun i => match bound (N := Fnum clibm) s0 "des_soc" "pu" i with Some (lo, hi) => PrimFloat.leb lo (50 / sm_base s0) && PrimFloat.leb (50 / sm_base s0) hi | None => false end) (storage_ids (N := Fnum clibm) s0) && Nat.eqb (List.length (storage_ids (N := Fnum clibm) s0)) 1 && Nat.eqb (n_device s0) 7 | _ => false end = true) by (vm_compute; reflexivity).
  intros s0 E. rewrite E in H. exact H.
Qed.
(** the hypothesis of [C88_soc] on the calls *)
Example C88_soc_ex : exists s0, sim_init (N := Fnum clibm) cnet 0.25%float 100%float = Ok s0 /\ Forall (call_soc_ok (N := Fnum clibm) s0) calls.
Proof.
  destruct cinit as (s0 & E & H). exists s0. split; [exact E|]. apply andb_true_iff in H as (H & Hn). apply andb_true_iff in H as (H & Hl).
  apply Nat.eqb_eq in Hn. apply Nat.eqb_eq in Hl. rewrite forallb_forall in H. constructor; [|repeat constructor]. cbn [call_soc_ok calls]. intros k i lo hi c K B C.
  assert (k = 0%nat) as -> by (assert (k < 1)%nat by (rewrite <- Hl; apply nth_error_Some; rewrite K; discriminate); destruct k; [reflexivity|apply Nat.nlt_0_r in H0 || (exfalso; inversion H0 as [|? Q]; inversion Q)]; contradiction).
  rewrite Hn in C. cbn in C. injection C as <-. apply nth_error_In in K. specialize (H i K). rewrite B in H. apply andb_true_iff in H as (A1 & A2). split; auto.
Qed.
