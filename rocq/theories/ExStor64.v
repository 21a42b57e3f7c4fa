(** C89 beside a binary64 run on the 6-bus network: the unit takes power, gives power, and is idle. *)
From Coq Require Import Floats ZArith List Bool.
From Verif Require Import Base Num NumFloat Devices BusBranch CheckNetwork LoadFlow Simulator EnvArgs Env Anm6 Exec SpecSim SpecEnv SpecAnm6 SpecF64 SpecStor64 ExFloat ExF64 PropStor64.
Import ListNotations.
Local Open Scope string_scope.
Local Open Scope list_scope.

Definition stor_in (p : float) : tr_in float := mkIn [(1%Z, -1); (3%Z, -1); (5%Z, -1)]%float [(2%Z, 1); (4%Z, 1)]%float [(2%Z, 1); (4%Z, 1); (6%Z, p)]%float [(2%Z, 0); (4%Z, 0); (6%Z, 0)]%float.
Definition t64 := transition (N := Fnum tlibm) tor.
Definition reset64 : call float := CReset tor [0; -1; 1; -1; 1; -1; 0; 0; 0; 0; 0; 0; 0; 0; 50; 1; 1]%float.
Definition opt_lt (a b : option float) : bool := match a, b with Some x, Some y => PrimFloat.ltb x y | _, _ => false end.
Definition opt_eq (a b : option float) : bool := match a, b with Some x, Some y => PrimFloat.eqb x y | _, _ => false end.
Definition opt_fin (a : option float) : bool := match a with Some x => finb x | _ => false end.
Definition soc_of6 (s : sim float) := obs s "des_soc" "pu" (EId 6).
Definition p_of6 (s : sim float) := obs s "dev_p" "pu" (EId 6).
Definition stor_run : bool := match sim_init (N := Fnum tlibm) net64 0.25%float 100%float with
  | Ok s0 => let s1 := run (N := Fnum tlibm) s0 ([] ++ [reset64]) in
    match t64 (stor_in (-10)) s1 with (s2, Ok _) => match t64 (stor_in 8) s2 with (s3, Ok _) => match t64 (stor_in 0) s3 with (s4, Ok _) =>
      is_ok (snd (sim_reset (N := Fnum tlibm) tor [0; -1; 1; -1; 1; -1; 0; 0; 0; 0; 0; 0; 0; 0; 50; 1; 1]%float (run (N := Fnum tlibm) s0 [])))
      && opt_lt (soc_of6 s1) (soc_of6 s2) && opt_lt (soc_of6 s3) (soc_of6 s2) && opt_eq (soc_of6 s3) (soc_of6 s4)
      && opt_fin (p_of6 s2) && opt_fin (p_of6 s3) && opt_eq (p_of6 s4) (Some 0%float)
      && match bound (N := Fnum tlibm) s0 "des_soc" "pu" (EId 6), soc_of6 s1 with Some (lo, hi), Some c => finb lo && finb hi && PrimFloat.leb lo c && PrimFloat.leb c hi
          && match p_of6 s2, p_of6 s3, p_of6 s4 with Some a, Some b, Some d => opt_lt (soc_of6 s4) (Some (lossless 0.25 lo hi c [a; b; d])) | _, _, _ => false end | _, _ => false end
      | _ => false end | _ => false end | _ => false end
  | _ => false end.
Lemma stor_run_ok : stor_run = true.
Proof. vm_compute. reflexivity. Qed.
Ltac ands := repeat match goal with H : (_ && _)%bool = true |- _ => apply andb_true_iff in H as (? & ?) end.
(** All hypotheses of [C89_history] are met by three transitions with a power below, above and equal to 0 (so those of [C89_idle] by the last). *)
Example C89_ex : exists s0 r lo hi c ps s', sim_init (N := Fnum tlibm) net64 0.25%float 100%float = Ok s0 /\ In r (nw_dev net64) /\ dr_id r = Some 6%Z /\ dr_type r = Some 3%Z /\
  fin64 0.25 /\ PrimFloat.ltb 0 0.25 = true /\ PrimFloat.ltb 0 (eff64 r) = true /\ PrimFloat.ltb (eff64 r) 1 = true /\
  bound (N := Fnum tlibm) s0 "des_soc" "pu" (EId 6) = Some (lo, hi) /\ fin64 lo /\ fin64 hi /\ returned (N := Fnum tlibm) (run (N := Fnum tlibm) s0 []) reset64 /\
  obs (run (N := Fnum tlibm) s0 ([] ++ [reset64])) "des_soc" "pu" (EId 6) = Some c /\ between64 lo c hi /\
  powers tlibm 6 (run (N := Fnum tlibm) s0 ([] ++ [reset64])) ps s' /\ List.length ps = 3%nat /\ Forall fin64 ps.
Proof.
  pose proof stor_run_ok as H. unfold stor_run in H. destruct (sim_init (N := Fnum tlibm) net64 0.25%float 100%float) as [s0|] eqn:E0; [|discriminate H]. cbv zeta in H.
  destruct (t64 (stor_in (-10)) (run s0 ([] ++ [reset64]))) as (s2, [o2|]) eqn:E2; [|discriminate H]. destruct (t64 (stor_in 8) s2) as (s3, [o3|]) eqn:E3; [|discriminate H].
  destruct (t64 (stor_in 0) s3) as (s4, [o4|]) eqn:E4; [|discriminate H]. apply andb_true_iff in H as (H & Hb). ands.
  destruct (bound (N := Fnum tlibm) s0 "des_soc" "pu" (EId 6)) as [(lo, hi)|] eqn:B; [|discriminate Hb]. destruct (soc_of6 (run s0 ([] ++ [reset64]))) as [c|] eqn:C; [|discriminate Hb].
  unfold p_of6, opt_fin, opt_eq in *. destruct (obs s2 "dev_p" "pu" (EId 6)) as [p2|] eqn:P2; [|discriminate]. destruct (obs s3 "dev_p" "pu" (EId 6)) as [p3|] eqn:P3; [|discriminate].
  destruct (obs s4 "dev_p" "pu" (EId 6)) as [p4|] eqn:P4; [|discriminate]. ands.
  exists s0, (nth 6 (nw_dev net64) (mkDevRow None None None None None None None None None None None None None None None)), lo, hi, c, ((([] ++ [p2]) ++ [p3]) ++ [p4]), s4.
  split; [reflexivity|]. split; [apply nth_In; vm_compute; repeat constructor|]. do 6 (split; [vm_compute; reflexivity|]). split; [exact B|]. split; [assumption|]. split; [assumption|]. split; [assumption|].
  split; [exact C|]. split; [split; assumption|]. split.
  - eapply pw_more; [eapply pw_more; [eapply pw_more; [apply pw_none|exact E2|exact P2]|exact E3|exact P3]|exact E4|exact P4].
  - split; [reflexivity|]. repeat constructor; try assumption. unfold fin64. rewrite LibF64.fval_ltb, LibF64.fval_abs. match goal with Q : PrimFloat.eqb p4 0 = true |- _ => apply ProofF64.zv_eqb in Q; rewrite Q end. reflexivity.
Qed.
