(** C74 beside a binary64 run: a step, a step whose linear solver is useless, so that the power flow diverges, and a step of the ended episode. *)
From Coq Require Import Floats Uint63.
From Verif Require Import Base Num NumFloat Devices BusBranch CheckNetwork LoadFlow Simulator EnvArgs Env Anm6 Exec SpecSim SpecEnv SpecAnm6 LibNum ProofEasy PropEasy PropEasy2 ExFloat.
Local Open Scope string_scope.
Local Open Scope list_scope.

Definition bad_or : oracles float := mkOr (proj_qp (N := Fnum tlibm)) (fun _ b => Ok (map (fun _ => 0%float) b)).
Definition rwcheck (a1 a2 : anm6 float nat) (o1 o2 o3 : step_out float) : bool :=
  negb (so_terminated o1) && PrimFloat.ltb (-101) (so_reward o1) && PrimFloat.ltb (so_reward o1) 1 && negb (PrimFloat.eqb (so_reward o1) 0) &&
  so_terminated o2 && PrimFloat.ltb (PrimFloat.abs (so_reward o2 + 20000)) 0x1p-20 && so_terminated o3 && PrimFloat.eqb (so_reward o3) 0 &&
  match e_term (a_env a1), e_term (a_env a2) with Some false, Some true => true | _, _ => false end.
Definition rwrun (a0 : anm6 float nat) : bool :=
  match easy_reset (N := Fnum tlibm) tor trng tsf None None a0 with
  | (a1, Ok ob) => match easy_step (N := Fnum tlibm) tor trng tsf tact1 a1 with
    | (a2, Ok o1) => match easy_step (N := Fnum tlibm) bad_or trng tsf tact1 a2 with
      | (a3, Ok o2) => match easy_step (N := Fnum tlibm) tor trng tsf tact1 a3 with
        | (a4, Ok o3) => rwcheck a2 a3 o1 o2 o3
        | _ => false end
      | _ => false end
    | _ => false end
  | _ => false end.
Lemma rwrun_ok : match easy_make (N := Fnum tlibm) 30%nat with Ok a0 => rwrun a0 | Err _ => false end = true.
Proof. vm_compute. reflexivity. Qed.
Example C74_run_ex : exists a0 a1 ob a2 a3 a4 o1 o2 o3,
  easy_make (N := Fnum tlibm) 30%nat = Ok a0 /\ easy_reset (N := Fnum tlibm) tor trng tsf None None a0 = (a1, Ok ob) /\
  easy_step (N := Fnum tlibm) tor trng tsf tact1 a1 = (a2, Ok o1) /\ easy_step (N := Fnum tlibm) bad_or trng tsf tact1 a2 = (a3, Ok o2) /\
  easy_step (N := Fnum tlibm) tor trng tsf tact1 a3 = (a4, Ok o3) /\ rwcheck a2 a3 o1 o2 o3 = true.
Proof.
  pose proof rwrun_ok as H. destruct (easy_make 30%nat) as [a0|] eqn:E0; [|discriminate]. unfold rwrun in H.
  destruct (easy_reset tor trng tsf None None a0) as (a1, [ob|]) eqn:E1; [|discriminate].
  destruct (easy_step tor trng tsf tact1 a1) as (a2, [o1|]) eqn:E2; [|discriminate]. destruct (easy_step bad_or trng tsf tact1 a2) as (a3, [o2|]) eqn:E3; [|discriminate].
  destruct (easy_step tor trng tsf tact1 a3) as (a4, [o3|]) eqn:E4; [|discriminate]. exists a0, a1, ob, a2, a3, a4, o1, o2, o3. auto 8.
Qed.
