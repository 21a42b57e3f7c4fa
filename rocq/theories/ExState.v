(** C92 beside a binary64 run: after a reset and after a step, entry by entry, the observation is the state vector. *)
From Coq Require Import Floats Uint63.
From Verif Require Import Base Num NumFloat Devices BusBranch CheckNetwork LoadFlow Simulator EnvArgs Env Anm6 Exec SpecSim SpecEnv SpecAnm6 LibNum ProofEasy PropEasy PropEasy2 ExFloat.
Local Open Scope string_scope.
Local Open Scope list_scope.

Definition same (a : anm6 float nat) (ob : list float) : bool :=
  match e_state (a_env a) with
  | Some st => Nat.eqb (List.length st) 18 && Nat.eqb (List.length ob) 18 && forallb (fun p => PrimFloat.eqb (fst p) (snd p)) (combine st ob) && negb (forallb (PrimFloat.eqb 0) ob)
  | None => false
  end.
Definition strun (a0 : anm6 float nat) : bool :=
  match easy_reset (N := Fnum tlibm) tor trng tsf None None a0 with
  | (a1, Ok ob) => match easy_step (N := Fnum tlibm) tor trng tsf tact1 a1 with
    | (a2, Ok o1) => same a1 ob && negb (so_terminated o1) && same a2 (so_obs o1)
    | _ => false end
  | _ => false end.
Lemma strun_ok : match easy_make (N := Fnum tlibm) 30%nat with Ok a0 => strun a0 | Err _ => false end = true.
Proof. vm_compute. reflexivity. Qed.
Example C92_run_ex : exists a0 a1 ob a2 o1,
  easy_make (N := Fnum tlibm) 30%nat = Ok a0 /\ easy_reset (N := Fnum tlibm) tor trng tsf None None a0 = (a1, Ok ob) /\
  easy_step (N := Fnum tlibm) tor trng tsf tact1 a1 = (a2, Ok o1) /\ same a1 ob && negb (so_terminated o1) && same a2 (so_obs o1) = true.
Proof.
  pose proof strun_ok as H. destruct (easy_make 30%nat) as [a0|] eqn:E0; [|discriminate]. unfold strun in H.
  destruct (easy_reset tor trng tsf None None a0) as (a1, [ob|]) eqn:E1; [|discriminate].
  destruct (easy_step tor trng tsf tact1 a1) as (a2, [o1|]) eqn:E2; [|discriminate]. exists a0, a1, ob, a2, o1. auto.
Qed.
