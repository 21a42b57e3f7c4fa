(** C93 beside a binary64 run: a reset and two steps that do nothing. *)
From Coq Require Import Floats Uint63.
From Verif Require Import Base Num NumFloat Devices BusBranch CheckNetwork LoadFlow Simulator EnvArgs Env Anm6 Exec SpecSim SpecEnv SpecAnm6 LibNum ProofEasy PropEasy PropEasy2 ExFloat.
Local Open Scope string_scope.
Local Open Scope list_scope.

Definition fnothing : list float := [30; 50; 0; 0; 0; 0]%float.
Definition near (x y : option float) : bool := match x, y with Some u, Some v => PrimFloat.ltb (PrimFloat.abs (u - v)) 0x1p-20 | _, _ => false end.
(** the state vector after the step, entry by entry: P and Q of devices 2, 4 and 6, stored energy (as in the state [st0] before), potentials *)
Definition rested (a a' : anm6 float nat) : bool :=
  match e_state (a_env a), e_state (a_env a') with
  | Some st0, Some st =>
      near (nth_error st 2) (nth_error st 15) && near (nth_error st 4) (nth_error st 16) && near (nth_error st 9) (Some 0%float) && near (nth_error st 11) (Some 0%float) &&
      near (nth_error st 6) (Some 0%float) && near (nth_error st 13) (Some 0%float) && near (nth_error st 14) (nth_error st0 14) && negb (near (nth_error st 4) (Some 0%float))
  | _, _ => false
  end.
Definition idlerun (a0 : anm6 float nat) : bool :=
  match easy_reset (N := Fnum tlibm) tor trng tsf None None a0 with
  | (a1, Ok ob) => match easy_step (N := Fnum tlibm) tor trng tsf fnothing a1 with
    | (a2, Ok o1) => match easy_step (N := Fnum tlibm) tor trng tsf fnothing a2 with
      | (a3, Ok o2) => negb (so_terminated o1) && negb (so_terminated o2) && rested a1 a2 && rested a2 a3
      | _ => false end
    | _ => false end
  | _ => false end.
Lemma idlerun_ok : match easy_make (N := Fnum tlibm) 30%nat with Ok a0 => idlerun a0 | Err _ => false end = true.
Proof. vm_compute. reflexivity. Qed.
Example C93_run_ex : exists a0 a1 ob a2 o1 a3 o2,
  easy_make (N := Fnum tlibm) 30%nat = Ok a0 /\ easy_reset (N := Fnum tlibm) tor trng tsf None None a0 = (a1, Ok ob) /\
  easy_step (N := Fnum tlibm) tor trng tsf fnothing a1 = (a2, Ok o1) /\ easy_step (N := Fnum tlibm) tor trng tsf fnothing a2 = (a3, Ok o2) /\
  negb (so_terminated o1) && negb (so_terminated o2) && rested a1 a2 && rested a2 a3 = true.
Proof.
  pose proof idlerun_ok as H. destruct (easy_make 30%nat) as [a0|] eqn:E0; [|discriminate]. unfold idlerun in H.
  destruct (easy_reset tor trng tsf None None a0) as (a1, [ob|]) eqn:E1; [|discriminate].
  destruct (easy_step tor trng tsf fnothing a1) as (a2, [o1|]) eqn:E2; [|discriminate]. destruct (easy_step tor trng tsf fnothing a2) as (a3, [o2|]) eqn:E3; [|discriminate].
  exists a0, a1, ob, a2, o1, a3, o2. auto 8.
Qed.
