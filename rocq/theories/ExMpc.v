(** The MPC agents on a run of ANM6Easy in binary64 arithmetic (C48, C49, C50). *)
From Coq Require Import Floats.
From Verif Require Import Base Num NumFloat Devices BusBranch CheckNetwork LoadFlow Simulator EnvArgs Env Anm6 Mpc Exec SpecSim SpecEnv SpecAnm6 PropEasy SpecMpc PropMpc ExFloat.
Local Open Scope string_scope.
Local Open Scope list_scope.
Set Bullet Behavior "Strict Subproofs".
Local Set Warnings "-inexact-float".


(** A "solver" that plans 50, -1, 10, -5, 20, -20 and 200 MW, whatever the problem: the storage unit's set-point is out of range. *)
Definition tsolve : opf_solver (F := float) := fun _ _ _ _ => Ok [0.5; -0.01; 0.1; -0.05; 0.2; -0.2; 2]%float.
Definition nears (l : list float) (r : list float) : bool :=
  Nat.eqb (List.length l) (List.length r) && forallb (fun xy => near (Some (fst xy)) (snd xy)) (combine l r).
Definition cols (M : list (list float)) (j : nat) : list float := map (fun row => nth j row 0%float) M.
(** the agent is built after the reset (7:30) with a horizon of 200 steps and asked after one step (7:45) *)
Definition mcheck (a1 a2 : anm6 float nat) (m : mpc float) : bool :=
  match e_state (a_env a2) with
  | Some st => match forecast_perfect (N := Fnum tlibm) m (P_loads (N := Fnum tlibm)) (P_maxs (N := Fnum tlibm)) st with
    | Ok (PL, PG) =>
        (* C49: 8:00, the next day's 8:00, and 13:00 (the PV potential of index 52) *)
        nears (cols PL 0) [-0.05; -0.1; -0.25]%float && nears (cols PG 0) [0.04; 0.11]%float &&
        nears (cols PL 96) [-0.05; -0.1; -0.25]%float && nears (cols PG 192) [0.04; 0.11]%float &&
        nears (cols PL 20) [-0.02; -0.2; 0]%float && nears (cols PG 20) [0.3; 0.4]%float && forallb (fun row => Nat.eqb (List.length row) 200) (PL ++ PG) &&
        match forecast_constant m (e_sim (a_env a2)) with
        | Ok (QL, QG) =>
            (* C50: the current values throughout *)
            nears (cols QL 0) (cols QL 199) && nears (cols QG 0) (cols QG 199) && negb (nears (cols QL 0) (cols PL 0)) &&
            near (obs (e_sim (a_env a2)) "dev_p" "pu" (EId 3)) (nth 1 (cols QL 7) 0%float)
        | Err _ => false end &&
        match mpc_act (N := Fnum tlibm) tsolve m (e_sim (a_env a2)) PL PG with
        | Ok act => nears act [10; 20; 0; 0; 50; 0]%float
        | Err _ => false end
    | Err _ => false end
  | None => false end.
Definition mrun : bool :=
  match easy_make (N := Fnum tlibm) 30%nat with
  | Ok a0 => match easy_reset (N := Fnum tlibm) tor trng tsf None None a0 with
    | (a1, Ok ob) => match easy_step (N := Fnum tlibm) tor trng tsf tact1 a1 with
      | (a2, Ok o2) => match mpc_init (N := Fnum tlibm) (e_sim (a_env a1)) (e_aspace (a_env a1)) 0.9%float 0.96%float 200 with
        | Ok m => negb (so_terminated o2) && mcheck a1 a2 m
        | Err _ => false end
      | _ => false end
    | _ => false end
  | Err _ => false end.
Lemma mrun_ok : mrun = true.
Proof. vm_compute. reflexivity. Qed.
Example C49_ex : exists a0 a1 ob a2 m,
  easy_make (N := Fnum tlibm) 30%nat = Ok a0 /\ easy_reset (N := Fnum tlibm) tor trng tsf None None (run6 (N := Fnum tlibm) trng tsf a0 []) = (a1, Ok ob) /\
  stepping (N := Fnum tlibm) trng tsf alive 1 a1 a2 /\
  mpc_init (N := Fnum tlibm) (e_sim (a_env (run6 (N := Fnum tlibm) trng tsf a0 [E6Reset tor None None]))) (e_aspace (a_env a1)) 0.9%float 0.96%float 200 = Ok m /\
  mcheck a1 a2 m = true.
Proof.
  pose proof mrun_ok as H. unfold mrun in H. unfold run6. cbn [fold_left run_call6].
  destruct (easy_make 30%nat) as [a0|] eqn:E0; [|discriminate H]. destruct (easy_reset tor trng tsf None None a0) as (a1, [ob|]) eqn:E1; [|discriminate H].
  destruct (easy_step tor trng tsf tact1 a1) as (a2, [o2|]) eqn:E2; [|discriminate H]. destruct (mpc_init _ _ _ _ _) as [m|] eqn:E3; [|discriminate H].
  apply andb_true_iff in H as (H2 & H). apply negb_true_iff in H2.
  exists a0, a1, ob, a2, m. split; [auto|]. split; [exact E1|]. split; [eapply SStep; [apply SNone|exact E2|exact H2]|]. rewrite E1. cbn [fst]. split; [exact E3|exact H].
Qed.
Print Assumptions C49_ex.
