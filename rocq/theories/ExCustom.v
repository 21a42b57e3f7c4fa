(** A run of examples/custom_anm6.py in binary64 arithmetic, with the reference solvers of Exec.v: the shape of the hypotheses of C82. *)
From Coq Require Import Floats Uint63.
From Verif Require Import Base Num NumFloat Devices BusBranch CheckNetwork LoadFlow Simulator EnvArgs Env Anm6 Examples Exec SpecSim SpecEnv ExFloat.
Local Open Scope string_scope.
Local Open Scope list_scope.

(** [uniform] returns the middle of the range *)
Definition urng : rng_ops float nat := mkRng (fun lo hi g => (lo, S g)) (fun lo hi g => ((lo + hi) / 2, S g)%float).
Definition uact : list float := [10; 0; 0; 0; 0; 0]%float.
Fixpoint usteps (n : nat) (s : sim float) (e : env float nat) : option (env float nat * option (step_out float)) :=
  match n with
  | O => Some (e, None)
  | S k => match usteps k s e with
    | Some (e1, _) => match env_step (N := Fnum tlibm) tor (custom_task (N := Fnum tlibm) urng tsf s) uact e1 with
      | (e2, Ok o) => if so_terminated o then None else Some (e2, Some o)
      | (_, Err _) => None end
    | None => None end
  end.
Definition urun (n : nat) : option (option float * option float * option float * option float * option float) :=
  match custom_env (N := Fnum tlibm) 0%nat with
  | Ok e0 => match env_reset (N := Fnum tlibm) tor (custom_task (N := Fnum tlibm) urng tsf (e_sim e0)) None e0 with
    | (e1, Ok _) => match usteps n (e_sim e0) e1 with
      | Some (e2, Some o) => Some (obs (e_sim e2) "dev_p" "MW" (EId 3%Z), obs (e_sim e2) "gen_p_max" "MW" (EId 4%Z), obs (e_sim e2) "gen_p_max" "MW" (EId 2%Z),
          match e_state e2 with Some st => nth_error st 17 | None => None end, nth_error (so_obs o) 17)
      | _ => None end
    | _ => None end
  | Err _ => None end.
(** after 12 steps (3:00): no industrial load, no wind, 25 MW of sun, the time index 12 shown as 10 *)
Example C82_ex : urun 1 = Some (Some 0, Some 0, Some 25, Some 1, Some 1)%float /\ urun 12 = Some (Some 0, Some 0, Some 25, Some 12, Some 10)%float.
Proof. split; vm_compute; reflexivity. Qed.
