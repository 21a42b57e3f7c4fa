(** The scripts of examples/ that run an agent on ANM6Easy: mpc_perfect.py, mpc_constant.py and random_agent.py. *)
From Verif Require Import Base Num Devices Simulator Env Anm6 Mpc.
From Coq Require Import List. Import ListNotations.
Local Open Scope list_scope.

Section Scripts.
  Context {F G : Type} {N : Num F}.

  (** gym_anm/agents/mpc.py 321-343 ([act]) for an ANM6Easy environment: the forecast of the agent (mpc_perfect.py if [perfect], else mpc_constant.py), then the
      optimisation. *)
  Definition mpc_action (perfect : bool) (solve : opf_solver (F := F)) (m : mpc F) (a : anm6 F G) : res (list F) :=
    let* PG := if perfect then match e_state (a_env a) with Some st => forecast_perfect m P_loads P_maxs st | None => Err TypeErr end else forecast_constant m (e_sim (a_env a)) in
    mpc_act solve m (e_sim (a_env a)) (fst PG) (snd PG).

  (** examples/mpc_perfect.py 22-26 and mpc_constant.py 23-27: the loop, and the rewards that it prints.  One entry of [ors] per iteration: how the solvers behave
      during the step. *)
  Fixpoint mpc_loop (ro : rng_ops F G) (sf : Z -> G) (perfect : bool) (solve : opf_solver (F := F)) (m : mpc F) (ors : list (oracles F)) (a : anm6 F G) : res (list F) :=
    match ors with
    | [] => Ok []
    | Or :: ors' =>
        let* act := mpc_action perfect solve m a in
        match easy_step Or ro sf act a with
        | (_, Err x) => Err x
        | (a', Ok out) => let* rs := mpc_loop ro sf perfect solve m ors' a' in Ok (so_reward out :: rs)
        end
    end.
  (** mpc_perfect.py 14-26, mpc_constant.py 14-27 ([run]).  [margin] is 0.96, [k] is 10 and the loop has 100 iterations in the scripts.  Simplification: the wrappers
      of [gym.make] are left out. *)
  Definition mpc_script (ro : rng_ops F G) (sf : Z -> G) (g : G) (perfect : bool) (solve : opf_solver (F := F)) (margin : F) (k : nat) (Or0 : oracles F) (ors : list (oracles F)) : res (list F) :=
    let* a0 := easy_make g in
    match easy_reset Or0 ro sf None None a0 with
    | (_, Err x) => Err x
    | (a1, Ok _) =>
        let* m := mpc_init (e_sim (a_env a1)) (e_aspace (a_env a1)) (e_gamma (a_env a1)) margin k in
        mpc_loop ro sf perfect solve m ors a1
    end.

  (** examples/random_agent.py 17-24: the loop.  An entry of [its]: the action that is sampled, and how the solvers behave during the step and during the reset.  The
      servers start and the connections succeed (simplification).  The rewards are returned too. *)
  Fixpoint random_loop (ro : rng_ops F G) (sf : Z -> G) (its : list (list F * oracles F * oracles F)) (a : anm6 F G) : anm6 F G * res (list F) :=
    match its with
    | [] => (a, Ok [])
    | (act, Or, Or') :: its' =>
        match easy_step Or ro sf act a with
        | (a1, Err x) => (a1, Err x)
        | (a1, Ok out) =>
            match anm6_render true 0 true true a1 with
            | (a2, Err x) => (a2, Err x)
            | (a2, Ok _) =>
                if so_terminated out then
                  match easy_reset Or' ro sf None None a2 with
                  | (a3, Err x) => (a3, Err x)
                  | (a3, Ok _) => match random_loop ro sf its' a3 with (a4, Ok rs) => (a4, Ok (so_reward out :: rs)) | r => r end
                  end
                else match random_loop ro sf its' a2 with (a4, Ok rs) => (a4, Ok (so_reward out :: rs)) | r => r end
            end
        end
    end.
  (** random_agent.py 13-25 ([run]) on a new environment [a0]: reset, loop, close *)
  Definition random_script (ro : rng_ops F G) (sf : Z -> G) (Or0 : oracles F) (its : list (list F * oracles F * oracles F)) (a0 : anm6 F G) : anm6 F G * res (list F) :=
    match easy_reset Or0 ro sf None None a0 with
    | (a1, Err x) => (a1, Err x)
    | (a1, Ok _) => match random_loop ro sf its a1 with (a2, Ok rs) => (anm6_close a2, Ok rs) | r => r end
    end.
End Scripts.
