(** C91: the answers of a sequence of steps. *)
From Coq Require Import List. Import ListNotations.
From Verif Require Import Base Num Simulator Env Anm6.

(** What the steps with these actions answer, up to the first one that raises.  An entry: how the solvers behave during the step, and the action. *)
Fixpoint play {F G} {N : Num F} (T : task F G) (acts : list (oracles F * list F)) (e : env F G) : list (res (step_out F)) :=
  match acts with
  | [] => []
  | (Or, a) :: rest => let '(e', r) := env_step Or T a e in r :: (if is_ok r then play T rest e' else [])
  end.
(** The same for ANM6Easy. *)
Fixpoint play6 {F G} {N : Num F} (ro : rng_ops F G) (sf : Z -> G) (acts : list (oracles F * list F)) (a : anm6 F G) : list (res (step_out F)) :=
  match acts with
  | [] => []
  | (Or, act) :: rest => let '(a', r) := easy_step Or ro sf act a in r :: (if is_ok r then play6 ro sf rest a' else [])
  end.
(** What [next_vars] returns does not depend on the generator. *)
Definition no_draws {F G} (T : task F G) : Prop := forall st g g', fst (t_next T st g) = fst (t_next T st g').
