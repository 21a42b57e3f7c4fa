(** C90: what the example scripts may do. *)
From Coq Require Import Reals.
From Verif Require Import Base Num NumXR Devices Simulator Env Anm6 LibXR SpecSim SpecEnv SpecTotal SpecAnm6.
Local Open Scope list_scope.
Local Open Scope R_scope.

(** The reset finds no initial state: the power flow diverges for 99 samples. *)
Definition no_start {G} (ro : rng_ops XR G) (sf : Z -> G) (s0 : sim XR) (Or : oracles XR) (a : anm6 XR G) : Prop :=
  let T := easy_task ro sf (e_sim (a_env a)) in forall j, (j < 99)%nat -> attempt Or s0 18 (draw T (gen_at T None (a_env a)) j) false.
(** The reward of a step that does not end the episode. *)
Definition usual (r : XR) : Prop := exists x, r = Fin x /\ - 101 <= x <= 1.
(** The rewards of an agent that goes on when the episode has ended: usual rewards, possibly followed by the reward of the collapse and by zeros. *)
Definition one_episode (rs : list XR) : Prop := exists live, Forall usual live /\ (rs = live \/ exists k, rs = live ++ Fin (-20000) :: repeat (Fin 0) k).

(** an entry of the script: a sampled action is a finite vector of the action space; the solvers behave as documented *)
Definition sampled_entry {G} (a0 : anm6 XR G) (it : list XR * oracles XR * oracles XR) : Prop := let '(act, Or, Or') := it in Forall fin act /\ valid_action (a_env a0) act /\ good_oracles Or /\ good_oracles Or'.
(** the script stops because a reset finds no initial state *)
Definition stuck {G} (ro : rng_ops XR G) (sf : Z -> G) (a0 : anm6 XR G) (Or0 : oracles XR) (its : list (list XR * oracles XR * oracles XR)) (r : res (list XR)) : Prop :=
  r = Err AttributeError /\ exists Or cs, (Or = Or0 \/ In Or (map snd its)) /\ no_start ro sf (e_sim (a_env a0)) Or (run6 ro sf a0 cs).
(** a reward of a script that resets the environment when the episode has ended *)
Definition reward_ok (r : XR) : Prop := usual r \/ r = Fin (-20000).

