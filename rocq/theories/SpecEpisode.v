(** Episodes that never raise (C70). *)
From Coq Require Import Reals.
From Verif Require Import Base Num NumXR Devices BusBranch CheckNetwork LoadFlow Simulator EnvArgs Env LibXR SpecNet SpecSim SpecDev SpecQp SpecTotal SpecEnv.
Local Open Scope string_scope.
Local Open Scope list_scope.

Section SpecEpisode.
  Context {G : Type}.
  (** The number of entries of the state vector and of the sampled variables, from the network file. *)
  Definition vec_size (nw : network XR) (K : Z) : nat := reset_size nw + Z.to_nat K.
  Definition vars_size (nw : network XR) (K : Z) : nat := rows_of [-1]%Z nw + rows_of [1; 2]%Z nw + Z.to_nat K.
  (** The two methods that a user writes honour the documented contract: [init_state] returns a vector of the
      documented size, made of numbers, whose states of charge are within the limits of the storage units, and
      [next_vars], given such a vector, returns numbers for every load, generator and auxiliary variable. *)
  Record good_task (nw : network XR) (K : Z) (s0 : sim XR) (T : task XR G) : Prop := mkGoodTask {
    gt_init : forall g, exists init, fst (t_init T g) = Ok init /\ List.length init = vec_size nw K /\ Forall fin init /\ soc_entries_ok s0 init;
    gt_next : forall st g, List.length st = vec_size nw K -> Forall fin st ->
      exists vars, fst (t_next T st g) = Ok vars /\ List.length vars = vars_size nw K /\ Forall fin vars }.
  (** The calls of a careful user: whatever the seed, and any finite action of the action space. *)
  Definition good_call (e0 : env XR G) (c : ecall XR) : Prop :=
    match c with
    | EReset Or _ => good_oracles Or
    | EStep Or a => good_oracles Or /\ Forall fin a /\ valid_action e0 a
    end.
  (** The call returns, except that a reset may give up after 99 samples for which the power flow does not converge. *)
  Definition returns (T : task XR G) (s0 : sim XR) (sz : nat) (e : env XR G) (c : ecall XR) : Prop :=
    match c with
    | EReset Or seed =>
        (exists ob, snd (env_reset Or T seed e) = Ok ob) \/
        (snd (env_reset Or T seed e) = Err AttributeError /\ forall j, (j < 99)%nat -> attempt Or s0 sz (draw T (gen_at T seed e) j) false)
    | EStep Or a => exists out, snd (env_step Or T a e) = Ok out
    end.
End SpecEpisode.
