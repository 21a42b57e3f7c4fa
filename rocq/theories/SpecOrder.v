(** The vocabulary of C76: the order of the rows of a network file. *)
From Coq Require Import Permutation.
From Verif Require Import Base Num Devices BusBranch CheckNetwork LoadFlow Simulator EnvArgs Env SpecSim.
Local Open Scope string_scope.
Local Open Scope list_scope.

(** the same file with its rows in another order *)
Definition reordered {F} (nw nw' : network F) : Prop :=
  nw_base nw' = nw_base nw /\ Permutation (nw_bus nw) (nw_bus nw') /\ Permutation (nw_dev nw) (nw_dev nw') /\ Permutation (nw_br nw) (nw_br nw').

Section SpecOrder.
  Context {F : Type} {N : Num F}.
  (** two state dictionaries with the same quantities, and the same value of each quantity in each unit for each element *)
  Definition agree (st st' : fstate F) : Prop := map fst st = map fst st' /\ forall k u n, read st k u n = read st' k u n.
  (** two transitions with the same result: the same exception, or the same reward, energy loss, penalty, convergence flag and values of the state *)
  Definition same_result (r r' : res (fstate F * F * F * F * bool)) : Prop :=
    match r, r' with
    | Err x, Err x' => x' = x
    | Ok (st, w, e, p, c), Ok (st', w', e', p', c') => agree st st' /\ w' = w /\ e' = e /\ p' = p /\ c' = c
    | _, _ => False
    end.
  (** the observation argument does not ask for 'all' the branches (it may list them) *)
  Definition branch_keys : list string := ["branch_p"; "branch_q"; "branch_s"; "branch_i_magn"; "branch_i_ang"].
  Definition lists_branches (o : obs_arg F) : Prop :=
    match o with
    | ObsList l => forall k, In k branch_keys -> ~ In (OT2 k NAll) l /\ forall u, ~ In (OT3 k NAll u) l
    | _ => True
    end.
End SpecOrder.
