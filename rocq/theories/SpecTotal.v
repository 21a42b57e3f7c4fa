(** When a transition or a reset can raise (C68). *)
From Coq Require Import Reals.
From Verif Require Import Base Num NumXR Devices BusBranch CheckNetwork LoadFlow Simulator LibXR SpecNet SpecSim SpecDev SpecQp.

Section SpecTotal.
  Context {F : Type} {N : Num F}.

  (** The linear solver returns a vector of the right size for every system with as many
      equations as right-hand sides. *)
  Definition lin_total (lin : lin_solver F) : Prop :=
    forall A b, List.length A = List.length b -> exists x, lin A b = Ok x /\ List.length x = List.length b.
  (** The bus IDs are 0, ..., N - 1 in some order, there are at least two buses, and the slack
      bus has a VMIN. *)
  Definition solvable_network (nw : network F) : Prop :=
    (forall k, In (Some k) (map br_id (nw_bus nw)) <-> (0 <= k < Z.of_nat (List.length (nw_bus nw)))%Z) /\
    (2 <= List.length (nw_bus nw))%nat /\
    (forall r, In r (nw_bus nw) -> slack_bus_row r -> br_vmin r <> None).

  (** What the inputs of a transition must name. *)
  Definition named (m : list (Z * F)) (i : Z) : Prop := dget Z.eqb m i <> None.
  Definition all_named (nw : network F) (inp : tr_in F) : Prop :=
    forall r i, In r (nw_dev nw) -> dr_id r = Some i ->
      (dr_type r = Some (-1)%Z -> named (ti_load inp) i) /\
      (dr_type r = Some 1%Z \/ dr_type r = Some 2%Z -> named (ti_pot inp) i /\ named (ti_p inp) i /\ named (ti_q inp) i) /\
      (dr_type r = Some 3%Z -> named (ti_p inp) i /\ named (ti_q inp) i).
  (** The reasons for which a transition with error [e] may fail. *)
  Inductive fails (nw : network F) (dt : F) (Or : oracles F) (inp : tr_in F) : exn -> Prop :=
  | f_missing : ~ all_named nw inp -> fails nw dt Or inp KeyError
  | f_solver rows req e : o_qp Or rows req = Err e -> fails nw dt Or inp e
  | f_zero r : In r (nw_dev nw) -> dr_type r = Some 3%Z -> neqb dt n0 = true \/ neqb (nmul dt (match dr_eff r with Some e => e | None => n1 end)) n0 = true ->
      fails nw dt Or inp ZeroDivisionError.
End SpecTotal.

(** Exact arithmetic: the solvers do what they claim. *)
Definition good_oracles (Or : oracles XR) : Prop := qp_exact (o_qp Or) /\ qp_complete (o_qp Or) /\ lin_total (o_lin Or).
(** A transition whose inputs name every device with an ordinary number. *)
Definition good_transition (nw : network XR) (c : call XR) : Prop :=
  match c with
  | CReset _ _ => False
  | CTrans Or inp => good_oracles Or /\ usable_inputs nw inp
  end.
(** A transition with such inputs and an exact optimiser (which may still raise). *)
Definition exact_transition (nw : network XR) (c : call XR) : Prop :=
  match c with
  | CReset _ _ => False
  | CTrans Or inp => qp_exact (o_qp Or) /\ usable_inputs nw inp
  end.
(** The states of charge that the simulator reports are numbers between the documented limits. *)
Definition soc_reported_ok (s0 s : sim XR) : Prop :=
  forall i v, obs s "des_soc" "pu" (EId i) = Some v ->
    exists c, v = Fin c /\ forall lo hi, bound s0 "des_soc" "pu" (EId i) = Some (lo, hi) -> within (Fin c) lo hi.
(** The number of rows of some types. *)
Definition rows_of {F} (types : list Z) (nw : network F) : nat :=
  List.length (filter (fun r => match dr_type r with Some t => zmem t types | None => false end) (nw_dev nw)).
(** The length of the vector that [reset] reads: P and Q of every device, the SoC of every storage
    unit, the potential of every non-slack generator. *)
Definition reset_size {F} (nw : network F) : nat := 2 * List.length (nw_dev nw) + rows_of [3%Z] nw + rows_of [1%Z; 2%Z] nw.
