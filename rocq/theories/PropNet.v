(** Properties of network validation and construction (C11, C14). *)
From Coq Require Import Permutation Sorted.
From Verif Require Import Base Num Devices BusBranch CheckNetwork Simulator SpecNet ProofNet LibInit LibEval ExNet.

(** C11: [check_network_specs] accepts exactly the well-formed networks... *)
Theorem C11_network_validation : forall (F : Type) (N : Num F) (nw : network F),
  check_network_specs nw = Ok tt <-> well_formed nw.
Proof. exact @check_network_iff. Qed.
(** ... and otherwise raises the error of the first violated rule. *)
Theorem C11_network_error : forall (F : Type) (N : Num F) (nw : network F) (e : exn),
  check_network_specs nw = Err e <-> first_error nw e.
Proof. exact @check_network_err. Qed.
(** A well-formed network, and one with a second slack device. *)
Example C11_ex : check_network_specs ex_nw = Ok tt /\
  check_network_specs (mkNet (nw_base ex_nw) (nw_bus ex_nw) (ex_slack :: nw_dev ex_nw) (nw_br ex_nw)) = Err DeviceSpecError.
Proof. split; [exact ex_check|]. unfold check_network_specs, ex_nwk. xeval. reflexivity. Qed.
Print Assumptions C11_network_validation.
Print Assumptions C11_network_error.
