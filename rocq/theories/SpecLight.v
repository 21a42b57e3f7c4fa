(** Lightly loaded networks (C80): what the linear solver of Newton's method must do, and the size of a network. *)
From Coq Require Import Reals.
From Coquelicot Require Import Complex.
From Verif Require Import Base Num NumXR LibXR Devices BusBranch CheckNetwork LoadFlow Simulator SpecDev SpecSim SpecPf.
Local Open Scope list_scope.
Local Open Scope R_scope.

(** a row of a real matrix times a vector *)
Definition dotR (row x : list R) : R := sumR (zip_with Rmult row x).
(** The only solution of [A x = 0] is 0. *)
Definition nonsingular (A : list (list R)) : Prop :=
  forall x, List.length x = List.length A -> Forall (fun row => dotR row x = 0) A -> Forall (fun v => v = 0) x.
(** A solver that answers every square nonsingular system with its solution. *)
Definition exact_lin (lin : lin_solver XR) : Prop :=
  forall A b, List.length b = List.length A -> Forall (fun row => List.length row = List.length A) A -> nonsingular A ->
    exists x, lin (map (map Fin) A) (map Fin b) = Ok (map Fin x) /\ List.length x = List.length A /\ Forall2 (fun row v => dotR row x = v) A b.

(** The buses other than the slack bus, for bus IDs 0..N-1. *)
Definition load_ids (nw : network XR) : list Z := tl (bus_ids nw).
(** With the same voltage everywhere no current flows at the buses other than the slack bus (lines without charging, nominal taps). *)
Definition flat_rest (nw : network XR) : Prop := forall k, In k (load_ids nw) -> current_out nw (fun _ => RtoC 1) k = RtoC 0.
(** [Zm] recovers voltage deviations from currents; its rows sum to at most [z] in absolute value. *)
Definition impedance (nw : network XR) (Zm : Z -> Z -> C) (z : R) : Prop :=
  (forall V, V 0%Z = RtoC 0 -> forall i, In i (load_ids nw) -> sumC (map (fun k => (Zm i k * current_out nw V k)%C) (load_ids nw)) = V i) /\
  (forall i, In i (load_ids nw) -> sumR (map (fun k => Cmod (Zm i k)) (load_ids nw)) <= z).
(** Voltages of modulus at most 1 drive currents of modulus at most [y]. *)
Definition admits (nw : network XR) (y : R) : Prop :=
  forall V r, (forall j, In j (bus_ids nw) -> Cmod (V j) <= r) -> forall k, In k (load_ids nw) -> Cmod (current_out nw V k) <= y * r.
(** The powers reported for the devices of every bus but the slack bus add up to at most [s] in modulus (p.u.). *)
Definition injections_below (nw : network XR) (st : sim XR) (s : R) : Prop :=
  forall k, In k (load_ids nw) -> exists P Q,
    sumX (map (row_obs st "dev_p") (rows_at nw k)) = Fin P /\ sumX (map (row_obs st "dev_q") (rows_at nw k)) = Fin Q /\ Cmod (P, Q) <= s.

(** Lines: no charging, nominal taps (negative resistances and reactances are refused by the simulator). *)
Definition plain_line (r : branch_row XR) : Prop := row_b r = 0 /\ row_t r = RtoC 1.
(** Every bus is reached from the slack bus along lines. *)
Inductive reached (nw : network XR) : Z -> Prop :=
| r_slack : reached nw 0%Z
| r_from r f t : In r (nw_br nw) -> lr_f r = Some f -> lr_t r = Some t -> reached nw f -> reached nw t
| r_to r f t : In r (nw_br nw) -> lr_f r = Some f -> lr_t r = Some t -> reached nw t -> reached nw f.
Definition connected (nw : network XR) : Prop := forall k, In k (bus_ids nw) -> reached nw k.
