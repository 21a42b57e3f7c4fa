(** What valid rows of a network file are (C10, C12, C13), stated on the values of the file
    (MW, MVAr, MWh), over the exact extended reals. *)
From Coq Require Import Reals Lra.
From Verif Require Import Base Num NumXR Devices BusBranch LibXR.
Local Open Scope R_scope.

(** a cell that is empty or holds an ordinary number *)
Definition cell_fin (c : option XR) : Prop := forall v, c = Some v -> fin v.
Definition or_else (c : option XR) (v : XR) : XR := match c with Some x => x | None => v end.

Definition dev_row_fin (r : dev_row XR) : Prop :=
  Forall cell_fin [dr_qp r; dr_pmax r; dr_pmin r; dr_qmax r; dr_qmin r; dr_pplus r; dr_pminus r;
                   dr_qplus r; dr_qminus r; dr_socmax r; dr_socmin r; dr_eff r].
Definition branch_row_fin (r : branch_row XR) : Prop :=
  Forall cell_fin [lr_r r; lr_x r; lr_b r; lr_rate r; lr_tap r; lr_shift r].
Definition bus_row_fin (r : bus_row XR) : Prop := Forall cell_fin [br_kv r; br_vmax r; br_vmin r].

(** The limits of a row, an empty cell being the documented default. *)
Section Limits.
  Context (r : dev_row XR).
  Definition PMAX := or_else (dr_pmax r) PInf.
  Definition PMIN (default : XR) := or_else (dr_pmin r) default.
  Definition QMAX := or_else (dr_qmax r) PInf.
  Definition QMIN := or_else (dr_qmin r) NInf.
  Definition PPLUS := or_else (dr_pplus r) PMAX.
  Definition PMINUS := or_else (dr_pminus r) (PMIN NInf).
  Definition QPLUS := or_else (dr_qplus r) QMAX.
  Definition QMINUS := or_else (dr_qminus r) QMIN.
  Definition SOCMIN := or_else (dr_socmin r) (Fin 0).
  Definition EFF := or_else (dr_eff r) (Fin 1).
End Limits.

(** identity, bus and type of a row *)
Definition row_ident (r : dev_row XR) (ids : list Z) : Prop :=
  dr_id r <> None /\ (exists b, dr_bus r = Some b /\ In b ids).

(** Loads: constant Q/P ratio given, PMAX <= 0, PMIN <= PMAX.  [pmax_scale] is what PMAX is
    divided by: documented [base], implemented 1. *)
Definition load_valid (r : dev_row XR) (base pmax_scale : R) : Prop :=
  dr_qp r <> None /\
  xle (or_else (dr_pmax r) (Fin 0)) (Fin 0) /\
  xle (xdiv (PMIN r NInf) (Fin base)) (xdiv (or_else (dr_pmax r) (Fin 0)) (Fin pmax_scale)).

(** Generators: limits ordered; non-negative powers unless slack. *)
Definition gen_valid (r : dev_row XR) (slack : bool) : Prop :=
  let pmin := PMIN r (if slack then NInf else Fin 0) in
  (slack = false -> xle (Fin 0) pmin /\ xle (Fin 0) (PMAX r)) /\
  xle pmin (PPLUS r) /\ xle (PPLUS r) (PMAX r) /\
  xle (QMIN r) (QMINUS r) /\ xle (QMINUS r) (QPLUS r) /\ xle (QPLUS r) (QMAX r).

(** Storage units: limits ordered, charging and discharging possible in sign, SoC range and
    efficiency. *)
Definition stor_valid (r : dev_row XR) : Prop :=
  xle (PMIN r NInf) (Fin 0) /\ xle (Fin 0) (PMAX r) /\
  xle (PMIN r NInf) (PMINUS r) /\ xle (PMINUS r) (PPLUS r) /\ xle (PPLUS r) (PMAX r) /\
  xle (QMIN r) (QMINUS r) /\ xle (QMINUS r) (QPLUS r) /\ xle (QPLUS r) (QMAX r) /\
  (exists v, dr_socmax r = Some v /\ xle (SOCMIN r) v) /\ xle (Fin 0) (SOCMIN r) /\
  xle (Fin 0) (EFF r) /\ xle (EFF r) (Fin 1).

(** A device row that the documentation allows; [scale] as in [load_valid]. *)
Definition dev_valid (r : dev_row XR) (ids : list Z) (base scale : R) : Prop :=
  row_ident r ids /\
  (dr_type r = Some (-1)%Z /\ load_valid r base scale \/
   dr_type r = Some 0%Z /\ gen_valid r true \/
   dr_type r = Some 1%Z /\ gen_valid r false \/
   dr_type r = Some 2%Z /\ gen_valid r false \/
   dr_type r = Some 3%Z /\ stor_valid r).

(** Branches and buses. *)
Definition branch_valid (r : branch_row XR) (ids : list Z) : Prop :=
  (exists f, lr_f r = Some f /\ In f ids) /\ (exists t, lr_t r = Some t /\ In t ids) /\
  xle (Fin 0) (or_else (lr_r r) (Fin 0)) /\ xle (Fin 0) (or_else (lr_x r) (Fin 0)) /\
  ~ (or_else (lr_r r) (Fin 0) = Fin 0 /\ or_else (lr_x r) (Fin 0) = Fin 0) /\
  xle (Fin 0) (or_else (lr_b r) (Fin 0)) /\ xle (Fin 0) (or_else (lr_rate r) PInf) /\
  xlt (Fin 0) (or_else (lr_tap r) (Fin 1)) /\
  xle (Fin 0) (or_else (lr_shift r) (Fin 0)) /\ xle (or_else (lr_shift r) (Fin 0)) (Fin 360).
Definition bus_valid (r : bus_row XR) : Prop :=
  br_id r <> None /\ (br_type r = Some 0%Z \/ br_type r = Some 1%Z) /\
  (exists kv, br_kv r = Some kv /\ xlt (Fin 0) kv) /\
  (exists vmax, br_vmax r = Some vmax /\ xle (Fin 0) vmax /\
     (br_type r = Some 0%Z \/ exists vmin, br_vmin r = Some vmin /\ xle (Fin 0) vmin /\ xle vmin vmax)).
