(** Capability regions of generators and storage units, nearest points, and what the external
    QP solver is assumed to do (C03-C09, C32).  All over the exact extended reals, in p.u. *)
From Coq Require Import Reals Lra.
From Verif Require Import Base Num NumXR Devices CheckNetwork Simulator LibXR SpecDev.
Local Open Scope R_scope.

(** ---- nearest point of a region of the (P, Q) plane ---- *)
Definition dist2 (p q u v : R) : R := (p - u) * (p - u) + (q - v) * (q - v).
Definition nearest (region : R -> R -> Prop) (u v p q : R) : Prop :=
  region p q /\ forall x y, region x y -> dist2 p q u v <= dist2 x y u v.

(** ---- the external solver ---- *)
(** the row [qa P + qb Q <= qh + eps] *)
Definition row_holds (eps p q : R) (r : qrow XR) : Prop :=
  xle (xadd (xmul (qa r) (Fin p)) (xmul (qb r) (Fin q))) (xadd (qh r) (Fin eps)).
(** When the solver returns, it returns numbers that satisfy the rows up to [eps]. *)
Definition qp_sound (eps : R) (qp : qp_solver XR) : Prop :=
  forall rows req a b, qp rows req = Ok (a, b) ->
    exists p q, a = Fin p /\ b = Fin q /\ Forall (row_holds eps p q) rows.
(** When the solver returns, it returns the point of the feasible set that is nearest to the
    requested point. *)
Definition qp_exact (qp : qp_solver XR) : Prop :=
  forall rows u v a b, qp rows (Fin u, Fin v) = Ok (a, b) ->
    exists p q, a = Fin p /\ b = Fin q /\ nearest (fun x y => Forall (row_holds 0 x y) rows) u v p q.
(** ... and it returns whenever the feasible set has a nearest point. *)
Definition qp_complete (qp : qp_solver XR) : Prop :=
  forall rows u v p q, nearest (fun x y => Forall (row_holds 0 x y) rows) u v p q ->
    exists a b, qp rows (Fin u, Fin v) = Ok (a, b).

(** ---- capability regions ---- *)
(** (p, q) is on or below / above the line through (x1, y1) and (x2, y2), x1 < x2 *)
Definition below (x1 y1 x2 y2 p q : R) : Prop := (q - y1) * (x2 - x1) <= (y2 - y1) * (p - x1).
Definition above (x1 y1 x2 y2 p q : R) : Prop := (q - y1) * (x2 - x1) >= (y2 - y1) * (p - x1).
(** The same for limits of the file; a vertical edge (x1 = x2) cuts nothing. *)
Definition cut (side : R -> R -> R -> R -> R -> R -> Prop) (X1 Y1 X2 Y2 : XR) (p q : R) : Prop :=
  forall x1 y1 x2 y2, X1 = Fin x1 -> Y1 = Fin y1 -> X2 = Fin x2 -> Y2 = Fin y2 -> x1 < x2 ->
    side x1 y1 x2 y2 p q.

Section Regions.
  Context (r : dev_row XR) (b : R).
  Notation pu x := (xdiv x (Fin b)).

  (** Non-slack generator with potential [pot]. *)
  Definition gen_region (pot : XR) (p q : R) : Prop :=
    xle (pu (PMIN r (Fin 0))) (Fin p) /\ xle (Fin p) (pu (PMAX r)) /\ xle (Fin p) pot /\
    xle (pu (QMIN r)) (Fin q) /\ xle (Fin q) (pu (QMAX r)) /\
    cut below (pu (PPLUS r)) (pu (QMAX r)) (pu (PMAX r)) (pu (QPLUS r)) p q /\
    cut above (pu (PPLUS r)) (pu (QMIN r)) (pu (PMAX r)) (pu (QMINUS r)) p q.

  (** State of charge after injecting [p] during [dt]: energy taken from the grid is stored
      with efficiency [eff], energy delivered to the grid costs 1/eff. *)
  Definition soc_after (eff dt soc p : R) : R :=
    if Rle_dec p 0 then soc - dt * eff * p else soc - dt * p / eff.
  (** Storage unit with state of charge [soc] (p.u. h), efficiency [eff]. *)
  Definition stor_region (eff dt soc : R) (p q : R) : Prop :=
    xle (pu (PMIN r NInf)) (Fin p) /\ xle (Fin p) (pu (PMAX r)) /\
    xle (pu (QMIN r)) (Fin q) /\ xle (Fin q) (pu (QMAX r)) /\
    cut below (pu (PPLUS r)) (pu (QMAX r)) (pu (PMAX r)) (pu (QPLUS r)) p q /\
    cut above (pu (PPLUS r)) (pu (QMIN r)) (pu (PMAX r)) (pu (QMINUS r)) p q /\
    cut above (pu (PMIN r NInf)) (pu (QMINUS r)) (pu (PMINUS r)) (pu (QMIN r)) p q /\
    cut below (pu (PMIN r NInf)) (pu (QPLUS r)) (pu (PMINUS r)) (pu (QMAX r)) p q /\
    xle (pu (SOCMIN r)) (Fin (soc_after eff dt soc p)) /\
    (exists v, dr_socmax r = Some v /\ xle (Fin (soc_after eff dt soc p)) (pu v)).
End Regions.

(** The limits that the corner lines need are given. *)
Definition gen_limits_given (r : dev_row XR) : Prop :=
  dr_pmax r <> None /\ (dr_pplus r = None \/ (dr_qmax r <> None /\ dr_qmin r <> None)).
Definition stor_limits_given (r : dev_row XR) : Prop :=
  dr_pmax r <> None /\ dr_pmin r <> None /\
  (dr_pplus r = None /\ dr_pminus r = None \/ (dr_qmax r <> None /\ dr_qmin r <> None)).

(** The inputs of a transition name every controllable device, with ordinary numbers. *)
Definition has_num (m : list (Z * XR)) (i : Z) : Prop := exists x, dget Z.eqb m i = Some (Fin x).
Definition usable_inputs (nw : network XR) (inp : tr_in XR) : Prop :=
  forall r i, In r (nw_dev nw) -> dr_id r = Some i ->
    (dr_type r = Some (-1)%Z -> has_num (ti_load inp) i) /\
    (dr_type r = Some 1%Z \/ dr_type r = Some 2%Z -> has_num (ti_pot inp) i /\ has_num (ti_p inp) i /\ has_num (ti_q inp) i) /\
    (dr_type r = Some 3%Z -> has_num (ti_p inp) i /\ has_num (ti_q inp) i).
(** The rows whose set-points can always be mapped: ordinary numbers, the limits of the corner
    lines given, non-zero efficiency. *)
Definition mappable (r : dev_row XR) : Prop :=
  dev_row_fin r /\ (dr_type r = Some 1%Z \/ dr_type r = Some 2%Z -> gen_limits_given r) /\
  (dr_type r = Some 3%Z -> stor_limits_given r /\ xlt (Fin 0) (EFF r)).
