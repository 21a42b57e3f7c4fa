(** AC power flow: the pi-model of a branch and nodal balances, stated on complex numbers
    (Coquelicot's [C]) directly from the rows of the network file. *)
From Coq Require Import Reals.
From Coquelicot Require Import Complex.
From Verif Require Import Base Num NumXR LibXR Devices BusBranch CheckNetwork Simulator SpecDev SpecSim.
Local Open Scope string_scope.
Local Open Scope list_scope.
Local Open Scope C_scope.

(** a complex number of the model *)
Definition up (z : C) : cplx XR := mkC (Fin (fst z)) (Fin (snd z)).
(** the value of a cell, [d] when it is empty *)
Definition val_or (c : option XR) (d : R) : R := match c with Some (Fin x) => x | _ => d end.

(** Row of the branch table: series impedance r + jx, charging susceptance b, off-nominal ratio
    (magnitude and angle in degrees). *)
Definition row_r (r : branch_row XR) : R := val_or (lr_r r) 0.
Definition row_x (r : branch_row XR) : R := val_or (lr_x r) 0.
Definition row_z (r : branch_row XR) : C := (row_r r, row_x r).
Definition row_b (r : branch_row XR) : R := val_or (lr_b r) 0.
Definition row_t (r : branch_row XR) : C :=
  let a := val_or (lr_tap r) 1 in let th := (val_or (lr_shift r) 0 * PI / 180)%R in
  (a * cos th, a * sin th)%R.

(** The pi-model: an ideal transformer of ratio [t]:1 at the from end, then the series impedance
    with half of the charging susceptance at each side.  [pi_from] and [pi_to] are the currents
    entering the branch at its two ends. *)
Definition pi_inner (r : branch_row XR) (vf vt : C) : C :=
  let v' := vf / row_t r in (v' - vt) / row_z r + (0, row_b r / 2)%R * v'.
Definition pi_from (r : branch_row XR) (vf vt : C) : C := pi_inner r vf vt / Cconj (row_t r).
Definition pi_to (r : branch_row XR) (vf vt : C) : C :=
  (vt - vf / row_t r) / row_z r + (0, row_b r / 2)%R * vt.
(** the complex powers entering the branch *)
Definition s_from (r : branch_row XR) (vf vt : C) : C := vf * Cconj (pi_from r vf vt).
Definition s_to (r : branch_row XR) (vf vt : C) : C := vt * Cconj (pi_to r vf vt).

Definition sumC (l : list C) : C := fold_right Cplus (RtoC 0) l.
Definition sumR (l : list R) : R := fold_right Rplus 0%R l.

(** The current / complex power flowing from bus [k] into its branches, when bus [j] has voltage
    [V j]. *)
Definition end_of (o : option Z) (k : Z) : bool := optz_eqb o (Some k).
Definition vat (V : Z -> C) (o : option Z) : C := match o with Some k => V k | None => RtoC 0 end.
Definition outflow (f t : branch_row XR -> C -> C -> C) (nw : network XR) (V : Z -> C) (k : Z) : C :=
  sumC (map (fun r => (if end_of (lr_f r) k then f r (vat V (lr_f r)) (vat V (lr_t r)) else RtoC 0) +
                      (if end_of (lr_t r) k then t r (vat V (lr_f r)) (vat V (lr_t r)) else RtoC 0)) (nw_br nw)).
Definition current_out := outflow pi_from pi_to.
Definition power_out := outflow s_from s_to.
(** the active power lost in the branches *)
Definition losses (nw : network XR) (V : Z -> C) : R :=
  sumR (map (fun r => fst (s_from r (vat V (lr_f r)) (vat V (lr_t r))) + fst (s_to r (vat V (lr_f r)) (vat V (lr_t r))))%R (nw_br nw)).

(** The reported voltages of the simulator are the phasors [V]. *)
Definition volts (s : sim XR) (ids : list Z) (V : Z -> C) : Prop :=
  forall k, In k ids -> exists m th,
    obs s "bus_v_magn" "pu" (EId k) = Some (Fin m) /\ obs s "bus_v_ang" "rad" (EId k) = Some (Fin th) /\
    V k = (m * cos th, m * sin th)%R.
(** Bus IDs are 0..N-1 (rows in any order) and bus 0 is the slack bus. *)
Definition numbered (nw : network XR) : Prop :=
  (forall k, In (Some k) (map br_id (nw_bus nw)) <-> (0 <= k < Z.of_nat (List.length (nw_bus nw)))%Z) /\
  (forall r, In r (nw_bus nw) -> br_type r = Some 0%Z -> br_id r = Some 0%Z).
Definition bus_ids (nw : network XR) : list Z := map Z.of_nat (seq 0 (List.length (nw_bus nw))).
(** The sum of a reported quantity over the devices of bus [k]. *)
Definition rows_at (nw : network XR) (k : Z) : list (dev_row XR) := filter (fun r => optz_eqb (dr_bus r) (Some k)) (nw_dev nw).
Definition row_obs (s : sim XR) (key : string) (r : dev_row XR) : XR :=
  match dr_id r with
  | Some i => match obs s key "pu" (EId i) with Some v => v | None => NaN end
  | None => NaN
  end.
Definition sumX (l : list XR) : XR := fold_right xadd (Fin 0) l.
(** The reported value, as a real number (used where it is known to be finite). *)
Definition row_val (s : sim XR) (key : string) (r : dev_row XR) : R := val_or (Some (row_obs s key r)) 0.
Definition of_type (t : Z) (nw : network XR) : list (dev_row XR) := filter (fun r => optz_eqb (dr_type r) (Some t)) (nw_dev nw).
(** Only the slack generator is attached to the slack bus. *)
Definition slack_alone (nw : network XR) : Prop :=
  forall r, In r (nw_dev nw) -> dr_bus r = Some 0%Z -> dr_type r = Some 0%Z.
(** Operating limits of the rows: voltage magnitude limits of a bus, apparent-power limit of a branch
    in p.u. (no limit when the cell is empty). *)
Definition row_vmax (r : bus_row XR) : R := val_or (br_vmax r) 0.
Definition row_vmin (r : bus_row XR) : R := val_or (br_vmin r) 0.
Definition under_rate (r : branch_row XR) (base x : R) : Prop :=
  match lr_rate r with Some (Fin m) => (x <= m / base)%R | _ => True end.
(** apparent powers at the two ends, and their maximum *)
Definition s_max (r : branch_row XR) (V : Z -> C) : R :=
  Rmax (Cmod (s_from r (vat V (lr_f r)) (vat V (lr_t r)))) (Cmod (s_to r (vat V (lr_f r)) (vat V (lr_t r)))).
Definition p_from (r : branch_row XR) (V : Z -> C) : R := fst (s_from r (vat V (lr_f r)) (vat V (lr_t r))).
(** The same network with other bus IDs. *)
Definition rename (f : Z -> Z) (nw : network XR) : network XR :=
  mkNet (nw_base nw)
    (map (fun r => mkBusRow (option_map f (br_id r)) (br_type r) (br_kv r) (br_vmax r) (br_vmin r)) (nw_bus nw))
    (map (fun r => mkDevRow (dr_id r) (option_map f (dr_bus r)) (dr_type r) (dr_qp r) (dr_pmax r) (dr_pmin r) (dr_qmax r) (dr_qmin r)
                     (dr_pplus r) (dr_pminus r) (dr_qplus r) (dr_qminus r) (dr_socmax r) (dr_socmin r) (dr_eff r)) (nw_dev nw))
    (map (fun r => mkBranchRow (option_map f (lr_f r)) (option_map f (lr_t r)) (lr_r r) (lr_x r) (lr_b r) (lr_rate r) (lr_tap r) (lr_shift r)) (nw_br nw)).
