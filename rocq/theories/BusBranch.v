(** Buses and transmission lines: components/bus.py and components/branch.py. *)
From Verif Require Import Base Num.
Local Open Scope num_scope.

(** One row of the [bus] array (constants.py 1). *)
Record bus_row (F : Type) := mkBusRow {
  br_id : option Z; br_type : option Z; br_kv : option F; br_vmax : option F; br_vmin : option F }.
Arguments mkBusRow {F}. Arguments br_id {F}. Arguments br_type {F}. Arguments br_kv {F}.
Arguments br_vmax {F}. Arguments br_vmin {F}.

(** A bus object (bus.py 35-64).  [b_vmin] may remain [None] for the slack bus.
    [b_p .. b_i] are [None] in Python until the first power flow. *)
Record bus (F : Type) := mkBus {
  b_id : Z; b_type : Z; b_kv : F; b_vmax : F; b_vmin : option F;
  b_p : F; b_q : F; b_v : cplx F; b_i : cplx F;
  b_pmin : F; b_pmax : F; b_qmin : F; b_qmax : F }.
Arguments mkBus {F}. Arguments b_id {F}. Arguments b_type {F}. Arguments b_kv {F}.
Arguments b_vmax {F}. Arguments b_vmin {F}. Arguments b_p {F}. Arguments b_q {F}.
Arguments b_v {F}. Arguments b_i {F}. Arguments b_pmin {F}. Arguments b_pmax {F}.
Arguments b_qmin {F}. Arguments b_qmax {F}.

(** One row of the [branch] array (constants.py 19). *)
Record branch_row (F : Type) := mkBranchRow {
  lr_f : option Z; lr_t : option Z; lr_r : option F; lr_x : option F; lr_b : option F;
  lr_rate : option F; lr_tap : option F; lr_shift : option F }.
Arguments mkBranchRow {F}. Arguments lr_f {F}. Arguments lr_t {F}. Arguments lr_r {F}.
Arguments lr_x {F}. Arguments lr_b {F}. Arguments lr_rate {F}. Arguments lr_tap {F}.
Arguments lr_shift {F}.

(** A transmission line object (branch.py 45-68). *)
Record branch (F : Type) := mkBranch {
  ln_f : Z; ln_t : Z; ln_r : F; ln_x : F; ln_b : F; ln_rate : F; ln_tapm : F; ln_shift : F;
  ln_series : cplx F; ln_shunt : cplx F; ln_tap : cplx F;
  ln_ifrom : cplx F; ln_ito : cplx F;
  ln_pfrom : F; ln_qfrom : F; ln_pto : F; ln_qto : F; ln_smax : F }.
Arguments mkBranch {F}. Arguments ln_f {F}. Arguments ln_t {F}. Arguments ln_r {F}.
Arguments ln_x {F}. Arguments ln_b {F}. Arguments ln_rate {F}. Arguments ln_tapm {F}.
Arguments ln_shift {F}. Arguments ln_series {F}. Arguments ln_shunt {F}. Arguments ln_tap {F}.
Arguments ln_ifrom {F}. Arguments ln_ito {F}. Arguments ln_pfrom {F}. Arguments ln_qfrom {F}.
Arguments ln_pto {F}. Arguments ln_qto {F}. Arguments ln_smax {F}.

Section BusBranch.
  Context {F : Type} {N : Num F}.

  (** bus.py 49-53 *)
  Definition b_slack (b : bus F) : bool := Z.eqb (b_type b) 0.

  (** bus.py 35-99.  [int(None)] raises TypeError (lines 43-44). *)
  Definition bus_init (r : bus_row F) : res (bus F) :=
    let* id := match br_id r with None => Err TypeErr | Some v => Ok v end in
    let* ty := match br_type r with None => Err TypeErr | Some v => Ok v end in
    let slack := Z.eqb ty 0 in
    let* _ := raise_if (negb (zmem ty [0; 1]%Z)) BusSpecError in
    let* kv := match br_kv r with
               | None => Err BusSpecError
               | Some v => if v <=? n0 then Err BusSpecError else Ok v
               end in
    let* vmax := match br_vmax r with
                 | None => Err BusSpecError
                 | Some v => if v <? n0 then Err BusSpecError else Ok v
                 end in
    let* _ := match br_vmin r with
              | None => raise_if (negb slack) BusSpecError
              | Some v => raise_if ((v <? n0) && negb slack) BusSpecError
              end in
    let* _ := match br_vmin r with
              | None => Ok tt
              | Some v => raise_if (negb slack && (vmax <? v)) BusSpecError
              end in
    Ok (mkBus id ty kv vmax (br_vmin r) n0 n0 c0 c0 n0 n0 n0 n0).

  (** branch.py 139-151 ([_compute_admittances]) *)
  Definition series_of (r x : F) : cplx F := cdiv c1 (mkC r x).
  Definition shunt_of (b : F) : cplx F := mkC n0 (b / nofZ 2).
  Definition tap_of (m s : F) : cplx F := cscale m (cexpi s).

  (** branch.py 45-151 *)
  Definition branch_init (r : branch_row F) (base : F) (bus_ids : list Z) : res (branch F) :=
    let* f := match lr_f r with
              | None => Err BranchSpecError
              | Some v => if zmem v bus_ids then Ok v else Err BranchSpecError
              end in
    let* t := match lr_t r with
              | None => Err BranchSpecError
              | Some v => if zmem v bus_ids then Ok v else Err BranchSpecError
              end in
    let* rr := match lr_r r with
               | None => Ok n0
               | Some v => if v <? n0 then Err BranchSpecError else Ok v
               end in
    let* xx := match lr_x r with
               | None => Ok n0
               | Some v => if v <? n0 then Err BranchSpecError else Ok v
               end in
    let* _ := raise_if ((rr =? n0) && (xx =? n0)) BranchSpecError in
    let* bb := match lr_b r with
               | None => Ok n0
               | Some v => if v <? n0 then Err BranchSpecError else Ok v
               end in
    let* rate := match lr_rate r with
                 | None => Ok ninf
                 | Some v => if v <? n0 then Err BranchSpecError else Ok (v / base)
                 end in
    let* tapm := match lr_tap r with
                 | None => Ok n1
                 | Some v => if v <=? n0 then Err BranchSpecError else Ok v
                 end in
    let* shift := match lr_shift r with
                  | None => Ok n0
                  | Some v => if (v <? n0) || (nofZ 360 <? v) then Err BranchSpecError
                              else Ok (v * npi / nofZ 180)
                  end in
    Ok (mkBranch f t rr xx bb rate tapm shift
                 (series_of rr xx) (shunt_of bb) (tap_of tapm shift)
                 c0 c0 n0 n0 n0 n0 n0).

  (** |tap|^2, written [np.absolute(self.tap) ** 2] *)
  Definition tap2 (br : branch F) : F := cabs (ln_tap br) * cabs (ln_tap br).

  (** branch.py 153-173: the two currents *)
  Definition branch_ifrom (br : branch F) (vf vt : cplx F) : cplx F :=
    cadd (cdivr (cmul (cadd (ln_series br) (ln_shunt br)) vf) (tap2 br))
         (cdiv (cmul (copp (ln_series br)) vt) (cconj (ln_tap br))).
  Definition branch_ito (br : branch F) (vf vt : cplx F) : cplx F :=
    cadd (cmul (cadd (ln_series br) (ln_shunt br)) vt)
         (cdiv (cmul (copp (ln_series br)) vf) (ln_tap br)).

  (** branch.py 153-198: [compute_currents] then [compute_power_flows] *)
  Definition branch_update (br : branch F) (vf vt : cplx F) : branch F :=
    let ifr := branch_ifrom br vf vt in
    let ito := branch_ito br vf vt in
    let sf := cmul vf (cconj ifr) in
    let st := cmul vt (cconj ito) in
    mkBranch (ln_f br) (ln_t br) (ln_r br) (ln_x br) (ln_b br) (ln_rate br) (ln_tapm br)
             (ln_shift br) (ln_series br) (ln_shunt br) (ln_tap br)
             ifr ito (re sf) (im sf) (re st) (im st)
             (np_sign (re sf) * np_max (cabs sf) (cabs st)).
End BusBranch.
