(** Network-level validation: gym_anm/simulator/check_network.py. *)
From Verif Require Import Base Num Devices BusBranch.
Local Open Scope num_scope.

(** A network dictionary: keys baseMVA, bus, device, branch. *)
Record network (F : Type) := mkNet {
  nw_base : F; nw_bus : list (bus_row F); nw_dev : list (dev_row F); nw_br : list (branch_row F) }.
Arguments mkNet {F}. Arguments nw_base {F}. Arguments nw_bus {F}. Arguments nw_dev {F}.
Arguments nw_br {F}.

Definition optz2_eqb (a b : option Z * option Z) : bool :=
  optz_eqb (fst a) (fst b) && optz_eqb (snd a) (snd b).

(** [set(l)], as a duplicate-free list *)
Fixpoint set_of {A} (eqb : A -> A -> bool) (l : list A) : list A :=
  match l with
  | [] => []
  | a :: l' => let s := set_of eqb l' in if existsb (eqb a) s then s else a :: s
  end.

Section Check.
  Context {F : Type} {N : Num F}.

  (** check_network.py 51-57: the set of directed branch pairs *)
  Definition branch_pairs (nw : network F) : list (option Z * option Z) :=
    set_of optz2_eqb (flat_map (fun r => [(lr_f r, lr_t r); (lr_t r, lr_f r)]) (nw_br nw)).

  (** check_network.py 7-64.  When a slack ID is [None] and differs from the other,
      formatting the message with %d raises TypeError (lines 34-37). *)
  Definition check_network_specs (nw : network F) : res unit :=
    let* _ := raise_if (nw_base nw <=? n0) BaseMVAError in
    let sl_bus := filter (fun r => optz_eqb (br_type r) (Some 0%Z)) (nw_bus nw) in
    let* _ := raise_if (negb (Nat.eqb (List.length sl_bus) 1)) BusSpecError in
    let sl_dev := filter (fun r => optz_eqb (dr_type r) (Some 0%Z)) (nw_dev nw) in
    let* _ := raise_if (negb (Nat.eqb (List.length sl_dev) 1)) DeviceSpecError in
    let* _ := match sl_bus, sl_dev with
              | b :: _, d :: _ =>
                  if optz_eqb (br_id b) (dr_bus d) then Ok tt
                  else match br_id b, dr_bus d with
                       | Some _, Some _ => Err DeviceSpecError
                       | _, _ => Err TypeErr
                       end
              | _, _ => Ok tt
              end in
    let bus_ids := map br_id (nw_bus nw) in
    let* _ := raise_if (negb (Nat.eqb (List.length bus_ids) (List.length (set_of optz_eqb bus_ids)))) BusSpecError in
    let dev_ids := map dr_id (nw_dev nw) in
    let* _ := raise_if (negb (Nat.eqb (List.length dev_ids) (List.length (set_of optz_eqb dev_ids)))) DeviceSpecError in
    let prs := branch_pairs nw in
    let* _ := raise_if (negb (Nat.eqb (List.length prs) (2 * List.length (nw_br nw)))) BranchSpecError in
    raise_if (existsb (fun p => negb (existsb (optz_eqb (fst p)) bus_ids) ||
                                negb (existsb (optz_eqb (snd p)) bus_ids)) prs) BranchSpecError.
End Check.
