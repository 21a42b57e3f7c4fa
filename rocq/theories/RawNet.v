(** Network files as they are written: arrays of cells, read column by column.
    simulator/check_network.py, simulator.py 70-181 and the reading of IDs and types
    in components/bus.py, branch.py and devices.py.

    The other files of the model start from rows whose IDs and types are integers
    ([bus_row], [dev_row], [branch_row]).  Here IDs and types are cells like the
    others: any number, or [None]. *)
From Verif Require Import Base Num Devices BusBranch CheckNetwork LoadFlow Simulator.
Local Open Scope num_scope.

(** One cell of an array: a number, or [None]. *)
Definition cell (F : Type) := option F.
(** A two-dimensional array, row by row. *)
Definition arr (F : Type) := list (list (cell F)).

(** The [network] dictionary: the values of the keys baseMVA, bus, device and
    branch, [None] for an absent key. *)
Record rawnet (F : Type) := mkRaw {
  rn_base : option (cell F); rn_bus : option (arr F); rn_dev : option (arr F); rn_br : option (arr F) }.
Arguments mkRaw {F}. Arguments rn_base {F}. Arguments rn_bus {F}. Arguments rn_dev {F}. Arguments rn_br {F}.

(** d[k] *)
Definition key {A} (o : option A) : res A := match o with Some a => Ok a | None => Err KeyError end.

Section Raw.
  Context {F : Type} {N : Num F}.

  (** [a == b] on two cells.  NaN equals nothing (Python's [set] also compares
      identities, so that one NaN object used twice counts once; such files are
      refused either way, by [int]). *)
  Definition cell_eqb (a b : cell F) : bool :=
    match a, b with
    | Some x, Some y => x =? y
    | None, None => true
    | _, _ => false
    end.
  Definition cell2_eqb (a b : cell F * cell F) : bool :=
    cell_eqb (fst a) (fst b) && cell_eqb (snd a) (snd b).

  (** [int(c)].  Simplification: [int(inf)] raises OverflowError, which is not
      told apart from the ValueError of [int(nan)]. *)
  Definition cell_int (c : cell F) : res Z :=
    match c with
    | None => Err TypeErr
    | Some v => match ntrunc v with Some z => Ok z | None => Err ValueError end
    end.

  (** [row[j]] and [array[:, j]] (constants.py 21-28 give the column numbers) *)
  Definition at_ (row : list (cell F)) (j : nat) : res (cell F) := nth_res row j.
  Definition column (a : arr F) (j : nat) : res (list (cell F)) := mapM (fun r => at_ r j) a.

  (** the cell [0] compared with: [column == 0] *)
  Definition is_zero (c : cell F) : bool := cell_eqb c (Some (nofZ 0)).

  (** The rows where column [j] is 0, read at column [k]
      (check_network.py 31-32: [array[np.where(types == 0)[0], k]]). *)
  Definition where_zero (types ids : list (cell F)) : list (cell F) :=
    map snd (filter (fun p => is_zero (fst p)) (combine types ids)).

  (** check_network.py 51-57 *)
  Definition raw_pairs (br : arr F) : res (list (cell F * cell F)) :=
    let* l := mapM (fun r => let* f := at_ r 0 in let* t := at_ r 1 in Ok (f, t)) br in
    Ok (set_of cell2_eqb (flat_map (fun p => [p; (snd p, fst p)]) l)).

  (** check_network.py 7-64.  The message of lines 34-37 formats both IDs with %d,
      that is with [int]. *)
  Definition raw_check (nw : rawnet F) : res unit :=
    let* base := key (rn_base nw) in
    let* base := match base with None => Err TypeErr | Some v => Ok v end in
    let* _ := raise_if (base <=? n0) BaseMVAError in
    let* bus := key (rn_bus nw) in
    let* bus_types := column bus 1 in
    let* _ := raise_if (negb (Nat.eqb (List.length (filter is_zero bus_types)) 1)) BusSpecError in
    let* dev := key (rn_dev nw) in
    let* dev_types := column dev 2 in
    let* _ := raise_if (negb (Nat.eqb (List.length (filter is_zero dev_types)) 1)) DeviceSpecError in
    let* bus_ids := column bus 0 in
    let* dev_buses := column dev 1 in
    let* _ := match where_zero bus_types bus_ids, where_zero dev_types dev_buses with
              | b :: _, d :: _ =>
                  if cell_eqb b d then Ok tt
                  else let* _ := cell_int d in let* _ := cell_int b in Err DeviceSpecError
              | _, _ => Ok tt
              end in
    let* _ := raise_if (negb (Nat.eqb (List.length bus_ids) (List.length (set_of cell_eqb bus_ids)))) BusSpecError in
    let* dev_ids := column dev 0 in
    let* _ := raise_if (negb (Nat.eqb (List.length dev_ids) (List.length (set_of cell_eqb dev_ids)))) DeviceSpecError in
    let* br := key (rn_br nw) in
    let* prs := raw_pairs br in
    let* _ := raise_if (negb (Nat.eqb (List.length prs) (2 * List.length br))) BranchSpecError in
    raise_if (existsb (fun p => negb (existsb (cell_eqb (fst p)) bus_ids) ||
                                negb (existsb (cell_eqb (snd p)) bus_ids)) prs) BranchSpecError.

  (** [c not in ids] for a list of integers (branch.py 73, devices.py 78, 87) *)
  Definition cell_mem (c : cell F) (ids : list Z) : bool :=
    match c with None => false | Some v => existsb (fun i => v =? nofZ i) ids end.

  (** bus.py 35-64: [int] of the first two cells, then [bus_init].
      Simplification, here and below: the cells of a row are all read first, so an
      array with too few columns raises IndexError before any other check of the
      row; the code may raise another error first. *)
  Definition raw_bus (r : list (cell F)) : res (bus F) :=
    let* c0 := at_ r 0 in let* c1 := at_ r 1 in
    let* c2 := at_ r 2 in let* c3 := at_ r 3 in let* c4 := at_ r 4 in
    let* id := cell_int c0 in
    let* ty := cell_int c1 in
    bus_init (mkBusRow (Some id) (Some ty) c2 c3 c4).

  (** branch.py 70-84: both ends are looked for among the IDs as they are, then
      converted; the rest is [branch_init]. *)
  Definition raw_branch (r : list (cell F)) (base : F) (ids : list Z) : res (branch F) :=
    let* c0 := at_ r 0 in let* c1 := at_ r 1 in
    let* c2 := at_ r 2 in let* c3 := at_ r 3 in let* c4 := at_ r 4 in
    let* c5 := at_ r 5 in let* c6 := at_ r 6 in let* c7 := at_ r 7 in
    let* f := if cell_mem c0 ids then cell_int c0 else Err BranchSpecError in
    let* t := if cell_mem c1 ids then cell_int c1 else Err BranchSpecError in
    branch_init (mkBranchRow (Some f) (Some t) c2 c3 c4 c5 c6 c7) base ids.

  (** simulator.py 159-174: the class is chosen by [int] of the type *)
  Definition raw_class (t : Z) : res dclass :=
    if Z.eqb t (-1) then Ok CLoad
    else if zmem t [0; 1]%Z then Ok CGen
    else if Z.eqb t 2 then Ok CGen
    else if Z.eqb t 3 then Ok CStor
    else Err NotImplementedError.

  (** simulator.py 159 and devices.py 70-88: the ID is converted, the bus is looked
      for among the IDs as it is, and the type is compared as it is (line 87; the
      message of line 88 raises TypeError, see [dev_init]).  The rest is [dev_init]. *)
  Definition raw_dev (r : list (cell F)) (ids : list Z) (base : F) : res (device F) :=
    let* c0 := at_ r 0 in let* c1 := at_ r 1 in let* c2 := at_ r 2 in
    let* c3 := at_ r 3 in let* c4 := at_ r 4 in let* c5 := at_ r 5 in
    let* c6 := at_ r 6 in let* c7 := at_ r 7 in let* c8 := at_ r 8 in
    let* c9 := at_ r 9 in let* c10 := at_ r 10 in let* c11 := at_ r 11 in
    let* c12 := at_ r 12 in let* c13 := at_ r 13 in let* c14 := at_ r 14 in
    let* t := cell_int c2 in
    let* c := raw_class t in
    let* id := match c0 with None => Err DeviceSpecError | Some _ => cell_int c0 end in
    let* b := if cell_mem c1 ids then cell_int c1 else Err DeviceSpecError in
    let* ty := if cell_mem c2 [-1; 0; 1; 2; 3]%Z then cell_int c2 else Err TypeErr in
    dev_init c (mkDevRow (Some id) (Some b) (Some ty) c3 c4 c5 c6 c7 c8 c9 c10 c11 c12 c13 c14) ids base.

  (** simulator.py 70-111 and 113-181 on the dictionary itself *)
  Definition raw_init (nw : rawnet F) (dt lamb : F) : res (sim F) :=
    let* _ := raw_check nw in
    let* base := key (rn_base nw) in
    let* base := match base with None => Err TypeErr | Some v => Ok v end in
    let* bus := key (rn_bus nw) in
    let* buses := foldM (fun d r => let* b := raw_bus r in Ok (dset Z.eqb d (b_id b) b)) bus [] in
    let buses := map snd (sort_by fst buses) in
    let ids := map b_id buses in
    let* br := key (rn_br nw) in
    let* brs := foldM (fun d r => let* b := raw_branch r base ids in
                                  Ok (dset zz_eqb d (ln_f b, ln_t b) b)) br [] in
    let branches := map snd brs in
    let* dev := key (rn_dev nw) in
    let* devs := foldM (fun d r => let* v := raw_dev r ids base in Ok (dset Z.eqb d (d_id v) v)) dev [] in
    let devs := map snd (sort_by fst devs) in
    let* Y := build_Y buses branches in
    Ok (mkSim dt lamb base (map (bus_with_bounds devs) buses) branches devs Y None None).
End Raw.
