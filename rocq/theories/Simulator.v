(** The simulator: gym_anm/simulator/simulator.py and the object updates of
    solve_load_flow.py. *)
From Verif Require Import Base Num Devices BusBranch CheckNetwork LoadFlow.
Local Open Scope num_scope.

(** Keys of the state dictionary: bus or device IDs, and branch (f, t) pairs. *)
Inductive eid := EId (i : Z) | EBr (f t : Z).
Definition eid_eqb (a b : eid) : bool :=
  match a, b with
  | EId x, EId y => Z.eqb x y
  | EBr f t, EBr f' t' => Z.eqb f f' && Z.eqb t t'
  | _, _ => false
  end.

(** state[quantity][unit][id] *)
Definition fstate (F : Type) := list (string * list (string * list (eid * F))).
(** state_bounds[quantity][id][unit] = (lower, upper) *)
Definition fbounds (F : Type) := list (string * list (eid * list (string * (F * F)))).

(** The external solvers used by the simulator. *)
Record oracles (F : Type) := mkOr { o_qp : qp_solver F; o_lin : lin_solver F }.
Arguments mkOr {F}. Arguments o_qp {F}. Arguments o_lin {F}.

(** The simulator object (simulator.py 70-111).  The counters N_bus, N_device, ...
    are functions of the fixed lists below.  Dictionaries keyed by ID are lists of
    objects carrying their ID, in dictionary order. *)
Record sim (F : Type) := mkSim {
  sm_dt : F; sm_lamb : F; sm_base : F;
  sm_buses : list (bus F); sm_branches : list (branch F); sm_devs : list (device F);
  sm_Y : list (list (cplx F));
  sm_state : option (fstate F); sm_conv : option bool }.
Arguments mkSim {F}. Arguments sm_dt {F}. Arguments sm_lamb {F}. Arguments sm_base {F}.
Arguments sm_buses {F}. Arguments sm_branches {F}. Arguments sm_devs {F}. Arguments sm_Y {F}.
Arguments sm_state {F}. Arguments sm_conv {F}.

(** The four dictionaries passed to [transition] (simulator.py 464), keyed by device ID. *)
Record tr_in (F : Type) := mkIn {
  ti_load : list (Z * F); ti_pot : list (Z * F); ti_p : list (Z * F); ti_q : list (Z * F) }.
Arguments mkIn {F}. Arguments ti_load {F}. Arguments ti_pot {F}. Arguments ti_p {F}. Arguments ti_q {F}.

Section Simulator.
  Context {F : Type} {N : Num F}.

  (** attribute assignments *)
  Definition sim_set_devs (s : sim F) ds := mkSim (sm_dt s) (sm_lamb s) (sm_base s)
    (sm_buses s) (sm_branches s) ds (sm_Y s) (sm_state s) (sm_conv s).
  Definition sim_set_buses (s : sim F) bs := mkSim (sm_dt s) (sm_lamb s) (sm_base s)
    bs (sm_branches s) (sm_devs s) (sm_Y s) (sm_state s) (sm_conv s).
  Definition sim_set_branches (s : sim F) brs := mkSim (sm_dt s) (sm_lamb s) (sm_base s)
    (sm_buses s) brs (sm_devs s) (sm_Y s) (sm_state s) (sm_conv s).
  Definition sim_set_state (s : sim F) st := mkSim (sm_dt s) (sm_lamb s) (sm_base s)
    (sm_buses s) (sm_branches s) (sm_devs s) (sm_Y s) st (sm_conv s).
  Definition sim_set_conv (s : sim F) c := mkSim (sm_dt s) (sm_lamb s) (sm_base s)
    (sm_buses s) (sm_branches s) (sm_devs s) (sm_Y s) (sm_state s) c.

  (** simulator.py 94-99: element counts *)
  Definition n_bus (s : sim F) := List.length (sm_buses s).
  Definition n_device (s : sim F) := List.length (sm_devs s).
  Definition n_load (s : sim F) := List.length (filter is_load (sm_devs s)).
  Definition n_nsgen (s : sim F) := List.length (filter is_nsgen (sm_devs s)).
  Definition n_des (s : sim F) := List.length (filter is_stor (sm_devs s)).
  Definition n_rer (s : sim F) := List.length (filter is_rer (sm_devs s)).

  (** ---- construction ---- *)

  (** simulator.py 142-150: buses, sorted by ID *)
  Definition load_buses (rows : list (bus_row F)) : res (list (bus F)) :=
    let* d := foldM (fun d r => let* b := bus_init r in Ok (dset Z.eqb d (b_id b) b)) rows [] in
    Ok (map snd (sort_by fst d)).

  Definition zz_eqb (a b : Z * Z) : bool := Z.eqb (fst a) (fst b) && Z.eqb (snd a) (snd b).

  (** simulator.py 152-155: branches, in the order of the file *)
  Definition load_branches (rows : list (branch_row F)) (base : F) (ids : list Z)
    : res (list (branch F)) :=
    let* d := foldM (fun d r => let* b := branch_init r base ids in
                                Ok (dset zz_eqb d (ln_f b, ln_t b) b)) rows [] in
    Ok (map snd d).

  (** simulator.py 159-174: the class of a device row.  [int(None)] is a TypeError. *)
  Definition dev_class (r : dev_row F) : res dclass :=
    match dr_type r with
    | None => Err TypeErr
    | Some t => if Z.eqb t (-1) then Ok CLoad
                else if zmem t [0; 1]%Z then Ok CGen
                else if Z.eqb t 2 then Ok CGen
                else if Z.eqb t 3 then Ok CStor
                else Err NotImplementedError
    end.

  (** simulator.py 157-179: devices, sorted by ID *)
  Definition load_devices (rows : list (dev_row F)) (base : F) (ids : list Z)
    : res (list (device F)) :=
    let* d := foldM (fun d r => let* c := dev_class r in
                                let* v := dev_init c r ids base in
                                Ok (dset Z.eqb d (d_id v) v)) rows [] in
    Ok (map snd (sort_by fst d)).

  (** [Y[i, j]] and [Y[i, j] = v] with Python indices (negative indices wrap). *)
  Definition mset (Y : list (list (cplx F))) (i j : Z) (f : cplx F -> cplx F)
    : res (list (list (cplx F))) :=
    let n := List.length Y in
    match py_index n i, py_index n j with
    | Some a, Some b =>
        match nth_error Y a with
        | Some row => match nth_error row b with
                      | Some x => Ok (list_set Y a (list_set row b (f x)))
                      | None => Err IndexError
                      end
        | None => Err IndexError
        end
    | _, _ => Err IndexError
    end.

  (** simulator.py 190-197: contribution of one branch *)
  Definition y_add_branch (Y : list (list (cplx F))) (br : branch F)
    : res (list (list (cplx F))) :=
    let f := ln_f br in let t := ln_t br in
    let* Y := mset Y f t (fun _ => cdiv (copp (ln_series br)) (cconj (ln_tap br))) in
    let* Y := mset Y t f (fun _ => cdiv (copp (ln_series br)) (ln_tap br)) in
    let* Y := mset Y f f (fun x => cadd x (cdivr (cadd (ln_series br) (ln_shunt br)) (tap2 br))) in
    mset Y t t (fun x => cadd x (cadd (ln_series br) (ln_shunt br))).

  (** simulator.py 183-199 ([_build_admittance_matrix]) *)
  Definition build_Y (buses : list (bus F)) (branches : list (branch F))
    : res (list (list (cplx F))) :=
    match map b_id buses with
    | [] => Err ValueError
    | i :: l =>
        let n := (fold_left Z.max l i + 1)%Z in
        if (n <? 0)%Z then Err ValueError
        else foldM y_add_branch branches (repeat (repeat c0 (Z.to_nat n)) (Z.to_nat n))
    end.

  (** Devices attached to a bus, in device order. *)
  Definition devs_at (devs : list (device F)) (b : Z) : list (device F) :=
    filter (fun d => Z.eqb (d_bus d) b) devs.

  (** simulator.py 201-223 ([_compute_bus_bounds]).  The per-bus dictionaries are
      accumulated device by device, i.e. for each bus the sum over its devices. *)
  Definition bus_with_bounds (devs : list (device F)) (b : bus F) : bus F :=
    let ds := devs_at devs (b_id b) in
    mkBus (b_id b) (b_type b) (b_kv b) (b_vmax b) (b_vmin b) (b_p b) (b_q b) (b_v b) (b_i b)
          (nsum (map d_pmin ds)) (nsum (map d_pmax ds))
          (nsum (map d_qmin ds)) (nsum (map d_qmax ds)).

  (** simulator.py 70-111 ([Simulator.__init__]).  [state_bounds] is the function
      [get_state_space] below of the constructed object. *)
  Definition sim_init (nw : network F) (dt lamb : F) : res (sim F) :=
    let* _ := check_network_specs nw in
    let base := nw_base nw in
    let* buses := load_buses (nw_bus nw) in
    let ids := map b_id buses in
    let* branches := load_branches (nw_br nw) base ids in
    let* devs := load_devices (nw_dev nw) base ids in
    let* Y := build_Y buses branches in
    Ok (mkSim dt lamb base (map (bus_with_bounds devs) buses) branches devs Y None None).

  (** ---- transition ---- *)

  (** simulator.py 505-523: one iteration of the device loop; the device is also
      returned when an exception interrupts it. *)
  Definition dev_transition (qp : qp_solver F) (base dt : F) (inp : tr_in F) (d : device F)
    : device F * res unit :=
    match d_spec d with
    | SLoad l =>
        match dgetE Z.eqb (ti_load inp) (d_id d) with
        | Err e => (d, Err e)
        | Ok p => let pq := load_map_pq l (p / base) in (d_set_pq d (fst pq) (snd pq), Ok tt)
        end
    | SGen g =>
        if d_slack d then (d_set_pq d n0 n0, Ok tt)
        else
          match dgetE Z.eqb (ti_pot inp) (d_id d) with
          | Err e => (d, Err e)
          | Ok pot =>
              let d1 := d_set_ppot d (gen_clip_ppot g (np_clip (pot / base) (g_pmin g) (g_pmax g))) in
              match (let* p := dgetE Z.eqb (ti_p inp) (d_id d) in
                     let* q := dgetE Z.eqb (ti_q inp) (d_id d) in
                     gen_map_pq qp g (d_ppot d1) (p / base) (q / base)) with
              | Err e => (d1, Err e)
              | Ok pq => (d_set_pq d1 (fst pq) (snd pq), Ok tt)
              end
          end
    | SStor s =>
        match (let* p := dgetE Z.eqb (ti_p inp) (d_id d) in
               let* q := dgetE Z.eqb (ti_q inp) (d_id d) in
               let* pq := stor_map_pq qp s (d_soc d) (p / base) (q / base) dt in
               match d_soc d with
               | None => Err TypeErr
               | Some soc => Ok (pq, stor_update_soc s soc (fst pq) dt)
               end) with
        | Err e => (d, Err e)
        | Ok (pq, soc') => (d_set_soc (d_set_pq d (fst pq) (snd pq)) soc', Ok tt)
        end
    end.

  (** simulator.py 503: the loop over devices; devices after the failing one are
      left untouched. *)
  Fixpoint devs_transition (qp : qp_solver F) (base dt : F) (inp : tr_in F) (ds : list (device F))
    : list (device F) * res unit :=
    match ds with
    | [] => ([], Ok tt)
    | d :: ds' =>
        match dev_transition qp base dt inp d with
        | (d', Err e) => (d' :: ds', Err e)
        | (d', Ok _) => let r := devs_transition qp base dt inp ds' in (d' :: fst r, snd r)
        end
    end.

  (** simulator.py 539-549 ([_get_bus_total_injections]): per bus, the sum over its
      devices in device order, starting from 0. *)
  Definition bus_set_pq (b : bus F) (p q : F) : bus F :=
    mkBus (b_id b) (b_type b) (b_kv b) (b_vmax b) (b_vmin b) p q (b_v b) (b_i b)
          (b_pmin b) (b_pmax b) (b_qmin b) (b_qmax b).
  Definition bus_set_vi (b : bus F) (v i : cplx F) : bus F :=
    mkBus (b_id b) (b_type b) (b_kv b) (b_vmax b) (b_vmin b) (b_p b) (b_q b) v i
          (b_pmin b) (b_pmax b) (b_qmin b) (b_qmax b).
  Definition bus_injection (devs : list (device F)) (b : bus F) : bus F :=
    let ds := devs_at devs (b_id b) in
    bus_set_pq b (nsum (map d_p ds)) (nsum (map d_q ds)).

  (** dictionary access [self.buses[i]] *)
  Definition find_bus (bs : list (bus F)) (i : Z) : option (bus F) :=
    find (fun b => Z.eqb (b_id b) i) bs.

  (** solve_load_flow.py 31-39: P and Q of buses 0..N_bus-1, skipping the slack, 0
      for a missing ID *)
  Definition pq_vectors (bs : list (bus F)) : list (F * F) :=
    flat_map (fun i => match find_bus bs (Z.of_nat i) with
                       | Some b => if b_slack b then [] else [(b_p b, b_q b)]
                       | None => [(n0, n0)]
                       end) (seq 0 (List.length bs)).

  (** solve_load_flow.py 58-66: v, i of each bus, p, q of the slack bus from V[0], I[0];
      IndexError if V is too short (cannot happen, see proofs). *)
  Definition inf_if_nan (x : F) : F := if nisnan x then ninf else x.
  Definition bus_update (v i : list (cplx F)) (ib : nat * bus F) : res (bus F) :=
    let* vk := nth_res v (fst ib) in
    let* ik := nth_res i (fst ib) in
    let b := bus_set_vi (snd ib) vk ik in
    if b_slack b then
      let* v0 := nth_res v 0 in
      let* i0 := nth_res i 0 in
      let s := cmul v0 (cconj i0) in
      Ok (bus_set_pq b (inf_if_nan (re s)) (inf_if_nan (im s)))
    else Ok b.

  (** solve_load_flow.py 69-72: slack device injections *)
  Definition dev_slack_update (bs : list (bus F)) (d : device F) : res (device F) :=
    if d_slack d then
      match find_bus bs (d_bus d) with
      | Some b => Ok (d_set_pq d (b_p b) (b_q b))
      | None => Err KeyError
      end
    else Ok d.

  (** solve_load_flow.py 75-79: branch flows *)
  Definition branch_flow (bs : list (bus F)) (br : branch F) : res (branch F) :=
    match find_bus bs (ln_f br), find_bus bs (ln_t br) with
    | Some bf, Some bt => Ok (branch_update br (b_v bf) (b_v bt))
    | _, _ => Err KeyError
    end.

  (** solve_load_flow.py 7-81 ([solve_pfe_newton_raphson]).  The object is only
      modified after the numerical part succeeded; the updates themselves cannot
      raise on a constructed simulator, so they are modelled as one block. *)
  Definition solve_load_flow (lin : lin_solver F) (xtol : F) (s : sim F) : sim F * res bool :=
    let pq := pq_vectors (sm_buses s) in
    match (let* '(v, i, stable) := solve_pfe lin (n_bus s) (map fst pq) (map snd pq) (sm_Y s) xtol in
           let* bs := mapM (bus_update v i) (enumerate (sm_buses s)) in
           let* ds := mapM (dev_slack_update bs) (sm_devs s) in
           let* brs := mapM (branch_flow bs) (sm_branches s) in
           Ok (bs, ds, brs, stable)) with
    | Ok (bs, ds, brs, stable) =>
        (sim_set_branches (sim_set_devs (sim_set_buses s bs) ds) brs, Ok stable)
    | Err e => (s, Err e)
    end.

  (** numpy 2: [np.sign(z)] = z / |z| for complex z (0 at 0); its real part times |z|
      (simulator.py 613). *)
  Definition signed_magn (z : cplx F) : F :=
    (if (re z =? n0) && (im z =? n0) then n0 else re z / cabs z) * cabs z.

  Definition to_deg (x : F) : F := x * nofZ 180 / npi.

  Local Open Scope string_scope.
  Local Open Scope num_scope.
  (** simulator.py 551-636 ([_gather_state]) *)
  Definition gather_state (s : sim F) : fstate F :=
    let base := sm_base s in
    let busd (f : bus F -> F) := map (fun b => (EId (b_id b), f b)) (sm_buses s) in
    let devd (p : device F -> bool) (f : device F -> F) :=
      map (fun d => (EId (d_id d), f d)) (filter p (sm_devs s)) in
    let brd (f : branch F -> F) := map (fun b => (EBr (ln_f b) (ln_t b), f b)) (sm_branches s) in
    let all := fun _ : device F => true in
    let soc := fun d : device F => match d_soc d with Some v => v | None => n0 end in
    [ ("bus_p", [("pu", busd b_p); ("MW", busd (fun b => b_p b * base))]);
      ("bus_q", [("pu", busd b_q); ("MVAr", busd (fun b => b_q b * base))]);
      ("bus_v_magn", [("pu", busd (fun b => cabs (b_v b)));
                      ("kV", busd (fun b => cabs (b_v b) * b_kv b))]);
      ("bus_v_ang", [("rad", busd (fun b => cangle (b_v b)));
                     ("degree", busd (fun b => to_deg (cangle (b_v b))))]);
      ("bus_i_magn", [("pu", busd (fun b => cabs (b_i b)));
                      ("kA", busd (fun b => cabs (b_i b) * base / b_kv b))]);
      ("bus_i_ang", [("rad", busd (fun b => cangle (b_i b)));
                     ("degree", busd (fun b => to_deg (cangle (b_i b))))]);
      ("dev_p", [("pu", devd all d_p); ("MW", devd all (fun d => d_p d * base))]);
      ("dev_q", [("pu", devd all d_q); ("MVAr", devd all (fun d => d_q d * base))]);
      ("des_soc", [("pu", devd is_stor soc); ("MWh", devd is_stor (fun d => soc d * base))]);
      ("gen_p_max", [("pu", devd is_nsgen d_ppot); ("MW", devd is_nsgen (fun d => d_ppot d * base))]);
      ("branch_p", [("pu", brd ln_pfrom); ("MW", brd (fun b => ln_pfrom b * base))]);
      ("branch_q", [("pu", brd ln_qfrom); ("MVAr", brd (fun b => ln_qfrom b * base))]);
      ("branch_s", [("pu", brd ln_smax); ("MVA", brd (fun b => ln_smax b * base))]);
      ("branch_i_magn", [("pu", brd (fun b => signed_magn (ln_ifrom b)))]);
      ("branch_i_ang", [("rad", brd (fun b => cangle (ln_ifrom b)));
                        ("degree", brd (fun b => to_deg (cangle (ln_ifrom b))))]) ].

  (** simulator.py 658-667: energy loss *)
  Definition dev_loss (acc : F) (d : device F) : F :=
    let acc := if is_gen d || is_load d then acc + d_p d else acc in
    if is_rer d then acc + np_max n0 (d_ppot d - d_p d) else acc.
  Definition energy_loss (s : sim F) : F := fold_left dev_loss (sm_devs s) n0 * sm_dt s.

  (** simulator.py 670-678: penalty; TypeError if a bus has VMIN = None *)
  Definition bus_penalty (acc : F) (b : bus F) : res F :=
    let vm := cabs (b_v b) in
    match b_vmin b with
    | None => Err TypeErr
    | Some vmin => Ok (acc + (np_max n0 (vm - b_vmax b) + np_max n0 (vmin - vm)))
    end.
  Definition branch_penalty (acc : F) (br : branch F) : F :=
    acc + np_max n0 (nabs (ln_smax br) - ln_rate br).
  Definition penalty_of (s : sim F) : res F :=
    let* a := foldM bus_penalty (sm_buses s) n0 in
    Ok (fold_left branch_penalty (sm_branches s) a * (sm_dt s * sm_lamb s)).

  (** simulator.py 638-683 ([_compute_reward]): reward, e_loss, penalty *)
  Definition compute_reward (s : sim F) : res (F * F * F) :=
    let e := energy_loss s in
    let* pen := penalty_of s in
    Ok (- (e + pen), e, pen).

  (** The tolerance 1e-5 of simulator.py 529. *)
  Definition xtol_pfe : F := nrat 1 100000.

  (** simulator.py 464-537 ([transition]): the new object, and
      (state, reward, e_loss, penalty, pfe_converged). *)
  Definition transition (O : oracles F) (inp : tr_in F) (s : sim F)
    : sim F * res (fstate F * F * F * F * bool) :=
    match devs_transition (o_qp O) (sm_base s) (sm_dt s) inp (sm_devs s) with
    | (ds, Err e) => (sim_set_devs s ds, Err e)
    | (ds, Ok _) =>
        let s1 := sim_set_devs s ds in
        let s2 := sim_set_buses s1 (map (bus_injection ds) (sm_buses s1)) in
        match solve_load_flow (o_lin O) xtol_pfe s2 with
        | (s3, Err e) => (s3, Err e)
        | (s3, Ok conv) =>
            let s4 := sim_set_conv s3 (Some conv) in
            let st := gather_state s4 in
            let s5 := sim_set_state s4 (Some st) in
            match compute_reward s5 with
            | Err e => (s5, Err e)
            | Ok (r, e, pen) => (s5, Ok (st, r, e, pen, conv))
            end
        end
    end.

  (** ---- reset ---- *)

  (** simulator.py 258-268: dictionaries from the state vector *)
  Fixpoint reset_inputs (ds : list (device F)) (idx gidx : nat) (P Q Pm : list F) (inp : tr_in F)
    : res (tr_in F) :=
    match ds with
    | [] => Ok inp
    | d :: ds' =>
        if is_load d then
          let* p := nth_res P idx in
          reset_inputs ds' (S idx) gidx P Q Pm
            (mkIn (ti_load inp ++ [(d_id d, p)]) (ti_pot inp) (ti_p inp) (ti_q inp))
        else if d_slack d then reset_inputs ds' (S idx) gidx P Q Pm inp
        else
          let* p := nth_res P idx in
          let* q := nth_res Q idx in
          let inp1 := mkIn (ti_load inp) (ti_pot inp) (ti_p inp ++ [(d_id d, p)])
                           (ti_q inp ++ [(d_id d, q)]) in
          if is_gen d then
            let* pm := nth_res Pm gidx in
            reset_inputs ds' (S idx) (S gidx) P Q Pm
              (mkIn (ti_load inp1) (ti_pot inp1 ++ [(d_id d, pm)]) (ti_p inp1) (ti_q inp1))
          else reset_inputs ds' (S idx) gidx P Q Pm inp1
    end.

  (** simulator.py 273-278: empty or full battery before the reset transition *)
  Definition dev_pre_soc (inp : tr_in F) (d : device F) : res (device F) :=
    match d_spec d with
    | SStor s =>
        let* p := dgetE Z.eqb (ti_p inp) (d_id d) in
        Ok (d_set_soc d (if p <=? n0 then s_socmin s else s_socmax s))
    | _ => Ok d
    end.

  (** simulator.py 284-288: SoC of the state vector, copied without clipping *)
  Fixpoint set_socs (base : F) (soc : list F) (ds : list (device F))
    : list (device F) * res unit :=
    match ds with
    | [] => ([], Ok tt)
    | d :: ds' =>
        if is_stor d then
          match soc with
          | [] => (d :: ds', Err IndexError)
          | c :: soc' =>
              let r := set_socs base soc' ds' in (d_set_soc d (c / base) :: fst r, snd r)
          end
        else let r := set_socs base soc ds' in (d :: fst r, snd r)
    end.

  (** simulator.py 225-293 ([reset]).  [init_state] is the vector
      [P_dev, Q_dev, SoC, P_max, aux...]; the result is [pfe_converged]. *)
  Definition sim_reset (O : oracles F) (init_state : list F) (s : sim F) : sim F * res bool :=
    let s0 := sim_set_state s None in
    let nd := n_device s in
    let P := firstn nd init_state in
    let Q := slice nd nd init_state in
    let soc := slice (2 * nd) (n_des s) init_state in
    let Pm := slice (2 * nd + n_des s) (n_nsgen s) init_state in
    match reset_inputs (sm_devs s) 0 0 P Q Pm (mkIn [] [] [] []) with
    | Err e => (s0, Err e)
    | Ok inp =>
        match mapM (dev_pre_soc inp) (sm_devs s) with
        | Err e => (s0, Err e)
        | Ok ds =>
            match transition O inp (sim_set_devs s0 ds) with
            | (s1, Err e) => (s1, Err e)
            | (s1, Ok (_, _, _, _, conv)) =>
                match set_socs (sm_base s) soc (sm_devs s1) with
                | (ds2, Err e) => (sim_set_devs s1 ds2, Err e)
                | (ds2, Ok _) =>
                    let s2 := sim_set_devs s1 ds2 in
                    (sim_set_state s2 (Some (gather_state s2)), Ok conv)
                end
            end
        end
    end.

  (** ---- bounds ---- *)

  (** simulator.py 341-380 ([get_action_space]): P_gen, Q_gen, P_des, Q_des bounds *)
  Definition get_action_space (s : sim F)
    : list (Z * (F * F)) * list (Z * (F * F)) * list (Z * (F * F)) * list (Z * (F * F)) :=
    let base := sm_base s in
    let gens := filter is_nsgen (sm_devs s) in
    let dess := filter is_stor (sm_devs s) in
    let pb d := (d_id d, (d_pmin d * base, d_pmax d * base)) in
    let qb d := (d_id d, (d_qmin d * base, d_qmax d * base)) in
    (map pb gens, map qb gens, map pb dess, map qb dess).

  Definition both_inf : F * F := (nninf, ninf).
  (** simulator.py 382-462 ([get_state_space]).  Line 430 uses q_max for the MW upper
      bound of gen_p_max. *)
  Definition get_state_space (s : sim F) : fbounds F :=
    let base := sm_base s in
    let busd (f : bus F -> list (string * (F * F))) :=
      map (fun b => (EId (b_id b), f b)) (sm_buses s) in
    let devd (p : device F -> bool) (f : device F -> list (string * (F * F))) :=
      map (fun d => (EId (d_id d), f d)) (filter p (sm_devs s)) in
    let brd (f : branch F -> list (string * (F * F))) :=
      map (fun b => (EBr (ln_f b) (ln_t b), f b)) (sm_branches s) in
    let all := fun _ : device F => true in
    let angs := [("degree", (- nofZ 180, nofZ 180)); ("rad", (- npi, npi))] in
    [ ("bus_p", busd (fun b => [("MW", (b_pmin b * base, b_pmax b * base));
                                ("pu", (b_pmin b, b_pmax b))]));
      ("bus_q", busd (fun b => [("MVAr", (b_qmin b * base, b_qmax b * base));
                                ("pu", (b_qmin b, b_qmax b))]));
      ("bus_v_magn", busd (fun b => if b_slack b
         then [("pu", (b_vmax b, b_vmax b)); ("kV", (b_vmax b * b_kv b, b_vmax b * b_kv b))]
         else [("pu", both_inf); ("kV", both_inf)]));
      ("bus_v_ang", busd (fun b => if b_slack b
         then [("degree", (n0, n0)); ("rad", (n0, n0))] else angs));
      ("bus_i_magn", busd (fun _ => [("pu", both_inf); ("kA", both_inf)]));
      ("bus_i_ang", busd (fun _ => angs));
      ("dev_p", devd all (fun d => [("MW", (d_pmin d * base, d_pmax d * base));
                                    ("pu", (d_pmin d, d_pmax d))]));
      ("dev_q", devd all (fun d => [("MVAr", (d_qmin d * base, d_qmax d * base));
                                    ("pu", (d_qmin d, d_qmax d))]));
      ("des_soc", devd is_stor (fun d => match d_spec d with
         | SStor t => [("MWh", (s_socmin t * base, s_socmax t * base));
                       ("pu", (s_socmin t, s_socmax t))]
         | _ => []
         end));
      ("gen_p_max", devd is_nsgen (fun d => [("MW", (d_pmin d * base, d_qmax d * base));
                                             ("pu", (d_pmin d, d_pmax d))]));
      ("branch_p", brd (fun _ => [("MW", both_inf); ("pu", both_inf)]));
      ("branch_q", brd (fun _ => [("MVAr", both_inf); ("pu", both_inf)]));
      ("branch_s", brd (fun _ => [("MVA", both_inf); ("pu", both_inf)]));
      ("branch_i_magn", brd (fun _ => [("pu", both_inf); ("kA", both_inf)]));
      ("branch_i_ang", brd (fun _ => [("rad", (- npi, npi)); ("degree", (- nofZ 180, nofZ 180))])) ].

  (** simulator.py 295-339 ([get_rendering_specs]), the entries that are not copies of
      [state_bounds]: bus_v and branch_s.  TypeError if VMIN is None (line 322). *)
  Definition rendering_bus_v (s : sim F) : res (list (Z * list (string * (F * F)))) :=
    mapM (fun b => match b_vmin b with
                   | None => Err TypeErr
                   | Some vmin => Ok (b_id b, [("pu", (vmin, b_vmax b));
                                               ("kV", (vmin * b_kv b, b_vmax b * b_kv b))])
                   end) (sm_buses s).
  Definition rendering_branch_s (s : sim F) : list (Z * Z * list (string * (F * F))) :=
    map (fun br => ((ln_f br, ln_t br), [("MVA", (n0, ln_rate br * sm_base s));
                                         ("pu", (n0, ln_rate br))])) (sm_branches s).
End Simulator.
