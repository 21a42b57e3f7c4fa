(** The model predictive control agents: gym_anm/agents/mpc.py, mpc_constant.py and
    mpc_perfect.py.  The optimization problem is modelled by its meaning: the list of
    constraints and the objective, evaluated at a candidate value of the variables; the
    solver itself (cvxpy) is not modelled. *)
From Verif Require Import Base Num Devices BusBranch CheckNetwork LoadFlow Simulator EnvArgs Env Anm6.
Local Open Scope string_scope.
Local Open Scope list_scope.
Local Open Scope num_scope.

(** A scalar constraint evaluated at a candidate: [a == b] or [a <= b]. *)
Inductive constr (F : Type) := CEq (a b : F) | CLe (a b : F).
Arguments CEq {F}. Arguments CLe {F}.

(** Values of the variables of one stage (mpc.py 231-232, 285-286); the last two lists
    have one entry per storage unit. *)
Record stage (F : Type) := mkStage {
  sg_ang : list F; sg_p : list F; sg_pc : list F; sg_pd : list F }.
Arguments mkStage {F}. Arguments sg_ang {F}. Arguments sg_p {F}. Arguments sg_pc {F}. Arguments sg_pd {F}.

(** The agent (mpc.py 51-123): the attributes that are copied from the simulator. *)
Record mpc (F : Type) := mkMpc {
  m_margin : F; m_base : F; m_lamb : F; m_aspace : box F; m_steps : nat; m_gamma : F; m_dt : F;
  m_nbus : nat; m_ndev : nat;
  m_loads : list Z; m_gens : list Z; m_nsgens : list Z; m_rers : list Z; m_dess : list Z;
  m_brs : list (Z * Z); m_devs : list Z; m_buses : list Z; m_slackdev : Z;
  m_devbus : list (Z * Z); m_B : list (list F); m_rate : list F;
  m_gmin : list F; m_gmax : list F; m_dmin : list F; m_dmax : list F;
  m_socmin : list F; m_socmax : list F; m_eff : list F }.
Arguments mkMpc {F}. Arguments m_margin {F}. Arguments m_base {F}. Arguments m_lamb {F}.
Arguments m_aspace {F}. Arguments m_steps {F}. Arguments m_gamma {F}. Arguments m_dt {F}.
Arguments m_nbus {F}. Arguments m_ndev {F}. Arguments m_loads {F}. Arguments m_gens {F}.
Arguments m_nsgens {F}. Arguments m_rers {F}. Arguments m_dess {F}. Arguments m_brs {F}.
Arguments m_devs {F}. Arguments m_buses {F}. Arguments m_slackdev {F}. Arguments m_devbus {F}.
Arguments m_B {F}. Arguments m_rate {F}. Arguments m_gmin {F}. Arguments m_gmax {F}.
Arguments m_dmin {F}. Arguments m_dmax {F}. Arguments m_socmin {F}. Arguments m_socmax {F}.
Arguments m_eff {F}.

(** Position of an ID in a list of IDs: [bus_id_mapping], [dev_id_mapping] (mpc.py 91-98). *)
Fixpoint pos_of (l : list Z) (i : Z) : nat :=
  match l with [] => 0 | a :: l' => if Z.eqb i a then 0 else S (pos_of l' i) end.

Section Mpc.
  Context {F G : Type} {N : Num F}.

  (** mpc.py 32-123 ([__init__]).  Line 111: the rows and columns 0..n_bus-1 of the
      imaginary part of Y (the mapping of the bus IDs is 0..n_bus-1). *)
  Definition mpc_init (s : sim F) (asp : box F) (gamma margin : F) (steps : nat) : res (mpc F) :=
    let ds := sm_devs s in
    let ids p := map d_id (filter p ds) in
    let loads := ids is_load in
    let nsgens := ids is_nsgen in
    let dess := ids is_stor in
    let* slack := match filter (fun i => negb (zmem i dess) && negb (zmem i nsgens)
                                         && negb (zmem i loads)) (map d_id ds) with
                  | i :: _ => Ok i
                  | [] => Err IndexError
                  end in
    let n := n_bus s in
    let* _ := raise_if (Nat.ltb (List.length (sm_Y s)) n) IndexError in
    let B := map (fun row => map im (firstn n row)) (firstn n (sm_Y s)) in
    let stors := filter is_stor ds in
    let soc_of f := map (fun d => match d_spec d with SStor t => f t | _ => n0 end) stors in
    Ok (mkMpc margin (sm_base s) (sm_lamb s) asp steps gamma (sm_dt s)
          n (n_device s)
          loads (ids is_gen) nsgens (ids is_rer) dess
          (map (fun b => (ln_f b, ln_t b)) (sm_branches s)) (map d_id ds)
          (map b_id (sm_buses s)) slack
          (map (fun d => (d_id d, d_bus d)) ds) B (map ln_rate (sm_branches s))
          (map d_pmin (filter is_nsgen ds)) (map d_pmax (filter is_nsgen ds))
          (map d_pmin stors) (map d_pmax stors)
          (soc_of s_socmin) (soc_of s_socmax) (soc_of s_eff)).

  Definition ix (l : list F) (i : nat) : F := nth i l n0.
  Definition bpos (m : mpc F) (b : Z) : nat := pos_of (m_buses m) b.
  Definition dpos (m : mpc F) (d : Z) : nat := pos_of (m_devs m) d.
  Definition Bix (m : mpc F) (k l : nat) : F := ix (nth k (m_B m) []) l.

  (** mpc.py 125-140 ([_create_p_bus_expressions]), for the bus at position [k] *)
  Definition p_bus (m : mpc F) (st : stage F) (k : nat) : F :=
    fold_left (fun acc db => if Nat.eqb (bpos m (snd db)) k
                             then acc + ix (sg_p st) (dpos m (fst db)) else acc)
              (m_devbus m) n0.

  (** mpc.py 142-159 ([_create_p_branch_expressions]) *)
  Definition p_branch (m : mpc F) (st : stage F) : list F :=
    map (fun ft => let k := bpos m (fst ft) in let l := bpos m (snd ft) in
                   Bix m k l * (ix (sg_ang st) k - ix (sg_ang st) l)) (m_brs m).

  (** mpc.py 241-252: the DC injection at one bus *)
  Definition p_dc (m : mpc F) (st : stage F) (i : Z) : F :=
    fold_left (fun acc jk =>
      let l := bpos m (fst jk) in let k := bpos m (snd jk) in
      if Z.eqb (fst jk) i then acc + Bix m l k * (ix (sg_ang st) l - ix (sg_ang st) k)
      else if Z.eqb (snd jk) i then acc + Bix m k l * (ix (sg_ang st) k - ix (sg_ang st) l)
      else acc) (m_brs m) n0.

  (** mpc.py 283-291: SoC expressions after the stage *)
  Definition new_socs (m : mpc F) (soc : list F) (st : stage F) : list F :=
    map (fun i => ix soc i + ix (sg_pc st) i * m_dt m * ix (m_eff m) i
                  + (- ix (sg_pd st) i) * m_dt m / ix (m_eff m) i)
        (seq 0 (List.length (m_dess m))).

  (** mpc.py 422-441 *)
  Definition eqs (a b : list F) : list (constr F) := zip_with CEq a b.
  Definition les (a b : list F) : list (constr F) := zip_with CLe a b.

  (** mpc.py 202-302: the constraints of one stage *)
  Definition stage_constraints (m : mpc F) (pload pgen soc : list F) (st : stage F)
    : list (constr F) :=
    let pd ids := map (fun d => ix (sg_p st) (dpos m d)) ids in
    eqs (map (p_dc m st) (m_buses m)) (map (p_bus m st) (seq 0 (m_nbus m)))
    ++ eqs (pd (m_loads m)) pload
    ++ les (m_gmin m) (pd (m_nsgens m)) ++ les (pd (m_nsgens m)) (m_gmax m)
    ++ les (m_dmin m) (pd (m_dess m)) ++ les (pd (m_dess m)) (m_dmax m)
    ++ les (pd (m_nsgens m)) pgen
    ++ map (fun i => CLe n0 (ix (sg_pc st) i)) (seq 0 (List.length (m_dess m)))
    ++ map (fun i => CLe n0 (ix (sg_pd st) i)) (seq 0 (List.length (m_dess m)))
    ++ map (fun id => CEq (ix (sg_p st) (dpos m (snd id)))
                          (ix (sg_pd st) (fst id) - ix (sg_pc st) (fst id))) (enumerate (m_dess m))
    ++ les (m_socmin m) (new_socs m soc st) ++ les (new_socs m soc st) (m_socmax m)
    ++ les (repeat (- npi) (m_nbus m)) (sg_ang st) ++ les (sg_ang st) (repeat npi (m_nbus m))
    ++ [CEq (ix (sg_ang st) (dpos m (m_slackdev m))) n0].

  (** mpc.py 304-314: the cost of one stage *)
  Definition stage_cost (m : mpc F) (st : stage F) : F :=
    let c1 := fold_left (fun acc g => if zmem g (m_rers m) then acc
                                      else acc + ix (sg_p st) (dpos m g)) (m_gens m) n0 in
    let c2 := fold_left (fun acc pr => acc + np_max n0 (nabs (fst pr) - m_margin m * snd pr))
                        (combine (p_branch m st) (m_rate m)) n0 in
    c1 + m_lamb m * c2.

  (** column [i] of a forecast matrix (one row per device) *)
  Definition column (M : list (list F)) (i : nat) : list F := map (fun row => ix row i) M.

  (** mpc.py 174-191: the constraints of all the stages, the SoC being threaded *)
  Fixpoint plan_constraints (m : mpc F) (PL PG : list (list F)) (i : nat) (soc : list F)
           (sts : list (stage F)) : list (constr F) :=
    match sts with
    | [] => []
    | st :: sts' => stage_constraints m (column PL i) (column PG i) soc st
                    ++ plan_constraints m PL PG (S i) (new_socs m soc st) sts'
    end.

  Fixpoint npow (x : F) (n : nat) : F := match n with O => n1 | S k => x * npow x k end.
  (** mpc.py 171, 186: the discounted objective *)
  Definition plan_cost (m : mpc F) (sts : list (stage F)) : F :=
    fold_left (fun acc ist => acc + npow (m_gamma m) (fst ist) * stage_cost m (snd ist))
              (enumerate sts) n0.

  (** mpc.py 395-419 ([_update_parameters]): the initial SoC.  A parameter refuses with
      ValueError a value of another shape than (rows, planning_steps); one declared nonneg
      also refuses values that are not >= 0, up to cvxpy's tolerance of 1e-10.
      Simplification: empty parameters (no load, no generator or no storage unit) behave
      like the others. *)
  Definition init_soc (m : mpc F) (s : sim F) : res (list F) :=
    match sm_state s with
    | None => Err TypeErr
    | Some st =>
        let* q := dgetE String.eqb st "des_soc" in
        let* d := dgetE String.eqb q "pu" in
        mapM (fun i => dgetE eid_eqb d (EId i)) (m_dess m)
    end.
  Definition shape_ok (m : mpc F) (ids : list Z) (M : list (list F)) : bool :=
    Nat.eqb (List.length M) (List.length ids)
    && forallb (fun row => Nat.eqb (List.length row) (m_steps m)) M.
  Definition nonneg (x : F) : bool := nrat (-1) 10000000000 <=? x.
  Definition params (m : mpc F) (s : sim F) (PL PG : list (list F)) : res (list F) :=
    let* _ := raise_if (negb (shape_ok m (m_loads m) PL)) ValueError in
    let* _ := raise_if (negb (shape_ok m (m_nsgens m) PG)) ValueError in
    let* _ := raise_if (negb (forallb (forallb nonneg) PG)) ValueError in
    let* soc := init_soc m s in
    let* _ := raise_if (negb (forallb nonneg soc)) ValueError in
    Ok soc.

  (** mpc.py 387-393: the action read from the first stage *)
  Definition action_of (m : mpc F) (p : list F) : list F :=
    let pick ids := map (fun d => ix p (dpos m d) * m_base m) ids in
    pick (m_nsgens m) ++ repeat n0 (List.length (m_nsgens m))
    ++ pick (m_dess m) ++ repeat n0 (List.length (m_dess m)).

  (** The solver: the first-stage value of P_dev, or an exception (when the problem has
      no solution, [P_dev.value] is None and indexing it raises TypeError). *)
  Definition opf_solver := mpc F -> list (list F) -> list (list F) -> list F -> res (list F).

  (** mpc.py 321-343, 372-393 ([act] and [_solve]) for given forecasts.  Creating the
      problem raises IndexError when [V_bus_ang] has no entry at the position of the slack
      device (line 302), or when there is no first stage (line 197); [dc_opf] stays None, so
      every call does. *)
  Definition mpc_act (solve : opf_solver) (m : mpc F) (s : sim F) (PL PG : list (list F))
    : res (list F) :=
    let* _ := raise_if (Nat.eqb (m_steps m) 0) IndexError in
    let* _ := raise_if (Nat.leb (m_nbus m) (dpos m (m_slackdev m))) IndexError in
    let* soc := params m s PL PG in
    let* p := solve m PL PG soc in
    Ok (clip_vec (action_of m p) (bx_lo (m_aspace m)) (bx_hi (m_aspace m))).

  (** mpc_constant.py 21-35: rows = devices, [planning_steps] equal columns *)
  Definition forecast_constant (m : mpc F) (s : sim F) : res (list (list F) * list (list F)) :=
    match sm_state s with
    | None => Err TypeErr
    | Some st =>
        let get k ids := let* q := dgetE String.eqb st k in
                         let* d := dgetE String.eqb q "pu" in
                         mapM (fun i => dgetE eid_eqb d (EId i)) ids in
        let* pl := get "dev_p" (m_loads m) in
        let* pg := get "gen_p_max" (m_nsgens m) in
        Ok (map (fun x => repeat x (m_steps m)) pl, map (fun x => repeat x (m_steps m)) pg)
    end.

  (** mpc_perfect.py 30-32: the loop [while t_end > shape[1]: concatenate], with a bound
      on the number of iterations that is enough for a non-empty series *)
  Fixpoint extend (fuel : nat) (t_end : nat) (day cur : list F) : list F :=
    match fuel with
    | O => cur
    | S k => if Nat.ltb (List.length cur) t_end then extend k t_end day (cur ++ day) else cur
    end.
  (** mpc_perfect.py 21-40 for one device: entries t_start .. t_start+steps-1 in p.u.
      Simplification: the time of day [t] is a natural number (it is one on every reachable
      state of ANM6Easy, C44). *)
  Definition forecast_row (m : mpc F) (t : nat) (day : list F) : list F :=
    let t_end := (S t + m_steps m)%nat in
    map (fun x => x / m_base m) (slice (S t) (m_steps m) (extend t_end t_end day day)).
  Definition forecast_perfect (m : mpc F) (loads gens : list (list F)) (st : list F)
    : res (list (list F) * list (list F)) :=
    match ntrunc (last st n0) with
    | None => Err ValueError
    | Some t => let k := Z.to_nat t in
                Ok (map (forecast_row m k) loads, map (forecast_row m k) gens)
    end.
End Mpc.
