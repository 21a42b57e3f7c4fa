(** Observation vocabulary and argument checks: components/constants.py (31-48) and
    gym_anm/envs/utils.py. *)
From Verif Require Import Base Num Devices BusBranch CheckNetwork LoadFlow Simulator.
Local Open Scope string_scope.
Local Open Scope list_scope.

(** The values of STATE_VARIABLES are tuples of units, except [("pu")] which in
    Python is the *string* "pu" (constants.py, entry branch_i_magn). *)
Inductive units_spec := UTuple (l : list (option string)) | UString (s : string).

(** constants.py 31-48 *)
Definition STATE_VARIABLES : list (string * units_spec) :=
  [ ("bus_p", UTuple [Some "MW"; Some "pu"]);
    ("bus_q", UTuple [Some "MVAr"; Some "pu"]);
    ("bus_v_magn", UTuple [Some "pu"; Some "kV"]);
    ("bus_v_ang", UTuple [Some "degree"; Some "rad"]);
    ("bus_i_magn", UTuple [Some "pu"; Some "kA"]);
    ("bus_i_ang", UTuple [Some "degree"; Some "rad"]);
    ("dev_p", UTuple [Some "MW"; Some "pu"]);
    ("dev_q", UTuple [Some "MVAr"; Some "pu"]);
    ("des_soc", UTuple [Some "MWh"; Some "pu"]);
    ("gen_p_max", UTuple [Some "MW"; Some "pu"]);
    ("branch_p", UTuple [Some "MW"; Some "pu"]);
    ("branch_q", UTuple [Some "MVAr"; Some "pu"]);
    ("branch_s", UTuple [Some "MVA"; Some "pu"]);
    ("branch_i_magn", UString "pu");
    ("branch_i_ang", UTuple [Some "degree"; Some "rad"]);
    ("aux", UTuple [None]) ].

Definition opts_eqb (a b : option string) : bool :=
  match a, b with
  | Some x, Some y => String.eqb x y
  | None, None => true
  | _, _ => false
  end.

(** Python [a in b] for strings *)
Definition substr (a b : string) : bool :=
  match String.index 0 a b with Some _ => true | None => false end.

(** [u in STATE_VARIABLES[key]]; [None in "pu"] is a TypeError *)
Definition unit_in (u : option string) (us : units_spec) : res bool :=
  match us with
  | UTuple l => Ok (existsb (opts_eqb u) l)
  | UString s => match u with Some x => Ok (substr x s) | None => Err TypeErr end
  end.

(** [STATE_VARIABLES[key][0]] *)
Definition default_unit (us : units_spec) : res (option string) :=
  match us with
  | UTuple (u :: _) => Ok u
  | UTuple [] => Err IndexError
  | UString (String c _) => Ok (Some (String c ""))
  | UString "" => Err IndexError
  end.

(** Second component of an observation tuple: the string 'all', a list of element
    IDs, or anything else. *)
Inductive obs_nodes := NAll | NList (l : list eid) | NOther.

(** An observation tuple of 2 or 3 components, or of another length. *)
Inductive obs_tuple :=
| OT2 (key : string) (nodes : obs_nodes)
| OT3 (key : string) (nodes : obs_nodes) (unit_ : option string)
| OTBad.

(** The value returned by a user-supplied observation function: an array of dtype
    float64 (as every numpy expression of the float64 state is) or not. *)
Record obs_val (F : Type) := mkObs { ov_f64 : bool; ov_vec : list F }.
Arguments mkObs {F}. Arguments ov_f64 {F}. Arguments ov_vec {F}.

(** The [observation] argument: the string "state", another string / object, a list
    or a callable. *)
Inductive obs_arg (F : Type) :=
| ObsState | ObsList (l : list obs_tuple) | ObsFun (f : list F -> obs_val F) | ObsOther.
Arguments ObsState {F}. Arguments ObsList {F}. Arguments ObsFun {F}. Arguments ObsOther {F}.

Section Args.
  Context {F : Type} {N : Num F}.
  Local Open Scope num_scope.

  (** utils.py 96-111: the nodes of one tuple *)
  Definition check_nodes (key : string) (nodes : obs_nodes) (bounds : fbounds F) (K : Z) : res unit :=
    match nodes with
    | NAll => Ok tt
    | _ =>
        if String.eqb key "aux" then
          match nodes with
          | NList l => foldM (fun _ n => match n with
                                         | EId i => raise_if (K <=? i)%Z ObsSpaceError
                                         | EBr _ _ => Err TypeErr
                                         end) l tt
          | _ => Err TypeErr
          end
        else
          match nodes with
          | NList l =>
              foldM (fun _ n =>
                       let* b := dgetE String.eqb bounds key in
                       raise_if (match dget eid_eqb b n with Some _ => false | None => true end)
                                ObsSpaceError) l tt
          | _ => Err ObsSpaceError
          end
    end.

  (** utils.py 87-117: one tuple of the list *)
  Definition check_obs_tuple (bounds : fbounds F) (K : Z) (o : obs_tuple) : res unit :=
    match o with
    | OTBad => Err ObsSpaceError
    | OT2 key nodes =>
        match dget String.eqb STATE_VARIABLES key with
        | None => Err ObsNotSupportedError
        | Some us => check_nodes key nodes bounds K
        end
    | OT3 key nodes u =>
        match dget String.eqb STATE_VARIABLES key with
        | None => Err ObsNotSupportedError
        | Some us =>
            let* _ := check_nodes key nodes bounds K in
            let* ok := unit_in u us in
            raise_if (negb ok) UnitsNotSupportedError
        end
    end.

  (** utils.py 71-117 ([_check_observation_vars]) *)
  Definition check_observation_vars (l : list obs_tuple) (bounds : fbounds F) (K : Z) : res unit :=
    foldM (fun _ o => check_obs_tuple bounds K o) l tt.

  (** utils.py 7-68 ([check_env_args]) *)
  Definition check_env_args (K : Z) (dt lamb gamma : F) (obs : obs_arg F)
             (aux_bounds : option (list (F * F))) (bounds : fbounds F) : res unit :=
    let* _ := raise_if (K <? 0)%Z ArgsError in
    let* _ := raise_if (dt <=? n0) ArgsError in
    let* _ := raise_if (lamb <? n0) ArgsError in
    let* _ := raise_if ((gamma <? n0) || (n1 <? gamma)) ArgsError in
    let* _ := match obs with
              | ObsState => Ok tt
              | ObsList l => check_observation_vars l bounds K
              | ObsFun _ => Ok tt
              | ObsOther => Err ArgsError
              end in
    match aux_bounds with
    | None => Ok tt
    | Some l => raise_if (negb (Z.eqb (Z.of_nat (List.length l)) K)) ArgsError
    end.
End Args.
