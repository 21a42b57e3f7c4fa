(** What an observation specification asks for. *)
From Verif Require Import Base Num Devices BusBranch CheckNetwork LoadFlow Simulator EnvArgs Env SpecSim SpecEnv.
Local Open Scope string_scope.
Local Open Scope list_scope.

(** Quantities and their units, the default unit first (documentation, "Designing New Environments"). *)
Definition doc_units : list (string * list (option string)) :=
  [ ("bus_p", [Some "MW"; Some "pu"]); ("bus_q", [Some "MVAr"; Some "pu"]);
    ("bus_v_magn", [Some "pu"; Some "kV"]); ("bus_v_ang", [Some "degree"; Some "rad"]);
    ("bus_i_magn", [Some "pu"; Some "kA"]); ("bus_i_ang", [Some "degree"; Some "rad"]);
    ("dev_p", [Some "MW"; Some "pu"]); ("dev_q", [Some "MVAr"; Some "pu"]);
    ("des_soc", [Some "MWh"; Some "pu"]); ("gen_p_max", [Some "MW"; Some "pu"]);
    ("branch_p", [Some "MW"; Some "pu"]); ("branch_q", [Some "MVAr"; Some "pu"]);
    ("branch_s", [Some "MVA"; Some "pu"]); ("branch_i_magn", [Some "pu"]);
    ("branch_i_ang", [Some "degree"; Some "rad"]); ("aux", [None]) ].

Section SpecObs.
  Context {F G : Type} {N : Num F}.

  (** The elements that have a quantity, in the order of the advertised bounds; the auxiliary variables are
      numbered from 0. *)
  Definition elements (s0 : sim F) (K : Z) (key : string) : list eid :=
    if String.eqb key "aux" then map (fun i => EId (Z.of_nat i)) (seq 0 (Z.to_nat K))
    else match dget String.eqb (get_state_space s0) key with Some q => map fst q | None => [] end.

  (** A requested entry: quantity, unit, element. *)
  Definition req := (string * option string * eid)%type.
  (** The entries that a tuple requests; [None] if it is not a documented tuple for this network. *)
  Definition requested (s0 : sim F) (K : Z) (t : obs_tuple) : option (list req) :=
    let pick key nodes u :=
      match nodes with
      | NAll => Some (map (fun n => (key, u, n)) (elements s0 K key))
      | NList l => if forallb (fun n => existsb (eid_eqb n) (elements s0 K key)) l
                   then Some (map (fun n => (key, u, n)) l) else None
      | NOther => None
      end in
    match t with
    | OTBad => None
    | OT2 key nodes => match dget String.eqb doc_units key with
                       | Some (u :: _) => pick key nodes u
                       | _ => None
                       end
    | OT3 key nodes u => match dget String.eqb doc_units key with
                         | Some us => if existsb (opts_eqb u) us then pick key nodes u else None
                         | None => None
                         end
    end.
  (** [observation="state"] stands for this list. *)
  Definition state_tuples : list obs_tuple :=
    [ OT3 "dev_p" NAll (Some "MW"); OT3 "dev_q" NAll (Some "MVAr"); OT3 "des_soc" NAll (Some "MWh");
      OT3 "gen_p_max" NAll (Some "MW"); OT3 "aux" NAll None ].
  Definition tuples_of (o : obs_arg F) : option (list obs_tuple) :=
    match o with ObsState => Some state_tuples | ObsList l => Some l | _ => None end.

  (** advertised bounds of a requested entry *)
  Definition req_bound (s0 : sim F) (auxb : option (list (F * F))) (r : req) : option (F * F) :=
    let '(key, u, n) := r in
    if String.eqb key "aux" then
      match auxb, n with
      | None, _ => Some (nninf, ninf)
      | Some l, EId i => nth_error l (Z.to_nat i)
      | Some _, EBr _ _ => None
      end
    else match u with Some u' => bound s0 key u' n | None => None end.
  (** its value in an environment: read in the simulator, or among the last K entries of the state *)
  Definition req_value (e : env F G) (st : list F) (r : req) : option F :=
    let '(key, u, n) := r in
    if String.eqb key "aux" then
      match n with EId i => nth_error (skipn (List.length st - e_K e) st) (Z.to_nat i) | EBr _ _ => None end
    else match u with Some u' => obs (e_sim e) key u' n | None => None end.

  (** What a user sees of a value [x] with advertised bounds [b]: NaN is shown as it is, the rest is moved to
      the nearest point of the interval. *)
  Definition shown (b : F * F) (x v : F) : Prop :=
    if nisnan x then v = x else nleb (fst b) (snd b) = true -> clamped x (fst b) (snd b) v.
  (** The observation [ob] shows the values [X], entry by entry. *)
  Definition shows (B : list (F * F)) (X ob : list F) : Prop :=
    List.length ob = List.length X /\ List.length B = List.length X /\
    forall k b x v, nth_error B k = Some b -> nth_error X k = Some x -> nth_error ob k = Some v -> shown b x v.

  (** Arguments that are wrong whatever the network is. *)
  Definition bad_args (K : Z) (dt gamma lamb : F) (o : obs_arg F) (auxb : option (list (F * F))) : Prop :=
    (K < 0)%Z \/ nleb dt n0 = true \/ nltb lamb n0 = true \/ nltb gamma n0 = true \/ nltb n1 gamma = true \/ o = ObsOther \/
    exists l, auxb = Some l /\ Z.of_nat (List.length l) <> K.

  (** A tuple that names "branch_i_magn" without its unit. *)
  Definition i_magn_default (t : obs_tuple) : Prop := exists nodes, t = OT2 "branch_i_magn" nodes.
  (** Tuples that are not documented but accepted all the same: negative indices of auxiliary variables, and
      pieces of the string "pu" as units of branch_i_magn. *)
  Definition quirk (s0 : sim F) (K : Z) (t : obs_tuple) : Prop :=
    (exists l, (t = OT2 "aux" (NList l) \/ t = OT3 "aux" (NList l) None) /\ Forall (fun n => exists i, n = EId i /\ (i < K)%Z) l) \/
    (exists nodes u, t = OT3 "branch_i_magn" nodes (Some u) /\ requested s0 K (OT2 "branch_i_magn" nodes) <> None /\ In u [""; "p"; "u"]).
End SpecObs.
