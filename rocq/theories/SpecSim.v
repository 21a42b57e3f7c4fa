(** Observables of a simulator and histories of calls: the vocabulary in which the
    properties of the simulator are stated. *)
From Verif Require Import Base Num Devices BusBranch CheckNetwork LoadFlow Simulator.
Local Open Scope string_scope.
Local Open Scope list_scope.

Section SpecSim.
  Context {F : Type} {N : Num F}.

  (** [state[key][unit][i]] *)
  Definition read (st : fstate F) (key unit_ : string) (i : eid) : option F :=
    match dget String.eqb st key with
    | None => None
    | Some q => match dget String.eqb q unit_ with
                | None => None
                | Some d => dget eid_eqb d i
                end
    end.
  (** [simulator.state[key][unit][i]]; [None] when absent *)
  Definition obs (s : sim F) (key unit_ : string) (i : eid) : option F :=
    match sm_state s with None => None | Some st => read st key unit_ i end.
  (** [simulator.get_state_space()[key][i][unit]] *)
  Definition bound (s : sim F) (key unit_ : string) (i : eid) : option (F * F) :=
    match dget String.eqb (get_state_space s) key with
    | None => None
    | Some q => match dget eid_eqb q i with
                | None => None
                | Some d => dget String.eqb d unit_
                end
    end.

  (** A call on a simulator, with the behaviour of the external solvers during the call. *)
  Inductive call :=
  | CReset (Or : oracles F) (init_state : list F)
  | CTrans (Or : oracles F) (inp : tr_in F).
  (** The object after the call, whether the call returned or raised. *)
  Definition run_call (s : sim F) (c : call) : sim F :=
    match c with
    | CReset Or init => fst (sim_reset Or init s)
    | CTrans Or inp => fst (transition Or inp s)
    end.
  (** the call returned (it did not raise) *)
  Definition returned (s : sim F) (c : call) : Prop :=
    match c with
    | CReset Or init => is_ok (snd (sim_reset Or init s)) = true
    | CTrans Or inp => is_ok (snd (transition Or inp s)) = true
    end.
  Definition run (s : sim F) (cs : list call) : sim F := fold_left run_call cs s.

  (** [lo <= v <= hi] *)
  Definition within (v lo hi : F) : Prop := nleb lo v = true /\ nleb v hi = true.
  (** [v] is [x] moved to the nearest point of the interval [lo, hi] *)
  Definition clamped (x lo hi v : F) : Prop :=
    (within x lo hi -> v = x) /\ (nltb x lo = true -> v = lo) /\ (nltb hi x = true -> v = hi).

  (** The IDs of the storage units, in increasing order (keys of the advertised bounds). *)
  Definition storage_ids (s : sim F) : list eid :=
    match dget String.eqb (get_state_space s) "des_soc" with None => [] | Some q => map fst q end.
  (** The SoC entries of an initial state vector (after the P and Q of all the devices) are
      inside the advertised ranges, in per-unit. *)
  Definition soc_entries_ok (s : sim F) (init : list F) : Prop :=
    forall k i lo hi c, nth_error (storage_ids s) k = Some i ->
      bound s "des_soc" "pu" i = Some (lo, hi) ->
      nth_error init (2 * n_device s + k) = Some c ->
      within (ndiv c (sm_base s)) lo hi.
  Definition call_soc_ok (s : sim F) (c : call) : Prop :=
    match c with CReset _ init => soc_entries_ok s init | CTrans _ _ => True end.

  (** The simulators that a user can hold. *)
  Definition reachable (nw : network F) (dt lamb : F) (s : sim F) : Prop :=
    exists s0 cs, sim_init nw dt lamb = Ok s0 /\ s = run s0 cs.
End SpecSim.
Arguments call F : clear implicits.

(** Quantities expressed both in per-unit and in a power (or energy) unit. *)
Definition power_units : list (string * string) :=
  [("bus_p", "MW"); ("bus_q", "MVAr"); ("dev_p", "MW"); ("dev_q", "MVAr"); ("des_soc", "MWh");
   ("gen_p_max", "MW"); ("branch_p", "MW"); ("branch_q", "MVAr"); ("branch_s", "MVA")].
(** Angles, in rad and in degrees. *)
Definition angle_keys : list string := ["bus_v_ang"; "bus_i_ang"; "branch_i_ang"].
