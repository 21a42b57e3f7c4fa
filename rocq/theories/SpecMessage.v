(** The vocabulary of C78 and C79: the first message sent to the browser. *)
From Coq Require Import Sorted.
From Verif Require Import Base Num Devices BusBranch CheckNetwork LoadFlow Simulator EnvArgs Env Anm6 Message SpecSim SpecEnv.
Local Open Scope num_scope.
Local Open Scope string_scope.
Local Open Scope list_scope.

(** [l]: the IDs of the buses of the file, in increasing order *)
Definition buses_of {F} (nw : network F) (l : list Z) : Prop :=
  Sorted Z.lt l /\ forall i, In i l <-> exists r, In r (nw_bus nw) /\ br_id r = Some i.

Section SpecRender.
  Context {F : Type} {N : Num F}.
  (** the cost limit announced: what the user gave to [costs_clipping], no limit if nothing was given *)
  Definition cost_limits (clip : option (option F * option F)) (x y : F) : Prop :=
    match clip with
    | None => x = ninf /\ y = ninf
    | Some (a, b) => x = match a with Some v => v | None => ninf end /\ y = match b with Some v => v | None => ninf end
    end.
  (** [x] is the larger magnitude of the two ends of the range [key] of element [i] in the unit [u] *)
  Definition magnitude (s : sim F) (key u : string) (i : Z) (x : F) : Prop :=
    exists lo hi, bound s key u (EId i) = Some (lo, hi) /\ x = np_max (nabs lo) (nabs hi).
  (** The message lists, device by device in increasing ID order, bus by bus in increasing ID order, storage unit by storage unit: the device types of the file, the
      larger magnitudes of the power ranges, VMIN and VMAX of the file, and the upper ends of the state-of-charge ranges. *)
  Definition describes (nw : network F) (s : sim F) (m : init_msg F) : Prop :=
    (forall all, ids_of nw ALL all ->
       Forall2 (fun i t => exists r, In r (nw_dev nw) /\ dr_id r = Some i /\ dr_type r = Some t) all (im_type m) /\
       Forall2 (magnitude s "dev_p" "MW") all (im_p m) /\ Forall2 (magnitude s "dev_q" "MVAr") all (im_q m)) /\
    (forall bs, buses_of nw bs ->
       Forall2 (fun i x => exists r, In r (nw_bus nw) /\ br_id r = Some i /\ br_vmin r = Some x) bs (im_vmin m) /\
       Forall2 (fun i x => exists r, In r (nw_bus nw) /\ br_id r = Some i /\ br_vmax r = Some x) bs (im_vmax m)) /\
    (forall dess, ids_of nw STORS dess -> Forall2 (fun i x => exists lo, bound s "des_soc" "MWh" (EId i) = Some (lo, x)) dess (im_soc m)).
  (** every number of the message is an ordinary number, so that the message is JSON *)
  Definition all_numbers (P : F -> Prop) (m : init_msg F) : Prop :=
    Forall P (im_p m) /\ Forall P (im_q m) /\ Forall P (im_s m) /\ Forall P (im_vmin m) /\ Forall P (im_vmax m) /\ Forall P (im_soc m) /\ P (im_eloss m) /\ P (im_pen m).
End SpecRender.

(** ... and the same of a later frame *)
Definition frame_numbers {F} (P : F -> Prop) (f : frame F) : Prop :=
  Forall P (fr_dev_p f) /\ Forall P (fr_dev_q f) /\ Forall P (fr_branch_s f) /\ Forall P (fr_soc f) /\ Forall P (fr_gen f) /\ Forall P (fr_bus_v f) /\ Forall P (fr_costs f).
