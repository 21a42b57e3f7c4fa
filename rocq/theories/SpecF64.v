(** C87 in words: finite numbers and limits that are respected, in binary64. *)
From Coq Require Import Floats ZArith.
From Verif Require Import Base Num NumFloat Devices BusBranch CheckNetwork Simulator SpecSim.
Local Open Scope string_scope.

(** Neither NaN nor infinite; not NaN. *)
Definition fin64 (x : float) : Prop := PrimFloat.ltb (PrimFloat.abs x) PrimFloat.infinity = true.
Definition num64 (x : float) : Prop := PrimFloat.eqb x x = true.
(** [lo <= x <= hi] (so [x] is not NaN). *)
Definition between64 (lo x hi : float) : Prop := PrimFloat.leb lo x = true /\ PrimFloat.leb x hi = true.
(** The rating of a branch in per-unit: the column RATE over baseMVA; none is infinite. *)
Definition rating (nw : network float) (r : branch_row float) : float :=
  match lr_rate r with None => PrimFloat.infinity | Some v => PrimFloat.div v (nw_base nw) end.
(** The limits of the network file are not NaN. *)
Definition limits_numbers (nw : network float) : Prop :=
  (forall r x, In r (nw_bus nw) -> br_vmin r = Some x \/ br_vmax r = Some x -> num64 x) /\
  (forall r, In r (nw_br nw) -> num64 (rating nw r)).
(** The simulator reports finite voltage magnitudes and branch flows. *)
Definition readings_finite (nw : network float) (s : sim float) : Prop :=
  (forall r k, In r (nw_bus nw) -> br_id r = Some k -> exists v, obs s "bus_v_magn" "pu" (EId k) = Some v /\ fin64 v) /\
  (forall r f t, In r (nw_br nw) -> lr_f r = Some f -> lr_t r = Some t -> exists v, obs s "branch_s" "pu" (EBr f t) = Some v /\ fin64 v).
(** Every reported voltage magnitude is between VMIN and VMAX and every reported branch flow at most the rating. *)
Definition respected (nw : network float) (s : sim float) : Prop :=
  (forall r k lo hi v, In r (nw_bus nw) -> br_id r = Some k -> br_vmin r = Some lo -> br_vmax r = Some hi ->
     obs s "bus_v_magn" "pu" (EId k) = Some v -> between64 lo v hi) /\
  (forall r f t v, In r (nw_br nw) -> lr_f r = Some f -> lr_t r = Some t ->
     obs s "branch_s" "pu" (EBr f t) = Some v -> PrimFloat.leb (PrimFloat.abs v) (rating nw r) = true).
