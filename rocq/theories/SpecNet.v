(** What a well-formed network file is (used by C11). *)
From Verif Require Import Base Num Devices BusBranch CheckNetwork.

(** Exactly one element of [l] satisfies [P]. *)
Definition exactly_one {A} (P : A -> Prop) (l : list A) : Prop :=
  exists l1 a l2, l = l1 ++ a :: l2 /\ P a /\ Forall (fun x => ~ P x) (l1 ++ l2).

Section SpecNet.
  Context {F : Type} {N : Num F}.

  Definition slack_bus_row (r : bus_row F) : Prop := br_type r = Some 0%Z.
  Definition slack_dev_row (r : dev_row F) : Prop := dr_type r = Some 0%Z.
  (** two branch rows that link the same two buses, in either direction *)
  Definition same_link (r r' : branch_row F) : Prop :=
    (lr_f r = lr_f r' /\ lr_t r = lr_t r') \/ (lr_f r = lr_t r' /\ lr_t r = lr_f r').

  (** number of device rows whose type is in [ts] *)
  Definition rows_of_type (ts : list Z) (nw : network F) : nat :=
    List.length (filter (fun r => match dr_type r with Some t => zmem t ts | None => false end) (nw_dev nw)).

  (** The documented rules, in the order in which they are reported. *)
  Definition rule_base (nw : network F) := nleb (nw_base nw) n0 = false.
  Definition rule_one_slack_bus (nw : network F) := exactly_one slack_bus_row (nw_bus nw).
  Definition rule_one_slack_dev (nw : network F) := exactly_one slack_dev_row (nw_dev nw).
  Definition rule_slack_match (nw : network F) :=
    forall b d, In b (nw_bus nw) -> slack_bus_row b -> In d (nw_dev nw) -> slack_dev_row d ->
                br_id b = dr_bus d.
  Definition rule_bus_ids (nw : network F) := NoDup (map br_id (nw_bus nw)).
  Definition rule_dev_ids (nw : network F) := NoDup (map dr_id (nw_dev nw)).
  Definition rule_links (nw : network F) :=
    Forall (fun r => lr_f r <> lr_t r) (nw_br nw) /\
    ForallOrdPairs (fun r r' => ~ same_link r r') (nw_br nw).
  Definition rule_ends (nw : network F) :=
    forall r, In r (nw_br nw) ->
      In (lr_f r) (map br_id (nw_bus nw)) /\ In (lr_t r) (map br_id (nw_bus nw)).

  Definition well_formed (nw : network F) : Prop :=
    rule_base nw /\ rule_one_slack_bus nw /\ rule_one_slack_dev nw /\ rule_slack_match nw /\
    rule_bus_ids nw /\ rule_dev_ids nw /\ rule_links nw /\ rule_ends nw.

  (** The error of the first rule that is violated.  For the fourth rule, a missing bus ID
      makes the formatting of the message itself raise TypeError. *)
  Definition first_error (nw : network F) (e : exn) : Prop :=
    (~ rule_base nw /\ e = BaseMVAError) \/
    (rule_base nw /\ ~ rule_one_slack_bus nw /\ e = BusSpecError) \/
    (rule_base nw /\ rule_one_slack_bus nw /\ ~ rule_one_slack_dev nw /\ e = DeviceSpecError) \/
    (rule_base nw /\ rule_one_slack_bus nw /\ rule_one_slack_dev nw /\ ~ rule_slack_match nw /\
     ((exists b d, In b (nw_bus nw) /\ slack_bus_row b /\ In d (nw_dev nw) /\ slack_dev_row d /\
                   br_id b <> None /\ dr_bus d <> None) /\ e = DeviceSpecError \/
      (exists b d, In b (nw_bus nw) /\ slack_bus_row b /\ In d (nw_dev nw) /\ slack_dev_row d /\
                   (br_id b = None \/ dr_bus d = None)) /\ e = TypeErr)) \/
    (rule_base nw /\ rule_one_slack_bus nw /\ rule_one_slack_dev nw /\ rule_slack_match nw /\
     ~ rule_bus_ids nw /\ e = BusSpecError) \/
    (rule_base nw /\ rule_one_slack_bus nw /\ rule_one_slack_dev nw /\ rule_slack_match nw /\
     rule_bus_ids nw /\ ~ rule_dev_ids nw /\ e = DeviceSpecError) \/
    (rule_base nw /\ rule_one_slack_bus nw /\ rule_one_slack_dev nw /\ rule_slack_match nw /\
     rule_bus_ids nw /\ rule_dev_ids nw /\ ~ rule_links nw /\ e = BranchSpecError) \/
    (rule_base nw /\ rule_one_slack_bus nw /\ rule_one_slack_dev nw /\ rule_slack_match nw /\
     rule_bus_ids nw /\ rule_dev_ids nw /\ rule_links nw /\ ~ rule_ends nw /\ e = BranchSpecError).
End SpecNet.
