(** The vocabulary of C84: how a network is written in the arrays of a network file. *)
From Verif Require Import Base Num Devices BusBranch CheckNetwork LoadFlow Simulator RawNet.

Section SpecRaw.
  Context {F : Type} {N : Num F}.

  (** a whole number, or [None], written in a cell *)
  Definition int_cell (o : option Z) : cell F := option_map nofZ o.
  (** the documented columns of a row (docs: "Appendix: network input dictionary"; constants.py 1-19), in order *)
  Definition bus_cells (r : bus_row F) : list (cell F) :=
    [int_cell (br_id r); int_cell (br_type r); br_kv r; br_vmax r; br_vmin r].
  Definition dev_cells (r : dev_row F) : list (cell F) :=
    [int_cell (dr_id r); int_cell (dr_bus r); int_cell (dr_type r); dr_qp r; dr_pmax r; dr_pmin r; dr_qmax r; dr_qmin r;
     dr_pplus r; dr_pminus r; dr_qplus r; dr_qminus r; dr_socmax r; dr_socmin r; dr_eff r].
  Definition branch_cells (r : branch_row F) : list (cell F) :=
    [int_cell (lr_f r); int_cell (lr_t r); lr_r r; lr_x r; lr_b r; lr_rate r; lr_tap r; lr_shift r].
  (** an array holding these rows, possibly followed by further columns *)
  Definition holds {R} (cells : R -> list (cell F)) (a : arr F) (rows : list R) : Prop :=
    Forall2 (fun l r => exists more, l = cells r ++ more) a rows.
  (** the dictionary [d] writes the network [nw] *)
  Definition writes (d : rawnet F) (nw : network F) : Prop :=
    rn_base d = Some (Some (nw_base nw)) /\
    (exists a, rn_bus d = Some a /\ holds bus_cells a (nw_bus nw)) /\
    (exists a, rn_dev d = Some a /\ holds dev_cells a (nw_dev nw)) /\
    (exists a, rn_br d = Some a /\ holds branch_cells a (nw_br nw)).
  (** the IDs and types of a network *)
  Definition some_list {A} (o : option A) : list A := match o with Some a => [a] | None => [] end.
  Definition net_ints (nw : network F) : list Z :=
    flat_map (fun r => some_list (br_id r) ++ some_list (br_type r)) (nw_bus nw) ++
    flat_map (fun r => some_list (dr_id r) ++ some_list (dr_bus r) ++ some_list (dr_type r)) (nw_dev nw) ++
    flat_map (fun r => some_list (lr_f r) ++ some_list (lr_t r)) (nw_br nw).
  (** the numbers of [F] represent the whole numbers of [P] exactly: they can be told apart, and [int] gives them back *)
  Definition exact_ints (P : Z -> Prop) : Prop :=
    (forall a b, P a -> P b -> neqb (nofZ a : F) (nofZ b) = Z.eqb a b) /\
    (forall a, P a -> ntrunc (nofZ a : F) = Some a) /\ Forall P [-1; 0; 1; 2; 3]%Z.
  (** the rows of the arrays of a dictionary *)
  Definition rows (o : option (arr F)) : arr F := match o with Some a => a | None => [] end.
  (** column [j] of a row is (equal to) the whole number [z] *)
  Definition cell_is (r : list (cell F)) (j : nat) (z : Z) : Prop :=
    exists v, nth_error r j = Some (Some v) /\ neqb v (nofZ z) = true.
  (** column [j] of a row, rounded towards zero *)
  Definition cell_cut (r : list (cell F)) (j : nat) (z : Z) : Prop :=
    exists v, nth_error r j = Some (Some v) /\ ntrunc v = Some z.
End SpecRaw.
