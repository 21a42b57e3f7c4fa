(** Properties of device, branch and bus validation: C12, C13. *)
From Coq Require Import Reals Lra.
From Verif Require Import Base Num NumXR Devices BusBranch CheckNetwork Simulator LibBase LibNum LibXR SpecDev LibInit ProofDev LibEval ExNet.
Local Open Scope R_scope.

(** C12 (non-load rows: exactly the documented rules; load rows: PMAX compared undivided,
    see the refutation below). *)
Theorem C12_device_validation : forall (b : R) (r : dev_row XR) (ids : list Z), 0 < b -> dev_row_fin r ->
  ((exists c d, dev_class r = Ok c /\ dev_init c r ids (Fin b) = Ok d) <-> dev_valid r ids b 1).
Proof. exact dev_valid_iff. Qed.
Theorem C12_gen_stor_validation : forall (b : R) (r : dev_row XR) (ids : list Z), 0 < b -> dev_row_fin r ->
  dr_type r <> Some (-1)%Z ->
  ((exists c d, dev_class r = Ok c /\ dev_init c r ids (Fin b) = Ok d) <-> dev_valid r ids b b).
Proof. exact dev_valid_nonload. Qed.
(** The documented rules for loads are not the implemented ones: a valid row is rejected and
    an invalid one is accepted. *)
Theorem C12_load_refuted :
  (exists b r ids, 0 < b /\ dev_row_fin r /\ dev_valid r ids b b /\
     ~ exists c d, dev_class r = Ok c /\ dev_init c r ids (Fin b) = Ok d) /\
  (exists b r ids, 0 < b /\ dev_row_fin r /\ ~ dev_valid r ids b b /\
     exists c d, dev_class r = Ok c /\ dev_init c r ids (Fin b) = Ok d).
Proof. exact dev_valid_load_refuted. Qed.

(** C13 *)
Theorem C13_branch_validation : forall (b : R) (r : branch_row XR) (ids : list Z), 0 < b -> branch_row_fin r ->
  ((exists l, branch_init r (Fin b) ids = Ok l) <-> branch_valid r ids).
Proof. intros b r ids H. exact (branch_init_iff b H r ids). Qed.
Theorem C13_bus_validation : forall (r : bus_row XR), bus_row_fin r ->
  ((exists u, bus_init r = Ok u) <-> bus_valid r).
Proof. exact bus_init_iff. Qed.

(** Rows that meet the hypotheses: a storage unit that is accepted, the same with SOC_MAX missing
    rejected; a line and a bus that are accepted. *)
Example C12_ex : 0 < 10 /\ dev_row_fin ex_stor /\ dr_type ex_stor <> Some (-1)%Z /\
  (exists d, dev_init CStor ex_stor [0; 1]%Z (Fin 10) = Ok d) /\ dev_class ex_stor = Ok CStor.
Proof.
  split; [lra|]. split; [repeat apply Forall_cons; try apply Forall_nil; intros v E; inversion E; exact (fin_Fin _)|]. split; [discriminate|]. split; [|reflexivity].
  eexists; exact ex_stor_ok.
Qed.
Example C13_ex : branch_row_fin ex_line /\ bus_row_fin ex_bus1 /\
  (exists l, branch_init ex_line (Fin 10) [0; 1]%Z = Ok l) /\ (exists u, bus_init ex_bus1 = Ok u).
Proof. split; [repeat apply Forall_cons; try apply Forall_nil; intros v E; inversion E; exact (fin_Fin _)|]. split; [repeat apply Forall_cons; try apply Forall_nil; intros v E; inversion E; exact (fin_Fin _)|]. split; eexists; [exact ex_line_ok|exact ex_bus1_ok]. Qed.

Print Assumptions C12_device_validation.
Print Assumptions C12_gen_stor_validation.
Print Assumptions C12_load_refuted.
Print Assumptions C13_branch_validation.
Print Assumptions C13_bus_validation.
