(** C19: the matrix handed to the linear solver at every Newton step is the derivative of the mismatch. *)
From Coq Require Import Reals Lra Lia.
From Verif Require Import Base Num NumXR NumR LibBase LoadFlow ProofJac.
Local Open Scope R_scope.

(** entry [i] of [_f(guess, p, q, Y)] *)
Definition f_entry (p q : list R) (Y : list (list (cplx R))) (i : nat) (guess : list R) : R :=
  match f_pfe guess p q Y with Ok Fv => nth i Fv 0 | Err _ => 0 end.

(** For a network of n + 1 buses: [_f] is defined at every guess, and entry (i, j) of [_dfdx] is the
    derivative of entry i of [_f] along unknown j. *)
Theorem C19_jacobian : forall n (guess p q : list R) (Y : list (list (cplx R))),
  List.length guess = (2 * n)%nat -> List.length p = n -> List.length q = n ->
  List.length Y = S n -> Forall (fun row => List.length row = S n) Y ->
  (forall k, (n <= k < 2 * n)%nat -> 0 < nth k guess 0) ->
  List.length (jacobian guess Y) = (2 * n)%nat /\
  (forall x, List.length x = (2 * n)%nat -> exists Fv, f_pfe x p q Y = Ok Fv /\ List.length Fv = (2 * n)%nat) /\
  forall i j, (i < 2 * n)%nat -> (j < 2 * n)%nat -> exists row d,
    nth_error (jacobian guess Y) i = Some row /\ List.length row = (2 * n)%nat /\ nth_error row j = Some d /\
    derivable_pt_lim (fun x => f_entry p q Y i (list_set guess j x)) (nth j guess 0) d.
Proof.
  intros n g p q Y Lg Lp Lq LY LR Hm.
  split.
  { unfold jacobian. assert (Lv : List.length (construct_v g) = S n) by (rewrite (construct_volt n g Lg), map_length, seq_length; auto).
    rewrite app_length, !zip_with_length, !(jac_mat_len _ _ _ _ n) by (auto; unfold mat_vec; rewrite map_length; auto). lia. }
  split. { intros x Lx. destruct (f_pfe_nth n x p q Y Lx LY LR Lp Lq) as (Fv & E & L & _). eauto. }
  intros i j Hi Hj. destruct (jac_nth n g Y Lg LY LR i j Hi Hj) as (row & Er & Lr & Ed). exists row; eexists; split; [exact Er|].
  split; [exact Lr|]. split; [exact Ed|].
  assert (Hb : (bus_of n j < S n)%nat) by (unfold bus_of; destruct (Nat.ltb_spec j n); lia).
  assert (G : forall i', (i' < n)%nat -> cder (fun t => csub (cmul (volt n (list_set g j t) (S i')) (cconj (dotc (nth (S i') Y []) (map (volt n (list_set g j t)) (seq 0 (S n)))))) (mkC (nth i' p 0) (nth i' q 0)))
     (nth j g 0) (centry n g Y i' j)).
  { intros i' Hi'. destruct (row_ex n g Y Lg LY LR (S i')) as (r & E & L); [lia|]. rewrite (nth_error_nth _ _ [] E).
    destruct (nth_error r (bus_of n j)) as [y|] eqn:Ey; [|apply nth_error_None in Ey; lia].
    rewrite (centry_der n g Y Lg LY i' j r y Hi' Hj) by (auto; intros k Hk; apply Hm; lia).
    apply cder_sub_const. apply (cder_prod n g Y); auto; lia. }
  assert (Ls : forall t, List.length (list_set g j t) = (2 * n)%nat) by (intros t; rewrite list_set_length; auto).
  destruct (Nat.ltb_spec i n) as [H|H].
  - destruct (G i H) as (A & _). eapply dpl_ext; [|exact A]. intros t. unfold f_entry.
    destruct (f_pfe_nth n (list_set g j t) p q Y (Ls t) LY LR Lp Lq) as (Fv & E & L & K). rewrite E.
    destruct (row_ex n g Y Lg LY LR (S i)) as (r & Ey & _); [lia|]. rewrite (nth_error_nth _ _ [] Ey). symmetry. apply (K i r H Ey).
  - destruct (G (i - n)%nat) as (_ & B); [lia|]. eapply dpl_ext; [|exact B]. intros t. unfold f_entry.
    destruct (f_pfe_nth n (list_set g j t) p q Y (Ls t) LY LR Lp Lq) as (Fv & E & L & K). rewrite E.
    destruct (row_ex n g Y Lg LY LR (S (i - n))) as (r & Ey & _); [lia|]. rewrite (nth_error_nth _ _ [] Ey). symmetry.
    replace i with (n + (i - n))%nat at 1 by lia. apply (K (i - n)%nat r); [lia|exact Ey].
Qed.

(** Three buses, a matrix without symmetry. *)
Example C19_ex :
  let Y := [[mkC 1 2; mkC 0 3; mkC 2 0]; [mkC 4 0; mkC 1 (-1); mkC 0 5]; [mkC 7 1; mkC 1 1; mkC 2 6]] in
  let guess := [1; 2; / 2; 3] in
  List.length guess = (2 * 2)%nat /\ List.length Y = 3%nat /\ Forall (fun row => List.length row = 3%nat) Y /\
  (forall k, (2 <= k < 4)%nat -> 0 < nth k guess 0).
Proof.
  cbn. repeat split; auto. intros k Hk. destruct k as [|[|[|[|k]]]]; cbn; try lia; lra.
Qed.

Print Assumptions C19_jacobian.
