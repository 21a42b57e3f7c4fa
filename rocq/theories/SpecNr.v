(** The Newton-Raphson iteration, as a relation (independent of the loop of the code). *)
From Verif Require Import Base Num LoadFlow.
Local Open Scope num_scope.

Section SpecNr.
  Context {F : Type} {N : Num F}.
  (** the power-flow residual of a guess and its largest absolute value *)
  Definition residual (p q : list F) (Y : list (list (cplx F))) (g Fv : list F) (d : F) : Prop :=
    f_pfe g p q Y = Ok Fv /\ norm_inf Fv = Ok d.
  (** [n] Newton steps lead from [g] to [g']; a step is only taken while the residual exceeds [tol] *)
  Inductive nr_steps (lin : lin_solver F) (p q : list F) (Y : list (list (cplx F))) (tol : F) (g : list F) : nat -> list F -> Prop :=
  | nr_start : nr_steps lin p q Y tol g 0 g
  | nr_more n g1 F1 d1 dx g2 : nr_steps lin p q Y tol g n g1 -> residual p q Y g1 F1 d1 -> tol <? d1 = true ->
      lin (jacobian g1 Y) F1 = Ok dx -> vec_sub g1 dx = Ok g2 -> nr_steps lin p q Y tol g (S n) g2.
  (** flat start: angles 0, magnitudes 1 *)
  Definition flat (nbus : nat) : list F := repeat n0 (nbus - 1) ++ repeat n1 (nbus - 1).
End SpecNr.
