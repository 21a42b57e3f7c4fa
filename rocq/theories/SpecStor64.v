(** C89 in words: the power of a storage unit over a sequence of transitions, and a storage unit without losses. *)
From Coq Require Import Floats ZArith List.
From Verif Require Import Base Num NumFloat Devices BusBranch CheckNetwork Simulator SpecSim.
Import ListNotations.
Local Open Scope string_scope.
Local Open Scope list_scope.

(** The efficiency column of a row; none is 1. *)
Definition eff64 (r : dev_row float) : float := match dr_eff r with None => 1%float | Some v => v end.
(** [powers L i s ps s']: transitions that return lead from [s] to [s'], and after each of them device [i] reports its power, in per-unit, in the list [ps]. *)
Inductive powers (L : libm) (i : Z) (s : sim float) : list float -> sim float -> Prop :=
| pw_none : powers L i s [] s
| pw_more ps s1 Or inp s2 out p : powers L i s ps s1 -> transition (N := Fnum L) Or inp s1 = (s2, Ok out) -> obs s2 "dev_p" "pu" (EId i) = Some p -> powers L i s (ps ++ [p]) s2.
(** A storage unit without losses, in binary64: it gives [dt * p] and is cut off at its limits. *)
Definition cut (lo hi x : float) : float := if PrimFloat.ltb x lo then lo else if PrimFloat.ltb hi x then hi else x.
Definition lossless (dt lo hi c : float) (ps : list float) : float := fold_left (fun c p => cut lo hi (c - dt * p)) ps c.
