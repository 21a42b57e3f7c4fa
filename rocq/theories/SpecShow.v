(** The vocabulary of C86: the red crosses of the picture. *)
From Coq Require Import Reals.
From Verif Require Import Base Num NumXR SvgLabels Page SpecPage.
Local Open Scope list_scope.

(** a red cross is drawn on some bus or on some branch *)
Definition alarm (d : @dom XR) : Prop :=
  (exists L, In L svg_buses /\ crossed d (bl_cross L)) \/ (exists L, In L svg_lines /\ crossed d (ll_cross L)).
(** no bus and no branch has a red cross *)
Definition quiet (d : @dom XR) : Prop :=
  (forall L, In L svg_buses -> not_crossed d (bl_cross L)) /\ (forall L, In L svg_lines -> not_crossed d (ll_cross L)).
