(** Number dictionaries.  The model is generic in the number type [F]; the
    dictionary [Num F] lists the operations that the Python/numpy code uses on
    floats. *)
From Verif Require Import Base.

Class Num (F : Type) := {
  n0 : F; n1 : F;
  nadd : F -> F -> F; nsub : F -> F -> F; nmul : F -> F -> F; ndiv : F -> F -> F;
  nopp : F -> F; nabs : F -> F;
  nleb : F -> F -> bool; nltb : F -> F -> bool; neqb : F -> F -> bool;
  ninf : F; nnan : F;
  nofZ : Z -> F;
  nsqrt : F -> F; nsin : F -> F; ncos : F -> F; natan2 : F -> F -> F; npi : F;
  nmod : F -> F -> F;        (* Python [a % b] *)
  ntrunc : F -> option Z     (* Python [int(a)]; None: NaN or infinity *)
}.

Declare Scope num_scope.
Delimit Scope num_scope with num.
Infix "+" := nadd : num_scope.
Infix "-" := nsub : num_scope.
Infix "*" := nmul : num_scope.
Infix "/" := ndiv : num_scope.
Notation "- x" := (nopp x) : num_scope.
Infix "<=?" := nleb : num_scope.
Infix "<?" := nltb : num_scope.
Infix "=?" := neqb : num_scope.

Section Ops.
  Context {F : Type} {N : Num F}.
  Local Open Scope num_scope.

  (** [np.isnan] *)
  Definition nisnan (x : F) : bool := negb (x =? x).
  (** The literal [a / b]. *)
  Definition nrat (a b : Z) : F := nofZ a / nofZ b.
  Definition nninf : F := - ninf.

  (** [np.maximum], [np.minimum] (NaN in either argument is propagated). *)
  Definition np_max (a b : F) : F := if (b <=? a) || nisnan a then a else b.
  Definition np_min (a b : F) : F := if (a <=? b) || nisnan a then a else b.
  (** [np.clip(x, lo, hi)] = minimum(maximum(x, lo), hi) *)
  Definition np_clip (x lo hi : F) : F := np_min (np_max x lo) hi.

  (** [np.sign] of a real number *)
  Definition np_sign (x : F) : F :=
    if nisnan x then x else if n0 <? x then n1 else if x <? n0 then - n1 else n0.

  (** Division of two Python floats (not numpy scalars): raises on zero. *)
  Definition pydiv (a b : F) : res F :=
    if b =? n0 then Err ZeroDivisionError else Ok (a / b).

  (** [sum] of a list, from the left, starting at 0. *)
  Definition nsum (l : list F) : F := fold_left nadd l n0.
End Ops.

(** Complex numbers (numpy complex128) as pairs.  Simplification: division is the
    textbook formula and the modulus is sqrt(re^2 + im^2), whereas numpy uses
    scaled variants that give the same exact value. *)
Record cplx (F : Type) := mkC { re : F; im : F }.
Arguments mkC {F} re im.
Arguments re {F} c.
Arguments im {F} c.

Section Cplx.
  Context {F : Type} {N : Num F}.
  Local Open Scope num_scope.
  Definition c0 : cplx F := mkC n0 n0.
  Definition c1 : cplx F := mkC n1 n0.
  Definition cadd (a b : cplx F) := mkC (re a + re b) (im a + im b).
  Definition csub (a b : cplx F) := mkC (re a - re b) (im a - im b).
  Definition copp (a : cplx F) := mkC (- re a) (- im a).
  Definition cmul (a b : cplx F) :=
    mkC (re a * re b - im a * im b) (re a * im b + im a * re b).
  Definition cconj (a : cplx F) := mkC (re a) (- im a).
  (** |a|^2 *)
  Definition cnorm2 (a : cplx F) : F := re a * re a + im a * im a.
  Definition cabs (a : cplx F) : F := nsqrt (cnorm2 a).
  (** complex times / divided by a real *)
  Definition cscale (k : F) (a : cplx F) := mkC (k * re a) (k * im a).
  Definition cdivr (a : cplx F) (k : F) := mkC (re a / k) (im a / k).
  Definition cdiv (a b : cplx F) := cdivr (cmul a (cconj b)) (cnorm2 b).
  (** [np.angle] *)
  Definition cangle (a : cplx F) : F := natan2 (im a) (re a).
  (** [np.exp(1j * t)] *)
  Definition cexpi (t : F) : cplx F := mkC (ncos t) (nsin t).
  Definition csum (l : list (cplx F)) : cplx F := fold_left cadd l c0.
End Cplx.

(** Laws of the order that hold both for exact extended reals and for IEEE floats. *)
Class NumOrd (F : Type) {N : Num F} := {
  ord_refl : forall x : F, nisnan x = false -> nleb x x = true;
  ord_trans : forall x y z : F, nleb x y = true -> nleb y z = true -> nleb x z = true;
  ord_total : forall x y : F, nisnan x = false -> nisnan y = false ->
                              nleb x y = true \/ nleb y x = true;
  ord_nan : forall x y : F, nleb x y = true -> nisnan x = false /\ nisnan y = false;
  ord_lt : forall x y : F, nltb x y = true <->
             (nleb x y = true /\ nleb y x = false);
  ord_zero : nisnan n0 = false
}.
