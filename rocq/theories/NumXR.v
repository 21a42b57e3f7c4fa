(** Exact extended reals: reals plus +inf, -inf and NaN, with the IEEE-754 rules
    for the special values.  Idealisation with respect to Python floats: no
    rounding, no signed zero (x / 0 = +inf for x > 0 and -inf for x < 0). *)
From Coq Require Import Reals Lra.
From Verif Require Import Base Num.
Local Open Scope R_scope.

Inductive XR := Fin (r : R) | PInf | NInf | NaN.

Definition Rleb (x y : R) : bool := if Rle_dec x y then true else false.
Definition Rltb (x y : R) : bool := if Rlt_dec x y then true else false.
Definition Reqb (x y : R) : bool := if Req_EM_T x y then true else false.

Definition xopp (a : XR) : XR :=
  match a with Fin x => Fin (- x) | PInf => NInf | NInf => PInf | NaN => NaN end.
Definition xabs (a : XR) : XR :=
  match a with Fin x => Fin (Rabs x) | PInf => PInf | NInf => PInf | NaN => NaN end.
Definition xadd (a b : XR) : XR :=
  match a, b with
  | Fin x, Fin y => Fin (x + y)
  | NaN, _ => NaN | _, NaN => NaN
  | PInf, NInf => NaN | NInf, PInf => NaN
  | PInf, _ => PInf | _, PInf => PInf
  | NInf, _ => NInf | _, NInf => NInf
  end.
Definition xsub (a b : XR) : XR :=
  match a, b with
  | Fin x, Fin y => Fin (x - y)
  | _, _ => xadd a (xopp b)
  end.
(** infinity of the sign of [x]; NaN for 0 *)
Definition inf_sgn (x : R) : XR :=
  if Rlt_dec 0 x then PInf else if Rlt_dec x 0 then NInf else NaN.
Definition xmul (a b : XR) : XR :=
  match a, b with
  | Fin x, Fin y => Fin (x * y)
  | NaN, _ => NaN | _, NaN => NaN
  | PInf, PInf => PInf | NInf, NInf => PInf
  | PInf, NInf => NInf | NInf, PInf => NInf
  | PInf, Fin y => inf_sgn y | Fin y, PInf => inf_sgn y
  | NInf, Fin y => inf_sgn (- y) | Fin y, NInf => inf_sgn (- y)
  end.
Definition xdiv (a b : XR) : XR :=
  match a, b with
  | NaN, _ => NaN | _, NaN => NaN
  | Fin x, Fin y => if Req_EM_T y 0 then inf_sgn x else Fin (x / y)
  | Fin _, _ => Fin 0
  | PInf, Fin y => if Rlt_dec y 0 then NInf else PInf
  | NInf, Fin y => if Rlt_dec y 0 then PInf else NInf
  | _, _ => NaN
  end.
Definition xleb (a b : XR) : bool :=
  match a, b with
  | NaN, _ => false | _, NaN => false
  | NInf, _ => true | _, PInf => true
  | Fin x, Fin y => Rleb x y
  | _, _ => false
  end.
Definition xltb (a b : XR) : bool :=
  match a, b with
  | NaN, _ => false | _, NaN => false
  | NInf, NInf => false | PInf, PInf => false
  | NInf, _ => true | _, PInf => true
  | Fin x, Fin y => Rltb x y
  | _, _ => false
  end.
Definition xeqb (a b : XR) : bool :=
  match a, b with
  | Fin x, Fin y => Reqb x y
  | PInf, PInf => true | NInf, NInf => true
  | _, _ => false
  end.
Definition xsqrt (a : XR) : XR :=
  match a with
  | Fin x => if Rlt_dec x 0 then NaN else Fin (sqrt x)
  | PInf => PInf | _ => NaN
  end.
Definition xfun (f : R -> R) (a : XR) : XR :=
  match a with Fin x => Fin (f x) | _ => NaN end.

(** The two-argument arctangent on reals, in (-pi, pi]. *)
Definition ratan2 (y x : R) : R :=
  if Rlt_dec 0 x then atan (y / x)
  else if Rlt_dec x 0 then
    (if Rle_dec 0 y then atan (y / x) + PI else atan (y / x) - PI)
  else if Rlt_dec 0 y then PI / 2
  else if Rlt_dec y 0 then - (PI / 2)
  else 0.

(** Infinite arguments follow C99 atan2. *)
Definition xatan2 (y x : XR) : XR :=
  match y, x with
  | NaN, _ => NaN | _, NaN => NaN
  | Fin b, Fin a => Fin (ratan2 b a)
  | Fin b, PInf => Fin 0
  | Fin b, NInf => if Rle_dec 0 b then Fin PI else Fin (- PI)
  | PInf, Fin _ => Fin (PI / 2)
  | NInf, Fin _ => Fin (- (PI / 2))
  | PInf, PInf => Fin (PI / 4)
  | PInf, NInf => Fin (3 * PI / 4)
  | NInf, PInf => Fin (- (PI / 4))
  | NInf, NInf => Fin (- (3 * PI / 4))
  end.

(** Python modulo: x - y * floor(x / y) *)
Definition rmod (x y : R) : R := x - y * IZR (Int_part (x / y)).
Definition xmod (a b : XR) : XR :=
  match a, b with
  | Fin x, Fin y => if Req_EM_T y 0 then NaN else Fin (rmod x y)
  | _, _ => NaN
  end.
(** Python [int]: truncation towards zero *)
Definition rtrunc (x : R) : Z := if Rle_dec 0 x then Int_part x else (- Int_part (- x))%Z.
Definition xtrunc (a : XR) : option Z :=
  match a with Fin x => Some (rtrunc x) | _ => None end.

#[global] Instance XRnum : Num XR := {|
  n0 := Fin 0; n1 := Fin 1;
  nadd := xadd; nsub := xsub; nmul := xmul; ndiv := xdiv;
  nopp := xopp; nabs := xabs;
  nleb := xleb; nltb := xltb; neqb := xeqb;
  ninf := PInf; nnan := NaN;
  nofZ := fun z => Fin (IZR z);
  nsqrt := xsqrt; nsin := xfun sin; ncos := xfun cos; natan2 := xatan2; npi := Fin PI;
  nmod := xmod; ntrunc := xtrunc
|}.
