(** IEEE-754 binary64, i.e. Python's float, through Coq's primitive floats.
    The library functions sin, cos, atan2, fmod and truncation to an integer are
    parameters of the dictionary. *)
From Coq Require Import Floats ZArith Uint63.
From Verif Require Import Base Num.

Definition float_of_Z (z : Z) : float :=
  match z with
  | Z0 => 0%float
  | Zpos _ => PrimFloat.of_uint63 (Uint63.of_Z z)
  | Zneg p => PrimFloat.opp (PrimFloat.of_uint63 (Uint63.of_Z (Zpos p)))
  end.

Record libm := mkLibm {
  fsin : float -> float; fcos : float -> float; fatan2 : float -> float -> float;
  ffmod : float -> float -> float; ftrunc : float -> option Z }.

Definition Fnum (L : libm) : Num float := {|
  n0 := 0%float; n1 := 1%float;
  nadd := PrimFloat.add; nsub := PrimFloat.sub; nmul := PrimFloat.mul; ndiv := PrimFloat.div;
  nopp := PrimFloat.opp; nabs := PrimFloat.abs;
  nleb := PrimFloat.leb; nltb := PrimFloat.ltb; neqb := PrimFloat.eqb;
  ninf := PrimFloat.infinity; nnan := PrimFloat.nan;
  nofZ := float_of_Z;
  nsqrt := PrimFloat.sqrt; nsin := fsin L; ncos := fcos L; natan2 := fatan2 L;
  nmod := ffmod L; ntrunc := ftrunc L;
  npi := 0x1.921fb54442d18p+1%float
|}.
