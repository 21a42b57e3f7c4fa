(** Plain reals as a number dictionary, for the parts of the model that involve no
    infinity: [ninf] and [nnan] are arbitrary (0) and must not be used there. *)
From Coq Require Import Reals Lra.
From Verif Require Import Base Num NumXR.
Local Open Scope R_scope.

#[global] Instance Rnum : Num R := {|
  n0 := 0; n1 := 1;
  nadd := Rplus; nsub := Rminus; nmul := Rmult; ndiv := Rdiv;
  nopp := Ropp; nabs := Rabs;
  nleb := Rleb; nltb := Rltb; neqb := Reqb;
  ninf := 0; nnan := 0;
  nofZ := IZR;
  nsqrt := sqrt; nsin := sin; ncos := cos; natan2 := ratan2; npi := PI;
  nmod := rmod; ntrunc := fun x => Some (rtrunc x)
|}.
