(** A run of ANM6Easy in binary64 arithmetic, with the reference solvers of Exec.v. *)
From Coq Require Import Floats Uint63.
From Verif Require Import Base Num NumFloat Devices BusBranch CheckNetwork LoadFlow Simulator EnvArgs Env Anm6 Exec SpecSim SpecEnv SpecAnm6 LibNum ProofEasy PropEasy PropEasy2.
Local Open Scope string_scope.
Local Open Scope list_scope.

(** sin and cos by their Taylor polynomials (enough for the small angles of the run), atan2 by asin's series near 0, fmod and truncation by
    the integer part of a float below 2^62. *)
Definition tsin (x : float) : float := (x * (1 - x * x / 6 * (1 - x * x / 20 * (1 - x * x / 42 * (1 - x * x / 72)))))%float.
Definition tcos (x : float) : float := (1 - x * x / 2 * (1 - x * x / 12 * (1 - x * x / 30 * (1 - x * x / 56))))%float.
Definition tatan2 (y x : float) : float := let t := (y / x)%float in (t * (1 - t * t * (1 / 3 - t * t * (1 / 5 - t * t / 7))))%float.
Definition tint (x : float) : Z := match PrimFloat.compare x 0 with
  | FLt => (- match Prim2SF (- x)%float with S754_finite _ m e => Z.shiftl (Zpos m) e | _ => 0 end)%Z
  | _ => match Prim2SF x with S754_finite _ m e => Z.shiftl (Zpos m) e | _ => 0%Z end end.
Definition tlibm : libm := mkLibm tsin tcos tatan2 (fun x y => (x - y * float_of_Z (tint (x / y)))%float) (fun x => Some (tint x)).
Definition tor : oracles float := mkOr (proj_qp (N := Fnum tlibm)) (gauss_solve (N := Fnum tlibm)).
(** a generator that counts its draws; [integers] returns the counter modulo the range, [uniform] the lower end *)
Definition trng : rng_ops float nat := mkRng (fun lo hi g => ((lo + Z.of_nat g mod (hi - lo))%Z, S g)) (fun lo hi g => (lo, S g)).
Lemma tlibm_exact : small_ints_exact tlibm.
Proof. split; intros k H; [each_below 97%nat k H|each_below 96%nat k H]; vm_compute; reflexivity. Qed.
Lemma trng_sound : rng_sound (N := Fnum tlibm) trng.
Proof.
  split; cbn [r_int r_unif trng fst].
  - intros lo hi g H. pose proof (Z.mod_pos_bound (Z.of_nat g) (hi - lo)). lia.
  - intros lo hi g H. split; [|exact H]. apply (ord_refl (NumOrd := Ford tlibm)). apply (ord_nan (NumOrd := Ford tlibm)) in H. apply H.
Qed.
(** [make] with a generator at 30, a reset (its first attempt starts at index 30, that is 7:30) and two steps *)
Definition tsf (z : Z) : nat := Z.to_nat z.
Definition tact1 : list float := [3; 10; 0; 0; 5; 0]%float.
Definition tact2 : list float := [3; 10; 0; 0; -5; 0]%float.
Definition near (x : option float) (y : float) : bool :=
  match x with Some v => PrimFloat.ltb (PrimFloat.abs (v - y)) 0x1p-30 | None => false end.
Definition tcheck (a0 a1 a2 a3 : anm6 float nat) : bool :=
  near (time_index a1) 30 && near (time_index a2) 31 && near (time_index a3) 32 &&
  (* C45: 7:30 of day 1 plus n times 15 minutes *)
  match a_date a1, a_date a3 with Some d1, Some d3 => ((d1 mod 1440 =? 450) && (d3 =? d1 + 30))%Z | _, _ => false end &&
  (* C47: the initial charge *)
  near (obs (e_sim (a_env a1)) "des_soc" "MWh" (EId 6)) 0 &&
  (* C63: at 8:00, the demands and potentials of the second period *)
  near (obs (e_sim (a_env a3)) "dev_p" "MW" (EId 1)) (-5) && near (obs (e_sim (a_env a3)) "dev_q" "MVAr" (EId 1)) (-1) &&
  near (obs (e_sim (a_env a3)) "dev_p" "MW" (EId 3)) (-10) && near (obs (e_sim (a_env a3)) "dev_p" "MW" (EId 5)) (-25) &&
  near (obs (e_sim (a_env a3)) "gen_p_max" "MW" (EId 2)) 4 && near (obs (e_sim (a_env a3)) "gen_p_max" "MW" (EId 4)) 11.
Definition trun : bool :=
  match easy_make (N := Fnum tlibm) 30%nat with
  | Ok a0 => match easy_reset (N := Fnum tlibm) tor trng tsf None None a0 with
    | (a1, Ok ob) => match easy_step (N := Fnum tlibm) tor trng tsf tact1 a1 with
      | (a2, Ok o2) => match easy_step (N := Fnum tlibm) tor trng tsf tact2 a2 with
        | (a3, Ok o3) => negb (so_terminated o2) && negb (so_terminated o3) && tcheck a0 a1 a2 a3
        | _ => false end
      | _ => false end
    | _ => false end
  | Err _ => false end.
Lemma trun_ok : trun = true.
Proof. vm_compute. reflexivity. Qed.
(** The hypotheses of C44, C45, C47 (and the shape of those of C63) are met by a run of binary64 arithmetic, whose values are those of the claims. *)
Example C44_ex : clock_ok (N := Fnum tlibm) /\ rng_sound (N := Fnum tlibm) trng /\ exists a0 a1 ob a2 a3,
  easy_make (N := Fnum tlibm) 30%nat = Ok a0 /\ easy_reset (N := Fnum tlibm) tor trng tsf None None (run6 (N := Fnum tlibm) trng tsf a0 []) = (a1, Ok ob) /\
  stepping (N := Fnum tlibm) trng tsf alive 1 a1 a2 /\ stepping (N := Fnum tlibm) trng tsf alive 2 a1 a3 /\ tcheck a0 a1 a2 a3 = true.
Proof.
  split; [apply clock_float, tlibm_exact|]. split; [apply trng_sound|]. pose proof trun_ok as H. unfold trun in H.
  destruct (easy_make 30%nat) as [a0|] eqn:E0; [|discriminate]. destruct (easy_reset tor trng tsf None None a0) as (a1, [ob|]) eqn:E1; [|discriminate].
  destruct (easy_step tor trng tsf tact1 a1) as (a2, [o2|]) eqn:E2; [|discriminate]. destruct (easy_step tor trng tsf tact2 a2) as (a3, [o3|]) eqn:E3; [|discriminate].
  apply andb_true_iff in H as (H & C). apply andb_true_iff in H as (H2 & H3). apply negb_true_iff in H2, H3.
  assert (S1 : stepping (N := Fnum tlibm) trng tsf alive 1 a1 a2) by (eapply SStep; [apply SNone|exact E2|exact H2]).
  exists a0, a1, ob, a2, a3. split; [auto|]. split; [exact E1|]. split; [auto|]. split; [eapply SStep; [exact S1|exact E3|exact H3]|exact C].
Qed.

Print Assumptions C44_ex.
