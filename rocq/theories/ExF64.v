(** C87 beside binary64 runs on the 6-bus network: one transition without penalty, one with. *)
From Coq Require Import Floats ZArith List Bool.
From Verif Require Import Base Num NumFloat Devices BusBranch CheckNetwork LoadFlow Simulator EnvArgs Env Anm6 Exec SpecSim SpecEnv SpecAnm6 ProofEasy PropEasy SpecF64 ExFloat ExEasy PropF64.
Import ListNotations.
Local Open Scope string_scope.
Local Open Scope list_scope.

Definition net64 : network float := anm6_network (N := Fnum tlibm).
Definition inp64 (l p : float) : tr_in float := mkIn [(1%Z, l); (3%Z, l); (5%Z, l)] [(2%Z, p); (4%Z, p)] [(2%Z, p); (4%Z, p); (6%Z, 0%float)] [(2%Z, 0%float); (4%Z, 0%float); (6%Z, 0%float)].
Definition start64 : list (call float) := [CReset tor [0; -1; 1; -1; 1; -1; 0; 0; 0; 0; 0; 0; 0; 0; 50; 1; 1]%float].
Definition buses_ok (s : sim float) (ok : float -> bool) : bool :=
  forallb (fun r => match br_id r with Some k => match obs s "bus_v_magn" "pu" (EId k) with Some v => ok v | None => false end | None => true end) (nw_bus net64).
Definition brs_ok (s : sim float) (ok : float -> bool) : bool :=
  forallb (fun r => match lr_f r, lr_t r with Some f, Some t => match obs s "branch_s" "pu" (EBr f t) with Some v => ok v | None => false end | _, _ => true end) (nw_br net64).
Definition finb (v : float) : bool := PrimFloat.ltb (PrimFloat.abs v) infinity.
Definition limb : bool := forallb (fun r => match br_vmin r, br_vmax r with Some a, Some b => PrimFloat.eqb a a && PrimFloat.eqb b b | _, _ => false end) (nw_bus net64) &&
  forallb (fun r => PrimFloat.eqb (rating net64 r) (rating net64 r)) (nw_br net64).
Lemma limits_ok : limits_numbers net64.
Proof.
  assert (H : limb = true) by (vm_compute; reflexivity). apply andb_true_iff in H as (H1 & H2). rewrite forallb_forall in H1, H2. split.
  - intros r x I E. specialize (H1 r I). destruct (br_vmin r) as [a|]; [|discriminate H1]. destruct (br_vmax r) as [b|]; [|discriminate H1]. apply andb_true_iff in H1 as (A & B). unfold num64. destruct E as [E|E]; injection E as <-; auto.
  - intros r I. apply H2, I.
Qed.
Lemma readings_ok s : buses_ok s finb = true -> brs_ok s finb = true -> readings_finite net64 s.
Proof.
  unfold buses_ok, brs_ok. rewrite !forallb_forall. intros H1 H2. split.
  - intros r k I E. specialize (H1 r I). rewrite E in H1. destruct (obs s "bus_v_magn" "pu" (EId k)) as [v|]; [|discriminate H1]. exists v. auto.
  - intros r f t I Ef Et. specialize (H2 r I). rewrite Ef, Et in H2. destruct (obs s "branch_s" "pu" (EBr f t)) as [v|]; [|discriminate H2]. exists v. auto.
Qed.
Definition go64 (l p : float) (zero : bool) : bool := match sim_init (N := Fnum tlibm) net64 0.25%float 100%float with
  | Ok s0 => match transition (N := Fnum tlibm) tor (inp64 l p) (run (N := Fnum tlibm) s0 start64) with
    | (s', Ok (st, rw, el, pen, c)) => c && buses_ok s' finb && brs_ok s' finb && Bool.eqb (PrimFloat.eqb pen 0) zero | _ => false end
  | _ => false end.
Lemma go64_ok : go64 (-1)%float 1%float true = true /\ go64 (-20)%float 0%float false = true.
Proof. split; vm_compute; reflexivity. Qed.
Lemma go64_inv l p z : go64 l p z = true -> exists s0 s' st rw el pen, sim_init (N := Fnum tlibm) net64 0.25%float 100%float = Ok s0 /\
  transition (N := Fnum tlibm) tor (inp64 l p) (run (N := Fnum tlibm) s0 start64) = (s', Ok (st, rw, el, pen, true)) /\ readings_finite net64 s' /\ PrimFloat.eqb pen 0 = z.
Proof.
  unfold go64. intros H. destruct (sim_init net64 0.25%float 100%float) as [s0|] eqn:E0; [|discriminate]. destruct (transition tor (inp64 l p) (run s0 start64)) as (s', [((((st, rw), el), pen), c)|]) eqn:E1; [|discriminate].
  apply andb_true_iff in H as (H & Hz). apply andb_true_iff in H as (H & H2). apply andb_true_iff in H as (-> & H1). exists s0, s', st, rw, el, pen. split; auto. split; auto. split; [apply readings_ok; auto|]. apply eqb_prop. exact Hz.
Qed.
(** All hypotheses of [C87_penalty] are met twice: with light loads nothing is violated and the penalty is 0, with heavy loads it is positive. *)
Example C87_penalty_ex : limits_numbers net64 /\ (PrimFloat.leb 1 (0.25 * 100) && PrimFloat.ltb (0.25 * 100) infinity)%float = true /\
  (exists s0 s' st rw el pen, sim_init (N := Fnum tlibm) net64 0.25%float 100%float = Ok s0 /\
    transition (N := Fnum tlibm) tor (inp64 (-1) 1) (run (N := Fnum tlibm) s0 start64) = (s', Ok (st, rw, el, pen, true)) /\ readings_finite net64 s' /\ respected net64 s') /\
  (exists s0 s' st rw el pen, sim_init (N := Fnum tlibm) net64 0.25%float 100%float = Ok s0 /\
    transition (N := Fnum tlibm) tor (inp64 (-20) 0) (run (N := Fnum tlibm) s0 start64) = (s', Ok (st, rw, el, pen, true)) /\ readings_finite net64 s' /\ ~ respected net64 s').
Proof.
  split; [exact limits_ok|]. split; [vm_compute; reflexivity|]. destruct go64_ok as (A & B). split.
  - destruct (go64_inv _ _ _ A) as (s0 & s' & st & rw & el & pen & H1 & H2 & H3 & H4). exists s0, s', st, rw, el, pen. split; auto. split; auto. split; auto. apply (C87_penalty tlibm net64 _ _ s0 start64 tor _ s' st rw el pen true H1 H2 limits_ok H3 eq_refl eq_refl). exact H4.
  - destruct (go64_inv _ _ _ B) as (s0 & s' & st & rw & el & pen & H1 & H2 & H3 & H4). exists s0, s', st, rw, el, pen. split; auto. split; auto. split; auto. intros R.
    apply (C87_penalty tlibm net64 _ _ s0 start64 tor _ s' st rw el pen true H1 H2 limits_ok H3 eq_refl eq_refl) in R. rewrite R in H4. discriminate.
Qed.
(** The three cases of [C87_easy] (hence of [C87_reward] and [C87_collapse]) occur in the run of ExEasy.v: a step, a collapse, a step of the ended episode. *)
Example C87_easy_ex : small_ints_exact tlibm /\ exists a0 a1 ob a2 a3 a4 o1 o2 o3,
  easy_make (N := Fnum tlibm) 30%nat = Ok a0 /\ easy_reset (N := Fnum tlibm) tor trng tsf None None a0 = (a1, Ok ob) /\
  easy_step (N := Fnum tlibm) tor trng tsf tact1 a1 = (a2, Ok o1) /\ easy_step (N := Fnum tlibm) bad_or trng tsf tact1 a2 = (a3, Ok o2) /\
  easy_step (N := Fnum tlibm) tor trng tsf tact1 a3 = (a4, Ok o3) /\ rwcheck a2 a3 o1 o2 o3 = true.
Proof. split; [exact tlibm_exact|]. exact C74_run_ex. Qed.
