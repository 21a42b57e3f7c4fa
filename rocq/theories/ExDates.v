(** C72 and C73 on runs of binary64 arithmetic. *)
From Coq Require Import Floats Uint63.
From Verif Require Import Base Num NumFloat Devices BusBranch CheckNetwork LoadFlow Simulator EnvArgs Env Anm6 Exec SpecSim SpecEnv SpecAnm6 SpecDates LibBase PropDates ExFloat.
Local Open Scope string_scope.
Local Open Scope list_scope.

(** An ANM6 environment on the 6-bus network with a timestep of 400 days. *)
Definition year_env : res (anm6 float nat) :=
  let* e := env_init (N := Fnum tlibm) (anm6_network (N := Fnum tlibm)) ObsState 1 9600%float 0.5%float 100%float (Some [(0%float, 95%float)]) None 30%nat in
  anm6_init (N := Fnum tlibm) 9600%float e.
Definition date_is (a : anm6 float nat) (d di y : Z) : bool :=
  match a_date a, a_date_init a with Some x, Some xi => (x =? d)%Z && (xi =? di)%Z && (a_year a =? y)%Z | _, _ => false end.
Definition year_run : bool :=
  match year_env with
  | Err _ => false
  | Ok a0 =>
      let T := easy_task (N := Fnum tlibm) trng tsf (e_sim (a_env a0)) in
      match anm6_reset (N := Fnum tlibm) tor T trng None (Some 1440%Z) a0 with
      | (a1, Ok ob) =>
          match anm6_step (N := Fnum tlibm) tor T [3; 10; 0; 0; 0; 0]%float a1 with
          | (a2, Ok o2) => (a_len a0 =? 576000)%Z && date_is a1 1440 1440 0 && date_is a2 577440 1440 1 && date_is (reset_date 77 a2) 77 77 1
          | _ => false end
      | _ => false end
  end.
Lemma year_run_ok : year_run = true.
Proof. vm_compute. reflexivity. Qed.
Lemma date_is_inv a d di y : date_is a d di y = true -> a_date a = Some d /\ a_date_init a = Some di /\ a_year a = y.
Proof.
  unfold date_is. destruct (a_date a) as [x|], (a_date_init a) as [xi|]; try discriminate. intros H. apply andb_true_iff in H as (H & Y). apply andb_true_iff in H as (A & B).
  apply Z.eqb_eq in A, B, Y. subst. auto.
Qed.
(** The docstring of [reset_date] says that it resets the year count: it does not. *)
Theorem C72_year_count_refuted : ~ (forall (F G : Type) (N : Num F) (ro : rng_ops F G) Or T seed date (a a1 : anm6 F G) ob n b d,
  anm6_reset Or T ro seed date a = (a1, Ok ob) -> since n a1 b -> a_year (reset_date d b) = 0%Z).
Proof.
  intros K. pose proof year_run_ok as H. unfold year_run in H. destruct year_env as [a0|]; [|discriminate H]. cbv zeta in H.
  set (T := easy_task (N := Fnum tlibm) trng tsf (e_sim (a_env a0))) in *.
  destruct (anm6_reset tor T trng None (Some 1440%Z) a0) as (a1, [ob|]) eqn:R; [|discriminate H]. destruct (anm6_step tor T _ a1) as (a2, [o2|]) eqn:S; [|discriminate H].
  apply andb_true_iff in H as (H & D). apply date_is_inv in D as (_ & _ & Y).
  assert (Sn : since (N := Fnum tlibm) 1 a1 a2) by (eapply NStep; [apply NNone|exact S]).
  rewrite (K _ _ _ trng tor T None (Some 1440%Z) a0 a1 ob 1%nat a2 77%Z R Sn) in Y. discriminate Y.
Qed.
Example C72_ex : exists (a0 a1 a2 : anm6 float nat) T ob, anm6_reset (N := Fnum tlibm) tor T trng None (Some 1440%Z) a0 = (a1, Ok ob) /\ since (N := Fnum tlibm) 1 a1 a2 /\
  a_len a0 = 576000%Z /\ a_date a2 = Some 577440%Z /\ a_date_init a2 = Some 1440%Z /\ a_year a2 = 1%Z.
Proof.
  pose proof year_run_ok as H. unfold year_run in H. destruct year_env as [a0|]; [|discriminate H]. cbv zeta in H.
  set (T := easy_task (N := Fnum tlibm) trng tsf (e_sim (a_env a0))) in *.
  destruct (anm6_reset tor T trng None (Some 1440%Z) a0) as (a1, [ob|]) eqn:R; [|discriminate H]. destruct (anm6_step tor T _ a1) as (a2, [o2|]) eqn:S; [|discriminate H].
  apply andb_true_iff in H as (H & _). apply andb_true_iff in H as (H & D). apply andb_true_iff in H as (L & _). apply Z.eqb_eq in L. apply date_is_inv in D.
  exists a0, a1, a2, T, ob. split; [exact R|]. split; [eapply NStep; [apply NNone|exact S]|]. split; [exact L|exact D].
Qed.

(** Giving the start date changes the initial state of the next reset without a seed: from the same object, a reset with and one without
    [date_init], each followed by a reset without a seed. *)
Definition early (x : option float) : bool := match x with Some v => PrimFloat.ltb v 34.5 | None => false end.
Definition stream_run (a0 : anm6 float nat) : bool :=
  let '(a1, r1) := easy_reset (N := Fnum tlibm) tor trng tsf None (Some 0%Z) a0 in
  let '(a2, r2) := easy_reset (N := Fnum tlibm) tor trng tsf None None a0 in
  match r1, r2, snd (easy_reset (N := Fnum tlibm) tor trng tsf None None a1), snd (easy_reset (N := Fnum tlibm) tor trng tsf None None a2) with
  | Ok _, Ok _, Ok o1, Ok o2 => early (nth_error o1 17) && negb (early (nth_error o2 17))
  | _, _, _, _ => false end.
Lemma stream_ok : match easy_make (N := Fnum tlibm) 30%nat with Ok a0 => stream_run a0 | Err _ => false end = true.
Proof. vm_compute. reflexivity. Qed.
Theorem C73_unseeded_refuted : ~ (forall (F G : Type) (N : Num F) (ro : rng_ops F G) sf Or seed d g (a0 a1 a2 : anm6 F G) ob1 ob2, rng_sound ro ->
  easy_make g = Ok a0 -> easy_reset Or ro sf seed (Some d) a0 = (a1, Ok ob1) -> easy_reset Or ro sf seed None a0 = (a2, Ok ob2) ->
  snd (easy_reset Or ro sf None None a1) = snd (easy_reset Or ro sf None None a2)).
Proof.
  intros K. pose proof stream_ok as H. destruct (easy_make 30%nat) as [a0|] eqn:Mk; [|discriminate H]. unfold stream_run in H.
  destruct (easy_reset tor trng tsf None (Some 0%Z) a0) as (a1, [ob1|]) eqn:R1; [|destruct (easy_reset tor trng tsf None None a0); discriminate H].
  destruct (easy_reset tor trng tsf None None a0) as (a2, [ob2|]) eqn:R2; [|discriminate H].
  rewrite (K _ _ _ trng tsf tor None 0%Z 30%nat a0 a1 a2 ob1 ob2 trng_sound Mk R1 R2) in H. destruct (snd (easy_reset tor trng tsf None None a2)) as [o|]; [|discriminate H].
  apply andb_true_iff in H as (H1 & H2). rewrite H1 in H2. discriminate H2.
Qed.
(** C73: two histories of ANM6Easy that differ in the start date and the rendering *)
Example C73_ex : exists a0 a1 a2 ob, easy_make (N := Fnum tlibm) 30%nat = Ok a0 /\
  easy_reset (N := Fnum tlibm) tor trng tsf None (Some 0%Z) a0 = (a1, Ok ob) /\ easy_reset (N := Fnum tlibm) tor trng tsf None None a0 = (a2, Ok ob) /\
  answers6 (N := Fnum tlibm) trng tsf a1 [E6Step tor tact1; E6Render true 1 true true; E6Step tor tact2] =
  answers6 (N := Fnum tlibm) trng tsf a2 [E6Step tor tact1; E6Render false 3 true false; E6Step tor tact2].
Proof.
  pose proof stream_ok as H. destruct (easy_make 30%nat) as [a0|] eqn:Mk; [|discriminate H]. unfold stream_run in H.
  destruct (easy_reset tor trng tsf None (Some 0%Z) a0) as (a1, [ob1|]) eqn:R1; [|destruct (easy_reset tor trng tsf None None a0); discriminate H].
  destruct (easy_reset tor trng tsf None None a0) as (a2, [ob2|]) eqn:R2; [|discriminate H].
  destruct (C73_easy_start (N := Fnum tlibm) trng tsf tor None (Some 0%Z) None a0 a1 a2 _ _ [E6Step tor tact1; E6Render true 1 true true; E6Step tor tact2]
    [E6Step tor tact1; E6Render false 3 true false; E6Step tor tact2] R1 R2 ltac:(repeat constructor)) as (E & A). injection E as <-. exists a0, a1, a2, ob1. auto.
Qed.
Print Assumptions C72_year_count_refuted.
Print Assumptions C73_unseeded_refuted.
