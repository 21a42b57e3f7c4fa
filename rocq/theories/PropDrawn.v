(** C81, C82: the random numbers of the two example environments: each entry of a state or of the next variables is a new draw of the generator. *)
From Coq Require Import List Arith ZArith.
From Verif Require Import Base Num Devices BusBranch CheckNetwork LoadFlow Simulator EnvArgs Env Anm6 Examples.
Import ListNotations.
Local Open Scope list_scope.
Local Open Scope num_scope.

Section Drawn.
  Context {F G : Type} {N : Num F}.
  (** the generator after [k] draws of [np.random.rand()], and the number drawn then *)
  Definition after (ro : rng_ops F G) (g : G) (k : nat) : G := Nat.iter k (fun g => snd (r_unif ro n0 n1 g)) g.
  Definition drawn (ro : rng_ops F G) (g : G) (k : nat) : F := fst (r_unif ro n0 n1 (after ro g k)).
  Lemma after_S ro g k : after ro (snd (r_unif ro n0 n1 g)) k = after ro g (S k).
  Proof. induction k as [|k IH]; [reflexivity|]. change (snd (r_unif ro n0 n1 (after ro (snd (r_unif ro n0 n1 g)) k)) = snd (r_unif ro n0 n1 (after ro g (S k)))). rewrite IH. reflexivity. Qed.
  Lemma randn_drawn ro n g : randn ro n g = (map (drawn ro g) (seq 0 n), after ro g n).
  Proof.
    revert g. induction n as [|n IH]; intros g; [reflexivity|]. cbn [randn]. unfold rand1. destruct (r_unif ro n0 n1 g) as (x, g1) eqn:E. rewrite IH. cbn [seq map].
    assert (E1 : g1 = snd (r_unif ro n0 n1 g)) by (rewrite E; reflexivity). f_equal.
    - f_equal; [unfold drawn, after; cbn; rewrite E; reflexivity|]. rewrite <- seq_shift, map_map. apply map_ext. intros k. unfold drawn. rewrite E1, after_S. reflexivity.
    - rewrite E1. apply after_S.
  Qed.
End Drawn.

(** C81: [init_state] of the simple example draws all its entries one after the other; [next_vars] draws the demand, then the auxiliary variable. *)
Theorem C81_draws : forall (F G : Type) (N : Num F) (ro : rng_ops F G) s g st,
  simple_init ro s g = (Ok (map (drawn ro g) (seq 0 (2 * List.length (sm_devs s) + n_des s + n_nsgen s + 1))), after ro g (2 * List.length (sm_devs s) + n_des s + n_nsgen s + 1)) /\
  simple_next ro st g = (Ok [nofZ (-10) * drawn ro g 0; nofZ (fst (r_int ro 0%Z 10%Z (after ro g 1)))], snd (r_int ro 0%Z 10%Z (after ro g 1))).
Proof.
  intros F G N ro s g st. split.
  - unfold simple_init. rewrite randn_drawn. reflexivity.
  - unfold simple_next, rand1, drawn, after. cbn [Nat.iter nat_rect]. destruct (r_unif ro n0 n1 g) as (u, g1). cbn [fst snd]. destruct (r_int ro 0%Z 10%Z g1) as (x, g2). reflexivity.
Qed.
(** C82: so does the custom example, whose next variables are five draws, scaled to the documented ranges, and the next time of day. *)
Theorem C82_draws : forall (F G : Type) (N : Num F) (ro : rng_ops F G) s g,
  custom_init ro s g = (Ok (map (drawn ro g) (seq 0 (2 * List.length (sm_devs s) + n_des s + n_nsgen s)) ++ [n0]), after ro g (2 * List.length (sm_devs s) + n_des s + n_nsgen s)) /\
  forall st aux, st <> [] -> ntrunc (nmod (last st n0 + n1) (nofZ 24 / nrat 1 4)) = Some aux ->
    custom_next ro st g = (Ok [nofZ (-10) * drawn ro g 0; nofZ 30 * drawn ro g 1; nofZ (-30) * drawn ro g 2; nofZ 50 * drawn ro g 3; nofZ (-30) * drawn ro g 4; nofZ aux], after ro g 5).
Proof.
  intros F G N ro s g. split.
  - unfold custom_init. rewrite randn_drawn. reflexivity.
  - intros st aux Hs Ha. unfold custom_next, rand1. destruct st as [|x st]; [contradiction Hs; reflexivity|]. rewrite Ha. unfold drawn, after. cbn [Nat.iter nat_rect].
    destruct (r_unif ro n0 n1 g) as (u1, g1). cbn [fst snd]. destruct (r_unif ro n0 n1 g1) as (u2, g2). cbn [fst snd]. destruct (r_unif ro n0 n1 g2) as (u3, g3). cbn [fst snd].
    destruct (r_unif ro n0 n1 g3) as (u4, g4). cbn [fst snd]. destruct (r_unif ro n0 n1 g4) as (u5, g5). reflexivity.
Qed.
(** a generator that counts: four draws are four different numbers *)
Definition counter : rng_ops nat nat := mkRng (fun lo hi g => (lo, S g)) (fun lo hi g => (g, S g)).
Example C81_draws_ex (N : Num nat) : map (drawn counter 7) (seq 0 4) = [7; 8; 9; 10]%nat /\ after counter 7 4 = 11%nat.
Proof. split; reflexivity. Qed.
Print Assumptions C81_draws.
Print Assumptions C82_draws.
