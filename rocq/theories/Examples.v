(** The two example environments of the repository: examples/simple_env.py and examples/custom_anm6.py.

    Both draw from the global generator of numpy, [np.random.rand] and [np.random.randint].  Simplification: the draws are those of
    [rng_ops] ([rand] is [uniform(0, 1)]) on a generator carried by the environment, which [reset(seed)] may replace by any other
    ([seedf] is arbitrary; in the code the seed has no effect on the global generator). *)
From Verif Require Import Base Num Devices BusBranch CheckNetwork LoadFlow Simulator EnvArgs Env Anm6.
Local Open Scope string_scope.
Local Open Scope list_scope.
Local Open Scope num_scope.

Section Examples.
  Context {F G : Type} {N : Num F}.

  (** [np.random.rand()] *)
  Definition rand1 (ro : rng_ops F G) (g : G) : F * G := r_unif ro n0 n1 g.
  (** [np.random.rand(n)] *)
  Fixpoint randn (ro : rng_ops F G) (n : nat) (g : G) : list F * G :=
    match n with
    | O => ([], g)
    | S k => let '(x, g1) := rand1 ro g in let '(xs, g2) := randn ro k g1 in (x :: xs, g2)
    end.

  (** examples/simple_env.py 20-30 *)
  Local Notation z k := (Some (nofZ k)).
  Local Notation dec a b := (Some (nrat a b)).
  Definition simple_network : network F :=
    mkNet (nofZ 100)
      [ mkBusRow (Some 0%Z) (Some 0%Z) (z 132) (z 1) (z 1);
        mkBusRow (Some 1%Z) (Some 1%Z) (z 33) (dec 11 10) (dec 9 10) ]
      [ mkDevRow (Some 0%Z) (Some 0%Z) (Some 0%Z) None (z 200) (z (-200)) (z 200) (z (-200)) None None None None None None None;
        mkDevRow (Some 1%Z) (Some 1%Z) (Some (-1)%Z) (dec 2 10) (z 0) (z (-10)) None None None None None None None None None ]
      [ mkBranchRow (Some 0%Z) (Some 1%Z) (dec 1 100) (dec 1 10) (z 0) (z 3) (z 1) (z 0) ].

  (** examples/simple_env.py 36-46 ([__init__]) *)
  Definition simple_env (g : G) : res (env F G) :=
    env_init simple_network ObsState 1 (nrat 1 4) (nrat 9 10) (nofZ 100) (Some [(n0, nofZ 10)]) (Some (Some n1, Some (nofZ 100))) g.

  (** examples/simple_env.py 48-55 ([init_state]) *)
  Definition simple_init (ro : rng_ops F G) (s : sim F) (g : G) : res (list F) * G :=
    let '(xs, g1) := randn ro (2 * List.length (sm_devs s) + n_des s + n_nsgen s + 1) g in (Ok xs, g1).

  (** examples/simple_env.py 57-62 ([next_vars]) *)
  Definition simple_next (ro : rng_ops F G) (st : list F) (g : G) : res (list F) * G :=
    let '(u, g1) := rand1 ro g in
    let '(aux, g2) := r_int ro 0%Z 10%Z g1 in
    (Ok [nofZ (-10) * u; nofZ aux], g2).

  Definition simple_task (ro : rng_ops F G) (seedf : Z -> G) (s : sim F) : task F G :=
    mkTask seedf (simple_init ro s) (simple_next ro).

  (** examples/custom_anm6.py 23-33 ([__init__]): the network of ANM6 *)
  Definition custom_env (g : G) : res (env F G) :=
    env_init anm6_network ObsState 1 (nrat 1 4) (nrat 9 10) (nofZ 100) (Some [(n0, nofZ 10)]) (Some (Some n1, Some (nofZ 100))) g.
  Definition custom_make (g : G) : res (anm6 F G) := let* e := custom_env g in anm6_init (nrat 1 4) e.

  (** examples/custom_anm6.py 35-47 ([init_state]) *)
  Definition custom_init (ro : rng_ops F G) (s : sim F) (g : G) : res (list F) * G :=
    let '(xs, g1) := randn ro (2 * List.length (sm_devs s) + n_des s + n_nsgen s) g in (Ok (xs ++ [n0]), g1).

  (** examples/custom_anm6.py 49-72 ([next_vars]) *)
  Definition custom_next (ro : rng_ops F G) (st : list F) (g : G) : res (list F) * G :=
    let '(u1, g1) := rand1 ro g in
    let '(u2, g2) := rand1 ro g1 in
    let '(u3, g3) := rand1 ro g2 in
    let '(u4, g4) := rand1 ro g3 in
    let '(u5, g5) := rand1 ro g4 in
    match st with
    | [] => (Err IndexError, g5)
    | _ =>
        match ntrunc (nmod (last st n0 + n1) (nofZ 24 / nrat 1 4)) with
        | None => (Err ValueError, g5)
        | Some aux =>
            (Ok [nofZ (-10) * u1; nofZ 30 * u2; nofZ (-30) * u3; nofZ 50 * u4; nofZ (-30) * u5; nofZ aux], g5)
        end
    end.

  Definition custom_task (ro : rng_ops F G) (seedf : Z -> G) (s : sim F) : task F G :=
    mkTask seedf (custom_init ro s) (custom_next ro).
End Examples.
