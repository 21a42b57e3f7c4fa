(** Histories of the 6-bus environments, the documented scenarios of ANM6Easy and the calendar. *)
From Coq Require Import Reals.
From Verif Require Import Base Num Devices BusBranch CheckNetwork LoadFlow Simulator EnvArgs Env Anm6 SpecEnv.
Local Open Scope string_scope.
Local Open Scope list_scope.

(** [Generator.integers(lo, hi)] is in [lo, hi) and [Generator.uniform(lo, hi)] in [lo, hi]. *)
Record rng_sound {F G} {N : Num F} (ro : rng_ops F G) : Prop := mkSound {
  rs_int : forall lo hi g, (lo < hi)%Z -> (lo <= fst (r_int ro lo hi g) < hi)%Z;
  rs_unif : forall lo hi g, nleb lo hi = true -> nleb lo (fst (r_unif ro lo hi g)) = true /\ nleb (fst (r_unif ro lo hi g)) hi = true }.

Section SpecAnm6.
  Context {F G : Type} {N : Num F}.

  (** A call on an ANM6 environment: [reset] and [step] (with the task of the subclass and the behaviour of the external solvers),
      [reset_date], [render] (valid mode? skip_frames; do the servers start? is the server reachable?) and [close]. *)
  Inductive acall :=
  | AReset (Or : oracles F) (T : task F G) (seed date : option Z)
  | AStep (Or : oracles F) (T : task F G) (action : list F)
  | AResetDate (d : Z)
  | ARender (human : bool) (skip : Z) (started up : bool)
  | AClose.
  (** the object after the call, and the exception that it raised, if any *)
  Definition run_acall (ro : rng_ops F G) (a : anm6 F G) (c : acall) : anm6 F G * option exn :=
    let err {A} (r : res A) := match r with Ok _ => None | Err x => Some x end in
    match c with
    | AReset Or T seed date => let '(a', r) := anm6_reset Or T ro seed date a in (a', err r)
    | AStep Or T action => let '(a', r) := anm6_step Or T action a in (a', err r)
    | AResetDate d => (reset_date d a, None)
    | ARender human skip started up => let '(a', r) := anm6_render human skip started up a in (a', err r)
    | AClose => (anm6_close a, None)
    end.
  Definition arun (ro : rng_ops F G) (a : anm6 F G) (cs : list acall) : anm6 F G := fold_left (fun a c => fst (run_acall ro a c)) cs a.

  (** A call on an ANM6Easy environment. *)
  Inductive call6 :=
  | E6Reset (Or : oracles F) (seed date : option Z)
  | E6Step (Or : oracles F) (action : list F)
  | E6Render (human : bool) (skip : Z) (started up : bool)
  | E6Close.
  Definition run_call6 (ro : rng_ops F G) (sf : Z -> G) (a : anm6 F G) (c : call6) : anm6 F G :=
    match c with
    | E6Reset Or seed date => fst (easy_reset Or ro sf seed date a)
    | E6Step Or action => fst (easy_step Or ro sf action a)
    | E6Render human skip started up => fst (anm6_render human skip started up a)
    | E6Close => anm6_close a
    end.
  Definition run6 (ro : rng_ops F G) (sf : Z -> G) (a : anm6 F G) (cs : list call6) : anm6 F G := fold_left (run_call6 ro sf) cs a.

  (** [stepping ro sf P n a a']: [a] becomes [a'] by calls none of which is a reset, of which [n] are steps that returned, all with a flag
      [terminated] allowed by [P]; the other calls are renderings, closings and steps whose action was refused. *)
  Inductive stepping (ro : rng_ops F G) (sf : Z -> G) (P : bool -> Prop) : nat -> anm6 F G -> anm6 F G -> Prop :=
  | SNone a : stepping ro sf P 0 a a
  | SStep n a a1 a2 Or action out : stepping ro sf P n a a1 -> easy_step Or ro sf action a1 = (a2, Ok out) -> P (so_terminated out) ->
      stepping ro sf P (S n) a a2
  | SRefused n a a1 Or action : stepping ro sf P n a a1 -> ~ valid_action (a_env a1) action ->
      stepping ro sf P n a (fst (easy_step Or ro sf action a1))
  | SRender n a a1 human skip started up : stepping ro sf P n a a1 -> stepping ro sf P n a (fst (anm6_render human skip started up a1))
  | SClose n a a1 : stepping ro sf P n a a1 -> stepping ro sf P n a (anm6_close a1).
  (** steps that did not end the episode *)
  Definition alive (t : bool) : Prop := t = false.
  Definition any (t : bool) : Prop := True.

  (** [env.state[-1]] *)
  Definition time_index (a : anm6 F G) : option F :=
    match e_state (a_env a) with Some st => nth_error st (List.length st - 1) | None => None end.
  (** what [env.next_vars(env.state)] returns *)
  Definition sampled (ro : rng_ops F G) (sf : Z -> G) (a : anm6 F G) : option (res (list F)) :=
    match e_state (a_env a) with
    | Some st => Some (fst (t_next (easy_task ro sf (e_sim (a_env a))) st (e_rng (a_env a))))
    | None => None
    end.
  (** [v] = the entries number [k] of the five tables of the task, and [k] itself *)
  Definition at_index (k : Z) (v : list F) : Prop :=
    exists l1 l3 l5 m2 m4, v = [l1; l3; l5; m2; m4; nofZ k] /\
      map (fun row => nth_error row (Z.to_nat k)) P_loads = [Some l1; Some l3; Some l5] /\
      map (fun row => nth_error row (Z.to_nat k)) P_maxs = [Some m2; Some m4].
End SpecAnm6.
Arguments acall F G : clear implicits.
Arguments call6 F : clear implicits.

(** ---- the documented scenarios (docs/source/topics/anm6_easy.rst): constant from 23:00 to 06:00 (value [s1]), 08:00 to 11:00 and 18:00
    to 21:00 (value [s2]), 13:00 to 16:00 (value [s3]), linear in between; [k] counts quarters of an hour since midnight. *)
Local Open Scope R_scope.
Definition between (k a b : nat) : bool := Nat.leb a k && Nat.leb k b.
Definition ramp (k a : nat) (x y : R) : R := x + (y - x) * IZR (Z.of_nat k - Z.of_nat a) / 8.
Definition scenario (s1 s2 s3 : R) (k : nat) : R :=
  if between k 0 24 || between k 92 95 then s1
  else if between k 32 44 || between k 72 84 then s2
  else if between k 52 64 then s3
  else if between k 24 32 then ramp k 24 s1 s2
  else if between k 44 52 then ramp k 44 s2 s3
  else if between k 64 72 then ramp k 64 s3 s2
  else ramp k 84 s2 s1.

(** ---- calendar (proleptic Gregorian), in minutes ---- *)
Local Open Scope Z_scope.
Definition leap (y : Z) : Prop := (4 | y) /\ (~ (100 | y) \/ (400 | y)).
(** [jan1] gives, for each year, 00:00 of its first day: consecutive years are 365 or, for leap years, 366 days apart *)
Definition calendar (jan1 : Z -> Z) : Prop :=
  forall y, (leap y -> jan1 (y + 1) = jan1 y + 366 * 1440) /\ (~ leap y -> jan1 (y + 1) = jan1 y + 365 * 1440).
