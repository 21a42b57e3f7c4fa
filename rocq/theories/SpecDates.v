(** The calendar of an ANM6 environment of any subclass, and histories that differ only in their dates. *)
From Verif Require Import Base Num Devices BusBranch CheckNetwork LoadFlow Simulator EnvArgs Env Anm6 SpecEnv SpecAnm6.
Local Open Scope list_scope.

Section SpecDates.
  Context {F G : Type} {N : Num F}.
  Notation anm6 := (anm6 F G).

  (** [since n a b]: [a] becomes [b] by calls none of which is a reset or a [reset_date], of which [n] are steps that returned (whatever the
      task and the solvers); the others are steps that raised, renderings and closings. *)
  Inductive since : nat -> anm6 -> anm6 -> Prop :=
  | NNone a : since 0 a a
  | NStep n a a1 a2 Or T action out : since n a a1 -> anm6_step Or T action a1 = (a2, Ok out) -> since (S n) a a2
  | NRaised n a a1 a2 Or T action x : since n a a1 -> anm6_step Or T action a1 = (a2, Err x) -> since n a a2
  | NRender n a a1 human skip started up : since n a a1 -> since n a (fst (anm6_render human skip started up a1))
  | NClose n a a1 : since n a a1 -> since n a (anm6_close a1).

  (** What a call returns: the observation of a reset, the tuple of a step. *)
  Inductive answer := ROf (r : res (list F)) | SOf (r : res (step_out F)).
  Definition answer_of (ro : rng_ops F G) (a : anm6) (c : acall F G) : list answer :=
    match c with
    | AReset Or T seed date => [ROf (snd (anm6_reset Or T ro seed date a))]
    | AStep Or T action => [SOf (snd (anm6_step Or T action a))]
    | _ => []
    end.
  Fixpoint answers (ro : rng_ops F G) (a : anm6) (cs : list (acall F G)) : list answer :=
    match cs with
    | [] => []
    | c :: cs => answer_of ro a c ++ answers ro (fst (run_acall ro a c)) cs
    end.
  (** the calls without the renderings and closings, every date replaced by the same one *)
  Fixpoint undated (cs : list (acall F G)) : list (acall F G) :=
    match cs with
    | [] => []
    | AReset Or T seed date :: cs => AReset Or T seed (option_map (fun _ => 0%Z) date) :: undated cs
    | AStep Or T action :: cs => AStep Or T action :: undated cs
    | AResetDate _ :: cs => AResetDate 0 :: undated cs
    | ARender _ _ _ _ :: cs => undated cs
    | AClose :: cs => undated cs
    end.

  (** two objects with the same environment (state, simulator, generator, ...), either both dated or both undated *)
  Definition same (a b : anm6) : Prop := a_env a = a_env b /\ (a_date a = None <-> a_date b = None) /\ (a_date_init a = None <-> a_date_init b = None).

  (** the same for ANM6Easy *)
  Definition answer6 (ro : rng_ops F G) (sf : Z -> G) (a : anm6) (c : call6 F) : list answer :=
    match c with
    | E6Reset Or seed date => [ROf (snd (easy_reset Or ro sf seed date a))]
    | E6Step Or action => [SOf (snd (easy_step Or ro sf action a))]
    | _ => []
    end.
  Fixpoint answers6 (ro : rng_ops F G) (sf : Z -> G) (a : anm6) (cs : list (call6 F)) : list answer :=
    match cs with
    | [] => []
    | c :: cs => answer6 ro sf a c ++ answers6 ro sf (run_call6 ro sf a c) cs
    end.
  (** the same call up to the date and the rendering, and no reset without a seed *)
  Inductive alike : call6 F -> call6 F -> Prop :=
  | LkReset Or z date date' : alike (E6Reset Or (Some z) date) (E6Reset Or (Some z) date')
  | LkStep Or action : alike (E6Step Or action) (E6Step Or action)
  | LkRender human skip started up human' skip' started' up' : alike (E6Render human skip started up) (E6Render human' skip' started' up')
  | LkClose : alike E6Close E6Close.
End SpecDates.
Arguments answer F : clear implicits.
