(** Base layer: Python exceptions as values, result monad, dictionaries, sorting.

    Python objects raise exceptions; the model returns [Err e].  The names of
    the constructors of [exn] are the Python class names. *)
From Coq Require Export ZArith List String Bool Lia.
Export ListNotations.
Local Open Scope Z_scope.

(** gym_anm/simulator/components/errors.py, gym_anm/errors.py and the built-in
    exceptions that the modelled code can raise.  [SolverError] stands for any
    exception raised inside an external solver (cvxpy / scipy), [ConnectionErr] for any
    network error of the rendering servers. *)
Inductive exn :=
| BaseMVAError | BusSpecError | DeviceSpecError | LoadSpecError | GenSpecError
| StorageSpecError | BranchSpecError
| ArgsError | ObsSpaceError | ObsNotSupportedError | UnitsNotSupportedError
| EnvInitializationError | EnvNextVarsError
| AssertionError | AttributeError | KeyError | IndexError | TypeErr | ValueError
| ZeroDivisionError | NotImplementedError | SolverError | ConnectionErr.

Inductive res (A : Type) :=
| Ok (a : A)
| Err (e : exn).
Arguments Ok {A} a.
Arguments Err {A} e.

Definition bind {A B} (m : res A) (k : A -> res B) : res B :=
  match m with Ok a => k a | Err e => Err e end.

Declare Scope res_scope.
Notation "'let*' x ':=' m 'in' k" :=
  (bind m (fun x => k)) (at level 200, x name, m at level 100, k at level 200) : res_scope.
Notation "'let*' ' p ':=' m 'in' k" :=
  (bind m (fun x => match x with p => k end))
  (at level 200, p strict pattern, m at level 100, k at level 200) : res_scope.
Delimit Scope res_scope with res.
Global Open Scope res_scope.

(** [if c: raise e] *)
Definition raise_if (c : bool) (e : exn) : res unit :=
  if c then Err e else Ok tt.

Definition is_ok {A} (m : res A) : bool := match m with Ok _ => true | Err _ => false end.

(** [l[i]] for a non-negative index: IndexError when out of range. *)
Definition nth_res {A} (l : list A) (i : nat) : res A :=
  match nth_error l i with Some a => Ok a | None => Err IndexError end.

(** List comprehension whose body may raise: the first error wins. *)
Fixpoint mapM {A B} (f : A -> res B) (l : list A) : res (list B) :=
  match l with
  | [] => Ok []
  | a :: l' => let* b := f a in let* bs := mapM f l' in Ok (b :: bs)
  end.

Fixpoint foldM {A B} (f : B -> A -> res B) (l : list A) (b : B) : res B :=
  match l with
  | [] => Ok b
  | a :: l' => let* b' := f b a in foldM f l' b'
  end.

(** Python dictionaries as association lists in insertion order. *)
Section Dict.
  Context {K V : Type} (keqb : K -> K -> bool).

  (** [d.get(k)] *)
  Fixpoint dget (d : list (K * V)) (k : K) : option V :=
    match d with
    | [] => None
    | (k', v) :: d' => if keqb k k' then Some v else dget d' k
    end.

  (** [d[k]] *)
  Definition dgetE (d : list (K * V)) (k : K) : res V :=
    match dget d k with Some v => Ok v | None => Err KeyError end.

  (** [d[k] = v]: overwrite in place, or append. *)
  Fixpoint dset (d : list (K * V)) (k : K) (v : V) : list (K * V) :=
    match d with
    | [] => [(k, v)]
    | (k', v') :: d' => if keqb k k' then (k', v) :: d' else (k', v') :: dset d' k v
    end.
End Dict.

(** [sorted(items, key=...)] on integer keys: insertion sort (stable). *)
Section Sort.
  Context {A : Type} (key : A -> Z).
  Fixpoint insert_by (a : A) (l : list A) : list A :=
    match l with
    | [] => [a]
    | b :: l' => if key a <=? key b then a :: l else b :: insert_by a l'
    end.
  Fixpoint sort_by (l : list A) : list A :=
    match l with
    | [] => []
    | a :: l' => insert_by a (sort_by l')
    end.
End Sort.

(** [x in l] for integers. *)
Definition zmem (x : Z) (l : list Z) : bool := existsb (Z.eqb x) l.

Definition optz_eqb (a b : option Z) : bool :=
  match a, b with
  | Some x, Some y => Z.eqb x y
  | None, None => true
  | _, _ => false
  end.

(** Python indexing of an array of length [n] by an integer that may be negative. *)
Definition py_index (n : nat) (i : Z) : option nat :=
  if (0 <=? i) && (i <? Z.of_nat n) then Some (Z.to_nat i)
  else if (- Z.of_nat n <=? i) && (i <? 0) then Some (Z.to_nat (i + Z.of_nat n))
  else None.

(** [l[i] = v] at a natural index (no effect out of range; callers check). *)
Fixpoint list_set {A} (l : list A) (i : nat) (v : A) : list A :=
  match l, i with
  | [], _ => []
  | _ :: l', O => v :: l'
  | a :: l', S i' => a :: list_set l' i' v
  end.

(** [enumerate(l)] *)
Fixpoint enum_from {A} (n : nat) (l : list A) : list (nat * A) :=
  match l with [] => [] | a :: l' => (n, a) :: enum_from (S n) l' end.
Definition enumerate {A} (l : list A) := enum_from 0 l.

Fixpoint zip_with {A B C} (f : A -> B -> C) (l : list A) (m : list B) : list C :=
  match l, m with
  | a :: l', b :: m' => f a b :: zip_with f l' m'
  | _, _ => []
  end.

(** [l[a : a+n]] *)
Definition slice {A} (a n : nat) (l : list A) : list A := firstn n (skipn a l).
