(** Power flow equations and Newton-Raphson: gym_anm/simulator/solve_load_flow.py. *)
From Verif Require Import Base Num.
Local Open Scope num_scope.

(** The external sparse linear solver [spsolve(J, F)] (solve_load_flow.py 220):
    any vector, or an exception. *)
Definition lin_solver (F : Type) := list (list F) -> list F -> res (list F).

Section LoadFlow.
  Context {F : Type} {N : Num F}.

  (** Y * v; scipy raises ValueError when the dimensions differ. *)
  Definition dotc (row v : list (cplx F)) : cplx F := csum (zip_with cmul row v).
  Definition mat_vec (Y : list (list (cplx F))) (v : list (cplx F)) : list (cplx F) :=
    map (fun row => dotc row v) Y.
  Definition mat_vecE (Y : list (list (cplx F))) (v : list (cplx F)) : res (list (cplx F)) :=
    if Nat.eqb (List.length Y) (List.length v) then Ok (mat_vec Y v) else Err ValueError.

  (** solve_load_flow.py 167-173 ([_construct_v_from_guess]), for a vector of even
      length: angles first, then magnitudes; the slack voltage is 1 + 0j. *)
  Definition construct_v (guess : list F) : list (cplx F) :=
    let n := Nat.div (List.length guess) 2 in
    c1 :: zip_with (fun th m => cscale m (cexpi th)) (firstn n guess) (skipn n guess).
  Definition construct_vE (guess : list F) : res (list (cplx F)) :=
    if Nat.even (List.length guess) then Ok (construct_v guess) else Err AssertionError.

  (** solve_load_flow.py 115-118, given v and Y v: the complex mismatch and F. *)
  Definition mismatch (v i : list (cplx F)) (p q : list F) : list (cplx F) :=
    zip_with csub (tl (zip_with (fun a b => cmul a (cconj b)) v i)) (zip_with mkC p q).
  Definition re_im (l : list (cplx F)) : list F := map re l ++ map im l.

  (** solve_load_flow.py 84-120 ([_f]).  Simplification: vectors of different sizes
      raise ValueError (numpy would broadcast vectors of size one). *)
  Definition f_pfe (guess p q : list F) (Y : list (list (cplx F))) : res (list F) :=
    let* v := construct_vE guess in
    let* i := mat_vecE Y v in
    let* _ := raise_if (negb (Nat.eqb (List.length p) (List.length q)
                              && Nat.eqb (S (List.length p)) (List.length v))) ValueError in
    Ok (re_im (mismatch v i p q)).

  (** solve_load_flow.py 149-155: entry (i, k) of the matrices dS/d(angle) and
      dS/d|V|.  Simplification: dense instead of sparse matrices. *)
  Definition vnorm (v : cplx F) : cplx F := cdivr v (cabs v).
  Definition dS_dVa_entry (vi vk yik ii : cplx F) (diag : bool) : cplx F :=
    cmul (cmul (mkC n0 n1) vi) (cconj (csub (if diag then ii else c0) (cmul yik vk))).
  Definition dS_dVm_entry (vi vk yik ii : cplx F) (diag : bool) : cplx F :=
    cadd (if diag then cmul (vnorm vi) (cconj ii) else c0)
         (cmul vi (cconj (cmul yik (vnorm vk)))).

  (** Row [i] (list index) of such a matrix, columns 1.. only ([1:, 1:]). *)
  Definition jac_row (entry : cplx F -> cplx F -> cplx F -> cplx F -> bool -> cplx F)
             (i : nat) (vi ii : cplx F) (yrow v : list (cplx F)) : list (cplx F) :=
    tl (map (fun kc => entry vi (snd (snd kc)) (fst (snd kc)) ii (Nat.eqb i (fst kc)))
            (enumerate (combine yrow v))).
  Definition jac_mat entry (Y : list (list (cplx F))) (v iv : list (cplx F))
    : list (list (cplx F)) :=
    tl (map (fun ir => jac_row entry (fst ir) (fst (fst (snd ir))) (snd (fst (snd ir)))
                               (snd (snd ir)) v)
            (enumerate (combine (combine v iv) Y))).

  (** solve_load_flow.py 123-164 ([_dfdx]) *)
  Definition jacobian (guess : list F) (Y : list (list (cplx F))) : list (list F) :=
    let v := construct_v guess in
    let iv := mat_vec Y v in
    let A := jac_mat dS_dVa_entry Y v iv in
    let M := jac_mat dS_dVm_entry Y v iv in
    zip_with (fun a m => map re a ++ map re m) A M ++
    zip_with (fun a m => map im a ++ map im m) A M.

  (** [numpy.linalg.norm(F, inf)]: maximum of absolute values, NaN if any NaN,
      ValueError on an empty vector. *)
  Definition norm_inf (l : list F) : res F :=
    match map nabs l with
    | [] => Err ValueError
    | a :: l' => Ok (fold_left np_max l' a)
    end.

  (** [v_guess - spsolve(...)] (ValueError if sizes differ) *)
  Definition vec_sub (a b : list F) : res (list F) :=
    if Nat.eqb (List.length a) (List.length b) then Ok (zip_with nsub a b) else Err ValueError.

  (** solve_load_flow.py 218-222: the loop; [fuel] is lim_iter - n_iter. *)
  Fixpoint nr_loop (lin : lin_solver F) (Y : list (list (cplx F))) (p q : list F) (xtol : F)
           (fuel : nat) (n_iter : nat) (guess Fv : list F) (diff : F)
    : res (list F * nat * F) :=
    match fuel with
    | O => Ok (guess, n_iter, diff)
    | S fuel' =>
        if xtol <? diff then
          let* dx := lin (jacobian guess Y) Fv in
          let* guess' := vec_sub guess dx in
          let* F' := f_pfe guess' p q Y in
          let* diff' := norm_inf F' in
          nr_loop lin Y p q xtol fuel' (S n_iter) guess' F' diff'
        else Ok (guess, n_iter, diff)
    end.

  (** solve_load_flow.py 176-226 ([_newton_raphson_sparse]): guess, n_iter, diff,
      converged. *)
  Definition newton_raphson (lin : lin_solver F) (guess p q : list F) (Y : list (list (cplx F)))
             (xtol : F) (lim_iter : nat) : res (list F * nat * F * bool) :=
    let* F0 := f_pfe guess p q Y in
    let* d0 := norm_inf F0 in
    let* '(g, n, d) := nr_loop lin Y p q xtol lim_iter 0 guess F0 d0 in
    Ok (g, n, d, negb (nisnan d)).

  (** solve_load_flow.py 41-55: initial guess, solve, V, I = Y V, and [stable]. *)
  Definition solve_pfe (lin : lin_solver F) (nbus : nat) (p q : list F)
             (Y : list (list (cplx F))) (xtol : F)
    : res (list (cplx F) * list (cplx F) * bool) :=
    let guess := repeat n0 (nbus - 1) ++ repeat n1 (nbus - 1) in
    let* '(g, n, d, conv) := newton_raphson lin guess p q Y xtol 100 in
    let stable := conv && (d <=? xtol) in
    let* v := construct_vE g in
    let* i := mat_vecE Y v in
    Ok (v, i, stable).
End LoadFlow.
