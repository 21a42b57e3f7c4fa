(** Reference implementations of the two external solvers.  They are not part of the
    program: they show that the assumptions made on the solvers can be met, and they make
    the model executable. *)
From Verif Require Import Base Num Devices LoadFlow Simulator.
Local Open Scope num_scope.

Section Exec.
  Context {F : Type} {N : Num F}.

  (** ---- quadratic program: closest point of an intersection of half-planes ---- *)

  (** Half-line constraints [a * t <= b]: the point of the intersection closest to 0. *)
  Fixpoint proj1 (cs : list (F * F)) (lo hi : option F) : option F :=
    match cs with
    | [] =>
        match lo, hi with
        | None, None => Some n0
        | Some l, None => Some (if n0 <=? l then l else n0)
        | None, Some h => Some (if h <=? n0 then h else n0)
        | Some l, Some h =>
            if l <=? h then Some (if n0 <=? l then l else if h <=? n0 then h else n0) else None
        end
    | (a, b) :: cs' =>
        if n0 <? a then
          proj1 cs' lo (Some (match hi with None => b / a
                                          | Some h => if h <=? b / a then h else b / a end))
        else if a <? n0 then
          proj1 cs' (Some (match lo with None => b / a
                                       | Some l => if b / a <=? l then l else b / a end)) hi
        else if n0 <=? b then proj1 cs' lo hi else None
    end.

  Definition row_ok (r : qrow F) (x : F * F) : bool := qa r * fst x + qb r * snd x <=? qh r.

  (** Closest point of the boundary of [r], within the half-planes [rows]. *)
  Definition proj_line (r : qrow F) (rows : list (qrow F)) (x : F * F) : option (F * F) :=
    let d := qa r * qa r + qb r * qb r in
    if d =? n0 then None
    else
      let k := (qh r - (qa r * fst x + qb r * snd x)) / d in
      let fx := fst x + k * qa r in
      let fy := snd x + k * qb r in
      (* points of the line: (fx, fy) + t (- qb, qa) *)
      match proj1 (map (fun c => (qb c * qa r - qa c * qb r, qh c - (qa c * fx + qb c * fy))) rows)
                  None None with
      | Some t => Some (fx - t * qb r, fy + t * qa r)
      | None => None
      end.

  Fixpoint proj2 (rows : list (qrow F)) (x : F * F) : option (F * F) :=
    match rows with
    | [] => Some x
    | r :: rows' =>
        match proj2 rows' x with
        | None => None
        | Some y => if row_ok r y then Some y else proj_line r rows' x
        end
    end.

  Definition proj_qp : qp_solver F :=
    fun rows x => match proj2 rows x with Some y => Ok y | None => Err TypeErr end.

  (** ---- linear system: Gaussian elimination with partial pivoting ---- *)

  (** index of the row with the largest leading entry *)
  Fixpoint best_row (rows : list (list F)) (i bi : nat) (bv : F) : nat :=
    match rows with
    | [] => bi
    | r :: rows' => let v := nabs (hd n0 r) in
                    if bv <? v then best_row rows' (S i) i v else best_row rows' (S i) bi bv
    end.
  (** [n] unknowns, rows of length n + 1 *)
  Fixpoint gauss (n : nat) (rows : list (list F)) : list F :=
    match n with
    | O => []
    | S n' =>
        match nth_error rows (best_row rows 0 0 n0) with
        | None => []
        | Some pr =>
            let b := best_row rows 0 0 n0 in
            let rest := firstn b rows ++ skipn (S b) rows in
            let p := hd n0 pr in
            let red := map (fun r => let k := hd n0 r / p in
                                     zip_with (fun x y => x - k * y) (tl r) (tl pr)) rest in
            let xs := gauss n' red in
            let s := nsum (zip_with nmul (firstn n' (tl pr)) xs) in
            ((last pr n0 - s) / p) :: xs
        end
    end.
  Definition gauss_solve : lin_solver F :=
    fun A b => Ok (gauss (List.length b) (zip_with (fun r x => r ++ [x]) A b)).
End Exec.
