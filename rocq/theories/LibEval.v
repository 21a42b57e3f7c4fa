(** Evaluation of the model on concrete exact numbers (used by the examples). *)
From Coq Require Import Reals Lra.
From Verif Require Import Base Num NumXR Devices BusBranch CheckNetwork LoadFlow Simulator LibBase LibNum LibXR.
Local Open Scope R_scope.

Lemma xleb_t a b : a <= b -> xleb (Fin a) (Fin b) = true.
Proof. intros; apply Rleb_spec; auto. Qed.
Lemma xleb_f a b : b < a -> xleb (Fin a) (Fin b) = false.
Proof. intros; apply Rleb_false; auto. Qed.
Lemma xltb_t a b : a < b -> xltb (Fin a) (Fin b) = true.
Proof. intros; apply Rltb_spec; auto. Qed.
Lemma xltb_f a b : b <= a -> xltb (Fin a) (Fin b) = false.
Proof. intros; apply Rltb_false; auto. Qed.
Lemma xeqb_t a b : a = b -> xeqb (Fin a) (Fin b) = true.
Proof. intros; apply Reqb_spec; auto. Qed.
Lemma xeqb_f a b : a <> b -> xeqb (Fin a) (Fin b) = false.
Proof. intros; apply Reqb_false; auto. Qed.
Lemma xsqrt_Fin a : 0 <= a -> xsqrt (Fin a) = Fin (sqrt a).
Proof. intros; cbn. destruct (Rlt_dec a 0); [lra|auto]. Qed.
Lemma sqrt_val a b : 0 <= b -> a = b * b -> sqrt a = b.
Proof. intros H ->. apply sqrt_square; auto. Qed.

(** Numbers are blocked: the reduction must not touch reals. *)
Ltac xcbn := cbn -[IZR Rleb Rltb Reqb Rle_dec Rlt_dec Req_EM_T xdiv xleb xltb xeqb xsqrt xatan2 inf_sgn sqrt PI sin cos
                   Z.mul Z.add Z.leb Z.ltb Z.eqb jacobian nr_loop gather_state f_pfe cabs norm_inf].
Ltac xstep := match goal with
  | |- context [xdiv (Fin ?a) (Fin ?b)] => rewrite (xdiv_Fin a b) by lra
  | |- context [xleb (Fin ?a) (Fin ?b)] => first [rewrite (xleb_t a b) by lra | rewrite (xleb_f a b) by lra]
  | |- context [xltb (Fin ?a) (Fin ?b)] => first [rewrite (xltb_t a b) by lra | rewrite (xltb_f a b) by lra]
  | |- context [xeqb (Fin ?a) (Fin ?b)] => first [rewrite (xeqb_t a b) by lra | rewrite (xeqb_f a b) by lra]
  | |- context [inf_sgn ?a] => first [rewrite (inf_sgn_pos a) by lra | rewrite (inf_sgn_neg a) by lra]
  | |- context [xleb ?a ?b] => first [progress change (xleb a b) with true | progress change (xleb a b) with false]
  | |- context [xltb ?a ?b] => first [progress change (xltb a b) with true | progress change (xltb a b) with false]
  | |- context [xeqb ?a ?b] => first [progress change (xeqb a b) with true | progress change (xeqb a b) with false]
  | |- context [xdiv ?a (Fin ?b)] => rewrite (proj1 (xdiv_inf b ltac:(lra))) || rewrite (proj1 (proj2 (xdiv_inf b ltac:(lra))))
  | |- context [xsqrt (Fin ?a)] => rewrite (xsqrt_Fin a) by lra
  | |- context [Pos.to_nat ?a] => let v := eval compute in (Pos.to_nat a) in change (Pos.to_nat a) with v
  | |- context [py_index ?a ?b] => let v := eval compute in (py_index a b) in change (py_index a b) with v
  | |- context [Z.leb ?a ?b] => let v := eval compute in (Z.leb a b) in change (Z.leb a b) with v
  | |- context [Z.ltb ?a ?b] => let v := eval compute in (Z.ltb a b) in change (Z.ltb a b) with v
  | |- context [Z.eqb ?a ?b] => let v := eval compute in (Z.eqb a b) in change (Z.eqb a b) with v
  | |- context [Z.add ?a ?b] => let v := eval compute in (Z.add a b) in change (Z.add a b) with v
  end.
Ltac xunf := unfold stor_check, gen_check, load_check, dev_init, dev_class, bus_init, branch_init, raise_if, np_clip, np_max, np_min, nisnan, cdiv, cdivr, cmul, cadd, csub, cconj, copp, cscale, cnorm2, cexpi, b_slack, d_slack.
Ltac xeval := repeat first [progress xcbn | xstep | progress xunf].

Lemma app_cong {A B} (f g : A -> B) a b : f = g -> a = b -> f a = g b.
Proof. intros -> ->; auto. Qed.
(** Equality of two data structures whose real numbers are equal by linear arithmetic.  (The
    conversion test must never be called on two different reals.) *)
Ltac xsame := repeat match goal with
  | |- ?a = ?b => constr_eq a b; exact eq_refl
  | |- @eq R _ _ => first [lra | field; lra]
  | |- ?f ?a = ?g ?b => apply (app_cong f g a b)
  end.

Lemma nr_step (F : Type) (N : Num F) lin Y p q xtol fuel k guess Fv diff : nltb xtol diff = true ->
  nr_loop lin Y p q xtol (S fuel) k guess Fv diff =
  (let* dx := lin (jacobian guess Y) Fv in
   let* guess' := vec_sub guess dx in
   let* F' := f_pfe guess' p q Y in
   let* diff' := norm_inf F' in
   nr_loop lin Y p q xtol fuel (S k) guess' F' diff').
Proof. intros H. cbn [nr_loop]. rewrite H. reflexivity. Qed.
Lemma nr_stop (F : Type) (N : Num F) lin Y p q xtol fuel k guess Fv diff : nltb xtol diff = false ->
  nr_loop lin Y p q xtol fuel k guess Fv diff = Ok (guess, k, diff).
Proof. intros H. destruct fuel; cbn [nr_loop]; [|rewrite H]; reflexivity. Qed.
