(** Calculus of the exact extended reals. *)
From Coq Require Import Reals Lra.
From Verif Require Import Base Num NumXR LibBase LibNum.
Local Open Scope R_scope.

Definition fin (x : XR) : Prop := exists r, x = Fin r.
Definition xle (a b : XR) : Prop := xleb a b = true.
Definition xlt (a b : XR) : Prop := xltb a b = true.

Lemma fin_Fin r : fin (Fin r).
Proof. eexists; reflexivity. Qed.
#[global] Hint Resolve fin_Fin : core.

Lemma xle_Fin a b : xle (Fin a) (Fin b) <-> a <= b.
Proof. unfold xle; cbn. apply Rleb_spec. Qed.
Lemma xlt_Fin a b : xlt (Fin a) (Fin b) <-> a < b.
Proof. unfold xlt; cbn. apply Rltb_spec. Qed.
Lemma Fin_inj a b : Fin a = Fin b <-> a = b.
Proof. split; congruence. Qed.

Lemma xdiv_Fin a b : b <> 0 -> xdiv (Fin a) (Fin b) = Fin (a / b).
Proof. intros H; cbn. destruct (Req_EM_T b 0); [contradiction|reflexivity]. Qed.
Lemma inf_sgn_pos x : 0 < x -> inf_sgn x = PInf.
Proof. intros; unfold inf_sgn. destruct (Rlt_dec 0 x); [reflexivity|contradiction]. Qed.
Lemma inf_sgn_neg x : x < 0 -> inf_sgn x = NInf.
Proof. intros; unfold inf_sgn. destruct (Rlt_dec 0 x); [lra|]. destruct (Rlt_dec x 0); [reflexivity|contradiction]. Qed.
Lemma inf_sgn_0 : inf_sgn 0 = NaN.
Proof. unfold inf_sgn. destruct (Rlt_dec 0 0); [lra|]. destruct (Rlt_dec 0 0); [lra|reflexivity]. Qed.
Lemma inf_sgn_notfin x r : inf_sgn x <> Fin r.
Proof. unfold inf_sgn. destruct (Rlt_dec 0 x); [discriminate|]. destruct (Rlt_dec x 0); discriminate. Qed.

(** A finite result has finite arguments. *)
Lemma xadd_fin a b r : xadd a b = Fin r -> exists x y, a = Fin x /\ b = Fin y /\ r = x + y.
Proof. destruct a, b; cbn; try discriminate. intros H; inversion H; eauto 6. Qed.
Lemma xsub_fin a b r : xsub a b = Fin r -> exists x y, a = Fin x /\ b = Fin y /\ r = x - y.
Proof. destruct a, b; cbn; try discriminate. intros H; inversion H; eauto 6. Qed.
Lemma xmul_fin a b r : xmul a b = Fin r -> exists x y, a = Fin x /\ b = Fin y /\ r = x * y.
Proof.
  destruct a, b; cbn; try discriminate; try (intros H; exfalso; eapply inf_sgn_notfin; eauto; fail).
  intros H; inversion H; eauto 6.
Qed.
Lemma xopp_fin a r : xopp a = Fin r -> exists x, a = Fin x /\ r = - x.
Proof. destruct a; cbn; try discriminate. intros H; inversion H; eauto. Qed.
Lemma xabs_fin a r : xabs a = Fin r -> exists x, a = Fin x /\ r = Rabs x.
Proof. destruct a; cbn; try discriminate. intros H; inversion H; eauto. Qed.

(** Evaluation of closed comparisons of reals: rewrite to a boolean with [lra]. *)
Ltac rcmp :=
  repeat first
  [ match goal with |- context [Rleb ?a ?b] =>
      first [ rewrite (proj2 (Rleb_spec a b)) by lra | rewrite (proj2 (Rleb_false a b)) by lra ] end
  | match goal with |- context [Rltb ?a ?b] =>
      first [ rewrite (proj2 (Rltb_spec a b)) by lra | rewrite (proj2 (Rltb_false a b)) by lra ] end
  | match goal with |- context [Reqb ?a ?b] =>
      first [ rewrite (proj2 (Reqb_spec a b)) by lra | rewrite (proj2 (Reqb_false a b)) by lra ] end
  | match goal with |- context [Req_EM_T ?a ?b] => destruct (Req_EM_T a b); [try lra|try lra] end
  | match goal with |- context [Rlt_dec ?a ?b] => destruct (Rlt_dec a b); [try lra|try lra] end
  | match goal with |- context [Rle_dec ?a ?b] => destruct (Rle_dec a b); [try lra|try lra] end ].

(** Case split on a comparison, leaving a real hypothesis. *)
Ltac rcase :=
  match goal with
  | |- context [Rleb ?a ?b] => let E := fresh "L" in destruct (Rleb a b) eqn:E; [apply Rleb_spec in E|apply Rleb_false in E]
  | |- context [Rltb ?a ?b] => let E := fresh "L" in destruct (Rltb a b) eqn:E; [apply Rltb_spec in E|apply Rltb_false in E]
  | |- context [Reqb ?a ?b] => let E := fresh "L" in destruct (Reqb a b) eqn:E; [apply Reqb_spec in E|apply Reqb_false in E]
  | H : context [Rleb ?a ?b] |- _ => let E := fresh "L" in destruct (Rleb a b) eqn:E; [apply Rleb_spec in E|apply Rleb_false in E]
  | H : context [Rltb ?a ?b] |- _ => let E := fresh "L" in destruct (Rltb a b) eqn:E; [apply Rltb_spec in E|apply Rltb_false in E]
  | H : context [Reqb ?a ?b] |- _ => let E := fresh "L" in destruct (Reqb a b) eqn:E; [apply Reqb_spec in E|apply Reqb_false in E]
  end.

Lemma Rdiv_le_iff a b c : 0 < c -> a / c <= b / c <-> a <= b.
Proof.
  intros H. unfold Rdiv. assert (0 < / c) by (apply Rinv_0_lt_compat; auto). split; intros K.
  - apply Rmult_le_reg_r with (/ c); auto.
  - apply Rmult_le_compat_r; lra.
Qed.
Lemma Rdiv_lt_iff a b c : 0 < c -> a / c < b / c <-> a < b.
Proof.
  intros H. unfold Rdiv. assert (0 < / c) by (apply Rinv_0_lt_compat; auto). split; intros K.
  - apply Rmult_lt_reg_r with (/ c); auto.
  - apply Rmult_lt_compat_r; auto.
Qed.

(** Division by a positive finite number preserves the order of the extended reals. *)
Definition xscale (b : R) (x : XR) : XR := xdiv x (Fin b).
Lemma xdiv_pos_le b x y : 0 < b -> xleb (xdiv x (Fin b)) (xdiv y (Fin b)) = xleb x y.
Proof.
  intros H. destruct x, y; cbn; try (destruct (Req_EM_T b 0); [lra|]); try (destruct (Rlt_dec b 0); [lra|]); auto.
  destruct (Rleb r r0) eqn:E; [apply Rleb_spec|apply Rleb_false];
    [apply Rleb_spec in E; apply Rdiv_le_iff|apply Rleb_false in E; apply Rdiv_lt_iff]; auto.
Qed.
Lemma xdiv_pos_lt b x y : 0 < b -> xltb (xdiv x (Fin b)) (xdiv y (Fin b)) = xltb x y.
Proof.
  intros H. destruct x, y; cbn; try (destruct (Req_EM_T b 0); [lra|]); try (destruct (Rlt_dec b 0); [lra|]); auto.
  destruct (Rltb r r0) eqn:E; [apply Rltb_spec|apply Rltb_false];
    [apply Rltb_spec in E; apply Rdiv_lt_iff|apply Rltb_false in E; apply Rdiv_le_iff]; auto.
Qed.
Lemma xdiv_inf b : 0 < b -> xdiv PInf (Fin b) = PInf /\ xdiv NInf (Fin b) = NInf /\ xdiv (Fin 0) (Fin b) = Fin 0.
Proof.
  intros H. cbn. destruct (Rlt_dec b 0); [lra|]. destruct (Req_EM_T b 0); [lra|]. repeat split; auto.
  f_equal. unfold Rdiv; lra.
Qed.
Lemma xltb_leb x y : xltb x y = false <-> (x = NaN \/ y = NaN \/ xleb y x = true).
Proof.
  destruct x, y; cbn; rewrite ?Rltb_false, ?Rleb_spec; split; intros; auto; try tauto; try (right; right; auto; fail);
  repeat match goal with H : _ \/ _ |- _ => destruct H end; congruence || auto.
Qed.

Definition nonan (x : XR) : Prop := x <> NaN.
Lemma xlt_false_le x y : nonan x -> nonan y -> (xltb x y = false <-> xle y x).
Proof. intros A B. rewrite xltb_leb. unfold nonan, xle in *. tauto. Qed.
Lemma fin_nonan x : fin x -> nonan x.
Proof. intros [r ->]. discriminate. Qed.
Lemma xle_nonan x y : xle x y -> nonan x /\ nonan y.
Proof. unfold xle, nonan. destruct x, y; cbn; split; congruence. Qed.
Lemma xle_refl x : nonan x -> xle x x.
Proof. unfold xle, nonan. destruct x; cbn; auto. intros _. apply Rleb_spec; lra. Qed.
Lemma xle_trans x y z : xle x y -> xle y z -> xle x z.
Proof. exact (ord_trans (NumOrd := XRord) x y z). Qed.
