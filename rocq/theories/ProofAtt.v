(** The optimal power flow of the MPC agents attains its least cost: compactness of the set of plans. *)
From Coq Require Import Reals Lra Sorted ClassicalEpsilon.
From Coquelicot Require Import Coquelicot.
From Verif Require Import Base Num NumXR Devices BusBranch CheckNetwork LoadFlow Simulator EnvArgs Env Mpc LibBase LibXR SpecNet SpecSim SpecDev
  SpecQp SpecPf SpecEnv SpecMpc ProofPlan SpecOpf ProofOpf.
Local Open Scope string_scope.
Local Open Scope list_scope.
Local Open Scope R_scope.
Set Bullet Behavior "Strict Subproofs".

(** ---- Bolzano-Weierstrass for finitely many coordinates ---- *)
Lemma subseq_ge (phi : nat -> nat) : (forall n, (phi n < phi (S n))%nat) -> forall n, (n <= phi n)%nat.
Proof. intros H n. induction n as [|n IH]; [lia|]. specialize (H n). lia. Qed.
Lemma subseq_comp (phi psi : nat -> nat) : (forall n, (phi n < phi (S n))%nat) -> (forall n, (psi n < psi (S n))%nat) -> forall n, (phi (psi n) < phi (psi (S n)))%nat.
Proof.
  intros H1 H2 n. assert (M : forall b a, (a < b)%nat -> (phi a < phi b)%nat).
  { induction b as [|b IH]; intros a L; [lia|]. destruct (Nat.eq_dec a b) as [->|]; [apply H1|]. eapply Nat.lt_trans; [apply IH; lia|apply H1]. }
  apply M, H2.
Qed.
Lemma bw1 (u : nat -> R) (M : R) : (forall n, Rabs (u n) <= M) -> exists (phi : nat -> nat) (l : R), (forall n, (phi n < phi (S n))%nat) /\ is_lim_seq (fun n => u (phi n)) l.
Proof.
  intros B.
  destruct (Bolzano_Weierstrass u (fun x => - M <= x <= M) (compact_P3 (- M) M)) as (l & V).
  { intros n. specialize (B n). apply Rabs_le_between in B. exact B. }
  assert (N : forall n p : nat, exists q, (p < q)%nat /\ Rabs (u q - l) < / (INR n + 1)).
  { intros n p. assert (P : 0 < / (INR n + 1)) by (apply Rinv_0_lt_compat; pose proof (pos_INR n); lra).
    destruct (V (disc l (mkposreal _ P)) (S p)) as (q & L & D).
    - exists (mkposreal _ P). intros x Hx. exact Hx.
    - exists q. split; [lia|]. exact D. }
  set (nxt := fun n p => proj1_sig (constructive_indefinite_description _ (N n p))).
  assert (Hn : forall n p, (p < nxt n p)%nat /\ Rabs (u (nxt n p) - l) < / (INR n + 1)).
  { intros n p. unfold nxt. destruct (constructive_indefinite_description _ _) as (q & Hq). exact Hq. }
  clearbody nxt.
  set (phi := fix phi (n : nat) : nat := match n with O => nxt 0%nat 0%nat | S m => nxt (S m) (phi m) end).
  exists phi, l. split; [intros n; apply (Hn (S n) (phi n))|].
  assert (C : forall n, Rabs (u (phi n) - l) < / (INR n + 1)). { intros [|n]; apply Hn. }
  apply is_lim_seq_spec. intros eps. destruct (archimed_cor1 eps (cond_pos eps)) as (k & K1 & K2). exists k. intros n L.
  eapply Rlt_trans; [apply C|]. eapply Rle_lt_trans; [|exact K1]. apply Rinv_le_contravar; [apply (lt_INR 0); lia|]. apply le_INR in L. lra.
Qed.
Lemma bw {X C} (get : C -> X -> R) (cs : list C) (u : nat -> X) : (forall c, In c cs -> exists M, forall n, Rabs (get c (u n)) <= M) ->
  exists phi : nat -> nat, (forall n, (phi n < phi (S n))%nat) /\ forall c, In c cs -> exists l : R, is_lim_seq (fun n => get c (u (phi n))) l.
Proof.
  induction cs as [|c cs IH]; intros B; [exists (fun n => n); split; [intros; lia|intros c []]|].
  destruct IH as (phi & P1 & P2); [intros c' I; apply B; right; auto|]. destruct (B c (or_introl eq_refl)) as (M & HM).
  destruct (bw1 (fun n => get c (u (phi n))) M (fun n => HM (phi n))) as (psi & l & Q1 & Q2).
  exists (fun n => phi (psi n)). split; [apply subseq_comp; auto|]. intros c' [<-|I]; [exists l; exact Q2|].
  destruct (P2 c' I) as (l' & H'). exists l'. apply (is_lim_seq_subseq (fun n => get c' (u (phi n))) l' psi); auto.
  intros P (N0 & HP). exists N0. intros n L. apply HP. pose proof (subseq_ge psi Q1 n). lia.
Qed.

(** ---- attainment ---- *)
Section Attain.
  Context {X C : Type} (get : C -> X -> R) (cs : list C) (P : X -> Prop) (cost : X -> R).
  Context (Bnd : forall c, In c cs -> exists M, forall x, P x -> Rabs (get c x) <= M).
  (* every sequence of points whose coordinates converge has a limit point, to which the cost converges *)
  Context (Cls : forall u : nat -> X, (forall n, P (u n)) -> (forall c, In c cs -> exists l : R, is_lim_seq (fun n => get c (u n)) l) -> exists v, P v /\ is_lim_seq (fun n => cost (u n)) (cost v)).
  Lemma attain_seq (u : nat -> X) : (forall n, P (u n)) -> exists phi v, (forall n, (phi n < phi (S n))%nat) /\ P v /\ is_lim_seq (fun n => cost (u (phi n))) (cost v).
  Proof.
    intros H. destruct (bw get cs u) as (phi & P1 & P2).
    { intros c I. destruct (Bnd c I) as (M & HM). exists M. intros n. apply HM, H. }
    destruct (Cls (fun n => u (phi n)) (fun n => H (phi n)) P2) as (v & V1 & V2). exists phi, v. auto.
  Qed.
  Lemma attain : (exists x, P x) -> exists x, P x /\ forall y, P y -> cost x <= cost y.
  Proof.
    intros (x0 & H0).
    assert (Lo : exists m, forall x, P x -> m <= cost x).
    { destruct (classic (exists m, forall x, P x -> m <= cost x)) as [|No]; [auto|exfalso].
      assert (N : forall n, exists x, P x /\ cost x < - INR n).
      { intros n. apply NNPP. intros Q. apply No. exists (- INR n). intros x Hx. apply Rnot_lt_le. intros L. apply Q. exists x. auto. }
      set (u := fun n => proj1_sig (constructive_indefinite_description _ (N n))).
      assert (U : forall n, P (u n) /\ cost (u n) < - INR n) by (intros n; unfold u; destruct (constructive_indefinite_description _ _); auto). clearbody u.
      destruct (attain_seq u (fun n => proj1 (U n))) as (phi & v & S & _ & L).
      assert (Li : is_lim_seq (fun n => cost (u (phi n))) m_infty).
      { apply (is_lim_seq_le_m_loc (fun n => - INR n)).
        - exists 0%nat. intros n _. destruct (U (phi n)) as (_ & Q). pose proof (subseq_ge phi S n) as G. apply le_INR in G. lra.
        - apply (is_lim_seq_opp _ p_infty). apply is_lim_seq_INR. }
      apply is_lim_seq_unique in L. apply is_lim_seq_unique in Li. rewrite L in Li. discriminate Li. }
    destruct Lo as (m & Lo).
    destruct (completeness (fun y => exists x, P x /\ y = - cost x)) as (g & U1 & U2).
    { exists (- m). intros y (x & Hx & ->). specialize (Lo x Hx). lra. }
    { exists (- cost x0), x0. auto. }
    assert (N : forall n, exists x, P x /\ cost x < - g + / (INR n + 1)).
    { intros n. apply NNPP. intros Q. assert (Pn : 0 < / (INR n + 1)) by (apply Rinv_0_lt_compat; pose proof (pos_INR n); lra).
      assert (g <= g - / (INR n + 1)); [|lra]. apply U2. intros y (x & Hx & ->). apply Rnot_lt_le. intros L. apply Q. exists x. split; [auto|lra]. }
    set (u := fun n => proj1_sig (constructive_indefinite_description _ (N n))).
    assert (U : forall n, P (u n) /\ cost (u n) < - g + / (INR n + 1)) by (intros n; unfold u; destruct (constructive_indefinite_description _ _); auto). clearbody u.
    destruct (attain_seq u (fun n => proj1 (U n))) as (phi & v & S & Hv & L). exists v. split; [exact Hv|]. intros y Hy.
    assert (- cost y <= g) by (apply U1; exists y; auto).
    assert (cost v <= - g); [|lra]. apply le_epsilon. intros eps He.
    destruct (archimed_cor1 eps He) as (k & K1 & K2).
    assert (Rbar_le (cost v) (- g + eps)); [|auto]. apply (is_lim_seq_le_loc (fun n => cost (u (phi n))) (fun _ => - g + eps)); [|exact L|apply is_lim_seq_const].
    exists k. intros n Hn. destruct (U (phi n)) as (_ & Q). pose proof (subseq_ge phi S n) as G.
    assert (/ (INR (phi n) + 1) <= / INR k); [|lra]. apply Rinv_le_contravar; [apply (lt_INR 0); lia|]. assert (k <= phi n)%nat as G' by lia. apply le_INR in G'. lra.
  Qed.
End Attain.
