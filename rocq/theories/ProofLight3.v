(** C80: with an exact linear solver the Newton loop of the model converges on a lightly loaded network. *)
From Coq Require Import Reals Lra Lia.
From Coquelicot Require Import Complex.
From Verif Require Import Base Num NumXR LibBase LibNum LibXR LibEval LoadFlow SpecPf LibC ProofY ProofNr SpecNr SpecLight ProofLight ProofLight2.
Local Open Scope list_scope.
Local Open Scope R_scope.
Set Bullet Behavior "Strict Subproofs".

Lemma norm_inf_fin l : l <> [] -> exists d, norm_inf (map Fin l) = Ok (Fin d).
Proof.
  destruct l as [|a l]; [congruence|]. intros _. unfold norm_inf. cbn [map nabs XRnum xabs]. generalize (Rabs a). clear a. induction l as [|b l IH]; intros a; cbn [map fold_left]; [eauto|].
  cbn [nabs XRnum xabs]. unfold np_max. destruct (_ || _)%bool; apply IH.
Qed.
Lemma Fin_bnd l d t : norm_inf (map Fin l) = Ok (Fin d) -> (d <= t <-> Forall (fun v => Rabs v <= t) l).
Proof.
  intros H. pose proof (norm_inf_le _ _ t H) as K. rewrite xle_Fin in K. rewrite K, Forall_map. split; intros G; eapply Forall_impl; try exact G; cbn.
  - intros v (r & E & Hr). congruence.
  - intros v Hv. eauto.
Qed.
Lemma pow_half j : 0 < (/ 2) ^ j.
Proof. apply pow_lt. lra. Qed.

Section Conv.
  Context (n : nat) (M Zm : nat -> nat -> C) (z y s : R) (S0 : nat -> C) (lin : lin_solver XR).
  Context (Hn : (1 <= n)%nat) (H1 : forall k, on n k -> cur n M (fun _ => RtoC 1) k = RtoC 0).
  Context (HZ : forall V, V 0%nat = RtoC 0 -> forall i, on n i -> sumC (map (fun k => (Zm i k * cur n M V k)%C) (seq 1 n)) = V i).
  Context (Hz : forall i, on n i -> sumR (map (fun k => Cmod (Zm i k)) (seq 1 n)) <= z).
  Context (Hy : forall V r, (forall j, (j <= n)%nat -> Cmod (V j) <= r) -> forall k, on n k -> Cmod (cur n M V k) <= y * r).
  Context (Hs : forall k, on n k -> Cmod (S0 k) <= s) (Hc : 48 * (z * y) * (z * s) <= 1) (Ht : z * y * s <= 10 ^ 20) (Hl : exact_lin lin).
  Notation Y := (tab (S n) M).
  Notation p := (map (fun k => Fin (fst (S0 k))) (seq 1 n)).
  Notation q := (map (fun k => Fin (snd (S0 k))) (seq 1 n)).
  Notation Flow := (Fl n M S0).
  Notation Kp := (kappa_one n M Zm z y Hn HZ Hz Hy).
  Notation Zp := (z_pos n Zm z Hn Hz).
  Notation Yp := (y_pos n M Zm z y Hn HZ Hz Hy).

  Lemma s_pos : 0 <= s.
  Proof. eapply Rle_trans; [apply Cmod_ge_0|apply (Hs 1%nat)]. unfold on. lia. Qed.
  Lemma zs_small : 0 <= z * s <= 1 / 48.
  Proof. pose proof Kp. pose proof Zp. pose proof s_pos. assert (0 <= z * s) by (apply Rmult_le_pos; auto). split; auto. nra. Qed.

  Definition rho (j : nat) : R := z * s * (/ 2) ^ j.
  Lemma rho_pos j : 0 <= rho j. Proof. unfold rho. pose proof zs_small as (K & _). pose proof (pow_half j). nra. Qed.
  Lemma rho_le j : rho j <= z * s.
  Proof. unfold rho. pose proof zs_small as (K & _). assert ((/ 2) ^ j <= 1). { induction j; cbn; [lra|]. pose proof (pow_half j). nra. } nra. Qed.
  Lemma rho_S j : rho (S j) = rho j / 2. Proof. unfold rho. cbn [pow]. field. Qed.

  (** the state after [j] steps *)
  Definition Inv (j : nat) (th m : nat -> R) : Prop :=
    (forall k, on n k -> 0 < m k) /\ bnd n (Bo n Zm (Flow (Vp th m))) (rho j) /\ bnd n (dev1 (Vp th m)) (6 * (z * s) - 6 * rho j) /\
    (j <> 0%nat -> bnd n (Flow (Vp th m)) (24 * y * (rho (j - 1) * rho (j - 1)))).

  Lemma inv_start : Inv 0 (fun _ => 0) (fun _ => 1).
  Proof.
    assert (E : forall j, Vp (fun _ => 0) (fun _ => 1) j = RtoC 1) by (intros [|j]; cbn [Vp]; auto; rewrite cis_0; ring).
    split; [intros; lra|]. split; [|split; [|congruence]].
    - unfold rho. cbn [pow]. rewrite Rmult_1_r. assert (B : bnd n (Flow (Vp (fun _ => 0) (fun _ => 1))) s).
      { intros k Hk. unfold Fl. rewrite (cur_ext n M Hn _ (fun _ => RtoC 1)) by auto. rewrite (H1 k Hk), Cconj_0. replace (Vp (fun _ => 0) (fun _ => 1) k * RtoC 0 - S0 k)%C with (- S0 k)%C by ring. rewrite Cmod_opp. auto. }
      apply (Bo_bnd n Zm z Hz _ s s_pos B).
    - intros k Hk. unfold dev1. rewrite E. replace (RtoC 1 - RtoC 1)%C with (RtoC 0) by ring. rewrite Cmod_0. unfold rho. cbn [pow]. lra.
  Qed.
  Lemma eta_small j : 0 <= 6 * (z * s) - 6 * rho j <= 1 / 8 /\ 4 * (z * y) * (6 * (z * s) - 6 * rho j) <= 1.
  Proof. pose proof (rho_le j). pose proof (rho_pos j). pose proof zs_small. pose proof Kp. repeat split; nra. Qed.
  Lemma magn j th m : Inv j th m -> forall k, on n k -> 7 / 8 <= m k.
  Proof.
    intros (Hm & _ & Hd & _) k Hk. specialize (Hm k Hk). specialize (Hd k Hk). destruct (eta_small j) as ((_ & E) & _).
    assert (Ev : Cmod (Vp th m k) = m k) by (destruct k; [unfold on in Hk; lia|]; cbn [Vp]; rewrite Cmod_mult, cis_mod, Cmod_R, Rabs_pos_eq by lra; ring).
    assert (T : 1 <= Cmod (Vp th m k) + Cmod (dev1 (Vp th m) k)). { rewrite <- Cmod_1 at 1. replace (RtoC 1) with (Vp th m k + - dev1 (Vp th m) k)%C by (unfold dev1; ring). eapply Rle_trans; [apply Cmod_triangle|]. rewrite Cmod_opp. lra. }
    rewrite Ev in T. lra.
  Qed.
  Lemma Fl_ext V W k : (forall j, (j <= n)%nat -> V j = W j) -> on n k -> Flow V k = Flow W k.
  Proof. intros E Hk. unfold Fl. rewrite (cur_ext n M Hn V W) by auto. rewrite E by (unfold on in Hk; lia). reflexivity. Qed.
  (** one Newton step *)
  Lemma inv_step j th m dth dv : Inv j th m -> (forall k, on n k -> DF n M (Vp th m) (dVp th m dth dv) k = Flow (Vp th m) k) ->
    Inv (S j) (fun k => th k - dth k) (fun k => m k - dv k).
  Proof.
    intros I E. pose proof (magn j th m I) as Hm. destruct I as (Hp & HB & HD & _). destruct (eta_small j) as ((E1 & E2) & E3). pose proof (rho_pos j) as R0. pose proof (rho_le j) as R1. pose proof zs_small as (Z0 & Z1).
    set (V := Vp th m) in *. set (d := dVp th m dth dv) in *. set (V1 := Vp (fun k => th k - dth k) (fun k => m k - dv k)). set (e := fun k => (V1 k - V k + d k)%C).
    assert (Bd : bnd n d (2 * rho j)) by (apply (step_bnd n M Zm z y Hn H1 HZ Hz Hy V d _ _ _ E1 E3 eq_refl eq_refl HD E HB)).
    assert (Be : bnd n e (2 * (2 * rho j * (2 * rho j)))).
    { intros k Hk. specialize (Bd k Hk). specialize (Hm k Hk). unfold e, V1, V, d in *. destruct k; [unfold on in Hk; lia|]. cbn [Vp dVp] in *. eapply Rle_trans; [apply polar_step; auto; lra|].
      pose proof (Cmod_ge_0 (cis (th (S k)) * (dv (S k), (m (S k) * dth (S k))%R))%C). apply Rmult_le_compat_l; [lra|]. apply Rmult_le_compat; auto. }
    assert (D4 : 0 <= 2 * rho j <= 1 / 4) by lra.
    destruct (next_bnd n M Zm z y S0 Hn H1 HZ Hz Hy V d e _ _ E1 E3 eq_refl eq_refl ltac:(unfold e, V1, V, d; cbn [Vp dVp]; ring) HD E D4 Bd Be) as (N1 & N2 & N3 & _).
    assert (EV : forall i, (i <= n)%nat -> (V i + (e i - d i))%C = V1 i) by (intros i _; unfold e; ring).
    assert (EF : forall k, on n k -> Flow (fun i => (V i + (e i - d i))%C) k = Flow V1 k) by (intros k Hk; apply Fl_ext; auto).
    unfold Inv. fold V1. split; [|split; [|split]].
    - intros k Hk. specialize (Bd k Hk). specialize (Hm k Hk). unfold d in Bd. destruct k; [unfold on in Hk; lia|]. cbn [dVp] in Bd. rewrite Cmod_mult, cis_mod, Rmult_1_l in Bd. pose proof (Rmax_Cmod (dv (S k), (m (S k) * dth (S k))%R)) as K. cbn [fst snd] in K.
      pose proof (Rmax_l (Rabs (dv (S k))) (Rabs (m (S k) * dth (S k)))). pose proof (Rle_abs (dv (S k))). lra.
    - intros i Hi. specialize (N1 i Hi). rewrite (Bo_ext n Zm _ (Flow V1) i EF) in N1. eapply Rle_trans; [exact N1|]. rewrite rho_S. pose proof Kp as K.
      assert (X : 48 * (z * y) * rho j <= 1) by (eapply Rle_trans; [|exact Hc]; apply Rmult_le_compat_l; [lra|auto]).
      replace (6 * (z * y) * (2 * rho j * (2 * rho j))) with ((48 * (z * y) * rho j) * rho j / 2) by field. assert (48 * (z * y) * rho j * rho j <= 1 * rho j) by (apply Rmult_le_compat_r; auto). lra.
    - intros k Hk. specialize (N3 k Hk). unfold dev1 in N3 |- *. rewrite EV in N3 by (unfold on in Hk; lia). rewrite rho_S. lra.
    - intros _ k Hk. specialize (N2 k Hk). rewrite EF in N2 by auto. replace (S j - 1)%nat with j by lia. lra.
  Qed.
  (** the Jacobian is nonsingular there *)
  Lemma jac_len th m : List.length (jac_list n M th m) = (2 * n)%nat.
  Proof. unfold jac_list. rewrite app_length, !map_length, seq_length. lia. Qed.
  Lemma fl_len V : List.length (fl_list n M S0 V) = (2 * n)%nat.
  Proof. unfold fl_list. rewrite app_length, !map_length, seq_length. lia. Qed.
  Lemma jac_square th m : Forall (fun row => List.length row = List.length (jac_list n M th m)) (jac_list n M th m).
  Proof. rewrite jac_len. unfold jac_list. apply Forall_app; split; apply Forall_map, Forall_forall; intros i _; rewrite app_length, !map_length, seq_length; lia. Qed.
  Lemma jac_nonsingular j th m : Inv j th m -> nonsingular (jac_list n M th m).
  Proof.
    intros I x L Hx. rewrite jac_len in L. rewrite (list_seq2 x n L) in Hx |- *. set (dth := fun k => nth (k - 1) x 0) in *. set (dv := fun k => nth (n + k - 1) x 0) in *.
    pose proof (magn j th m I) as Hm. destruct I as (Hp & HB & HD & _). destruct (eta_small j) as ((E1 & E2) & E3).
    assert (E : forall k, on n k -> DF n M (Vp th m) (dVp th m dth dv) k = RtoC 0).
    { intros k Hk. unfold jac_list in Hx. apply Forall_app in Hx as (A & B). rewrite Forall_map, Forall_forall in A, B. apply (on_seq n) in Hk as Ik. specialize (A k Ik). specialize (B k Ik). cbv beta in A, B. rewrite jac_rows_re in A by auto. rewrite jac_rows_im in B by auto. apply C_eq; auto. }
    assert (B0 : bnd n (Bo n Zm (fun _ => RtoC 0)) 0). { intros k Hk. unfold Bo. rewrite (sumC_ext_in _ _ (fun _ => RtoC 0)) by (intros; ring). rewrite sumC_zero, Cmod_0. lra. }
    pose proof (step_bnd n M Zm z y Hn H1 HZ Hz Hy _ _ _ _ _ E1 E3 eq_refl eq_refl HD E B0) as Bd. rewrite Rmult_0_r in Bd.
    assert (D : forall k, on n k -> dth k = 0 /\ dv k = 0).
    { intros k Hk. specialize (Bd k Hk). specialize (Hm k Hk). destruct k; [unfold on in Hk; lia|]. cbn [dVp] in Bd. rewrite Cmod_mult, cis_mod, Rmult_1_l in Bd. pose proof (Cmod_ge_0 (dv (S k), (m (S k) * dth (S k))%R)) as G.
      assert (Z0 : Cmod (dv (S k), (m (S k) * dth (S k))%R) = 0) by lra. apply Cmod_eq_0 in Z0. injection Z0 as Z1 Z2. split; auto. apply Rmult_integral in Z2 as [Z2|Z2]; auto. lra. }
    apply Forall_app; split; apply Forall_map, Forall_forall; intros k Ik; apply on_seq in Ik; apply D in Ik; tauto.
  Qed.
  Lemma gl_sub th m dth dv : vec_sub (gl n th m) (map Fin (map dth (seq 1 n) ++ map dv (seq 1 n))) = Ok (gl n (fun k => th k - dth k) (fun k => m k - dv k)).
  Proof.
    unfold vec_sub. rewrite gl_len, map_length, app_length, !map_length, seq_length. replace (Nat.eqb (2 * n) (n + n)) with true by (symmetry; apply Nat.eqb_eq; lia). f_equal.
    unfold gl. rewrite map_app, !map_map, zip_app by (rewrite !map_length; auto). rewrite !zip_map. reflexivity.
  Qed.
  Lemma fl_ne V : fl_list n M S0 V <> [].
  Proof. intros E. pose proof (fl_len V) as L. rewrite E in L. cbn in L. lia. Qed.
  Lemma last_small : 24 * y * (rho 99 * rho 99) <= / 100000.
  Proof.
    unfold rho. pose proof zs_small as (Z0 & Z1). pose proof s_pos. pose proof Yp. pose proof Zp.
    assert (P : (/ 2) ^ 99 = / IZR (2 ^ 99)). { rewrite pow_inv. f_equal. change (2 ^ 99)%Z with (2 ^ Z.of_nat 99)%Z. rewrite <- pow_IZR. reflexivity. }
    assert (T : z * y * s <= 100000000000000000000) by (eapply Rle_trans; [exact Ht|]; simpl; lra). rewrite P.
    replace (24 * y * (z * s * / IZR (2 ^ 99) * (z * s * / IZR (2 ^ 99)))) with (24 * (z * y * s) * (z * s) * (/ IZR (2 ^ 99) * / IZR (2 ^ 99))) by ring.
    assert (A : 24 * (z * y * s) * (z * s) <= 24 * 100000000000000000000 * 1) by (apply Rmult_le_compat; [repeat apply Rmult_le_pos; lra|lra|lra|lra]).
    assert (Q : / IZR (2 ^ 99) * / IZR (2 ^ 99) <= / 100000000000000000000000000000000). { rewrite <- Rinv_mult. apply Rinv_le_contravar; [lra|]. rewrite <- mult_IZR. apply IZR_le. vm_compute. discriminate. }
    assert (Q0 : 0 <= / IZR (2 ^ 99) * / IZR (2 ^ 99)) by (apply Rmult_le_pos; left; apply Rinv_0_lt_compat, IZR_lt; reflexivity).
    apply Rle_trans with (24 * 100000000000000000000 * 1 * / 100000000000000000000000000000000); [apply Rmult_le_compat; auto; repeat apply Rmult_le_pos; lra|]. lra.
  Qed.

  Lemma loop_conv fuel : forall j k th m d, (fuel + j = 100)%nat -> Inv j th m -> norm_inf (map Fin (fl_list n M S0 (Vp th m))) = Ok (Fin d) ->
    exists th' m' k' d', nr_loop lin Y p q (Fin (/ 100000)) fuel k (gl n th m) (map Fin (fl_list n M S0 (Vp th m))) (Fin d) = Ok (gl n th' m', k', Fin d') /\ d' <= / 100000.
  Proof.
    induction fuel as [|fuel IH]; intros j k th m d Hf I Nd; cbn [nr_loop].
    - exists th, m, k, d. split; auto. apply (Fin_bnd _ _ _ Nd). destruct I as (_ & _ & _ & B). assert (Ej : j = 100%nat) by lia. subst j. specialize (B ltac:(discriminate)). cbn [Nat.sub] in B. pose proof last_small as L.
      unfold fl_list. apply Forall_app; split; apply Forall_map, Forall_forall; intros i Ii; apply on_seq in Ii; specialize (B i Ii); pose proof (Rmax_Cmod (Flow (Vp th m) i)) as K.
      + pose proof (Rmax_l (Rabs (fst (Flow (Vp th m) i))) (Rabs (snd (Flow (Vp th m) i)))). lra.
      + pose proof (Rmax_r (Rabs (fst (Flow (Vp th m) i))) (Rabs (snd (Flow (Vp th m) i)))). lra.
    - destruct (nltb (Fin (/ 100000)) (Fin d)) eqn:L.
      + assert (Hm : forall k, (1 <= k <= n)%nat -> 0 < m k) by (destruct I as (Hm & _); exact Hm).
        rewrite (gl_jac n M th m Hm). destruct (Hl (jac_list n M th m) (fl_list n M S0 (Vp th m))) as (x & Ex & Lx & Sx); [rewrite fl_len, jac_len; auto|apply jac_square|apply (jac_nonsingular j th m I)|].
        rewrite Ex. cbn [bind]. rewrite jac_len in Lx. rewrite (list_seq2 x n Lx) in Sx |- *. rewrite gl_sub. cbn [bind]. rewrite gl_f. cbn [bind].
        pose proof (jac_solves n M S0 th m _ _ _ Sx) as E. pose proof (inv_step j th m _ _ I E) as I'. destruct (norm_inf_fin _ (fl_ne (Vp (fun k0 => th k0 - nth (k0 - 1) x 0) (fun k0 => m k0 - nth (n + k0 - 1) x 0)))) as (d1 & N1).
        rewrite N1. cbn [bind]. apply (IH (S j) (S k) _ _ d1); auto. lia.
      + exists th, m, k, d. split; auto. cbn in L. unfold xltb, Rltb in L. destruct (Rlt_dec (/ 100000) d); [discriminate|lra].
  Qed.
  Lemma flat_gl : flat (F := XR) (S n) = gl n (fun _ => 0) (fun _ => 1).
  Proof.
    assert (R : forall (x : XR) k a, repeat x k = map (fun _ => x) (seq a k)) by (intros x k; induction k; intros a; cbn; f_equal; auto).
    unfold flat, gl. replace (S n - 1)%nat with n by lia. rewrite (R n0 n 1%nat), (R n1 n 1%nat). reflexivity.
  Qed.
  Theorem light_conv : exists v i, solve_pfe lin (S n) p q Y (Fin (/ 100000)) = Ok (v, i, true).
  Proof.
    unfold solve_pfe, newton_raphson. change (repeat n0 (S n - 1) ++ repeat n1 (S n - 1)) with (flat (F := XR) (S n)). rewrite flat_gl. rewrite gl_f. cbn [bind].
    destruct (norm_inf_fin _ (fl_ne (Vp (fun _ => 0) (fun _ => 1)))) as (d & Nd). rewrite Nd. cbn [bind].
    destruct (loop_conv 100 0 0 _ _ d eq_refl inv_start Nd) as (th & m & k & d' & E & Hd). rewrite E. cbn [bind]. rewrite gl_even. cbn [bind]. rewrite tab_vecE. cbn [bind].
    eexists; eexists. f_equal. f_equal. assert (Rleb d' (/ 100000) = true) as Z by (apply Rleb_spec; exact Hd). destruct (nisnan (Fin d')) eqn:W; [apply xisnan_spec in W; discriminate W|]. cbn. exact Z.
  Qed.
End Conv.
