(** C80: the Newton iteration of the model on real data, and its convergence. *)
From Coq Require Import Reals Lra Lia.
From Coquelicot Require Import Complex.
From Verif Require Import Base Num NumXR LibBase LibNum LibXR LibEval LoadFlow SpecPf LibC ProofY ProofNr SpecLight ProofLight.
Local Open Scope list_scope.
Local Open Scope R_scope.
Set Bullet Behavior "Strict Subproofs".

Lemma zip_map {A B D K} (f : B -> D -> K) (a : A -> B) (b : A -> D) l : zip_with f (map a l) (map b l) = map (fun k => f (a k) (b k)) l.
Proof. induction l; cbn; congruence. Qed.
Lemma combine_map {A B D} (a : A -> B) (b : A -> D) l : combine (map a l) (map b l) = map (fun k => (a k, b k)) l.
Proof. induction l; cbn; congruence. Qed.
Lemma seq_tl n : seq 0 (S n) = 0%nat :: seq 1 n.
Proof. reflexivity. Qed.
Lemma map_seq_S {A} (f : nat -> A) s n : map f (seq (S s) n) = map (fun k => f (S k)) (seq s n).
Proof. rewrite <- seq_shift, map_map. reflexivity. Qed.
Lemma list_seq (x : list R) n : List.length x = n -> x = map (fun k => nth (k - 1) x 0) (seq 1 n).
Proof.
  intros <-. rewrite map_seq_S. induction x as [|a x IH]; auto. cbn [List.length seq map nth Nat.sub]. f_equal. rewrite IH at 1. rewrite map_seq_S. apply map_ext. intros k. cbn. rewrite Nat.sub_0_r. reflexivity.
Qed.
Lemma nth_firstn1 (l : list R) n k : (k < n)%nat -> nth k (firstn n l) 0 = nth k l 0.
Proof. revert n k. induction l; intros [|n] [|k] H; cbn; auto; try lia. apply IHl. lia. Qed.
Lemma nth_skipn1 (l : list R) n k : nth k (skipn n l) 0 = nth (n + k) l 0.
Proof. revert l. induction n; intros [|a l]; cbn; auto. destruct k; auto. Qed.
Lemma list_seq2 (x : list R) n : List.length x = (2 * n)%nat -> x = map (fun k => nth (k - 1) x 0) (seq 1 n) ++ map (fun k => nth (n + k - 1) x 0) (seq 1 n).
Proof.
  intros L. rewrite <- (firstn_skipn n x) at 1. rewrite (list_seq (firstn n x) n), (list_seq (skipn n x) n) by (rewrite ?firstn_length, ?skipn_length; lia). f_equal; apply map_ext_in; intros k I; apply in_seq in I.
  - apply nth_firstn1. lia.
  - rewrite nth_skipn1. f_equal. lia.
Qed.
Lemma sumR_app l m : sumR (l ++ m) = sumR l + sumR m.
Proof. unfold sumR. induction l; cbn [app fold_right]; [lra|]. rewrite IHl. lra. Qed.
Lemma sumC_fst {A} (f : A -> C) l : fst (sumC (map f l)) = sumR (map (fun k => fst (f k)) l).
Proof. unfold sumR, sumC. induction l; cbn [map fold_right]; auto. rewrite <- IHl. reflexivity. Qed.
Lemma sumC_snd {A} (f : A -> C) l : snd (sumC (map f l)) = sumR (map (fun k => snd (f k)) l).
Proof. unfold sumR, sumC. induction l; cbn [map fold_right]; auto. rewrite <- IHl. reflexivity. Qed.
Lemma zip_app {A B D} (f : A -> B -> D) a1 a2 b1 b2 : List.length a1 = List.length b1 -> zip_with f (a1 ++ a2) (b1 ++ b2) = zip_with f a1 b1 ++ zip_with f a2 b2.
Proof. revert b1. induction a1; intros [|b b1] H; try discriminate; cbn in *; auto. f_equal. apply IHa1. lia. Qed.

Section Bridge.
  Context (n : nat) (M : nat -> nat -> C) (S0 : nat -> C).
  Notation cur := (cur n M).
  Definition gl (th m : nat -> R) : list XR := map (fun k => Fin (th k)) (seq 1 n) ++ map (fun k => Fin (m k)) (seq 1 n).
  Definition Vp (th m : nat -> R) (k : nat) : C := match k with O => RtoC 1 | _ => (RtoC (m k) * cis (th k))%C end.
  Definition dVp (th m dth dv : nat -> R) (k : nat) : C := match k with O => RtoC 0 | _ => (cis (th k) * (dv k, m k * dth k)%R)%C end.
  Notation Y := (tab (S n) M).
  Notation p := (map (fun k => Fin (fst (S0 k))) (seq 1 n)).
  Notation q := (map (fun k => Fin (snd (S0 k))) (seq 1 n)).

  Lemma gl_len th m : List.length (gl th m) = (2 * n)%nat.
  Proof. unfold gl. rewrite app_length, !map_length, seq_length. lia. Qed.
  Lemma gl_v th m : construct_v (gl th m) = map (fun k => up (Vp th m k)) (seq 0 (S n)).
  Proof.
    unfold construct_v. rewrite gl_len. replace ((2 * n) / 2)%nat with n by (rewrite Nat.mul_comm, Nat.div_mul; lia).
    unfold gl. rewrite firstn_app, firstn_all2, skipn_app, skipn_all2 by (rewrite map_length, seq_length; lia). rewrite map_length, seq_length, Nat.sub_diag. cbn [firstn skipn app]. rewrite app_nil_r, zip_map.
    rewrite seq_tl. cbn [map]. f_equal. apply map_ext_in. intros k I. apply in_seq in I. rewrite up_expi, up_scale. destruct k; [lia|]. reflexivity.
  Qed.
  Lemma gl_even th m : construct_vE (gl th m) = Ok (map (fun k => up (Vp th m k)) (seq 0 (S n))).
  Proof. unfold construct_vE. rewrite gl_len, Nat.even_mul, gl_v. reflexivity. Qed.
  Lemma tab_vec V : mat_vec Y (map (fun k => up (V k)) (seq 0 (S n))) = map (fun k => up (cur V k)) (seq 0 (S n)).
  Proof. unfold mat_vec, tab. rewrite map_map. apply map_ext. intros k. rewrite dotc_up. reflexivity. Qed.
  Lemma tab_vecE V : mat_vecE Y (map (fun k => up (V k)) (seq 0 (S n))) = Ok (map (fun k => up (cur V k)) (seq 0 (S n))).
  Proof. unfold mat_vecE. rewrite tab_length, map_length, seq_length, Nat.eqb_refl, tab_vec. reflexivity. Qed.
  Notation Flow := (Fl n M S0).
  Definition fl_list (V : nat -> C) : list R := map (fun k => fst (Flow V k)) (seq 1 n) ++ map (fun k => snd (Flow V k)) (seq 1 n).
  Lemma gl_f th m : f_pfe (gl th m) p q Y = Ok (map Fin (fl_list (Vp th m))).
  Proof.
    unfold f_pfe. rewrite gl_even. cbn [bind]. rewrite tab_vecE. cbn [bind]. rewrite !map_length, !seq_length, !Nat.eqb_refl. cbn [andb negb raise_if bind]. f_equal.
    unfold mismatch, re_im, fl_list. rewrite zip_map. rewrite seq_tl. cbn [map tl]. rewrite !zip_map, !map_app, !map_map.
    f_equal; apply map_ext; intros k; rewrite up_conj, up_mul; change (mkC (Fin (fst (S0 k))) (Fin (snd (S0 k)))) with (up (S0 k)); rewrite up_sub; reflexivity.
  Qed.

  (** the Jacobian *)
  Definition vn (th : nat -> R) (k : nat) : C := match k with O => RtoC 1 | _ => cis (th k) end.
  Definition Ja (V : nat -> C) (i k : nat) : C := ((0, 1)%R * V i * Cconj ((if Nat.eqb i k then cur V i else RtoC 0) - M i k * V k))%C.
  Definition Jm (th : nat -> R) (V : nat -> C) (i k : nat) : C := ((if Nat.eqb i k then vn th i * Cconj (cur V i) else RtoC 0) + V i * Cconj (M i k * vn th k))%C.
  Definition jac_list (th m : nat -> R) : list (list R) :=
    map (fun i => map (fun k => fst (Ja (Vp th m) i k)) (seq 1 n) ++ map (fun k => fst (Jm th (Vp th m) i k)) (seq 1 n)) (seq 1 n) ++
    map (fun i => map (fun k => snd (Ja (Vp th m) i k)) (seq 1 n) ++ map (fun k => snd (Jm th (Vp th m) i k)) (seq 1 n)) (seq 1 n).
  Lemma enum_map {A} (f : nat -> A) k : forall s, enum_from s (map f (seq s k)) = map (fun i => (i, f i)) (seq s k).
  Proof. induction k; intros s; cbn; congruence. Qed.
  Lemma vnorm_up th m k : (forall k, (1 <= k <= n)%nat -> 0 < m k) -> (k <= n)%nat -> vnorm (up (Vp th m k)) = up (vn th k).
  Proof.
    intros Hm Hk. unfold vnorm. rewrite up_abs. destruct k.
    - cbn [Vp]. rewrite Cmod_1, up_divr by lra. f_equal. cbn [vn]. unfold Cdiv. rewrite <- RtoC_inv, Rinv_1 by lra. ring.
    - cbn [Vp vn]. specialize (Hm (S k) ltac:(lia)). rewrite Cmod_mult, cis_mod, Cmod_R, Rabs_pos_eq, Rmult_1_r by lra. rewrite up_divr by lra. f_equal. field. intros E. apply RtoC_inj in E. lra.
  Qed.
  Lemma jac_mat_map (e : cplx XR -> cplx XR -> cplx XR -> cplx XR -> bool -> cplx XR) (E : nat -> nat -> C) V :
    (forall i k, (1 <= i <= n)%nat -> (1 <= k <= n)%nat -> e (up (V i)) (up (V k)) (up (M i k)) (up (cur V i)) (Nat.eqb i k) = up (E i k)) ->
    jac_mat e Y (map (fun k => up (V k)) (seq 0 (S n))) (map (fun k => up (cur V k)) (seq 0 (S n))) = map (fun i => map (fun k => up (E i k)) (seq 1 n)) (seq 1 n).
  Proof.
    intros H. unfold jac_mat, tab. rewrite !combine_map. unfold enumerate. rewrite enum_map, map_map. rewrite seq_tl. cbn [map tl].
    apply map_ext_in. intros i Ii. apply in_seq in Ii. cbn [fst snd]. unfold jac_row, enumerate. change (up (M i 0) :: map (fun k => up (M i k)) (seq 1 n)) with (map (fun k => up (M i k)) (seq 0 (S n))).
    change (up (V 0%nat) :: map (fun k => up (V k)) (seq 1 n)) with (map (fun k => up (V k)) (seq 0 (S n))). rewrite combine_map, enum_map, map_map, seq_tl. cbn [map tl].
    apply map_ext_in. intros k Ik. apply in_seq in Ik. cbn [fst snd]. apply H; lia.
  Qed.
  Lemma gl_jac th m : (forall k, (1 <= k <= n)%nat -> 0 < m k) -> jacobian (gl th m) Y = map (map Fin) (jac_list th m).
  Proof.
    intros Hm. unfold jacobian. rewrite gl_v, tab_vec.
    rewrite (jac_mat_map dS_dVa_entry (Ja (Vp th m))), (jac_mat_map dS_dVm_entry (Jm th (Vp th m))).
    - rewrite !zip_map. unfold jac_list. rewrite map_app, !map_map. f_equal; apply map_ext; intros i; rewrite map_app, !map_map; reflexivity.
    - intros i k Hi Hk. unfold dS_dVm_entry, Jm. rewrite !vnorm_up by (auto; lia). rewrite up_mul, !up_conj, !up_mul. destruct (Nat.eqb i k); [rewrite up_add; reflexivity|]. rewrite up_0, up_add. reflexivity.
    - intros i k Hi Hk. unfold dS_dVa_entry, Ja. change (mkC n0 n1) with (up (0, 1)). destruct (Nat.eqb i k); rewrite ?up_0, !up_mul, up_sub, up_conj, up_mul; reflexivity.
  Qed.
End Bridge.

(** ---- the linear system of a step is the linearised flow ---- *)
Section Linear.
  Context (n : nat) (M : nat -> nat -> C).
  Notation cur := (cur n M).
  Lemma entry_lin th m dth dv i k : (1 <= k)%nat ->
    (Ja n M (Vp th m) i k * RtoC (dth k) + Jm n M th (Vp th m) i k * RtoC (dv k))%C =
    ((if Nat.eqb i k then dVp th m dth dv k * Cconj (cur (Vp th m) i) else RtoC 0) + Vp th m i * Cconj (M i k * dVp th m dth dv k))%C.
  Proof.
    intros Hk. unfold Ja, Jm. destruct k as [|k]; [lia|]. cbn [dVp vn]. set (K := S k).
    replace (cis (th K) * (dv K, (m K * dth K)%R))%C with (cis (th K) * RtoC (dv K) + (0, 1)%R * Vp th m K * RtoC (dth K))%C.
    2:{ unfold K. cbn [Vp]. apply C_eq; unfold cis; cbn [fst snd Cmult Cplus RtoC]; ring. }
    destruct (Nat.eqb_spec i K) as [->|Ne].
    - unfold K at 7. cbn [vn]. fold K. rewrite Cconj_minus, !Cconj_mult, Cconj_plus, !Cconj_mult, !Cconj_R. replace (Cconj (0, 1)) with (- (0, 1))%C by (apply C_eq; cbn; ring).
      generalize (cur (Vp th m) K). intros c. ring.
    - rewrite Cconj_minus, !Cconj_mult, Cconj_plus, !Cconj_mult, !Cconj_R. replace (Cconj (0, 1)) with (- (0, 1))%C by (apply C_eq; cbn; ring). ring.
  Qed.
  Lemma sum_diag (f : nat -> C) l i : NoDup l -> In i l -> sumC (map (fun k => if Nat.eqb i k then f k else RtoC 0) l) = f i.
  Proof.
    intros ND I. induction l as [|a l IH]; [destruct I|]. inversion ND; subst. cbn [map]. rewrite sumC_cons. destruct (Nat.eqb_spec i a) as [->|Ne].
    - rewrite (sumC_ext_in l _ (fun _ => RtoC 0)); [rewrite sumC_zero; ring|]. intros k Ik. destruct (Nat.eqb_spec a k); [subst; contradiction|auto].
    - destruct I as [->|I]; [congruence|]. rewrite IH by auto. ring.
  Qed.
  Lemma sum_lin th m dth dv i : on n i ->
    sumC (map (fun k => (Ja n M (Vp th m) i k * RtoC (dth k) + Jm n M th (Vp th m) i k * RtoC (dv k))%C) (seq 1 n)) = DF n M (Vp th m) (dVp th m dth dv) i.
  Proof.
    intros Hi. rewrite (sumC_ext_in _ _ (fun k => ((if Nat.eqb i k then dVp th m dth dv k * Cconj (cur (Vp th m) i) else RtoC 0) + Vp th m i * Cconj (M i k * dVp th m dth dv k))%C)) by (intros k I; apply in_seq in I; apply entry_lin; lia). rewrite sumC_plus, (sum_diag (fun k => (dVp th m dth dv k * Cconj (cur (Vp th m) i))%C)).
    2:apply seq_NoDup.
    2:{ apply in_seq. unfold on in Hi. lia. }
    unfold DF. f_equal. unfold ProofLight.cur, sumn. rewrite seq_tl. cbn [map]. rewrite sumC_cons. cbn [dVp]. replace (M i 0%nat * RtoC 0 + sumC (map (fun j => (M i j * dVp th m dth dv j)%C) (seq 1 n)))%C with (sumC (map (fun j => (M i j * dVp th m dth dv j)%C) (seq 1 n))) by ring.
    rewrite sumC_conj. induction (seq 1 n) as [|a l IH]; cbn [map]; [rewrite !sumC_nil; ring|]. rewrite !sumC_cons, IH. ring.
  Qed.
  Lemma dot_two (f g dth dv : nat -> R) l : dotR (map f l ++ map g l) (map dth l ++ map dv l) = sumR (map (fun k => f k * dth k + g k * dv k) l).
  Proof.
    unfold dotR. rewrite zip_app by (rewrite !map_length; auto). rewrite !zip_map, sumR_app. induction l; cbn [map]; unfold sumR in *; cbn [fold_right]; [lra|]. rewrite <- IHl. lra.
  Qed.
  (** rows of the Jacobian times the step *)
  Lemma jac_rows_re th m dth dv i : on n i -> dotR (map (fun k => fst (Ja n M (Vp th m) i k)) (seq 1 n) ++ map (fun k => fst (Jm n M th (Vp th m) i k)) (seq 1 n)) (map dth (seq 1 n) ++ map dv (seq 1 n)) =
    fst (DF n M (Vp th m) (dVp th m dth dv) i).
  Proof. intros Hi. rewrite dot_two, <- sum_lin, sumC_fst by auto. f_equal. apply map_ext. intros k. cbn [fst snd Cplus Cmult RtoC]. ring. Qed.
  Lemma jac_rows_im th m dth dv i : on n i -> dotR (map (fun k => snd (Ja n M (Vp th m) i k)) (seq 1 n) ++ map (fun k => snd (Jm n M th (Vp th m) i k)) (seq 1 n)) (map dth (seq 1 n) ++ map dv (seq 1 n)) =
    snd (DF n M (Vp th m) (dVp th m dth dv) i).
  Proof. intros Hi. rewrite dot_two, <- sum_lin, sumC_snd by auto. f_equal. apply map_ext. intros k. cbn [fst snd Cplus Cmult RtoC]. ring. Qed.
  Lemma F2_map {A B D} (P : B -> D -> Prop) (f : A -> B) (g : A -> D) l : (forall a, In a l -> P (f a) (g a)) <-> Forall2 P (map f l) (map g l).
  Proof. split; intros H; induction l; cbn in *; auto; try tauto. inversion H; subst. intros b [<-|I]; auto. Qed.
  Lemma app_inj {A} (a b c d : list A) : List.length a = List.length c -> a ++ b = c ++ d -> a = c /\ b = d.
  Proof. revert c. induction a; intros [|x c] L E; try discriminate; cbn in *; auto. injection E as -> E. destruct (IHa c ltac:(lia) E) as (-> & ->). auto. Qed.
  Lemma jac_solves S0 th m dth dv V : Forall2 (fun row v => dotR row (map dth (seq 1 n) ++ map dv (seq 1 n)) = v) (jac_list n M th m) (fl_list n M S0 V) ->
    forall k, on n k -> DF n M (Vp th m) (dVp th m dth dv) k = Fl n M S0 V k.
  Proof.
    unfold jac_list, fl_list. intros H k Hk. apply Forall2_app_inv_l in H as (l1 & l2 & A & B & E).
    assert (L : List.length l1 = List.length (map (fun k => fst (Fl n M S0 V k)) (seq 1 n))) by (pose proof (Forall2_len _ _ _ A) as K; rewrite !map_length in *; auto).
    apply app_inj in E as (<- & <-); [|auto]. rewrite <- F2_map in A, B. apply on_seq in Hk as Ik. specialize (A k Ik). specialize (B k Ik). cbv beta in A, B. rewrite jac_rows_re in A by auto. rewrite jac_rows_im in B by auto. apply C_eq; auto.
  Qed.
End Linear.
