(** A converged transition solves the power-flow equations: C17, C20, C26. *)
From Coq Require Import Reals Lra Permutation Sorted.
From Coquelicot Require Import Complex.
From Verif Require Import Base Num NumXR LibBase LibNum LibXR LibEval Devices BusBranch CheckNetwork LoadFlow Simulator SpecNet ProofNet LibInit LibSim
  SpecDev SpecSim ProofSim ProofSoc ProofObs ProofDev ProofBusP SpecPf LibC ProofBr ProofY SpecNr ProofNr.
Local Open Scope string_scope.
Local Open Scope list_scope.
Local Open Scope R_scope.

(** ---- sorted lists ---- *)
Lemma nodup_inj {A B} (f : A -> B) l a c : NoDup (map f l) -> In a l -> In c l -> f a = f c -> a = c.
Proof.
  induction l as [|x l IH]; cbn; [tauto|]. intros ND [->|I] [->|J] E; inversion ND; subst; auto; exfalso; [rewrite E in *|rewrite <- E in *]; auto using in_map.
Qed.
Lemma sorted_ext (l m : list Z) : Sorted Z.lt l -> Sorted Z.lt m -> (forall k, In k l <-> In k m) -> l = m.
Proof.
  intros A B. apply Sorted_StronglySorted in A; [|intros x y z; lia]. apply Sorted_StronglySorted in B; [|intros x y z; lia].
  revert m B; induction A as [|a l A IH H]; intros m B E.
  - destruct m as [|c m]; auto. exfalso. apply (E c). left; auto.
  - destruct B as [|c m B H'].
    + exfalso. apply (E a). left; auto.
    + rewrite Forall_forall in H, H'.
      assert (a = c). { destruct (proj1 (E a)) as [|X]; [left; auto|auto|]. destruct (proj2 (E c)) as [|Y]; [left; auto|auto|].
        specialize (H _ Y). specialize (H' _ X). lia. }
      subst c. f_equal. apply IH; auto. intros k. split; intros I.
      * destruct (proj1 (E k)) as [<-|X]; [right; auto| |auto]. specialize (H _ I). lia.
      * destruct (proj2 (E k)) as [<-|X]; [right; auto| |auto]. specialize (H' _ I). lia.
Qed.
Lemma sorted_seq n s : Sorted Z.lt (map Z.of_nat (seq s n)).
Proof.
  revert s; induction n as [|n IH]; intros s; cbn; constructor; auto. destruct n; cbn; constructor. lia.
Qed.
Lemma in_ids k n : In k (map Z.of_nat (seq 0 n)) <-> (0 <= k < Z.of_nat n)%Z.
Proof.
  rewrite in_map_iff. split.
  - intros (x & <- & I). apply in_seq in I. lia.
  - intros H. exists (Z.to_nat k). split; [lia|]. apply in_seq. lia.
Qed.
Lemma find_seq {F} (bs : list (bus F)) s : map b_id bs = map Z.of_nat (seq s (List.length bs)) ->
  forall i, (i < List.length bs)%nat -> find_bus bs (Z.of_nat (s + i)) = nth_error bs i.
Proof.
  revert s; induction bs as [|b bs IH]; intros s H i L; [cbn in L; lia|].
  cbn [List.length seq map] in H. injection H as H1 H2. destruct i as [|i]; cbn [nth_error].
  - unfold find_bus. cbn [find]. rewrite H1, Nat.add_0_r, Z.eqb_refl. reflexivity.
  - cbn in L. unfold find_bus. cbn [find]. rewrite H1. destruct (Z.eqb_spec (Z.of_nat s) (Z.of_nat (s + S i))); [lia|].
    replace (s + S i)%nat with (S s + i)%nat by lia. apply IH; auto. lia.
Qed.
Lemma flat_map_ext_in {A B} (f g : A -> list B) l : (forall a, In a l -> f a = g a) -> flat_map f l = flat_map g l.
Proof. induction l; cbn; auto. intros H. rewrite H, IHl; auto. Qed.
Lemma flat_nth {A B} (f : option A -> list B) (l : list A) s :
  flat_map (fun i => f (nth_error l (i - s))) (seq s (List.length l)) = flat_map (fun a => f (Some a)) l.
Proof.
  revert s; induction l as [|a l IH]; intros s; cbn [List.length seq flat_map]; auto.
  rewrite Nat.sub_diag. cbn [nth_error]. f_equal. rewrite <- (IH (S s)). apply flat_map_ext_in. intros i I. apply in_seq in I.
  replace (i - s)%nat with (S (i - S s)) by lia. reflexivity.
Qed.
Lemma pq_numbered {F} {N : Num F} (bs : list (bus F)) : map b_id bs = map Z.of_nat (seq 0 (List.length bs)) ->
  pq_vectors bs = flat_map (fun b => if b_slack b then [] else [(b_p b, b_q b)]) bs.
Proof.
  intros H. unfold pq_vectors.
  rewrite <- (flat_nth (fun o => match o with Some b => if b_slack b then [] else [(b_p b, b_q b)] | None => [(n0, n0)] end) bs 0).
  apply flat_map_ext_in. intros i I. apply in_seq in I. rewrite Nat.sub_0_r. rewrite <- (find_seq bs 0 H i) by lia. reflexivity.
Qed.
Lemma flat_all {F} (bs : list (bus F)) : (forall b, In b bs -> b_slack b = false) ->
  flat_map (fun b => if b_slack b then [] else [(b_p b, b_q b)]) bs = map (fun b => (b_p b, b_q b)) bs.
Proof. induction bs as [|b bs IH]; cbn; auto. intros H. rewrite (H b) by auto. rewrite IH by auto. reflexivity. Qed.

(** ---- sums over the extended reals ---- *)
Lemma xadd_comm a b : xadd a b = xadd b a.
Proof. destruct a, b; cbn; auto. f_equal. ring. Qed.
Lemma xadd_assoc a b c : xadd a (xadd b c) = xadd (xadd a b) c.
Proof. destruct a, b, c; cbn; auto. f_equal. ring. Qed.
Lemma xadd_0_l a : xadd (Fin 0) a = a.
Proof. destruct a; cbn; auto. f_equal. ring. Qed.
Lemma nsum_sumX l : nsum l = sumX l.
Proof.
  unfold nsum. cbn [nadd XRnum]. change (n0 : XR) with (Fin 0). assert (G : forall a, fold_left xadd l a = xadd a (sumX l)).
  { induction l as [|x l IH]; intros a; cbn [fold_left sumX fold_right]; [rewrite xadd_comm, xadd_0_l; auto|].
    rewrite IH. fold (sumX l). rewrite xadd_assoc. reflexivity. }
  rewrite G, xadd_0_l. reflexivity.
Qed.
Lemma sumX_perm l m : Permutation l m -> sumX l = sumX m.
Proof.
  induction 1; auto; cbn [sumX fold_right].
  - unfold sumX in IHPermutation. rewrite IHPermutation. reflexivity.
  - rewrite !xadd_assoc. rewrite (xadd_comm y x). reflexivity.
  - congruence.
Qed.
Lemma sumX_fin l P : sumX l = Fin P -> Forall fin l.
Proof.
  revert P; induction l as [|a l IH]; intros P H; constructor; cbn [sumX fold_right] in H; apply xadd_fin in H as (x & y & -> & E & _); eauto.
Qed.
Lemma sumX_R {A} (f : A -> R) l : sumX (map (fun a => Fin (f a)) l) = Fin (sumR (map f l)).
Proof. induction l as [|a l IH]; cbn [map sumX fold_right sumR]; auto. unfold sumX in IH. rewrite IH. reflexivity. Qed.

(** ---- current and power leaving a bus ---- *)
Lemma power_current nw V k : (V k * Cconj (current_out nw V k))%C = power_out nw V k.
Proof.
  unfold current_out, power_out, outflow. induction (nw_br nw) as [|r l IH]; cbn [map].
  - rewrite !sumC_nil, Cconj_0. ring.
  - rewrite !sumC_cons, Cconj_plus, Cmult_plus_distr_l, IH. f_equal. rewrite Cconj_plus, Cmult_plus_distr_l.
    unfold s_from, s_to. f_equal.
    + unfold end_of, optz_eqb. destruct (lr_f r) as [f|]; [|rewrite Cconj_0; ring]. destruct (Z.eqb_spec f k) as [->|]; [reflexivity|rewrite Cconj_0; ring].
    + unfold end_of, optz_eqb. destruct (lr_t r) as [f|]; [|rewrite Cconj_0; ring]. destruct (Z.eqb_spec f k) as [->|]; [reflexivity|rewrite Cconj_0; ring].
Qed.

Lemma nth_ext_error {A} (l m : list A) : (forall k, nth_error l k = nth_error m k) -> l = m.
Proof.
  revert m; induction l as [|a l IH]; intros m H.
  - destruct m as [|c m]; auto. specialize (H 0%nat). discriminate.
  - destruct m as [|c m]; [specialize (H 0%nat); discriminate|]. pose proof (H 0%nat) as E. cbn in E. injection E as ->. f_equal.
    apply IH. intros k. apply (H (S k)).
Qed.
Lemma xtol_val : xtol_pfe = Fin (/ 100000).
Proof.
  unfold xtol_pfe, nrat. cbn [ndiv XRnum nofZ]. unfold xdiv. destruct (Req_EM_T 100000 0) as [K|_]; [lra|]. f_equal. lra.
Qed.
Lemma inf_if_fin x : inf_if_nan (Fin x) = Fin x.
Proof. unfold inf_if_nan. rewrite (proj2 (xisnan_false (Fin x))) by discriminate. reflexivity. Qed.

Section Pf.
  Context (nw : network XR) (dt lamb : XR) (s0 : sim XR) (H0 : sim_init nw dt lamb = Ok s0) (b : R) (Eb : nw_base nw = Fin b).
  Context (Hr : Forall branch_row_fin (nw_br nw)) (Hn : numbered nw).

  Lemma num_pos : forall k, In (Some k) (map br_id (nw_bus nw)) -> (0 <= k)%Z.
  Proof. intros k I. apply (proj1 Hn) in I. lia. Qed.
  Lemma num_ids s : strip s = strip s0 -> map b_id (sm_buses s) = bus_ids nw /\ List.length (sm_buses s) = List.length (nw_bus nw).
  Proof.
    intros S. destruct (sim_init_built _ _ _ _ H0) as (bs & ds & B).
    pose proof (mapM_keys _ br_id b_id _ _ bus_init_id (bt_buses _ _ _ _ _ _ B)) as Ids.
    assert (E : map b_id (sm_buses s) = map b_id (sm_buses s0)).
    { apply strip_buses in S. apply (map_strip strip_bus b_id _ _ (fun _ => eq_refl) S). }
    assert (L : List.length (sm_buses s0) = List.length (nw_bus nw)).
    { rewrite (bt_sbuses _ _ _ _ _ _ B), map_length. rewrite (Permutation_length (sort_by_perm b_id bs)).
      pose proof (bt_buses _ _ _ _ _ _ B) as M. apply mapM_ok in M. symmetry. clear -M. induction M; cbn; congruence. }
    split.
    - rewrite E. apply sorted_ext; [apply (bt_bus_sorted B)|apply sorted_seq|].
      intros k. unfold bus_ids. rewrite in_ids. rewrite <- (proj1 Hn k), Ids. rewrite (bt_bus_ids B).
      rewrite (in_map_iff (@Some Z)). split.
      + intros I. exists k. split; auto. apply in_map_iff in I as (x & <- & I). apply in_map. apply (Permutation_in _ (sort_by_perm b_id bs)); auto.
      + intros (k' & X & I). injection X as ->. apply in_map_iff in I as (x & <- & I). apply in_map.
        apply (Permutation_in _ (Permutation_sym (sort_by_perm b_id bs))); auto.
    - rewrite <- L. rewrite <- (map_length b_id (sm_buses s)), <- (map_length b_id (sm_buses s0)). congruence.
  Qed.
  Lemma num_slack s bb : strip s = strip s0 -> In bb (sm_buses s) -> b_slack bb = Z.eqb (b_id bb) 0.
  Proof.
    intros S I. destruct (sim_init_built _ _ _ _ H0) as (bs & ds & B).
    destruct (static_bus _ _ _ S I) as (b0 & I0 & E0). destruct (bt_bus_row B _ I0) as (rb & b1 & Ir & Mb & Eq).
    subst b0. pose proof (bus_init_id _ _ Mb) as Ei. pose proof (bus_init_type _ _ Mb) as Et.
    apply strip_bus_fields in E0 as (F1 & F2 & _). cbn in F1, F2.
    destruct (bt_wf _ _ _ _ _ _ B) as (_ & W1 & _ & _ & W4 & _). destruct W1 as (l1 & a & l2 & El & Sa & _).
    assert (Ia : In a (nw_bus nw)) by (rewrite El; apply in_or_app; right; left; auto).
    pose proof (proj2 Hn _ Ia Sa) as Ea.
    unfold b_slack. rewrite F1 in Ei. rewrite F2 in Et.
    destruct (Z.eqb_spec (b_type bb) 0) as [E|E]; destruct (Z.eqb_spec (b_id bb) 0) as [E'|E']; auto; exfalso.
    - apply E'. rewrite E in Et. pose proof (proj2 Hn _ Ir Et). congruence.
    - apply E. assert (X : rb = a) by (eapply (nodup_inj br_id (nw_bus nw)); eauto; congruence).
      subst a. unfold slack_bus_row in Sa. congruence.
  Qed.
  Lemma num_Y : exists M, sm_Y s0 = tab (List.length (nw_bus nw)) M /\ (0 < List.length (nw_bus nw))%nat /\
    forall V k, (k < List.length (nw_bus nw))%nat -> sumn (List.length (nw_bus nw)) (fun j => M k j * V (Z.of_nat j))%C = current_out nw V (Z.of_nat k).
  Proof.
    destruct (Y_tab nw dt lamb s0 H0 b Eb Hr num_pos) as (n & M & E & R1 & (k & K1 & K2) & S).
    assert (n = List.length (nw_bus nw)).
    { pose proof (proj1 (proj1 Hn k) K1) as X.
      assert (Y : In (Some (Z.of_nat (List.length (nw_bus nw)) - 1)%Z) (map br_id (nw_bus nw))) by (apply (proj1 Hn); lia).
      apply R1 in Y. lia. }
    subst n. exists M. split; auto. split; auto. destruct (nw_bus nw); [destruct K1|cbn; lia].
  Qed.

  (** the state of the buses after a converged power flow *)
  Record pf_point (s' : sim XR) (ds : list (device XR)) (V : Z -> C) : Prop := mkPf {
    pp_V0 : V 0%Z = RtoC 1;
    pp_bus : forall bb, In bb (sm_buses s') -> b_v bb = up (V (b_id bb)) /\ b_i bb = up (current_out nw V (b_id bb));
    pp_slack : forall bb, In bb (sm_buses s') -> b_slack bb = true ->
      b_p bb = Fin (fst (power_out nw V (b_id bb))) /\ b_q bb = Fin (snd (power_out nw V (b_id bb)));
    pp_eq : forall bb, In bb (sm_buses s') -> b_slack bb = false -> exists P Q,
      b_p bb = Fin P /\ b_q bb = Fin Q /\
      Rabs (fst (power_out nw V (b_id bb)) - P) <= / 100000 /\ Rabs (snd (power_out nw V (b_id bb)) - Q) <= / 100000 }.

  Lemma enum_nth {A} (l : list A) k a : nth_error l k = Some a -> nth_error (enumerate l) k = Some (k, a).
  Proof. intros H. unfold enumerate. rewrite enum_from_nth, H. reflexivity. Qed.

  Lemma pf_solved Or inp s s' ds v i : strip s = strip s0 -> trans_ok Or inp s s' true ds v i -> exists V, pf_point s' ds V.
  Proof.
    intros Ss T. destruct num_Y as (M & EY & Np & KCL). set (n := List.length (nw_bus nw)) in *.
    assert (EY' : sm_Y s = tab n M) by (apply (f_equal sm_Y) in Ss; cbn in Ss; congruence).
    pose proof (tk_pfe _ _ _ _ _ _ _ _ T) as Pf. cbv zeta in Pf. apply solve_inv in Pf.
    destruct Pf as (m & g & Fv & d & _ & _ & [R1 R2] & _ & Ev & Ei & Ec).
    destruct (proj1 Ec eq_refl) as [_ Ld]. clear Ec.
    destruct (num_ids s Ss) as [Ids Len]. fold n in Len.
    set (bs := map (bus_injection ds) (sm_buses s)) in *.
    assert (Lb : List.length bs = n) by (unfold bs; rewrite map_length; auto).
    assert (Idb : map b_id bs = map Z.of_nat (seq 0 (List.length bs))).
    { unfold bs. rewrite map_map. cbn. rewrite map_length, Len. exact Ids. }
    assert (Slb : forall x, In x bs -> b_slack x = Z.eqb (b_id x) 0).
    { intros x I. unfold bs in I. apply in_map_iff in I as (y & <- & I). apply (num_slack s y Ss I). }
    destruct bs as [|bz bs'] eqn:Ebs; [cbn in Lb; lia|].
    assert (PQ : pq_vectors (bz :: bs') = map (fun x => (b_p x, b_q x)) bs').
    { rewrite pq_numbered by auto. cbn [flat_map]. rewrite (Slb bz) by (left; auto).
      cbn in Idb. injection Idb as I1 I2. rewrite I1. cbn [Z.eqb app]. apply flat_all. intros x I. rewrite Slb by (right; auto).
      apply Z.eqb_neq. assert (J : In (b_id x) (map b_id bs')) by (apply in_map; auto). rewrite I2 in J.
      apply in_map_iff in J as (y & <- & J). apply in_seq in J. lia. }
    rewrite PQ in R1. rewrite !map_map in R1. cbn [fst snd] in R1.
    apply pfe_shape in R1. destruct R1 as (L1 & L2 & L3 & EF & _). rewrite <- Ev in *.
    rewrite EY', tab_length in L1.
    unfold mat_vecE in Ei. rewrite EY', tab_length in Ei. rewrite <- L1, Nat.eqb_refl in Ei. injection Ei as Ei.
    rewrite xtol_val in Ld. change (xle d (Fin (/ 100000))) in Ld. rewrite (norm_inf_le Fv d _ R2) in Ld. rewrite EF, EY' in Ld.
    assert (Lp : List.length (map b_p bs') = (n - 1)%nat) by (rewrite map_length; cbn in Lb; lia).
    rewrite Ei in Ld.
    pose proof (residual_fin v i (map b_p bs') (map b_q bs') _ ltac:(rewrite <- Ei; unfold mat_vec, tab; rewrite !map_length, seq_length; auto) L2 L3 Ld) as RF.
    set (V := fun z : Z => match nth_error v (Z.to_nat z) with Some c => to_C c | None => RtoC 0 end).
    assert (Vn : forall k, (k < n)%nat -> nth_error v k = Some (up (V (Z.of_nat k)))).
    { intros k L. unfold V. rewrite Nat2Z.id. destruct k as [|k].
      - rewrite Ev. cbn [construct_v nth_error]. rewrite up_1. reflexivity.
      - destruct (RF k) as (Vk & _ & _ & _ & E & _); [rewrite Lp; lia|]. rewrite E. f_equal. }
    assert (EV : v = map (fun k => up (V (Z.of_nat k))) (seq 0 n)).
    { apply nth_ext_error. intros k. destruct (Nat.ltb_spec k n) as [L|L].
      - rewrite Vn, nth_error_seq by auto. reflexivity.
      - rewrite !(proj2 (nth_error_None _ _)); auto; [rewrite map_length, seq_length; lia|lia]. }
    assert (In' : forall k, (k < n)%nat -> nth_error i k = Some (up (current_out nw V (Z.of_nat k)))).
    { intros k L. rewrite <- Ei, EV. unfold mat_vec, tab. rewrite map_map, nth_error_seq by auto. rewrite dotc_up. f_equal. f_equal.
      apply (KCL V k L). }
    assert (V00 : V 0%Z = RtoC 1).
    { unfold V. rewrite Ev. cbn [Z.to_nat construct_v nth_error]. unfold to_C, c1. cbn. reflexivity. }
    (* the buses *)
    pose proof (tk_buses _ _ _ _ _ _ _ _ T) as MB. fold bs in MB. rewrite Ebs in MB. apply mapM_ok in MB.
    assert (BU : forall bb, In bb (sm_buses s') -> exists k b1, nth_error (bz :: bs') k = Some b1 /\ (k < n)%nat /\ b_id b1 = Z.of_nat k /\
                 bus_update v i (k, b1) = Ok bb).
    { intros bb I. destruct (Forall2_in_r _ _ _ _ MB I) as ([k b1] & J & E). exists k, b1.
      unfold enumerate in J. apply In_nth_error in J as (j & J). rewrite enum_from_nth in J.
      destruct (nth_error (bz :: bs') j) as [b2|] eqn:Q; [|discriminate]. cbn in J. injection J as <- <-.
      assert (L : (j < n)%nat) by (rewrite <- Lb; apply nth_error_Some; congruence).
      split; auto. split; auto. split; auto.
      apply (f_equal (fun l => nth_error l j)) in Idb. rewrite nth_error_map, Q, Lb, nth_error_seq in Idb by auto. cbn in Idb. congruence. }
    exists V. constructor; auto.
    - intros bb I. destruct (BU bb I) as (k & b1 & Q & L & Ek & E). unfold bus_update in E. cbn [fst snd] in E.
      unfold nth_res in E. rewrite (Vn k L), (In' k L) in E. cbn [bind] in E.
      destruct (b_slack _).
      + rewrite (Vn 0%nat), (In' 0%nat) in E by lia. cbn [bind] in E. injection E as <-. cbn. rewrite Ek. auto.
      + injection E as <-. cbn. rewrite Ek. auto.
    - intros bb I Sl. destruct (BU bb I) as (k & b1 & Q & L & Ek & E). unfold bus_update in E. cbn [fst snd] in E.
      unfold nth_res in E. rewrite (Vn k L), (In' k L) in E. cbn [bind] in E.
      assert (Sl1 : b_slack b1 = Z.eqb (b_id b1) 0) by (apply Slb; eapply nth_error_In; eauto).
      destruct (b_slack (bus_set_vi b1 (up (V (Z.of_nat k))) (up (current_out nw V (Z.of_nat k))))) eqn:Sb.
      + change (b_slack b1 = true) in Sb. rewrite Sl1 in Sb. apply Z.eqb_eq in Sb. rewrite Sb in Ek. destruct k; [|lia].
        rewrite (Vn 0%nat), (In' 0%nat) in E by lia. cbn [bind] in E. injection E as <-. cbn [b_id b_p b_q bus_set_pq bus_set_vi]. rewrite Sb.
        change (Z.of_nat 0) with 0%Z. rewrite !inf_if_fin, <- power_current. split; reflexivity.
      + injection E as <-. change (b_slack b1 = true) in Sl. change (b_slack b1 = false) in Sb. congruence.
    - intros bb I Sl. destruct (BU bb I) as (k & b1 & Q & L & Ek & E). unfold bus_update in E. cbn [fst snd] in E.
      unfold nth_res in E. rewrite (Vn k L), (In' k L) in E. cbn [bind] in E.
      assert (Sl1 : b_slack b1 = Z.eqb (b_id b1) 0) by (apply Slb; eapply nth_error_In; eauto).
      destruct (b_slack (bus_set_vi b1 (up (V (Z.of_nat k))) (up (current_out nw V (Z.of_nat k))))) eqn:Sb.
      + rewrite (Vn 0%nat), (In' 0%nat) in E by lia. cbn [bind] in E. injection E as <-. change (b_slack b1 = false) in Sl. change (b_slack b1 = true) in Sb. congruence.
      + injection E as <-. change (b_slack b1 = false) in Sb. rewrite Sl1 in Sb. apply Z.eqb_neq in Sb.
        destruct k as [|k]; [lia|]. cbn [nth_error] in Q.
        destruct (RF k) as (Vk & Ik & P & Q' & E1 & E2 & E3 & E4 & B1 & B2); [rewrite Lp; lia|].
        rewrite (Vn (S k) L) in E1. injection E1 as E1 E1'. rewrite (In' (S k) L) in E2. injection E2 as E2 E2'.
        assert (X1 : Vk = V (Z.of_nat (S k))) by (apply C_eq; auto).
        assert (X2 : Ik = current_out nw V (Z.of_nat (S k))) by (apply C_eq; auto).
        subst Vk Ik. rewrite power_current in B1, B2.
        rewrite nth_error_map, Q in E3, E4. cbn in E3, E4.
        exists P, Q'. cbn [b_p b_q b_id bus_set_vi]. rewrite Ek. injection E3 as E3. injection E4 as E4. auto.
  Qed.

  Record pf_state (s1 : sim XR) (V : Z -> C) : Prop := mkPs {
    ps_V0 : V 0%Z = RtoC 1;
    ps_bus : forall bb, In bb (sm_buses s1) -> b_v bb = up (V (b_id bb)) /\ b_i bb = up (current_out nw V (b_id bb));
    ps_slack : forall bb, In bb (sm_buses s1) -> b_slack bb = true ->
      b_p bb = Fin (fst (power_out nw V 0%Z)) /\ b_q bb = Fin (snd (power_out nw V 0%Z));
    ps_eq : forall bb, In bb (sm_buses s1) -> b_slack bb = false -> exists P Q, b_p bb = Fin P /\ b_q bb = Fin Q /\
      sumX (map d_p (devs_at (sm_devs s1) (b_id bb))) = Fin P /\ sumX (map d_q (devs_at (sm_devs s1) (b_id bb))) = Fin Q /\
      Rabs (fst (power_out nw V (b_id bb)) - P) <= / 100000 /\ Rabs (snd (power_out nw V (b_id bb)) - Q) <= / 100000;
    ps_slackdev : forall d, In d (sm_devs s1) -> d_slack d = true ->
      d_p d = Fin (fst (power_out nw V 0%Z)) /\ d_q d = Fin (snd (power_out nw V 0%Z));
    ps_br : Forall2 (fun r br => exists br0, br_of r b br0 /\ br = branch_update br0 (up (vat V (lr_f r))) (up (vat V (lr_t r))))
                    (nw_br nw) (sm_branches s1) }.

  Lemma find_bus_id (bs : list (bus XR)) k bb : find_bus bs k = Some bb -> In bb bs /\ b_id bb = k.
  Proof. intros H. apply find_some in H as [A B]. apply Z.eqb_eq in B. auto. Qed.
  Lemma slack_dev_at0 s d : strip s = strip s0 -> In d (sm_devs s) -> d_slack d = true -> d_bus d = 0%Z.
  Proof.
    intros Ss I Sl. destruct (sim_init_built _ _ _ _ H0) as (bs & ds & B).
    destruct (static_dev _ _ _ Ss I) as (d0 & I0 & E0). destruct (bt_dev_row B _ I0) as (r & Ir & Mr).
    pose proof (mk_dev_fields _ _ _ _ Mr) as (_ & M2 & M3 & _). apply strip_dev_fields in E0 as (_ & D2 & D3 & _).
    destruct (bt_wf _ _ _ _ _ _ B) as (_ & W1 & _ & W3 & _). destruct W1 as (l1 & a & l2 & El & Sa & _).
    assert (Ia : In a (nw_bus nw)) by (rewrite El; apply in_or_app; right; left; auto).
    unfold d_slack in Sl. apply Z.eqb_eq in Sl.
    assert (Sr : slack_dev_row r) by (unfold slack_dev_row; congruence).
    pose proof (W3 _ _ Ia Sa Ir Sr) as E. pose proof (proj2 Hn _ Ia Sa) as Ea. congruence.
  Qed.
  Lemma core_devs_at (f : device XR -> XR) (g : (Z * Z * Z * dspec XR * (XR * XR * XR)) -> XR) (Hf : forall d, f d = g (dev_core d)) ds ds' k :
    map dev_core ds = map dev_core ds' -> map f (devs_at ds k) = map f (devs_at ds' k).
  Proof.
    revert ds'; induction ds as [|d ds IH]; intros [|d' ds'] H; try discriminate; auto.
    cbn [map] in H. injection H as E1 E2 E3 E4 E5 E6 E7 E8. unfold devs_at. cbn [filter]. rewrite E2. destruct (Z.eqb (d_bus d') k); cbn [map]; [|apply IH; auto].
    f_equal; [|apply IH; auto]. rewrite !Hf. unfold dev_core. congruence.
  Qed.

  Lemma pf_trans Or inp s s' ds v i : strip s = strip s0 -> trans_ok Or inp s s' true ds v i -> exists V, pf_state s' V.
  Proof.
    intros Ss T. destruct (pf_solved _ _ _ _ _ _ _ Ss T) as (V & [V0 PB PS PE]). exists V.
    assert (Ss' : strip s' = strip s0) by (rewrite (tk_strip _ _ _ _ _ _ _ _ T); auto).
    constructor; auto.
    - intros bb I Sl. destruct (PS bb I Sl) as [A B]. rewrite (num_slack s' bb Ss' I) in Sl. apply Z.eqb_eq in Sl. rewrite Sl in *. auto.
    - intros bb I Sl. destruct (PE bb I Sl) as (P & Q & A1 & A2 & A3 & A4). exists P, Q. split; auto. split; auto.
      destruct (pf_bus_ns _ _ _ _ _ _ _ _ T bb I Sl) as [EP EQ].
      assert (DA : devs_at ds (b_id bb) = devs_at (sm_devs s') (b_id bb)).
      { apply (devs_at_ns (sm_buses s')); [apply T|]. intros d Id Ed.
        pose proof (tk_sdevs _ _ _ _ _ _ _ _ T) as M. apply mapM_ok in M. destruct (Forall2_in_l _ _ _ _ M Id) as (d2 & I2 & E2).
        apply strip_slack_update in E2. apply strip_dev_fields in E2 as (_ & G2 & G3 & _).
        assert (K : d_slack d2 = false) by (eapply (slack_dev_bus nw dt lamb s0 H0 s' bb); eauto; congruence).
        unfold d_slack in *. congruence. }
      rewrite DA in EP, EQ. rewrite nsum_sumX in EP, EQ. rewrite <- EP, <- EQ. auto.
    - intros d I Sl. pose proof (tk_sdevs _ _ _ _ _ _ _ _ T) as M. apply mapM_ok in M.
      destruct (Forall2_in_r _ _ _ _ M I) as (d1 & I1 & E1). pose proof (strip_slack_update _ _ _ E1) as Es. apply strip_dev_fields in Es as (_ & G2 & G3 & _).
      unfold dev_slack_update in E1. replace (d_slack d1) with true in E1 by (unfold d_slack in *; congruence).
      destruct (find_bus (sm_buses s') (d_bus d1)) as [bb|] eqn:Fb; [|discriminate]. injection E1 as <-. apply find_bus_id in Fb as [Ib Eb'].
      assert (K : d_bus d1 = 0%Z) by (change (d_bus (d_set_pq d1 (b_p bb) (b_q bb)) = 0%Z); eapply slack_dev_at0; eauto).
      assert (Sb : b_slack bb = true) by (rewrite (num_slack s' bb Ss' Ib), Eb', K; reflexivity).
      destruct (PS bb Ib Sb) as [A B]. rewrite Eb', K in A, B. cbn. auto.
    - destruct (sim_init_built _ _ _ _ H0) as (bs & ds0 & B).
      pose proof (bt_brs _ _ _ _ _ _ B) as M0. apply mapM_ok in M0. pose proof (tk_brs _ _ _ _ _ _ _ _ T) as M1. apply mapM_ok in M1.
      pose proof (strip_branches _ _ Ss) as SB. rewrite Eb in M0. pose proof (base_pos' nw dt lamb s0 H0 b Eb) as Hb.
      assert (FB : forall k bb, find_bus (sm_buses s') k = Some bb -> b_v bb = up (V k)).
      { intros k bb H. apply find_bus_id in H as [I <-]. apply PB; auto. }
      clear -M0 M1 SB Hr Hb FB. revert Hr SB M1. generalize (sm_branches s) (sm_branches s').
      induction M0 as [|r br0 rs brs E M0 IH]; intros l l' Hr SB M1.
      + destruct l; [|discriminate]. inversion M1. constructor.
      + destruct l as [|br1 l]; [discriminate|]. cbn [map] in SB. apply cons_inj in SB as [E1 SB]. inversion M1 as [|? br2 ? l2 E2 M1']; subst. inversion Hr; subst.
        constructor; [|eapply IH; eauto].
        rewrite (branch_flow_dep _ _ _ E1) in E2. exists br0. split; [eapply branch_init_of; eauto|].
        apply branch_init_ends in E as (Ef & Et & _). rewrite Ef, Et. cbn [vat].
        unfold branch_flow in E2. destruct (find_bus _ (ln_f br0)) as [bf|] eqn:F1; [|discriminate]. destruct (find_bus _ (ln_t br0)) as [bt|] eqn:F2; [|discriminate].
        injection E2 as <-. rewrite (FB _ _ F1), (FB _ _ F2). reflexivity.
  Qed.

  (** any reachable simulator whose last power flow converged *)
  Lemma pf_reach cs : sm_state (run s0 cs) <> None -> sm_conv (run s0 cs) = Some true ->
    exists s1 V, sm_state (run s0 cs) = Some (gather_state s1) /\ strip s1 = strip s0 /\ pf_state s1 V.
  Proof.
    intros St Cv. destruct (gathered_run nw dt lamb s0 cs H0) as [E|(s1 & Fp & E & K)]; [contradiction|].
    destruct Fp as (Or & inp & sp & sq & conv & ds & v & i & S1 & T & Eb' & Er & Ed & Ec & S2).
    assert (conv = true) by congruence. subst conv.
    destruct (pf_trans _ _ _ _ _ _ _ S1 T) as (V & [P1 P2 P3 P4 P5 P6]).
    exists s1, V. split; auto. split; auto. constructor; try rewrite Eb'; try rewrite Er; auto.
    - intros bb I Sl. destruct (P4 bb I Sl) as (P & Q & A1 & A2 & A3 & A4 & A5 & A6). exists P, Q.
      rewrite (core_devs_at d_p (fun x => fst (fst (snd x))) (fun _ => eq_refl) _ _ (b_id bb) Ed).
      rewrite (core_devs_at d_q (fun x => snd (fst (snd x))) (fun _ => eq_refl) _ _ (b_id bb) Ed). auto 10.
    - intros d I Sl. assert (J : In (dev_core d) (map dev_core (sm_devs sq))) by (rewrite <- Ed; apply in_map; auto).
      apply in_map_iff in J as (d' & Ed' & J). injection Ed' as D1 D2 D3 D4 D5 D6 D7.
      rewrite <- D5, <- D6. apply P5; auto. unfold d_slack in *. congruence.
  Qed.
End Pf.
