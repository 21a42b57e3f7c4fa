(** C80: every connected network of plain lines has an impedance matrix, hence tolerates some load. *)
From Coq Require Import Reals Lra Lia Permutation ClassicalEpsilon.
From Coquelicot Require Import Complex.
From Verif Require Import Base Num NumXR LibBase LibNum LibXR LibEval Devices BusBranch CheckNetwork LoadFlow Simulator SpecNet ProofNet LibInit LibSim
  SpecDev SpecSim ProofSim ProofSoc ProofObs ProofDev ProofBusP SpecPf LibC ProofBr ProofY SpecNr ProofNr ProofPf ProofBal SpecLight ProofLight ProofLight2 ProofLight3 ProofLight4 ProofLin.
Local Open Scope string_scope.
Local Open Scope list_scope.
Local Open Scope R_scope.
Set Bullet Behavior "Strict Subproofs".

Lemma snd_sumC l : snd (sumC l) = sumR (map snd l).
Proof. induction l as [|a l IH]; cbn [map]; [reflexivity|]. rewrite sumC_cons, sumR_cons, <- IH. reflexivity. Qed.
Lemma snd_if (c : bool) (x y : C) : snd (if c then x else y) = if c then snd x else snd y.
Proof. destruct c; auto. Qed.
(** the powers leaving the buses add up to what the lines take *)
Lemma total_powers nw V ids : NoDup ids -> (forall r, In r (nw_br nw) -> exists f t, lr_f r = Some f /\ lr_t r = Some t /\ In f ids /\ In t ids) ->
  sumR (map (fun k => fst (power_out nw V k) + snd (power_out nw V k)) ids) =
  sumR (map (fun r => (fst (s_from r (vat V (lr_f r)) (vat V (lr_t r))) + fst (s_to r (vat V (lr_f r)) (vat V (lr_t r)))) +
                      (snd (s_from r (vat V (lr_f r)) (vat V (lr_t r))) + snd (s_to r (vat V (lr_f r)) (vat V (lr_t r))))) (nw_br nw)).
Proof.
  intros ND. unfold power_out, outflow. induction (nw_br nw) as [|r l IH]; intros H; cbn [map].
  - rewrite sumC_nil. cbn [fst snd RtoC]. rewrite Rplus_0_l. rewrite sumR_zero. reflexivity.
  - rewrite sumR_cons, <- IH by (intros; apply H; right; auto).
    destruct (H r (or_introl eq_refl)) as (f & t & Ef & Et & If & It). rewrite Ef, Et. cbn [vat end_of optz_eqb].
    set (a := s_from r (V f) (V t)). set (c := s_to r (V f) (V t)).
    replace (fst a + fst c + (snd a + snd c)) with ((fst a + snd a) + (fst c + snd c)) by ring.
    rewrite <- (sumR_pick f (fst a + snd a) ids ND If), <- (sumR_pick t (fst c + snd c) ids ND It), <- !sumR_plus.
    apply sumR_ext. intros k _. rewrite !fst_sumC, !snd_sumC. cbn [map]. rewrite !sumR_cons.
    unfold end_of, optz_eqb. unfold Cplus. cbn [fst snd]. rewrite !fst_if, !snd_if. cbn [RtoC fst snd]. destruct (Z.eqb f k), (Z.eqb t k); ring.
Qed.
Lemma sumR_pos_zero {A} (f : A -> R) l : (forall a, In a l -> 0 <= f a) -> sumR (map f l) = 0 -> forall a, In a l -> f a = 0.
Proof.
  induction l as [|x l IH]; intros P E a I; [destruct I|]. cbn [map] in E. rewrite sumR_cons in E. pose proof (P x (or_introl eq_refl)) as P1.
  assert (P2 : 0 <= sumR (map f l)). { clear -P. assert (Q : forall a, In a l -> 0 <= f a) by (intros; apply P; right; auto). clear P. induction l as [|y l IH]; cbn [map]; [cbn; lra|]. rewrite sumR_cons. pose proof (Q y (or_introl eq_refl)). pose proof (IH (fun b J => Q b (or_intror J))). lra. }
  destruct I as [<-|I]; [lra|]. apply IH; auto; [intros; apply P; right; auto|lra].
Qed.

Section Exists.
  Context (nw : network XR) (dt lamb : XR) (s0 : sim XR) (H0 : sim_init nw dt lamb = Ok s0) (b : R) (Eb : nw_base nw = Fin b).
  Context (Hr : Forall branch_row_fin (nw_br nw)) (Hn : numbered nw) (Hp : Forall plain_line (nw_br nw)) (Hc : connected nw).

  Lemma line_of r : In r (nw_br nw) -> exists br, br_of r b br.
  Proof.
    intros I. destruct (sim_init_built _ _ _ _ H0) as (bs & ds & B). pose proof (bt_brs _ _ _ _ _ _ B) as M. apply mapM_ok in M. destruct (Forall2_in_l _ _ _ _ M I) as (br & _ & E).
    rewrite Eb in E. exists br. eapply branch_init_of; eauto; [apply (base_pos' nw dt lamb s0 H0 b Eb)|]. rewrite Forall_forall in Hr. auto.
  Qed.
  Lemma line_power r vf vt : In r (nw_br nw) -> 0 <= (fst (s_from r vf vt) + fst (s_to r vf vt)) + (snd (s_from r vf vt) + snd (s_to r vf vt)) /\
    ((fst (s_from r vf vt) + fst (s_to r vf vt)) + (snd (s_from r vf vt) + snd (s_to r vf vt)) = 0 -> vf = vt).
  Proof.
    intros I. destruct (line_of r I) as (br & O). rewrite Forall_forall in Hp. destruct (Hp r I) as (Pb & Pt). pose proof (z_neq _ _ _ O) as Nz. pose proof (C_norm_pos _ Nz) as P.
    pose proof (bo_r _ _ _ O) as R0. pose proof (bo_x _ _ _ O) as X0.
    assert (E2 : (s_from r vf vt + s_to r vf vt)%C = ((vf - vt) * Cconj (vf - vt) / Cconj (row_z r))%C).
    { unfold s_from, s_to, pi_from, pi_to, pi_inner. rewrite Pt, Pb. replace (0 / 2) with 0 by lra. change (0, 0)%R with (RtoC 0). replace (Cconj (RtoC 1)) with (RtoC 1) by (unfold Cconj, RtoC; cbn; f_equal; ring).
      cbv zeta. assert (C10 : RtoC 1 <> RtoC 0) by (intros Q; injection Q as Q; lra). replace (vf / RtoC 1)%C with vf by (field; auto). rewrite !Cmult_0_l, !Cplus_0_r. replace ((vf - vt) / row_z r / RtoC 1)%C with ((vf - vt) / row_z r)%C by (field; auto).
      rewrite !Cconj_div, !Cconj_minus by auto. field. apply Cconj_neq0; auto. }
    assert (F1 : fst (s_from r vf vt) + fst (s_to r vf vt) = fst (s_from r vf vt + s_to r vf vt)%C) by reflexivity.
    assert (F2 : snd (s_from r vf vt) + snd (s_to r vf vt) = snd (s_from r vf vt + s_to r vf vt)%C) by reflexivity.
    rewrite F1, F2, E2. set (w := (vf - vt)%C). rewrite Cmod2. unfold row_z in *. cbn [fst snd] in P.
    assert (V : fst (RtoC (fst w * fst w + snd w * snd w) / Cconj (row_r r, row_x r))%C + snd (RtoC (fst w * fst w + snd w * snd w) / Cconj (row_r r, row_x r))%C =
                (fst w * fst w + snd w * snd w) * ((row_r r + row_x r) / (row_r r * row_r r + row_x r * row_x r))).
    { unfold Cdiv, Cmult, Cinv, Cconj, RtoC. cbn [fst snd]. field. lra. }
    rewrite V. assert (G : 0 < (row_r r + row_x r) / (row_r r * row_r r + row_x r * row_x r)). { apply Rdiv_lt_0_compat; auto. destruct (Req_dec (row_r r) 0) as [Z|Z]; destruct (Req_dec (row_x r) 0) as [Z'|Z']; try lra. rewrite Z, Z' in P. lra. }
    split; [apply Rmult_le_pos; [nra|lra]|]. intros E. apply Rmult_integral in E as [E|E]; [|lra].
    assert (fst w = 0 /\ snd w = 0) as (A1 & A2) by (split; nra). unfold w in A1, A2. apply C_eq.
    - cbn in A1. lra.
    - cbn in A2. lra.
  Qed.
  (** no current at the load buses means that the voltage is everywhere that of the slack bus *)
  Lemma no_current V : V 0%Z = RtoC 0 -> (forall k, In k (load_ids nw) -> current_out nw V k = RtoC 0) -> forall k, In k (bus_ids nw) -> V k = RtoC 0.
  Proof.
    intros V0 HV. pose proof (total_powers nw V (bus_ids nw) (ids_nodup nw) (br_ends_in nw dt lamb s0 H0 Hn)) as T.
    assert (Z : sumR (map (fun k => fst (power_out nw V k) + snd (power_out nw V k)) (bus_ids nw)) = 0).
    { rewrite (sumR_ext _ (fun _ => 0)); [apply sumR_zero|]. intros k I. rewrite <- power_current.
      assert (E : (V k * Cconj (current_out nw V k))%C = RtoC 0).
      { destruct (Z.eq_dec k 0) as [->|Nz]; [rewrite V0; ring|]. rewrite HV, Cconj_0; [ring|].
        unfold bus_ids, load_ids in *. unfold bus_ids in *. destruct (List.length (nw_bus nw)); [destruct I|]. cbn [seq map tl] in *. destruct I as [I|I]; [cbn in I; lia|auto]. }
      rewrite E. cbn. ring. }
    rewrite Z in T. symmetry in T.
    assert (Eq : forall r f t, In r (nw_br nw) -> lr_f r = Some f -> lr_t r = Some t -> V f = V t).
    { intros r f t I Ef Et. pose proof (sumR_pos_zero _ _ (fun r I => proj1 (line_power r _ _ I)) T r I) as E. cbv beta in E. rewrite Ef, Et in E. cbn [vat] in E. apply (proj2 (line_power r _ _ I)) in E. exact E. }
    intros k Ik. pose proof (Hc k Ik) as Rk. clear Hc. induction Rk as [|r f t I Ef Et _ IH|r f t I Ef Et _ IH]; auto; destruct (br_ends_in nw dt lamb s0 H0 Hn r I) as (f' & t' & E1 & E2 & I1 & I2).
    - rewrite <- (Eq r f t); auto. apply IH. replace f with f' by congruence. auto.
    - rewrite (Eq r f t); auto. apply IH. replace t with t' by congruence. auto.
  Qed.
  Lemma lines_flat : flat_rest nw.
  Proof.
    intros k _. unfold current_out, outflow. rewrite (map_ext_in _ (fun _ => RtoC 0)); [apply sumC_zero|]. intros r I.
    destruct (br_ends_in nw dt lamb s0 H0 Hn r I) as (f & t & Ef & Et & _). rewrite Ef, Et. cbn [vat]. rewrite Forall_forall in Hp. destruct (Hp r I) as (Pb & Pt).
    unfold pi_from, pi_to, pi_inner. rewrite Pt, Pb. replace (0 / 2) with 0 by lra. change (0, 0)%R with (RtoC 0). cbv zeta. replace (RtoC 1 / RtoC 1)%C with (RtoC 1) by (field; intros Q; injection Q as Q; lra).
    replace (RtoC 1 - RtoC 1)%C with (RtoC 0) by ring. unfold Cdiv. rewrite !Cmult_0_l, !Cplus_0_r, !Cmult_0_l. destruct (end_of _ _), (end_of _ _); ring.
  Qed.

  Theorem impedance_exists : exists Zm z y, impedance nw Zm z /\ admits nw y /\ 0 <= z /\ 0 <= y.
  Proof.
    destruct (num_Y nw dt lamb s0 H0 b Eb Hr Hn) as (M & EY & Np & KCL).
    destruct (List.length (nw_bus nw)) as [|n] eqn:Ln; [lia|]. assert (Li := load_ids_seq nw n Ln). assert (Bi : bus_ids nw = map Z.of_nat (seq 0 (S n))) by (unfold bus_ids; rewrite Ln; auto).
    set (Vz := fun (V : nat -> C) (k : Z) => V (Z.to_nat k)).
    assert (CU : forall V k, (k < S n)%nat -> cur n M V k = current_out nw (Vz V) (Z.of_nat k)).
    { intros V k K. unfold cur. rewrite <- (KCL (Vz V) k) by auto. unfold sumn. apply sumC_ext_in. intros j _. unfold Vz. rewrite Nat2Z.id. reflexivity. }
    assert (CZ : forall V k, (k < S n)%nat -> current_out nw V (Z.of_nat k) = cur n M (fun j => V (Z.of_nat j)) k) by (intros V k K; unfold cur; rewrite <- (KCL V k K); reflexivity).
    assert (NC : forall V, V 0%nat = RtoC 0 -> (forall k, on n k -> cur n M V k = RtoC 0) -> forall k, on n k -> V k = RtoC 0).
    { intros V V0 HV k K. pose proof (no_current (Vz V)) as Q. assert (E : Vz V (Z.of_nat k) = RtoC 0).
      { apply Q; [exact V0| |rewrite Bi; apply in_map, in_seq; unfold on in K; lia]. intros i I. rewrite Li in I. apply in_map_iff in I as (i' & <- & I). apply on_seq in I. rewrite <- CU by (unfold on in I; lia). auto. }
      unfold Vz in E. rewrite Nat2Z.id in E. exact E. }
    set (rows := map (fun k j => M k (S j)) (seq 1 n)). set (ext := fun (x : nat -> C) (j : nat) => match j with O => RtoC 0 | S i => x i end).
    assert (EX : forall x k, cur n M (ext x) k = LS (fun j => M k (S j)) x (seq 0 n)).
    { intros x k. unfold cur, sumn, LS. cbn [seq map]. rewrite sumC_cons. cbn [ext]. rewrite <- seq_shift, map_map. ring_simplify. reflexivity. }
    assert (TK : trivial_kernel rows n).
    { intros x F j Hj. change (x j) with (ext x (S j)). apply NC; [reflexivity| |unfold on; lia]. intros k K. rewrite EX. unfold rows in F. rewrite Forall_map, Forall_forall in F. apply F. apply on_seq; auto. }
    assert (Col : forall k, exists x, forall i, on n i -> cur n M (ext x) i = if Nat.eqb i k then RtoC 1 else RtoC 0).
    { intros k. destruct (surjective rows (map (fun i => if Nat.eqb i k then RtoC 1 else RtoC 0) (seq 1 n)) n) as (x & F); auto; [unfold rows; rewrite map_length, seq_length; auto|rewrite map_length, seq_length; auto|].
      exists x. intros i I. rewrite EX. apply on_seq in I. unfold rows in F. clear -F I. induction (seq 1 n) as [|a l IH]; [destruct I|]. cbn [map] in F. inversion F as [|? ? ? ? E F' X1 X2]; subst. destruct I as [<-|I]; auto. }
    set (Zc := fun k => proj1_sig (constructive_indefinite_description _ (Col k))).
    assert (HC : forall k i, on n i -> cur n M (ext (Zc k)) i = if Nat.eqb i k then RtoC 1 else RtoC 0) by (intros k; unfold Zc; exact (proj2_sig (constructive_indefinite_description _ (Col k)))).
    assert (HZ : forall V, V 0%nat = RtoC 0 -> forall i, on n i -> sumC (map (fun k => (ext (Zc k) i * cur n M V k)%C) (seq 1 n)) = V i).
    { intros V V0 i I. set (W := fun i => sumC (map (fun k => (ext (Zc k) i * cur n M V k)%C) (seq 1 n))). change (W i = V i).
      assert (CW : forall q, on n q -> cur n M W q = cur n M V q).
      { intros q Q. unfold cur at 1, sumn, W.
        transitivity (sumC (map (fun k => (cur n M (ext (Zc k)) q * cur n M V k)%C) (seq 1 n))).
        - generalize (seq 1 n) as l. induction l as [|k l IH]; cbn [map].
          + rewrite sumC_nil. rewrite (sumC_ext_in _ _ (fun _ => RtoC 0)); [apply sumC_zero|]. intros; ring.
          + rewrite sumC_cons, <- IH. change (cur n M (ext (Zc k)) q) with (LS (M q) (ext (Zc k)) (seq 0 (S n))). rewrite (Cmult_comm (LS _ _ _)), <- (LS_scale (M q)). unfold LS. rewrite <- sumC_plus. apply sumC_ext_in. intros j _. rewrite sumC_cons. ring.
        - rewrite (sumC_ext_in _ _ (fun k => if Nat.eqb k q then cur n M V q else RtoC 0)).
          + rewrite (sumC_upd (seq 1 n) (fun _ => RtoC 0) q (cur n M V q) (seq_NoDup _ _)) by (apply on_seq; auto). rewrite sumC_zero. ring.
          + intros k Ik. rewrite HC by auto. rewrite (Nat.eqb_sym k q). destruct (Nat.eqb_spec q k) as [->|]; ring. }
      assert (D : (W i - V i)%C = RtoC 0).
      { apply (NC (fun i => (W i - V i)%C)); auto.
        - rewrite V0. unfold W. rewrite (sumC_ext_in _ _ (fun _ => RtoC 0)); [rewrite sumC_zero; ring|]. intros; cbn [ext]; ring.
        - intros q Q. unfold cur, sumn. rewrite (sumC_ext_in _ _ (fun j => (M q j * W j + RtoC (-1) * (M q j * V j))%C)) by (intros; apply C_eq; cbn; ring). rewrite sumC_plus.
          change (sumC (map (fun j => (M q j * W j)%C) (seq 0 (S n)))) with (cur n M W q). rewrite CW by auto.
          transitivity (cur n M V q + RtoC (-1) * cur n M V q)%C; [f_equal|apply C_eq; cbn; ring].
          unfold cur, sumn. generalize (seq 0 (S n)) as l. induction l; cbn [map]; [rewrite !sumC_nil; ring|]. rewrite !sumC_cons, IHl. ring. }
      replace (W i) with (W i - V i + V i)%C by ring. rewrite D. ring. }
    assert (Bd : forall (f : nat -> R) l, (forall k, 0 <= f k) -> forall k, In k l -> f k <= sumR (map f l) /\ 0 <= sumR (map f l)).
    { intros f l P. assert (G : forall l, 0 <= sumR (map f l)) by (induction l0 as [|a l0 IH]; cbn [map]; [cbn; lra|]; rewrite sumR_cons; specialize (P a); lra).
      intros k I. split; [|apply G]. induction l as [|a l IH]; [destruct I|]. cbn [map]. rewrite sumR_cons. pose proof (P a). pose proof (G l). destruct I as [<-|I]; [lra|]. specialize (IH I). lra. }
    assert (SP : forall {A} (f : A -> R) l, (forall k, 0 <= f k) -> 0 <= sumR (map f l)).
    { intros A f l P. induction l as [|a l IH]; cbn [map]; [cbn; lra|]; rewrite sumR_cons; specialize (P a); lra. }
    exists (fun i k => ext (Zc (Z.to_nat k)) (Z.to_nat i)).
    exists (sumR (map (fun i => sumR (map (fun k => Cmod (ext (Zc k) i)) (seq 1 n))) (seq 1 n))), (sumR (map (fun k => sumR (map (fun j => Cmod (M k j)) (seq 0 (S n)))) (seq 1 n))).
    split; [split|split; [|split]].
    - intros V V0 i I. rewrite Li in I |- *. apply in_map_iff in I as (i' & <- & I). rewrite map_map. rewrite Nat2Z.id. apply on_seq in I. rewrite <- (HZ (fun j => V (Z.of_nat j)) V0 i' I).
      apply sumC_ext_in. intros k K. apply in_seq in K. rewrite Nat2Z.id, CZ by lia. reflexivity.
    - intros i I. rewrite Li in I |- *. apply in_map_iff in I as (i' & <- & I). rewrite map_map. rewrite Nat2Z.id.
      rewrite (sumR_ext _ (fun k => Cmod (ext (Zc k) i'))) by (intros; rewrite Nat2Z.id; auto).
      apply (Bd (fun i => sumR (map (fun k => Cmod (ext (Zc k) i)) (seq 1 n)))); auto. intros k. apply SP. intros. apply Cmod_ge_0.
    - intros V r HV k I. rewrite Li in I. apply in_map_iff in I as (k' & <- & I). apply in_seq in I as I'. rewrite CZ by lia. unfold cur, sumn.
      assert (R0 : 0 <= r). { eapply Rle_trans; [apply Cmod_ge_0|apply (HV 0%Z)]. rewrite Bi. left. reflexivity. }
      eapply Rle_trans; [apply (sumC_mod _ _ (fun j => Cmod (M k' j)) r R0)|].
      + intros j J. rewrite Cmod_mult. apply Rmult_le_compat_l; [apply Cmod_ge_0|]. apply HV. rewrite Bi. apply in_map; auto.
      + apply Rmult_le_compat_r; auto. apply (Bd (fun k => sumR (map (fun j => Cmod (M k j)) (seq 0 (S n))))); auto. intros. apply SP. intros; apply Cmod_ge_0.
    - apply SP. intros. apply SP. intros. apply Cmod_ge_0.
    - apply SP. intros. apply SP. intros. apply Cmod_ge_0.
  Qed.

  Theorem light_enough : exists eps, 0 < eps /\ forall s c, strip s = strip s0 -> returned s c -> exact_lin (o_lin (call_or c)) -> injections_below nw (run_call s c) eps -> sm_conv (run_call s c) = Some true.
  Proof.
    destruct impedance_exists as (Zm & z & y & HI & HA & Hz & Hy). exists (/ (48 * (z * y) * z + z * y + 1)).
    assert (P1 : 0 <= z * y) by (apply Rmult_le_pos; auto). assert (P2 : 0 <= 48 * (z * y) * z) by (repeat apply Rmult_le_pos; lra).
    set (D := 48 * (z * y) * z + z * y + 1). assert (D0 : 1 <= D) by (unfold D; lra). assert (DI : D * / D = 1) by (field; lra). assert (I0 : 0 < / D) by (apply Rinv_0_lt_compat; lra).
    split; auto. intros s c S R L I. apply (light_call nw dt lamb s0 H0 b Eb Hr Hn Zm z y (/ D) lines_flat HI HA); auto.
    - replace (48 * (z * y) * (z * / D)) with (48 * (z * y) * z * / D) by ring. rewrite <- DI. apply Rmult_le_compat_r; [lra|unfold D; lra].
    - apply Rle_trans with 1; [rewrite <- DI; apply Rmult_le_compat_r; [lra|unfold D; lra]|]. apply pow_R1_Rle. lra.
  Qed.
End Exists.
