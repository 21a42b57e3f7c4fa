(** C77: instances of exact arithmetic and of binary64, and an example. *)
From Coq Require Import Reals Lra Lia Floats.
From Verif Require Import Base Num NumXR NumFloat Devices BusBranch CheckNetwork LoadFlow Simulator EnvArgs Env Anm6 LibBase LibNum LibXR LibSim LibInit SpecNet SpecSim ProofSim ProofSoc ProofHist ProofObs PropSlack ExFloat.
Local Open Scope string_scope.
Local Open Scope list_scope.
Set Bullet Behavior "Strict Subproofs".

(** C77 in exact arithmetic: never NaN, in any unit. *)
Theorem C77_exact : forall (nw : network XR) dt lamb s0 cs r i b k u v,
  sim_init nw dt lamb = Ok s0 -> In r (nw_dev nw) -> slack_dev_row r -> dr_id r = Some i -> nw_base nw = Fin b ->
  In (k, u) [("dev_p", "pu"); ("dev_p", "MW"); ("dev_q", "pu"); ("dev_q", "MVAr")] -> obs (run s0 cs) k u (EId i) = Some v -> v <> NaN.
Proof.
  intros nw dt lamb s0 cs r i b k u v H0 I S Ei Eb Hk O.
  destruct (sim_init_built _ _ _ _ H0) as (bs & ds & B). destruct (bt_wf _ _ _ _ _ _ B) as (Wb & (l1 & rb & l2 & El & Sb & _) & _).
  assert (Ib : In rb (nw_bus nw)) by (rewrite El; apply in_or_app; right; left; auto).
  assert (Hb : (0 < b)%R). { unfold rule_base in Wb. rewrite Eb in Wb. cbn in Wb. destruct (Rle_dec b 0) as [K|K]; [rewrite (proj2 (Rleb_spec _ _)) in Wb by auto; discriminate|lra]. }
  assert (M : forall x : XR, nisnan x = false -> x <> NaN /\ nmul x (nw_base nw) <> NaN).
  { intros x Nx. apply xisnan_false in Nx. split; auto. rewrite Eb. destruct x; cbn; try congruence; unfold inf_sgn; repeat destruct (Rlt_dec _ _); try discriminate; exfalso; lra. }
  assert (Hn : nisnan (ninf : XR) = false) by (apply xisnan_false; discriminate).
  revert k u v Hk O. apply (gathered_obs_pf nw dt lamb s0 cs (fun ob => forall k u v, In (k, u) _ -> ob k u (EId i) = Some v -> v <> NaN) H0); [intros; discriminate|].
  intros s1 P _ k u v Hk O. destruct (slack_same _ _ _ _ H0 s1 r rb P I S Ib Sb) as (d & bb & Id & Jb & E1 & E2 & Sl & Ep & Eq).
  destruct (pf_slack_bus Hn _ _ _ P Jb Sl) as (N1 & N2). apply M in N1 as (N1 & N1'). apply M in N2 as (N2 & N2'). rewrite <- (init_base _ _ _ _ H0) in *.
  assert (Es : sm_base s1 = sm_base s0) by (pose proof (from_pf_strip _ _ P) as St; unfold strip in St; injection St; auto).
  assert (NDd : NoDup (map d_id (sm_devs s1))) by (apply (static_nodup _ _ _ _ _ H0), (from_pf_strip _ _ P)). replace i with (d_id d) in O by congruence.
  cbn [In] in Hk. destruct Hk as [Hk|[Hk|[Hk|[Hk|[]]]]]; injection Hk as <- <-.
  - rewrite (read_dev s1 "dev_p" "pu" (fun _ => true) d_p d) in O by (cbn; auto 10). congruence.
  - rewrite (read_dev s1 "dev_p" "MW" (fun _ => true) (fun d => nmul (d_p d) (sm_base s1)) d) in O by (cbn; auto 10). congruence.
  - rewrite (read_dev s1 "dev_q" "pu" (fun _ => true) d_q d) in O by (cbn; auto 10). congruence.
  - rewrite (read_dev s1 "dev_q" "MVAr" (fun _ => true) (fun d => nmul (d_q d) (sm_base s1)) d) in O by (cbn; auto 10). congruence.
Qed.

(** C77 in binary64 *)
Theorem C77_binary64 : forall (L : libm) (nw : network float) dt lamb s0 cs r i k x,
  sim_init (N := Fnum L) nw dt lamb = Ok s0 -> In r (nw_dev nw) -> slack_dev_row r -> dr_id r = Some i ->
  In k ["dev_p"; "dev_q"] -> obs (run (N := Fnum L) s0 cs) k "pu" (EId i) = Some x -> PrimFloat.is_nan x = false.
Proof.
  intros L nw dt lamb s0 cs r i k x H0 I S Ei Hk O.
  destruct (sim_init_built _ _ _ _ H0) as (bs & ds & B). destruct (bt_wf _ _ _ _ _ _ B) as (_ & (l1 & rb & l2 & El & Sb & _) & _).
  assert (Ib : In rb (nw_bus nw)) by (rewrite El; apply in_or_app; right; left; auto).
  destruct (row_bus _ _ _ _ H0 s0 rb eq_refl Ib) as (bb & _ & Ej & _).
  assert (Hn : nisnan (N := Fnum L) (@ninf _ (Fnum L)) = false) by (rewrite fisnan_spec; reflexivity).
  destruct (C77_slack_power float (Fnum L) Hn nw dt lamb s0 cs r rb i _ H0 I S Ei Ib Sb Ej) as (_ & _ & K).
  cbn [In] in Hk. apply (K x). destruct Hk as [<-|[<-|[]]]; auto.
Qed.

(** The network of ANM6 after a reset whose linear solver returned NaN: the voltages are NaN, the power of the slack device is infinite, not NaN. *)
Definition nan_lin : lin_solver float := fun _ b => Ok (map (fun _ => nan) b).
Definition bad_or : oracles float := mkOr (o_qp tor) nan_lin.
Notation f6 := (anm6_network (N := Fnum tlibm)).
Definition nan_test : bool :=
  match sim_init (N := Fnum tlibm) f6 0.25%float 100%float with
  | Ok s0 =>
    match sim_reset (N := Fnum tlibm) bad_or (repeat (-1)%float 18) s0 with
    | (s1, Ok conv) => negb conv &&
      match obs s1 "bus_v_magn" "pu" (EId 3), obs s1 "dev_p" "pu" (EId 0), obs s1 "bus_q" "pu" (EId 0) with
      | Some v, Some p, Some q => PrimFloat.is_nan v && PrimFloat.eqb p infinity && PrimFloat.eqb q infinity
      | _, _, _ => false end
    | _ => false end
  | _ => false end.
Lemma nan_test_ok : nan_test = true.
Proof. vm_compute. reflexivity. Qed.
Example C77_ex : exists s0 s1 v p q, sim_init (N := Fnum tlibm) f6 0.25%float 100%float = Ok s0 /\ sim_reset (N := Fnum tlibm) bad_or (repeat (-1)%float 18) s0 = (s1, Ok false) /\
  obs s1 "bus_v_magn" "pu" (EId 3) = Some v /\ PrimFloat.is_nan v = true /\ obs s1 "dev_p" "pu" (EId 0) = Some p /\ PrimFloat.eqb p infinity = true /\
  obs s1 "bus_q" "pu" (EId 0) = Some q /\ PrimFloat.eqb q infinity = true.
Proof.
  pose proof nan_test_ok as H. unfold nan_test in H. destruct (sim_init f6 0.25%float 100%float) as [s0|] eqn:E0; [|discriminate].
  destruct (sim_reset bad_or (repeat (-1)%float 18) s0) as (s1, [conv|]) eqn:E1; [|discriminate]. apply andb_true_iff in H as (H1 & H). apply negb_true_iff in H1. subst conv.
  destruct (obs s1 "bus_v_magn" "pu" (EId 3)) as [v|] eqn:O1; [|discriminate]. destruct (obs s1 "dev_p" "pu" (EId 0)) as [p|] eqn:O2; [|discriminate].
  destruct (obs s1 "bus_q" "pu" (EId 0)) as [q|] eqn:O3; [|discriminate]. apply andb_true_iff in H as (H & H3). apply andb_true_iff in H as (H1 & H2).
  exists s0, s1, v, p, q. repeat split; auto.
Qed.

Print Assumptions C77_slack_power.
Print Assumptions C77_exact.
Print Assumptions C77_binary64.
Print Assumptions C77_ex.
