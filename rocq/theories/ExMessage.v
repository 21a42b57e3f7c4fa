(** C78 and C79: ANM6Easy, and a network that collapses. *)
From Coq Require Import Reals Lra Lia Floats.
From Verif Require Import Base Num NumXR NumFloat Devices BusBranch CheckNetwork LoadFlow Simulator EnvArgs Env Anm6 Message LibBase LibNum LibXR LibSim LibInit SpecNet SpecSim SpecEnv SpecDev SpecQp SpecAnm6 SpecRender SpecMessage
  ProofSim ProofObs ProofEasy ProofAnm6 PropEasy PropEasy2 PropEasy4 PropMessage ExFloat ExSlack.
Local Open Scope string_scope.
Local Open Scope list_scope.
Set Bullet Behavior "Strict Subproofs".

(** The ANM6Easy environment: its first message, in exact arithmetic, describes its network with ordinary numbers only. *)
Lemma anm6_vmin : forall r, In r (nw_bus anm6x) -> br_vmin r <> None.
Proof. intros r I. cbn in I. decompose [or] I; try contradiction; subst r; discriminate. Qed.
Lemma two_units {A : Type} (P : A -> Prop) k1 k2 (x y z : A) u : dget String.eqb [(k1, x); (k2, y)] u = Some z -> P x -> P y -> P z.
Proof. unfold dget. cbn. destruct (String.eqb _ _); [intros [= <-]; auto|]. destruct (String.eqb _ _); [intros [= <-]; auto|discriminate]. Qed.
Lemma anm6_bounds (s : sim XR) k u i lo hi : sm_devs s = ax_devs -> sm_base s = Fin 100 -> In k ["dev_p"; "dev_q"; "des_soc"] -> bound s k u i = Some (lo, hi) -> fin lo /\ fin hi.
Proof.
  intros Ed Eb Ik Bd. cbn [In] in Ik.
  assert (Hd : forall d, In d ax_devs -> fin (d_pmin d) /\ fin (d_pmax d) /\ fin (d_qmin d) /\ fin (d_qmax d) /\ match d_spec d with SStor t => fin (s_socmin t) /\ fin (s_socmax t) | _ => True end).
  { intros d I. cbn in I. decompose [or] I; try contradiction; subst d; cbn; repeat split; exact (fin_Fin _). }
  assert (M : forall x, fin x -> fin (nmul x (Fin 100))) by (intros x (r & ->); exact (fin_Fin _)).
  destruct Ik as [<-|[<-|[<-|[]]]].
  - erewrite (bound_dev_eq s "dev_p" u i (fun _ => true)) in Bd by reflexivity. rewrite Ed, Eb in Bd.
    destruct (dget eid_eqb _ i) as [q|] eqn:E; [|discriminate]. apply dget_objs_inv in E as (d & I & _ & ->). apply filter_In in I as (I & _). destruct (Hd d I) as (A1 & A2 & A3 & A4 & _).
    apply (two_units (fun z => fin (fst z) /\ fin (snd z))) in Bd; cbn [fst snd] in *; auto.
  - erewrite (bound_dev_eq s "dev_q" u i (fun _ => true)) in Bd by reflexivity. rewrite Ed, Eb in Bd.
    destruct (dget eid_eqb _ i) as [q|] eqn:E; [|discriminate]. apply dget_objs_inv in E as (d & I & _ & ->). apply filter_In in I as (I & _). destruct (Hd d I) as (A1 & A2 & A3 & A4 & _).
    apply (two_units (fun z => fin (fst z) /\ fin (snd z))) in Bd; cbn [fst snd] in *; auto.
  - erewrite (bound_dev_eq s "des_soc" u i is_stor) in Bd by reflexivity. rewrite Ed, Eb in Bd.
    destruct (dget eid_eqb _ i) as [q|] eqn:E; [|discriminate]. apply dget_objs_inv in E as (d & I & _ & ->). apply filter_In in I as (I & Is). destruct (Hd d I) as (_ & _ & _ & _ & A).
    unfold is_stor in Is. cbn beta in Bd. destruct (d_spec d); try discriminate. destruct A as (A1 & A2).
    apply (two_units (fun z => fin (fst z) /\ fin (snd z))) in Bd; cbn [fst snd] in *; auto.
Qed.
Example C79_ex : forall (G : Type) (g : G), exists a0 m, easy_make g = Ok a0 /\ first_message (a_env a0) = Ok m /\ describes anm6x (e_sim (a_env a0)) m /\ all_numbers fin m /\
  Forall2 (fun r x => x = match lr_rate r with Some v => v | None => PInf end) (nw_br anm6x) (im_s m) /\ im_eloss m = Fin 1 /\ im_pen m = Fin 100.
Proof.
  intros G g. destruct (C74_constructed G g) as (a0 & E0). pose proof (e6_init g a0 E0) as He. destruct (e6_devs g a0 E0) as (Ed & Eb).
  destruct (C78_message _ _ _ _ _ _ _ _ _ _ _ _ _ He anm6_vmin) as (m & Em & D & _ & C). specialize (Em (mkTask (fun _ => g) (fun g => (Ok [], g)) (fun _ g => (Ok [], g))) []). cbn in Em.
  assert (Bs : nw_base anm6x = Fin 100) by reflexivity.
  assert (Rt : forall r, In r (nw_br anm6x) -> lr_rate r <> None) by (intros r I; cbn in I; decompose [or] I; try contradiction; subst r; discriminate).
  exists a0, m. do 3 (split; [assumption|]). split; [|split; [|exact C]].
  - eapply (C79_message_partial G anm6x _ _ _ _ _ _ 1 100 g _ 100 m He Bs ax_br_fin ax_bus_fin Rt); [|exact Em]. intros k u i lo hi. apply anm6_bounds; auto.
  - exact (C78_rates _ _ _ _ _ _ _ _ _ _ _ _ _ He Bs ax_br_fin Em).
Qed.

(** ---- binary64 ---- *)
(** C78 needs VMIN of the slack bus, although the file format does not: a valid file without it gives a simulator whose [get_rendering_specs] raises TypeError. *)
Definition no_vmin (r : bus_row float) : bus_row float := mkBusRow (br_id r) (br_type r) (br_kv r) (br_vmax r) (if optz_eqb (br_type r) (Some 0%Z) then None else br_vmin r).
Definition f6' : network float := mkNet (nw_base f6) (map no_vmin (nw_bus f6)) (nw_dev f6) (nw_br f6).
Definition vmin_test : bool := match sim_init (N := Fnum tlibm) f6' 0.25%float 100%float with
  | Ok s => match rendering_specs (N := Fnum tlibm) s with Err TypeErr => true | _ => false end | _ => false end.
Lemma vmin_test_ok : vmin_test = true.
Proof. vm_compute. reflexivity. Qed.
Theorem C78_slack_vmin_refuted : exists (nw : network float) s, sim_init (N := Fnum tlibm) nw 0.25%float 100%float = Ok s /\ rendering_specs (N := Fnum tlibm) s = Err TypeErr.
Proof.
  pose proof vmin_test_ok as H. unfold vmin_test in H. destruct (sim_init f6' 0.25%float 100%float) as [s|] eqn:E; [|discriminate]. exists f6', s. split; auto.
  destruct (rendering_specs s) as [|[]]; try discriminate. reflexivity.
Qed.

(** The frame that should tell the browser that the network collapsed contains NaN and Infinity, which are not JSON: an ANM6Easy environment whose linear solver
    returned NaN during a step. *)
Definition coll_test : bool :=
  match easy_make (N := Fnum tlibm) 30%nat with
  | Ok a0 => match easy_reset (N := Fnum tlibm) tor trng tsf None None a0 with
    | (a1, Ok ob) => match easy_step (N := Fnum tlibm) bad_or trng tsf tact1 a1 with
      | (a2, Ok o2) => match anm6_render true 0 true true a2 with
        | (a3, Ok _) => match rd_frames (a_rd a3) with
          | [f] => so_terminated o2 && fr_collapsed f && existsb PrimFloat.is_nan (fr_bus_v f) && existsb PrimFloat.is_infinity (fr_dev_p f)
          | _ => false end
        | _ => false end
      | _ => false end
    | _ => false end
  | Err _ => false end.
Lemma coll_test_ok : coll_test = true.
Proof. vm_compute. reflexivity. Qed.
Theorem C79_collapse_refuted : exists a0 a1 a2 a3 ob out f, easy_make (N := Fnum tlibm) 30%nat = Ok a0 /\ easy_reset (N := Fnum tlibm) tor trng tsf None None a0 = (a1, Ok ob) /\
  easy_step (N := Fnum tlibm) bad_or trng tsf tact1 a1 = (a2, Ok out) /\ so_terminated out = true /\ anm6_render true 0 true true a2 = (a3, Ok tt) /\
  rd_frames (a_rd a3) = [f] /\ fr_collapsed f = true /\ existsb PrimFloat.is_nan (fr_bus_v f) = true /\ existsb PrimFloat.is_infinity (fr_dev_p f) = true.
Proof.
  pose proof coll_test_ok as H. unfold coll_test in H. destruct (easy_make 30%nat) as [a0|] eqn:E0; [|discriminate]. destruct (easy_reset tor trng tsf None None a0) as (a1, [ob|]) eqn:E1; [|discriminate].
  destruct (easy_step bad_or trng tsf tact1 a1) as (a2, [o2|]) eqn:E2; [|discriminate]. destruct (anm6_render true 0 true true a2) as (a3, [[]|]) eqn:E3; [|discriminate].
  destruct (rd_frames (a_rd a3)) as [|f [|]] eqn:E4; [discriminate H| |discriminate H]. apply andb_true_iff in H as (H & H4). apply andb_true_iff in H as (H & H3). apply andb_true_iff in H as (H1 & H2).
  exists a0, a1, a2, a3, ob, o2, f. exact (conj eq_refl (conj E1 (conj E2 (conj H1 (conj E3 (conj E4 (conj H2 (conj H3 H4)))))))).
Qed.

Print Assumptions C79_ex.
Print Assumptions C78_slack_vmin_refuted.
Print Assumptions C79_collapse_refuted.
