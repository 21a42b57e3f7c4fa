(** Proofs for C78 and C79: the first message sent to the browser. *)
From Coq Require Import Reals Lra Lia Sorted Permutation.
From Verif Require Import Base Num NumXR Devices BusBranch CheckNetwork LoadFlow Simulator EnvArgs Env Anm6 Message LibBase LibNum LibXR LibSim LibInit SpecNet SpecSim SpecEnv SpecDev SpecMessage
  ProofSim ProofSoc ProofHist ProofObs ProofUnits ProofVals ProofBr ProofEnv ProofStep ProofDraw PropSlack.
Local Open Scope string_scope.
Local Open Scope list_scope.
Set Bullet Behavior "Strict Subproofs".

Section Render.
  Context {F G : Type} {N : Num F}.
  Local Open Scope num_scope.
  Definition vmin_of (b : bus F) : F := match b_vmin b with Some v => v | None => n0 end.
  Definition msg_of (s : sim F) (clip : F * F) : init_msg F :=
    mkMsg (map d_type (sm_devs s)) (map (fun d => largest (d_pmin d * sm_base s, d_pmax d * sm_base s)) (sm_devs s))
          (map (fun d => largest (d_qmin d * sm_base s, d_qmax d * sm_base s)) (sm_devs s)) (map (fun br => ln_rate br * sm_base s) (sm_branches s))
          (map vmin_of (sm_buses s)) (map b_vmax (sm_buses s))
          (map (fun d => match d_spec d with SStor t => s_socmax t * sm_base s | _ => n0 end) (filter is_stor (sm_devs s))) (fst clip) (snd clip).
  Lemma bus_v_ok (s : sim F) : (forall b, In b (sm_buses s) -> b_vmin b <> None) ->
    rendering_bus_v s = Ok (map (fun b => (b_id b, [("pu", (vmin_of b, b_vmax b)); ("kV", (vmin_of b * b_kv b, b_vmax b * b_kv b))])) (sm_buses s)).
  Proof. intros H. unfold rendering_bus_v. apply mapM_all. intros b I. unfold vmin_of. specialize (H b I). destruct (b_vmin b); [reflexivity|contradiction]. Qed.
  Lemma first_message_eq (e : env F G) : (forall b, In b (sm_buses (e_sim e)) -> b_vmin b <> None) -> NoDup (map d_id (sm_devs (e_sim e))) ->
    first_message e = Ok (msg_of (e_sim e) (e_clip e)).
  Proof.
    intros Hv ND. unfold first_message, rendering_specs. rewrite (bus_v_ok _ Hv). cbn [bind].
    set (s := e_sim e) in *. unfold init_render.
    change (dgetE String.eqb (get_state_space s) "dev_p") with (Ok (map (fun d => (EId (d_id d), [("MW", (d_pmin d * sm_base s, d_pmax d * sm_base s)); ("pu", (d_pmin d, d_pmax d))])) (filter (fun _ => true) (sm_devs s)))).
    change (dgetE String.eqb (get_state_space s) "dev_q") with (Ok (map (fun d => (EId (d_id d), [("MVAr", (d_qmin d * sm_base s, d_qmax d * sm_base s)); ("pu", (d_qmin d, d_qmax d))])) (filter (fun _ => true) (sm_devs s)))).
    change (dgetE String.eqb (get_state_space s) "des_soc") with (Ok (map (fun d => (EId (d_id d), match d_spec d with
         | SStor t => [("MWh", (s_socmin t * sm_base s, s_socmax t * sm_base s)); ("pu", (s_socmin t, s_socmax t))] | _ => [] end)) (filter is_stor (sm_devs s)))).
    assert (Ef : filter (fun _ => true) (sm_devs s) = sm_devs s) by (clear; induction (sm_devs s); cbn; f_equal; auto). rewrite !Ef. cbn [bind rs_p rs_q rs_s rs_v rs_soc rs_type].
    rewrite (mapM_map _ (fun d => (EId (d_id d), [("MW", _); ("pu", _)]))).
    rewrite (mapM_all _ _ (fun d => largest (d_pmin d * sm_base s, d_pmax d * sm_base s))) by reflexivity. cbn [bind].
    rewrite (mapM_map _ (fun d => (EId (d_id d), [("MW", _); ("pu", _)]))).
    rewrite (mapM_all _ _ (fun d => largest (d_qmin d * sm_base s, d_qmax d * sm_base s))).
    2:{ intros d I. cbn [fst]. unfold dgetE at 1. rewrite (dget_objs (fun d => EId (d_id d))) by (auto; apply eid_nodup; auto). reflexivity. }
    cbn [bind]. unfold rendering_branch_s. rewrite mapM_map, (mapM_all _ _ (fun br => ln_rate br * sm_base s)) by reflexivity. cbn [bind].
    rewrite mapM_map, (mapM_all _ _ vmin_of) by reflexivity. cbn [bind]. rewrite mapM_map, (mapM_all _ _ b_vmax) by reflexivity. cbn [bind].
    rewrite mapM_map, (mapM_all _ _ (fun d => match d_spec d with SStor t => s_socmax t * sm_base s | _ => n0 end)).
    2:{ intros d I. apply filter_In in I as (_ & I). unfold is_stor in I. destruct (d_spec d); [..|reflexivity]; discriminate. }
    cbn [bind]. rewrite map_map. reflexivity.
  Qed.
  Lemma msg_static (s s0 : sim F) clip : strip s = strip s0 -> msg_of s clip = msg_of s0 clip.
  Proof.
    intros S. pose proof (strip_devs _ _ S) as D. pose proof (strip_buses _ _ S) as B. pose proof (strip_branches _ _ S) as R.
    assert (Eb : sm_base s = sm_base s0) by (unfold strip in S; injection S; auto). unfold msg_of. rewrite Eb. f_equal.
    - eapply (map_strip strip_dev); [reflexivity|exact D].
    - eapply (map_strip strip_dev); [reflexivity|exact D].
    - eapply (map_strip strip_dev); [reflexivity|exact D].
    - eapply (map_strip strip_br (fun br => ln_rate br * sm_base s0)); [reflexivity|exact R].
    - eapply (map_strip strip_bus); [reflexivity|exact B].
    - eapply (map_strip strip_bus); [reflexivity|exact B].
    - eapply (map_strip strip_dev); [reflexivity|]. apply strip_dev_filter; [reflexivity|exact D].
  Qed.
  Lemma F2_maps {A B C} (P : B -> C -> Prop) (f : A -> B) (g : A -> C) l : (forall a, In a l -> P (f a) (g a)) -> Forall2 P (map f l) (map g l).
  Proof. induction l as [|a l IH]; intros H; cbn; constructor; [apply H; left; auto|apply IH; intros; apply H; right; auto]. Qed.

  Context (nw : network F) (dt lamb : F) (s0 : sim F) (H0 : sim_init nw dt lamb = Ok s0).
  Lemma buses_list bs : buses_of nw bs -> bs = map b_id (sm_buses s0).
  Proof.
    intros (S & H). destruct (sim_init_built _ _ _ _ H0) as (bs0 & ds & B). apply sorted_unique; auto; [apply (bt_bus_sorted B)|]. intros i. rewrite H. split.
    - intros (r & Ir & Ei). destruct (bt_bus_row_inv B _ Ir) as (b0 & M & I). apply bus_init_id in M. replace i with (b_id (bus_with_bounds (sm_devs s0) b0)) by (cbn; congruence). apply in_map; auto.
    - intros I. apply in_map_iff in I as (b & <- & I). destruct (bt_bus_row B _ I) as (r & b0 & Ir & M & ->). exists r. split; auto. apply bus_init_id in M. exact M.
  Qed.
  Lemma bus_init_lims r (b : bus F) : bus_init r = Ok b -> b_vmin b = br_vmin r /\ br_vmax r = Some (b_vmax b).
  Proof.
    unfold bus_init. intros H. apply bind_ok in H as (i & _ & H). apply bind_ok in H as (t & _ & H). apply bind_ok in H as (? & _ & H). apply bind_ok in H as (kv & _ & H).
    apply bind_ok in H as (vm & Ev & H). apply bind_ok in H as (? & _ & H). apply bind_ok in H as (? & _ & H). injection H as <-. cbn. split; auto.
    destruct (br_vmax r) as [v|]; [|discriminate]. destruct (v <? n0); [discriminate|congruence].
  Qed.
  Lemma vmin_given : (forall r, In r (nw_bus nw) -> br_vmin r <> None) -> forall b, In b (sm_buses s0) -> b_vmin b <> None.
  Proof.
    intros H b I. destruct (sim_init_built _ _ _ _ H0) as (bs0 & ds & B). destruct (bt_bus_row B _ I) as (r & b0 & Ir & M & ->). apply bus_init_lims in M as (M & _).
    cbn. rewrite M. auto.
  Qed.
  Lemma msg_describes clip : (forall r, In r (nw_bus nw) -> br_vmin r <> None) -> describes nw s0 (msg_of s0 clip).
  Proof.
    intros Hv. destruct (sim_init_built _ _ _ _ H0) as (bs0 & ds & B). destruct (ids_lists _ _ _ _ _ H0 eq_refl) as (L1 & _ & _ & L4).
    pose proof (init_nodup _ _ _ _ H0) as ND. split; [|split].
    - intros all Ha. rewrite (L1 _ Ha). cbn [msg_of im_type im_p im_q]. split; [|split]; apply F2_maps; intros d I.
      + destruct (bt_dev_row B _ I) as (r & Ir & M). apply mk_dev_fields in M as (M1 & _ & M3 & _). exists r. auto.
      + exists (d_pmin d * sm_base s0), (d_pmax d * sm_base s0). split; [|reflexivity].
        erewrite (bound_dev s0 "dev_p" "MW" (fun _ => true)); [..|reflexivity|auto|auto|auto]. reflexivity.
      + exists (d_qmin d * sm_base s0), (d_qmax d * sm_base s0). split; [|reflexivity].
        erewrite (bound_dev s0 "dev_q" "MVAr" (fun _ => true)); [..|reflexivity|auto|auto|auto]. reflexivity.
    - intros bs Hb. rewrite (buses_list _ Hb). cbn [msg_of im_vmin im_vmax]. split; apply F2_maps; intros b I;
        destruct (bt_bus_row B _ I) as (r & b0 & Ir & M & E); pose proof (bus_init_id _ _ M) as Mi; apply bus_init_lims in M as (M1 & M2); exists r; rewrite E; cbn; split; auto; split; auto.
      unfold vmin_of. cbn. rewrite M1. specialize (Hv r Ir). destruct (br_vmin r); [reflexivity|contradiction].
    - intros dess Hd. rewrite (L4 _ Hd). cbn [msg_of im_soc]. apply F2_maps. intros d I. apply filter_In in I as (I & St).
      exists (match d_spec d with SStor t => s_socmin t * sm_base s0 | _ => n0 end).
      erewrite (bound_dev s0 "des_soc" "MWh" is_stor); [..|reflexivity|auto|auto|auto]. cbn beta. unfold is_stor in St.
      destruct (d_spec d); try discriminate. reflexivity.
  Qed.
End Render.
