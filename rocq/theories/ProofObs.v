(** Reported state and advertised bounds: C10, C14, C31, C58. *)
From Coq Require Import Permutation Sorted.
From Verif Require Import Base Num Devices BusBranch CheckNetwork LoadFlow Simulator LibBase LibNum LibSim
  SpecNet ProofNet LibInit SpecSim ProofSim ProofSoc ProofHist.
Local Open Scope string_scope.
Local Open Scope list_scope.
Local Open Scope num_scope.

Lemma dget_map_val {A V W} (key : A -> eid) (f : A -> V) (g : V -> W) l i :
  dget eid_eqb (map (fun x => (key x, g (f x))) l) i = option_map g (dget eid_eqb (map (fun x => (key x, f x)) l) i).
Proof. induction l as [|a l IH]; cbn; auto. destruct (eid_eqb i (key a)); auto. Qed.

Section Obs.
  Context {F : Type} {N : Num F}.

  (** what the SoC assignment of [reset] leaves alone *)
  Definition dev_core (d : device F) := (d_id d, d_bus d, d_type d, d_spec d, (d_p d, d_q d, d_ppot d)).
  Lemma core_set_socs base soc (ds : list (device F)) : map dev_core (fst (set_socs base soc ds)) = map dev_core ds.
  Proof.
    revert soc; induction ds as [|d ds IH]; intros soc; cbn; auto.
    destruct (is_stor d); [destruct soc as [|c soc]; cbn; auto|cbn]; rewrite IH; reflexivity.
  Qed.
  (** [s1] shows the outcome of a completed power flow on the network of [s0] (the SoC apart). *)
  Definition from_pf (s0 s1 : sim F) : Prop :=
    exists Or inp sp sq conv ds v i, strip sp = strip s0 /\ trans_ok Or inp sp sq conv ds v i /\
      sm_buses s1 = sm_buses sq /\ sm_branches s1 = sm_branches sq /\
      map dev_core (sm_devs s1) = map dev_core (sm_devs sq) /\ sm_conv s1 = Some conv /\ strip s1 = strip s0.
  (** The stored state is absent or was gathered after such a power flow. *)
  Definition gathered (s0 s : sim F) : Prop :=
    sm_state s = None \/ exists s1, from_pf s0 s1 /\ sm_state s = Some (gather_state s1) /\ sm_conv s = sm_conv s1.
  Lemma gathered_trans s0 Or inp s : strip s = strip s0 -> gathered s0 s -> gathered s0 (fst (transition Or inp s)).
  Proof.
    intros S G. destruct (transition_cases Or inp s) as [(ds & v & i & c & T & _)|((E & E') & _)].
    - right. exists (fst (transition Or inp s)).
      split; [|split; [apply T|reflexivity]].
      exists Or, inp, s, (fst (transition Or inp s)), c, ds, v, i. rewrite strip_transition.
      repeat split; auto; apply T.
    - unfold gathered. rewrite E, E'. exact G.
  Qed.
  Lemma gathered_call s0 s c : strip s = strip s0 -> gathered s0 s -> gathered s0 (run_call s c).
  Proof.
    intros S G. destruct c as [Or init|Or inp]; cbn [run_call]; [|apply gathered_trans; auto].
    unfold sim_reset.
    destruct (reset_inputs _ _ _ _ _ _ _) as [inp|e]; [|left; reflexivity].
    destruct (mapM (dev_pre_soc inp) (sm_devs s)) as [ds|e] eqn:Em; [|left; reflexivity].
    set (s1 := sim_set_devs (sim_set_state s None) ds).
    assert (S1 : strip s1 = strip s0).
    { rewrite <- S. unfold s1. apply (strip_set_devs (sim_set_state s None)). cbn.
      eapply (mapM_proj _ strip_dev strip_dev); [|eauto]. intros; eapply strip_pre_soc; eauto. }
    pose proof (gathered_trans s0 Or inp s1 S1 (or_introl eq_refl)) as G2.
    pose proof (strip_transition Or inp s1) as S2.
    pose proof (transition_ok Or inp s1) as TK.
    destruct (transition Or inp s1) as [s2 [[[[[st r] e] pen] conv]|e]]; cbn [fst] in *; auto.
    destruct (TK _ _ _ _ _ _ eq_refl) as (_ & _ & ds' & v & i & T). clear TK.
    pose proof (strip_set_socs (sm_base s) (slice (2 * n_device s) (n_des s) init) (sm_devs s2)) as Q.
    pose proof (core_set_socs (sm_base s) (slice (2 * n_device s) (n_des s) init) (sm_devs s2)) as Q2.
    destruct (set_socs (sm_base s) _ (sm_devs s2)) as [ds2 [u|x]]; cbn [fst] in *; [|exact G2].
    right. exists (sim_set_devs s2 ds2). split; [|split; reflexivity].
    exists Or, inp, s1, s2, conv, ds', v, i. split; auto. split; auto. do 4 (split; [first [reflexivity|exact Q2|apply T]|]).
    rewrite strip_set_devs by exact Q. congruence.
  Qed.
  Lemma gathered_run nw dt lamb (s0 : sim F) cs : sim_init nw dt lamb = Ok s0 -> gathered s0 (run s0 cs).
  Proof.
    intros H. assert (G : gathered s0 s0).
    { left. destruct (sim_init_built _ _ _ _ H) as (bs & ds & B). apply B. }
    clear H. revert G. generalize (eq_refl (strip s0)). generalize s0 at 1 4 6. unfold run.
    induction cs as [|c cs IH]; intros s S G; cbn; auto.
    apply IH; [rewrite strip_run_call; auto|apply gathered_call; auto].
  Qed.
  Lemma from_pf_strip s0 s1 : from_pf s0 s1 -> strip s1 = strip s0.
  Proof. intros (? & ? & ? & ? & ? & ? & ? & ? & H). tauto. Qed.
  Lemma gathered_obs_pf nw dt lamb (s0 : sim F) cs (P : (string -> string -> eid -> option F) -> Prop) :
    sim_init nw dt lamb = Ok s0 -> P (fun _ _ _ => None) ->
    (forall s1, from_pf s0 s1 -> sm_conv (run s0 cs) = sm_conv s1 -> P (read (gather_state s1))) -> P (obs (run s0 cs)).
  Proof.
    intros H P0 P1. unfold obs. destruct (gathered_run nw dt lamb s0 cs H) as [E|(s1 & S & E & K)]; rewrite E; auto.
  Qed.
  Lemma gathered_obs nw dt lamb (s0 : sim F) cs (P : (string -> string -> eid -> option F) -> Prop) :
    sim_init nw dt lamb = Ok s0 -> P (fun _ _ _ => None) ->
    (forall s1, strip s1 = strip s0 -> P (read (gather_state s1))) -> P (obs (run s0 cs)).
  Proof. intros H P0 P1. eapply gathered_obs_pf; eauto using from_pf_strip. Qed.

  (** ---- look-up of the reported quantities ---- *)
  Lemma init_base nw dt lamb (s0 : sim F) : sim_init nw dt lamb = Ok s0 -> sm_base s0 = nw_base nw.
  Proof. intros H. destruct (sim_init_built _ _ _ _ H) as (bs & ds & B). apply B. Qed.
  Lemma init_bus_nodup nw dt lamb (s0 : sim F) : sim_init nw dt lamb = Ok s0 -> NoDup (map b_id (sm_buses s0)).
  Proof.
    intros H. destruct (sim_init_built _ _ _ _ H) as (bs & ds & B). apply sorted_lt_nodup, (bt_bus_sorted B).
  Qed.
  Lemma strip_buses (s s' : sim F) : strip s = strip s' -> map strip_bus (sm_buses s) = map strip_bus (sm_buses s').
  Proof. unfold strip; intros H; injection H; auto. Qed.
  Lemma strip_branches (s s' : sim F) : strip s = strip s' -> map strip_br (sm_branches s) = map strip_br (sm_branches s').
  Proof. unfold strip; intros H; injection H; auto. Qed.
  Lemma static_bus (s s' : sim F) b' : strip s' = strip s -> In b' (sm_buses s') ->
    exists b, In b (sm_buses s) /\ strip_bus b = strip_bus b'.
  Proof.
    intros H I. apply strip_buses in H. apply (in_map strip_bus) in I. rewrite H in I.
    apply in_map_iff in I. destruct I as (d & E & I). eauto.
  Qed.
  Lemma static_br (s s' : sim F) b' : strip s' = strip s -> In b' (sm_branches s') ->
    exists b, In b (sm_branches s) /\ strip_br b = strip_br b'.
  Proof.
    intros H I. apply strip_branches in H. apply (in_map strip_br) in I. rewrite H in I.
    apply in_map_iff in I. destruct I as (d & E & I). eauto.
  Qed.
  Lemma strip_bus_fields (b b' : bus F) : strip_bus b = strip_bus b' ->
    b_id b = b_id b' /\ b_type b = b_type b' /\ b_kv b = b_kv b' /\ b_vmax b = b_vmax b' /\ b_vmin b = b_vmin b' /\
    b_pmin b = b_pmin b' /\ b_pmax b = b_pmax b' /\ b_qmin b = b_qmin b' /\ b_qmax b = b_qmax b'.
  Proof. unfold strip_bus; intros H; injection H; intros. repeat split; auto. Qed.
  Lemma static_bus_nodup nw dt lamb (s0 s : sim F) : sim_init nw dt lamb = Ok s0 -> strip s = strip s0 ->
    NoDup (map b_id (sm_buses s)).
  Proof.
    intros H S. apply strip_buses in S. rewrite (map_strip strip_bus b_id _ _ (fun _ => eq_refl) S).
    eapply init_bus_nodup; eauto.
  Qed.

  Lemma eid_nodup {A} (f : A -> Z) l : NoDup (map f l) -> NoDup (map (fun x => EId (f x)) l).
  Proof. intros H. rewrite <- (map_map f EId). apply FinFun.Injective_map_NoDup; auto. intros x y; congruence. Qed.

  (** the quantities of the devices, as functions of the object *)
  Definition dev_quants (base : F) : list (string * string * ((device F -> bool) * (device F -> F))) :=
    [ ("dev_p", "pu", (fun _ => true, d_p)); ("dev_p", "MW", (fun _ => true, fun d => d_p d * base));
      ("dev_q", "pu", (fun _ => true, d_q)); ("dev_q", "MVAr", (fun _ => true, fun d => d_q d * base));
      ("des_soc", "pu", (is_stor, soc_of)); ("des_soc", "MWh", (is_stor, fun d => soc_of d * base));
      ("gen_p_max", "pu", (is_nsgen, d_ppot)); ("gen_p_max", "MW", (is_nsgen, fun d => d_ppot d * base)) ].
  Lemma read_dev_eq (s : sim F) k u p f i : In (k, u, (p, f)) (dev_quants (sm_base s)) ->
    read (gather_state s) k u i = dget eid_eqb (map (fun d => (EId (d_id d), f d)) (filter p (sm_devs s))) i.
  Proof.
    intros Q. cbn [In dev_quants] in Q.
    repeat (destruct Q as [Q|Q]; [injection Q as <- <- <- <-; reflexivity|]). destruct Q.
  Qed.
  Lemma read_dev (s : sim F) k u p f d : In (k, u, (p, f)) (dev_quants (sm_base s)) ->
    NoDup (map d_id (sm_devs s)) -> In d (sm_devs s) -> p d = true ->
    read (gather_state s) k u (EId (d_id d)) = Some (f d).
  Proof.
    intros Q ND I P. rewrite (read_dev_eq _ _ _ _ _ _ Q).
    apply (dget_objs (fun d => EId (d_id d)) f); [apply eid_nodup, NoDup_filter; auto|apply filter_In; auto].
  Qed.
  Lemma read_dev_inv (s : sim F) k u p f i v : In (k, u, (p, f)) (dev_quants (sm_base s)) ->
    read (gather_state s) k u i = Some v -> exists d, In d (sm_devs s) /\ p d = true /\ i = EId (d_id d) /\ v = f d.
  Proof.
    intros Q. rewrite (read_dev_eq _ _ _ _ _ _ Q). intros H.
    apply (dget_objs_inv (fun d => EId (d_id d)) f) in H. destruct H as (d & I & E & V).
    apply filter_In in I. exists d. intuition.
  Qed.
  (** ... of the buses *)
  Definition bus_quants (base : F) : list (string * string * (bus F -> F)) :=
    [ ("bus_p", "pu", b_p); ("bus_p", "MW", fun b => b_p b * base);
      ("bus_q", "pu", b_q); ("bus_q", "MVAr", fun b => b_q b * base);
      ("bus_v_magn", "pu", fun b => cabs (b_v b)); ("bus_v_magn", "kV", fun b => cabs (b_v b) * b_kv b);
      ("bus_v_ang", "rad", fun b => cangle (b_v b)); ("bus_v_ang", "degree", fun b => to_deg (cangle (b_v b)));
      ("bus_i_magn", "pu", fun b => cabs (b_i b)); ("bus_i_magn", "kA", fun b => cabs (b_i b) * base / b_kv b);
      ("bus_i_ang", "rad", fun b => cangle (b_i b)); ("bus_i_ang", "degree", fun b => to_deg (cangle (b_i b))) ].
  Lemma read_bus_eq (s : sim F) k u f i : In (k, u, f) (bus_quants (sm_base s)) ->
    read (gather_state s) k u i = dget eid_eqb (map (fun d => (EId (b_id d), f d)) (sm_buses s)) i.
  Proof.
    intros Q. cbn [In bus_quants] in Q.
    repeat (destruct Q as [Q|Q]; [injection Q as <- <- <-; reflexivity|]). destruct Q.
  Qed.
  Lemma read_bus (s : sim F) k u f b : In (k, u, f) (bus_quants (sm_base s)) ->
    NoDup (map b_id (sm_buses s)) -> In b (sm_buses s) ->
    read (gather_state s) k u (EId (b_id b)) = Some (f b).
  Proof.
    intros Q ND I. rewrite (read_bus_eq _ _ _ _ _ Q).
    apply (dget_objs (fun d => EId (b_id d)) f); auto. apply eid_nodup; auto.
  Qed.
  Lemma read_bus_inv (s : sim F) k u f i v : In (k, u, f) (bus_quants (sm_base s)) ->
    read (gather_state s) k u i = Some v -> exists b, In b (sm_buses s) /\ i = EId (b_id b) /\ v = f b.
  Proof.
    intros Q. rewrite (read_bus_eq _ _ _ _ _ Q). intros H.
    apply (dget_objs_inv (fun d => EId (b_id d)) f) in H. destruct H as (d & I & E & V). exists d; auto.
  Qed.
  (** ... of the branches *)
  Definition br_quants (base : F) : list (string * string * (branch F -> F)) :=
    [ ("branch_p", "pu", ln_pfrom); ("branch_p", "MW", fun b => ln_pfrom b * base);
      ("branch_q", "pu", ln_qfrom); ("branch_q", "MVAr", fun b => ln_qfrom b * base);
      ("branch_s", "pu", ln_smax); ("branch_s", "MVA", fun b => ln_smax b * base);
      ("branch_i_magn", "pu", fun b => signed_magn (ln_ifrom b));
      ("branch_i_ang", "rad", fun b => cangle (ln_ifrom b));
      ("branch_i_ang", "degree", fun b => to_deg (cangle (ln_ifrom b))) ].
  Lemma read_br_eq (s : sim F) k u f i : In (k, u, f) (br_quants (sm_base s)) ->
    read (gather_state s) k u i = dget eid_eqb (map (fun b => (EBr (ln_f b) (ln_t b), f b)) (sm_branches s)) i.
  Proof.
    intros Q. cbn [In br_quants] in Q.
    repeat (destruct Q as [Q|Q]; [injection Q as <- <- <-; reflexivity|]). destruct Q.
  Qed.
  Lemma read_br (s : sim F) k u f b : In (k, u, f) (br_quants (sm_base s)) ->
    NoDup (map (fun b => EBr (ln_f b) (ln_t b)) (sm_branches s)) -> In b (sm_branches s) ->
    read (gather_state s) k u (EBr (ln_f b) (ln_t b)) = Some (f b).
  Proof.
    intros Q ND I. rewrite (read_br_eq _ _ _ _ _ Q). apply (dget_objs (fun b => EBr (ln_f b) (ln_t b)) f); auto.
  Qed.
  Lemma read_br_inv (s : sim F) k u f i v : In (k, u, f) (br_quants (sm_base s)) ->
    read (gather_state s) k u i = Some v -> exists b, In b (sm_branches s) /\ i = EBr (ln_f b) (ln_t b) /\ v = f b.
  Proof.
    intros Q. rewrite (read_br_eq _ _ _ _ _ Q). intros H.
    apply (dget_objs_inv (fun b => EBr (ln_f b) (ln_t b)) f) in H. destruct H as (d & I & E & V). exists d; auto.
  Qed.

  (** ---- look-up of the bounds ---- *)
  Lemma bound_dev_eq (s : sim F) k u (i : eid) p g
        (Hk : dget String.eqb (get_state_space s) k = Some (map (fun d => (EId (d_id d), g d)) (filter p (sm_devs s)))) :
    bound s k u i = match dget eid_eqb (map (fun d => (EId (d_id d), g d)) (filter p (sm_devs s))) i with
                    | None => None | Some q => dget String.eqb q u end.
  Proof. unfold bound. rewrite Hk. reflexivity. Qed.
  Lemma bound_dev (s : sim F) k u p g d
        (Hk : dget String.eqb (get_state_space s) k = Some (map (fun d => (EId (d_id d), g d)) (filter p (sm_devs s)))) :
    NoDup (map d_id (sm_devs s)) -> In d (sm_devs s) -> p d = true ->
    bound s k u (EId (d_id d)) = dget String.eqb (g d) u.
  Proof.
    intros ND I P. rewrite (bound_dev_eq s k u _ p g Hk).
    rewrite (dget_objs (fun d => EId (d_id d)) g); auto; [apply eid_nodup, NoDup_filter; auto|apply filter_In; auto].
  Qed.
  Lemma bound_bus (s : sim F) k u g b
        (Hk : dget String.eqb (get_state_space s) k = Some (map (fun d => (EId (b_id d), g d)) (sm_buses s))) :
    NoDup (map b_id (sm_buses s)) -> In b (sm_buses s) ->
    bound s k u (EId (b_id b)) = dget String.eqb (g b) u.
  Proof.
    intros ND I. unfold bound. rewrite Hk.
    rewrite (dget_objs (fun d => EId (b_id d)) g); auto. apply eid_nodup; auto.
  Qed.
  Lemma bound_br (s : sim F) k u g b
        (Hk : dget String.eqb (get_state_space s) k = Some (map (fun d => (EBr (ln_f d) (ln_t d), g d)) (sm_branches s))) :
    NoDup (map (fun b => EBr (ln_f b) (ln_t b)) (sm_branches s)) -> In b (sm_branches s) ->
    bound s k u (EBr (ln_f b) (ln_t b)) = dget String.eqb (g b) u.
  Proof.
    intros ND I. unfold bound. rewrite Hk.
    rewrite (dget_objs (fun d => EBr (ln_f d) (ln_t d)) g); auto.
  Qed.

  Lemma bound_dev_p (s : sim F) d : NoDup (map d_id (sm_devs s)) -> In d (sm_devs s) ->
    bound s "dev_p" "pu" (EId (d_id d)) = Some (d_pmin d, d_pmax d).
  Proof.
    intros ND I. erewrite (bound_dev s "dev_p" "pu" (fun _ => true)); [..|reflexivity|auto|auto|auto]. reflexivity.
  Qed.
  Lemma bound_dev_q (s : sim F) d : NoDup (map d_id (sm_devs s)) -> In d (sm_devs s) ->
    bound s "dev_q" "pu" (EId (d_id d)) = Some (d_qmin d, d_qmax d).
  Proof.
    intros ND I. erewrite (bound_dev s "dev_q" "pu" (fun _ => true)); [..|reflexivity|auto|auto|auto]. reflexivity.
  Qed.
  Lemma bound_gen_pmax (s : sim F) d : NoDup (map d_id (sm_devs s)) -> In d (sm_devs s) -> is_nsgen d = true ->
    bound s "gen_p_max" "pu" (EId (d_id d)) = Some (d_pmin d, d_pmax d).
  Proof.
    intros ND I E. erewrite (bound_dev s "gen_p_max" "pu" is_nsgen); [..|reflexivity|auto|auto|auto]. reflexivity.
  Qed.

  (** ---- branch keys are distinct ---- *)
  Lemma init_br_nodup nw dt lamb (s0 : sim F) : sim_init nw dt lamb = Ok s0 ->
    NoDup (map (fun b => EBr (ln_f b) (ln_t b)) (sm_branches s0)).
  Proof.
    intros H. destruct (sim_init_built _ _ _ _ H) as (bs & ds & B).
    pose proof (bt_brnodup _ _ _ _ _ _ B) as E.
    replace (map (fun b => EBr (ln_f b) (ln_t b)) (sm_branches s0)) with
      (map (fun p => EBr (fst p) (snd p)) (map (fun b => (ln_f b, ln_t b)) (sm_branches s0))) by (rewrite map_map; reflexivity).
    apply FinFun.Injective_map_NoDup; auto. intros [x y] [x' y'] K; inversion K; auto.
  Qed.
  Lemma static_br_nodup nw dt lamb (s0 s : sim F) : sim_init nw dt lamb = Ok s0 -> strip s = strip s0 ->
    NoDup (map (fun b => EBr (ln_f b) (ln_t b)) (sm_branches s)).
  Proof.
    intros H S. apply strip_branches in S.
    rewrite (map_strip strip_br (fun b => EBr (ln_f b) (ln_t b)) _ _ (fun _ => eq_refl) S).
    eapply init_br_nodup; eauto.
  Qed.
End Obs.
