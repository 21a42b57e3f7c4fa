(** C71: a reset applies the state vector it is given.  [all], [gens], [stors] are the IDs of all devices, of the non-slack generators and of
    the storage units, in increasing order; the vector holds the real powers and then the reactive powers of all devices, the stored
    energies, and the potentials of the non-slack generators (MW, MVAr, MWh). *)
From Coq Require Import Reals Lra Sorted.
From Verif Require Import Base Num NumXR Devices BusBranch CheckNetwork LoadFlow Simulator LibBase LibNum LibXR LibSim LibEval
  ProofNet LibInit SpecSim ProofSim ProofObs ProofSoc ProofReset SpecDev ProofDev ProofUnits ProofVals SpecQp LibQp ProofSet ProofDevs SpecEnv ProofEnv ProofResetIn ExNet ExRun ExSmall PropSet.
Local Open Scope string_scope.
Local Open Scope list_scope.
Local Open Scope R_scope.
Set Bullet Behavior "Strict Subproofs".

(** Loads consume the entry of the vector, clamped to their limits, at constant Q/P (any ordered number type). *)
Theorem C71_reset_loads : forall (F : Type) (N : Num F) (NO : NumOrd F) (nw : network F) dt lamb s0 cs Or init s' conv all r i k,
  sim_init nw dt lamb = Ok s0 -> sim_reset Or init (run s0 cs) = (s', Ok conv) -> ids_of nw ALL all ->
  In r (nw_dev nw) -> dr_id r = Some i -> dr_type r = Some (-1)%Z -> nth_error all k = Some i ->
  exists x qp lo hi p, nth_error init k = Some x /\ dr_qp r = Some qp /\
    bound s0 "dev_p" "pu" (EId i) = Some (lo, hi) /\
    obs s' "dev_p" "pu" (EId i) = Some p /\ obs s' "dev_q" "pu" (EId i) = Some (nmul p qp) /\
    (nisnan p = true /\ (nisnan (ndiv x (nw_base nw)) = true \/ nisnan lo = true \/ nisnan hi = true) \/
     within p lo hi /\ clamped (ndiv x (nw_base nw)) lo hi p /\ nleb p n0 = true).
Proof.
  intros F N NO nw dt lamb s0 cs Or init s' conv all r i k H0 R Ha Ir Ei Ty K.
  pose proof (ids_of_ex _ _ _ _ GENS H0) as Hg. pose proof (ids_of_ex _ _ _ _ STORS H0) as Hs.
  destruct (reset_is_transition nw dt lamb s0 H0 all _ _ Ha Hg Hs Or init _ s' conv (strip_run s0 cs) R) as (inp & z & s1 & out & T & A).
  destruct (C07_any nw dt lamb s0 H0 Or inp z s1 out r i (ra_strip _ _ _ _ _ _ _ _ _ _ _ A) T Ir Ei Ty) as (x & qp & lo & hi & p & P1 & P2 & P3 & P4 & P5 & P6).
  destruct (ra_load _ _ _ _ _ _ _ _ _ _ _ A k i r K Ir Ei Ty) as (E & _). exists x, qp, lo, hi, p.
  rewrite E, !(ra_obs _ _ _ _ _ _ _ _ _ _ _ A) by discriminate. auto 10.
Qed.

(** The potential of a non-slack generator is the entry of the vector clamped to the limits of the generator. *)
Theorem C71_reset_potentials : forall (nw : network XR) dt lamb s0 b eps cs Or init s' conv all gens stors r i k,
  sim_init nw dt lamb = Ok s0 -> nw_base nw = Fin b -> sim_reset Or init (run s0 cs) = (s', Ok conv) ->
  ids_of nw ALL all -> ids_of nw GENS gens -> ids_of nw STORS stors -> qp_sound eps (o_qp Or) ->
  In r (nw_dev nw) -> dr_id r = Some i -> dr_type r = Some 1%Z \/ dr_type r = Some 2%Z -> nth_error gens k = Some i ->
  exists x lo hi pot p, nth_error init (2 * List.length all + List.length stors + k) = Some x /\
    bound s0 "gen_p_max" "pu" (EId i) = Some (lo, hi) /\
    obs s' "gen_p_max" "pu" (EId i) = Some pot /\ obs s' "dev_p" "pu" (EId i) = Some (Fin p) /\
    within pot lo hi /\ clamped (xdiv x (Fin b)) lo hi pot /\ xle (Fin (p - eps)) pot.
Proof.
  intros nw dt lamb s0 b eps cs Or init s' conv all gens stors r i k H0 Eb R Ha Hg Hs Q Ir Ei Ty K.
  destruct (reset_is_transition nw dt lamb s0 H0 all gens stors Ha Hg Hs Or init _ s' conv (strip_run s0 cs) R) as (inp & z & s1 & out & T & A).
  destruct (C08_any nw dt lamb s0 H0 b Eb z (ra_strip _ _ _ _ _ _ _ _ _ _ _ A) Or inp s1 out T r i Ir Ei eps Q Ty) as (x & lo & hi & pot & p & P1 & P2 & P3 & P4 & P5).
  destruct (ra_pot _ _ _ _ _ _ _ _ _ _ _ A k i K) as (E & _). exists x, lo, hi, pot, p.
  rewrite E, !(ra_obs _ _ _ _ _ _ _ _ _ _ _ A) by discriminate. auto 10.
Qed.

(** ... and its injection is the point of its capability region nearest to the (P, Q) of the vector. *)
Theorem C71_reset_generators : forall (nw : network XR) dt lamb s0 b cs Or init s' conv all r i k u v,
  sim_init nw dt lamb = Ok s0 -> nw_base nw = Fin b -> sim_reset Or init (run s0 cs) = (s', Ok conv) -> ids_of nw ALL all ->
  In r (nw_dev nw) -> dr_id r = Some i -> qp_exact (o_qp Or) -> dev_row_fin r -> gen_limits_given r ->
  dr_type r = Some 1%Z \/ dr_type r = Some 2%Z -> nth_error all k = Some i ->
  nth_error init k = Some (Fin u) -> nth_error init (List.length all + k) = Some (Fin v) ->
  exists pot p q, obs s' "gen_p_max" "pu" (EId i) = Some pot /\
    obs s' "dev_p" "pu" (EId i) = Some (Fin p) /\ obs s' "dev_q" "pu" (EId i) = Some (Fin q) /\
    nearest (gen_region r b pot) (u / b) (v / b) p q /\
    (forall p' q', nearest (gen_region r b pot) (u / b) (v / b) p' q' -> p' = p /\ q' = q) /\
    (gen_region r b pot (u / b) (v / b) -> p = u / b /\ q = v / b).
Proof.
  intros nw dt lamb s0 b cs Or init s' conv all r i k u v H0 Eb R Ha Ir Ei Q Hf Lim Ty K Eu Ev.
  pose proof (ids_of_ex _ _ _ _ GENS H0) as Hg. pose proof (ids_of_ex _ _ _ _ STORS H0) as Hs.
  destruct (reset_is_transition nw dt lamb s0 H0 all _ _ Ha Hg Hs Or init _ s' conv (strip_run s0 cs) R) as (inp & z & s1 & out & T & A).
  destruct (ra_pq _ _ _ _ _ _ _ _ _ _ _ A k i r K Ir Ei ltac:(tauto)) as (E1 & E2 & _). rewrite Eu in E1. rewrite Ev in E2. symmetry in E1, E2.
  destruct (C04_any nw dt lamb s0 H0 b Eb z (ra_strip _ _ _ _ _ _ _ _ _ _ _ A) Or inp s1 out T r i Ir Ei u v Q Hf Lim Ty E1 E2) as (pot & p & q & P).
  exists pot, p, q. rewrite !(ra_obs _ _ _ _ _ _ _ _ _ _ _ A) by discriminate. exact P.
Qed.

(** A storage unit: the injection is the nearest point to the (P, Q) of the vector among those allowed when the unit starts empty (the vector
    asks to charge, or for nothing) or full (it asks to discharge); the stored energy it then reports is the entry of the vector. *)
Theorem C71_reset_storage : forall (nw : network XR) d lamb s0 b cs Or init s' conv all stors r i k ks u v e lo hi,
  sim_init nw (Fin d) lamb = Ok s0 -> nw_base nw = Fin b -> 0 < d -> sim_reset Or init (run s0 cs) = (s', Ok conv) ->
  ids_of nw ALL all -> ids_of nw STORS stors ->
  In r (nw_dev nw) -> dr_id r = Some i -> qp_exact (o_qp Or) -> dev_row_fin r -> stor_limits_given r ->
  dr_type r = Some 3%Z -> EFF r = Fin e -> 0 < e -> bound s0 "des_soc" "pu" (EId i) = Some (Fin lo, Fin hi) ->
  nth_error all k = Some i -> nth_error stors ks = Some i ->
  nth_error init k = Some (Fin u) -> nth_error init (List.length all + k) = Some (Fin v) ->
  let c := if Rle_dec u 0 then lo else hi in
  exists p q x, obs s' "dev_p" "pu" (EId i) = Some (Fin p) /\ obs s' "dev_q" "pu" (EId i) = Some (Fin q) /\
    nearest (stor_region r b e d c) (u / b) (v / b) p q /\
    (forall p' q', nearest (stor_region r b e d c) (u / b) (v / b) p' q' -> p' = p /\ q' = q) /\
    (stor_region r b e d c (u / b) (v / b) -> p = u / b /\ q = v / b) /\
    nth_error init (2 * List.length all + ks) = Some x /\ obs s' "des_soc" "pu" (EId i) = Some (xdiv x (Fin b)).
Proof.
  intros nw d lamb s0 b cs Or init s' conv all stors r i k ks u v e lo hi H0 Eb Hd R Ha Hs Ir Ei Q Hf Lim Ty Ee He Bd K Ks Eu Ev c.
  pose proof (ids_of_ex _ _ _ _ GENS H0) as Hg.
  destruct (reset_is_transition nw _ lamb s0 H0 all _ stors Ha Hg Hs Or init _ s' conv (strip_run s0 cs) R) as (inp & z & s1 & out & T & A).
  destruct (ra_pq _ _ _ _ _ _ _ _ _ _ _ A k i r K Ir Ei ltac:(tauto)) as (E1 & E2 & _). rewrite Eu in E1. rewrite Ev in E2. symmetry in E1, E2.
  assert (Lh : lo <= hi).
  { destruct (sim_init_built _ _ _ _ H0) as (bs & ds' & Bt). destruct (bt_dev_row_inv Bt _ Ir) as (d0 & I0 & M).
    pose proof (mk_dev_fields _ _ _ _ M) as (M1 & _ & M2 & _). rewrite Ei in M1. injection M1 as M1. rewrite Ty in M2. injection M2 as M2.
    pose proof (mk_dev_kind _ _ _ _ M) as (_ & _ & Ks' & _). rewrite <- M2 in Ks'. change (zmem 3 [3]%Z) with true in Ks'. unfold is_stor in Ks'.
    destruct (d_spec d0) as [| |t] eqn:Sp; try discriminate. rewrite M1 in Bd. rewrite (bound_soc s0 d0 t) in Bd; [|eapply init_nodup; eauto|auto|auto].
    pose proof (mk_dev_stor _ _ _ _ _ M Sp) as Ck. rewrite Eb in Ck. pose proof (base_pos nw _ lamb s0 H0 b Eb) as Hb.
    pose proof (stor_is_valid b Hb r Hf t Ck) as V. destruct V as (_ & _ & _ & _ & _ & _ & _ & _ & (vm & Em & Lm) & _).
    destruct (stor_check_vals b Hb r t Ck). destruct sv_socmax as (vm' & Em' & Sm). rewrite Em in Em'. injection Em' as <-.
    injection Bd as B1 B2.
    assert (X : xle (Fin lo) (Fin hi)). { rewrite <- B1, <- B2, sv_socmin, Sm. unfold xle. rewrite xdiv_pos_le; auto. } apply xle_Fin in X. auto. }
  assert (Soc : forall dd, In dd (sm_devs z) -> d_id dd = i -> is_stor dd = true -> d_soc dd = Some (Fin c)).
  { intros dd Id Edi Sd. destruct (ra_soc _ _ _ _ _ _ _ _ _ _ _ A dd Id Sd) as (p & t & D1 & D2 & D3). rewrite Edi, E1 in D1. injection D1 as <-.
    assert (Bt : bound z "des_soc" "pu" (EId i) = Some (s_socmin t, s_socmax t)).
    { rewrite <- Edi. apply bound_soc; auto. eapply static_nodup; [exact H0|apply A]. }
    rewrite (bound_static _ _ _ _ _ (ra_strip _ _ _ _ _ _ _ _ _ _ _ A)), Bd in Bt. injection Bt as Bt1 Bt2. rewrite D3, <- Bt1, <- Bt2. f_equal.
    unfold c. cbn [nleb n0 XRnum xleb]. unfold Rleb. destruct (Rle_dec u 0); reflexivity. }
  destruct (C05_any nw _ lamb s0 H0 b Eb z (ra_strip _ _ _ _ _ _ _ _ _ _ _ A) Or inp s1 out T r i Ir Ei u v c e d Q Hf Lim Ty eq_refl Hd Ee He Soc) as (p & q & P1 & P2 & P3 & P4 & P5 & _); auto.
  { intros l h B'. rewrite Bd in B'. injection B' as <- <-. unfold c. split; apply xle_Fin; destruct (Rle_dec u 0); lra. }
  assert (Si : nth_error (storage_ids s0) ks = Some (EId i)).
  { rewrite storage_ids_eq. rewrite <- (map_map d_id EId). rewrite <- (proj2 (proj2 (proj2 (ids_lists _ _ _ _ _ H0 eq_refl))) _ Hs). rewrite nth_error_map, Ks. reflexivity. }
  destruct (reset_soc _ _ _ _ cs Or init s' conv ks _ H0 R Si) as (x & X1 & X2).
  assert (Nd : n_device s0 = List.length all) by (rewrite (proj1 (ids_lists _ _ _ _ _ H0 eq_refl) _ Ha), map_length; reflexivity).
  rewrite Nd in X1. rewrite Eb in X2. exists p, q, x. rewrite !(ra_obs _ _ _ _ _ _ _ _ _ _ _ A) by discriminate. auto 10.
Qed.

Lemma ex_ids : ids_of ex_nw ALL [0; 1; 2; 3]%Z /\ ids_of ex_nw GENS [2]%Z /\ ids_of ex_nw STORS [3]%Z.
Proof. split; [exact (ids_of_ex _ _ _ _ ALL ex_init)|split; [exact (ids_of_ex _ _ _ _ GENS ex_init)|exact (ids_of_ex _ _ _ _ STORS ex_init)]]. Qed.
Example C71_ex : sim_init ex_nw (Fin (1/4)) (Fin 100) = Ok ex_sim0 /\ nw_base ex_nw = Fin 10 /\
  sim_reset ex_or (ex_vec 50) (run ex_sim0 []) = (ex_sim1 (Fin (50 / 10)), Ok true) /\
  ids_of ex_nw ALL [0; 1; 2; 3]%Z /\ ids_of ex_nw GENS [2]%Z /\ ids_of ex_nw STORS [3]%Z /\ qp_sound 0 (o_qp ex_or) /\ qp_exact (o_qp ex_or) /\
  (In (ex_load (2/10)) (nw_dev ex_nw) /\ dr_id (ex_load (2/10)) = Some 1%Z /\ dr_type (ex_load (2/10)) = Some (-1)%Z) /\
  (In ex_rer (nw_dev ex_nw) /\ dr_id ex_rer = Some 2%Z /\ dr_type ex_rer = Some 2%Z /\ dev_row_fin ex_rer /\ gen_limits_given ex_rer) /\
  (In ex_stor (nw_dev ex_nw) /\ dr_id ex_stor = Some 3%Z /\ dr_type ex_stor = Some 3%Z /\ dev_row_fin ex_stor /\ stor_limits_given ex_stor /\
   EFF ex_stor = Fin (9/10) /\ bound ex_sim0 "des_soc" "pu" (EId 3) = Some (Fin 0, Fin 10)) /\
  nth_error (ex_vec 50) 2 = Some (Fin 2) /\ nth_error (ex_vec 50) (4 + 2) = Some (Fin (5 * (2/10))) /\
  nth_error (ex_vec 50) 3 = Some (Fin (1/2)) /\ nth_error (ex_vec 50) (4 + 3) = Some (Fin 0).
Proof.
  split; [exact ex_init|]. split; [reflexivity|]. split; [cbn [run fold_left]; exact (ex_reset 50)|]. destruct ex_ids as (A & B & C). do 3 (split; [assumption|]).
  split; [exact ex_qp_sound|]. split; [exact ex_qp_exact|]. split; [cbn; auto 10|].
  split; [split; [cbn; auto 10|split; [reflexivity|split; [reflexivity|split; [row_fin|split; [discriminate|right; split; discriminate]]]]]|].
  split; [split; [cbn; auto 10|split; [reflexivity|split; [reflexivity|split; [row_fin|split; [split; [discriminate|split; [discriminate|right; split; discriminate]]|split; reflexivity]]]]]|].
  repeat split.
Qed.

Print Assumptions C71_reset_loads.
Print Assumptions C71_reset_potentials.
Print Assumptions C71_reset_generators.
Print Assumptions C71_reset_storage.
