(** Lemmas on the MPC agents. *)
From Coq Require Import Sorted.
From Verif Require Import Base Num Devices BusBranch CheckNetwork LoadFlow Simulator EnvArgs Env Anm6 Mpc LibBase LibNum LibSim ProofNet LibInit SpecSim ProofSim ProofObs SpecEnv ProofEnv SpecMpc.
Local Open Scope string_scope.
Local Open Scope list_scope.
Local Open Scope num_scope.
Set Bullet Behavior "Strict Subproofs".

Section Agent.
  Context {F G : Type} {N : Num F}.

  Lemma strip_dev_static (d : device F) : d_id (strip_dev d) = d_id d /\ d_bus (strip_dev d) = d_bus d /\ d_type (strip_dev d) = d_type d /\
    d_spec (strip_dev d) = d_spec d /\ d_pmin (strip_dev d) = d_pmin d /\ d_pmax (strip_dev d) = d_pmax d.
  Proof. destruct d. repeat split. Qed.
  Lemma filter_map_strip (p : device F -> bool) ds : (forall d, p (strip_dev d) = p d) -> filter p (map strip_dev ds) = map strip_dev (filter p ds).
  Proof. intros H. induction ds as [|d ds IH]; cbn; [auto|]. rewrite H. destruct (p d); cbn; rewrite IH; auto. Qed.
  Lemma mpc_init_strip (s : sim F) asp g mg k : mpc_init (strip s) asp g mg k = mpc_init s asp g mg k.
  Proof.
    unfold mpc_init, strip, n_bus, n_device. cbn [sm_devs sm_buses sm_branches sm_Y sm_base sm_lamb sm_dt].
    assert (P : forall p : device F -> bool, (forall d, p (strip_dev d) = p d) -> forall B (f : device F -> B), (forall d, f (strip_dev d) = f d) ->
      map f (filter p (map strip_dev (sm_devs s))) = map f (filter p (sm_devs s))).
    { intros p Hp B f Hf. rewrite filter_map_strip by auto. rewrite map_map. apply map_ext. auto. }
    assert (P' : forall B (f : device F -> B), (forall d, f (strip_dev d) = f d) -> map f (map strip_dev (sm_devs s)) = map f (sm_devs s)).
    { intros B f Hf. rewrite map_map. apply map_ext. auto. }
    rewrite !P by (intros []; reflexivity). rewrite !P' by (intros []; reflexivity). rewrite !map_map, !map_length.
    destruct (match filter _ _ with [] => _ | _ :: _ => _ end); [|reflexivity]. cbn [bind]. destruct (raise_if _ _); [|reflexivity]. cbn [bind]. reflexivity.
  Qed.
  Lemma mpc_init_static (s s' : sim F) asp g mg k : strip s = strip s' -> mpc_init s asp g mg k = mpc_init s' asp g mg k.
  Proof. intros H. rewrite <- (mpc_init_strip s), <- (mpc_init_strip s'), H. reflexivity. Qed.

  Lemma pos_of_in l i : In i l -> (pos_of l i < List.length l)%nat /\ nth_error l (pos_of l i) = Some i.
  Proof.
    induction l as [|a l IH]; [intros []|]. cbn [pos_of List.length In]. destruct (Z.eqb_spec i a) as [->|Ne]; [intros _; split; [lia|reflexivity]|].
    intros [E|I]; [congruence|]. destruct (IH I). split; [lia|auto].
  Qed.
  Lemma pos_of_nth l k i : NoDup l -> nth_error l k = Some i -> pos_of l i = k.
  Proof.
    revert k; induction l as [|a l IH]; intros k ND E; [destruct k; discriminate|]. inversion_clear ND as [|? ? Na ND']. cbn [pos_of]. destruct k as [|k]; cbn in E.
    - injection E as ->. rewrite Z.eqb_refl. reflexivity.
    - destruct (Z.eqb_spec i a) as [->|]; [exfalso; apply Na; eapply nth_error_In; exact E|]. f_equal. auto.
  Qed.
  Lemma entry_pos {V} (z : V) all p i : In i all -> nth (pos_of all i) p z = entry z all p i.
  Proof.
    unfold entry. revert p; induction all as [|a all IH]; intros p; [intros []|]. cbn [In pos_of]. destruct p as [|x p]; cbn [combine dget].
    - intros _. destruct (Z.eqb i a); reflexivity.
    - destruct (Z.eqb_spec i a) as [->|Ne]; [reflexivity|]. intros [E|I]; [congruence|]. cbn [nth]. apply IH. exact I.
  Qed.

  (** the agent built on a simulator of the network *)
  Record agent_of (nw : network F) dt lamb asp gam mg k (m : mpc F) : Prop := mkAgent {
    ag_margin : m_margin m = mg; ag_base : m_base m = nw_base nw; ag_lamb : m_lamb m = lamb; ag_asp : m_aspace m = asp; ag_steps : m_steps m = k;
    ag_gamma : m_gamma m = gam; ag_dt : m_dt m = dt; ag_nbus : m_nbus m = List.length (nw_bus nw);
    ag_devs : forall l, ids_of nw ALL l -> m_devs m = l /\ m_ndev m = List.length l;
    ag_loads : forall l, ids_of nw LOADS l -> m_loads m = l; ag_gens : forall l, ids_of nw GENS l -> m_nsgens m = l;
    ag_dess : forall l, ids_of nw STORS l -> m_dess m = l }.
  Lemma agent_inv nw dt lamb (s0 s : sim F) asp gam mg k m : sim_init nw dt lamb = Ok s0 -> strip s = strip s0 -> mpc_init s asp gam mg k = Ok m ->
    agent_of nw dt lamb asp gam mg k m.
  Proof.
    intros H S M. rewrite (mpc_init_static _ _ asp gam mg k S) in M. destruct (ids_lists nw dt lamb s0 s0 H eq_refl) as (A1 & A2 & A3 & A4).
    destruct (sim_init_built _ _ _ _ H) as (bs & ds & B).
    unfold mpc_init in M. apply bind_ok in M as (sl & _ & M). apply bind_ok in M as (u & _ & M). injection M as <-.
    constructor; cbn [m_margin m_base m_lamb m_aspace m_steps m_gamma m_dt m_nbus m_devs m_ndev m_loads m_nsgens m_dess]; auto.
    - apply (init_base _ _ _ _ H).
    - apply B.
    - apply B.
    - unfold n_bus. rewrite <- (map_length b_id), (bt_bus_ids B), map_length.
      rewrite (Permutation.Permutation_length (sort_by_perm b_id bs)). pose proof (bt_buses _ _ _ _ _ _ B) as E. apply mapM_length in E. auto.
    - intros l Hl. rewrite (A1 l Hl). split; [reflexivity|]. rewrite map_length. reflexivity.
    - intros l Hl. symmetry. auto.
    - intros l Hl. symmetry. auto.
    - intros l Hl. symmetry. auto.
  Qed.
End Agent.
