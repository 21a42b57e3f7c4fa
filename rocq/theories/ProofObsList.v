(** Observation specifications: acceptance, bounds and values of the observed entries. *)
From Coq Require Import Permutation Sorted.
From Verif Require Import Base Num Devices BusBranch CheckNetwork LoadFlow Simulator EnvArgs Env LibBase LibNum LibSim
  SpecNet ProofNet LibInit SpecSim ProofSim ProofObs ProofHist ProofReset SpecEnv ProofEnv ProofStep ProofState ProofDraw ProofEnvOk SpecObs.
Local Open Scope string_scope.
Local Open Scope list_scope.
Local Open Scope num_scope.

Lemma dget_keys {V} (d : list (eid * V)) n : In n (map fst d) -> exists v, dget eid_eqb d n = Some v.
Proof.
  induction d as [|[k v] d IH]; cbn; [tauto|]. intros [<-|I].
  - replace (eid_eqb k k) with true; eauto. symmetry. apply eid_eqb_iff. auto.
  - destruct (eid_eqb n k); eauto.
Qed.
Lemma existsb_eid n l : existsb (eid_eqb n) l = true <-> In n l.
Proof.
  rewrite existsb_exists. split.
  - intros (x & I & E). apply eid_eqb_iff in E. subst; auto.
  - intros I. exists n. split; auto. apply eid_eqb_iff; auto.
Qed.
Lemma opts_eqb_iff a b : opts_eqb a b = true <-> a = b.
Proof. destruct a, b; cbn; rewrite ?String.eqb_eq; split; congruence. Qed.

Section ObsList.
  Context {F G : Type} {N : Num F}.
  Notation env := (env F G).

  (** the documented keys *)
  Lemma doc_cases key us : dget String.eqb doc_units key = Some us -> In (key, us) doc_units.
  Proof. intros H. apply (dget_in String.eqb) in H; auto. intros x y. apply String.eqb_eq. Qed.

  (** an advertised entry has bounds in each documented unit *)
  Lemma doc_bound (s : sim F) K key us u n : In (key, us) doc_units -> key <> "aux" -> In u us -> In n (elements s K key) ->
    exists u' b, u = Some u' /\ bound s key u' n = Some b.
  Proof.
    intros Hk Na Hu Hn. unfold elements in Hn. destruct (String.eqb_spec key "aux") as [->|_]; [congruence|]. unfold bound.
    cbn [In doc_units] in Hk.
    repeat (destruct Hk as [Hk|Hk]; [injection Hk as <- <-; cbn [dget get_state_space String.eqb Ascii.eqb Bool.eqb] in *;
      cbn [In] in Hu; repeat (destruct Hu as [<-|Hu]);
        [..|contradiction]; try congruence;
      apply dget_keys in Hn as (v & Hn); rewrite Hn; eexists _;
      first [apply (dget_objs_inv (fun b : bus F => EId (b_id b))) in Hn as (x & I & _ & ->)
            |apply (dget_objs_inv (fun b : device F => EId (d_id b))) in Hn as (x & I & _ & ->)
            |apply (dget_objs_inv (fun b : branch F => EBr (ln_f b) (ln_t b))) in Hn as (x & I & _ & ->)];
      try (apply filter_In in I as (_ & P); unfold is_stor in P; destruct (d_spec x); try discriminate P);
      try (destruct (b_slack x)); eexists; split; reflexivity|]).
    destruct Hk.
  Qed.

  (** and a value in a gathered state *)
  Lemma doc_value (s0 s1 : sim F) K key us u n : strip s1 = strip s0 -> In (key, us) doc_units -> key <> "aux" -> In u us -> In n (elements s0 K key) ->
    exists u' v, u = Some u' /\ read (gather_state s1) key u' n = Some v.
  Proof.
    intros S Hk Na Hu Hn. unfold elements in Hn. rewrite <- (state_space_static _ _ S) in Hn. destruct (String.eqb_spec key "aux") as [->|_]; [congruence|].
    unfold read. cbn [In doc_units] in Hk.
    repeat (destruct Hk as [Hk|Hk]; [injection Hk as <- <-; cbn [dget get_state_space String.eqb Ascii.eqb Bool.eqb] in *;
      cbn [In] in Hu; repeat (destruct Hu as [<-|Hu]);
        [..|contradiction]; try congruence;
      match goal with |- exists u' v, Some ?x = Some u' /\ _ => exists x end;
      cbn [dget gather_state String.eqb Ascii.eqb Bool.eqb];
      match goal with |- exists v, _ /\ dget eid_eqb ?d n = Some v => destruct (dget_keys d n) as (v & Hv); [rewrite map_map in Hn |- *; exact Hn|exists v; split; [reflexivity|exact Hv]] end|]).
    destruct Hk.
  Qed.

  (** ---- expansion ---- *)
  Lemma expand_nall (s : sim F) (K : Z) key us u : In (key, us) doc_units ->
    expand_item s (Z.to_nat K) (mkItem key NAll u) = Ok (mkItem key (NList (elements s K key)) u).
  Proof.
    intros Hk. cbn [In doc_units] in Hk.
    repeat (destruct Hk as [Hk|Hk]; [injection Hk as <- <-; unfold expand_item, elements; cbn [oi_nodes oi_key oi_unit];
      match goal with |- context [substr] => idtac end;
      repeat match goal with |- context [substr ?a ?b] => let x := eval cbv in (substr a b) in change (substr a b) with x end;
      cbn [bind dget get_state_space String.eqb Ascii.eqb Bool.eqb]; rewrite ?map_map; try reflexivity|]).
    all: try (cbn [map]; reflexivity). all: try (destruct Hk).
    all: do 4 f_equal; clear; induction (sm_devs s); cbn; f_equal; auto.
  Qed.
  Lemma requested_item (s : sim F) K t rs : requested s K t = Some rs -> ~ i_magn_default t ->
    exists key us u ns it, In (key, us) doc_units /\ In u us /\ rs = map (fun n => (key, u, n)) ns /\ (forall n, In n ns -> In n (elements s K key)) /\
      add_default_unit t = Ok it /\ expand_item s (Z.to_nat K) it = Ok (mkItem key (NList ns) u).
  Proof.
    intros H Hd. unfold requested in H.
    assert (Pick : forall key us u nodes rs, In (key, us) doc_units -> In u us ->
      match nodes with
      | NAll => Some (map (fun n => (key, u, n)) (elements s K key))
      | NList l => if forallb (fun n => existsb (eid_eqb n) (elements s K key)) l then Some (map (fun n => (key, u, n)) l) else None
      | NOther => None
      end = Some rs -> exists ns, rs = map (fun n => (key, u, n)) ns /\ (forall n, In n ns -> In n (elements s K key)) /\
        expand_item s (Z.to_nat K) (mkItem key nodes u) = Ok (mkItem key (NList ns) u)).
    { intros key us u nodes rs' Hk Hu E. destruct nodes as [|l|]; [| |discriminate].
      - injection E as <-. exists (elements s K key). repeat split; auto. eapply expand_nall; eauto.
      - destruct (forallb _ l) eqn:Fb; [|discriminate]. injection E as <-. exists l. repeat split; auto.
        intros n I. rewrite forallb_forall in Fb. apply existsb_eid. auto. }
    destruct t as [key nodes|key nodes u|]; [| |discriminate].
    - destruct (dget String.eqb doc_units key) as [[|u us]|] eqn:Ek; try discriminate.
      apply doc_cases in Ek. destruct (Pick key (u :: us) u nodes rs Ek (or_introl eq_refl) H) as (ns & P1 & P2 & P3).
      exists key, (u :: us), u, ns, (mkItem key nodes u). repeat split; auto; [left; auto|].
      clear -Ek Hd. cbn [In doc_units] in Ek.
      repeat (destruct Ek as [Ek|Ek]; [injection Ek as <- <- <-; try reflexivity; exfalso; apply Hd; exists nodes; reflexivity|]). destruct Ek.
    - destruct (dget String.eqb doc_units key) as [us|] eqn:Ek; [|discriminate].
      destruct (existsb (opts_eqb u) us) eqn:Eu; [|discriminate]. apply doc_cases in Ek.
      apply existsb_exists in Eu as (u' & Iu & Eu). apply opts_eqb_iff in Eu. subst u'.
      destruct (Pick key us u nodes rs Ek Iu H) as (ns & P1 & P2 & P3).
      exists key, us, u, ns, (mkItem key nodes u). repeat split; auto.
  Qed.

  (** ---- bounds ---- *)
  Lemma map_some_inj {A} (l m : list A) : map Some l = map Some m -> l = m.
  Proof. revert m; induction l as [|a l IH]; intros [|b m] H; try discriminate; auto. cbn in H. injection H as -> H. f_equal; auto. Qed.
  Lemma forall_some {A B} (f : A -> option B) l : (forall a, In a l -> exists b, f a = Some b) -> exists m, map Some m = map f l.
  Proof.
    induction l as [|a l IH]; intros H; [exists []; auto|]. destruct IH as (m & E); [intros; apply H; right; auto|].
    destruct (H a (or_introl eq_refl)) as (b & Eb). exists (b :: m). cbn. rewrite Eb, E. auto.
  Qed.
  Lemma mapM_some {A B} (f : A -> res B) (h : A -> option B) l m : (forall a, In a l -> exists b, h a = Some b /\ f a = Ok b) -> map Some m = map h l -> mapM f l = Ok m.
  Proof.
    revert m; induction l as [|a l IH]; intros [|b m] H E; try discriminate; auto. cbn in E. injection E as E1 E2. cbn.
    destruct (H a (or_introl eq_refl)) as (b' & Hb & Fb). rewrite Fb. rewrite (IH m); auto; [|intros; apply H; right; auto]. cbn. congruence.
  Qed.
  Lemma mapM_concat {A B} (f : A -> res (list B)) (h : A -> list (option B)) (l : list A) : (forall a, In a l -> exists m, f a = Ok m /\ map Some m = h a) ->
    exists ms, mapM f l = Ok ms /\ map Some (List.concat ms) = List.concat (map h l).
  Proof.
    induction l as [|a l IH]; intros H; [exists []; auto|]. destruct IH as (ms & E1 & E2); [intros; apply H; right; auto|].
    destruct (H a (or_introl eq_refl)) as (m & M1 & M2). exists (m :: ms). cbn [mapM map List.concat]. rewrite M1, E1. cbn [bind]. rewrite map_app, M2, E2. auto.
  Qed.
  Lemma aux_element (s : sim F) K n : In n (elements s K "aux") -> exists i, n = EId i /\ (0 <= i)%Z /\ (Z.to_nat i < Z.to_nat K)%nat.
  Proof. unfold elements. cbn. intros I. apply in_map_iff in I as (j & <- & I). apply in_seq in I. exists (Z.of_nat j). repeat split; lia. Qed.
  Lemma py_nth_nonneg {A} (l : list A) i a : (0 <= i)%Z -> nth_error l (Z.to_nat i) = Some a -> py_nth l i = Ok a.
  Proof.
    intros Hi E. assert (L : (Z.to_nat i < List.length l)%nat) by (apply nth_error_Some; congruence).
    unfold py_nth. rewrite <- (Z2Nat.id i Hi), py_index_nat by auto. unfold nth_res. rewrite E. auto.
  Qed.
  Lemma py_nth_neg {A} (l : list A) K i a : (K <= List.length l)%nat -> (0 <= i)%Z -> (Z.to_nat i < K)%nat -> nth_error (skipn (List.length l - K) l) (Z.to_nat i) = Some a ->
    py_nth l (i - Z.of_nat K) = Ok a.
  Proof.
    intros L Hi Hk E. rewrite nth_skipn_error in E. unfold py_nth, py_index.
    replace ((0 <=? i - Z.of_nat K) && (i - Z.of_nat K <? Z.of_nat (List.length l)))%Z with false by (symmetry; apply andb_false_intro1, Z.leb_gt; lia).
    replace ((- Z.of_nat (List.length l) <=? i - Z.of_nat K) && (i - Z.of_nat K <? 0))%Z with true by (symmetry; apply andb_true_intro; split; [apply Z.leb_le|apply Z.ltb_lt]; lia).
    unfold nth_res. replace (Z.to_nat _) with (List.length l - K + Z.to_nat i)%nat by lia. rewrite E. auto.
  Qed.

  (** the items that the environment keeps, and the entries they stand for *)
  Definition item_reqs (it : obs_item) : list req := match oi_nodes it with NList ns => map (fun n => (oi_key it, oi_unit it, n)) ns | _ => [] end.
  Definition item_ok (s : sim F) (K : Z) (it : obs_item) : Prop := exists key us u ns, it = mkItem key (NList ns) u /\ In (key, us) doc_units /\ In u us /\ (forall n, In n ns -> In n (elements s K key)).

  Lemma item_bounds (s : sim F) K auxb it : item_ok s K it -> (forall l, auxb = Some l -> List.length l = Z.to_nat K) ->
    exists m, (let* ns := item_nodes it in mapM (entry_bounds (get_state_space s) auxb it) ns) = Ok m /\ map Some m = map (req_bound s auxb) (item_reqs it).
  Proof.
    intros (key & us & u & ns & -> & Hk & Hu & Hn) Ha. cbn [item_nodes oi_nodes bind]. unfold item_reqs. cbn [oi_nodes oi_key oi_unit].
    destruct (forall_some (fun n => req_bound s auxb (key, u, n)) ns) as (m & Em).
    { intros n I. specialize (Hn n I). unfold req_bound. destruct (String.eqb_spec key "aux") as [->|Na].
      - destruct auxb as [l|]; [|eauto]. destruct (aux_element _ _ _ Hn) as (i & -> & Hi & Li).
        destruct (nth_error l (Z.to_nat i)) eqn:E; eauto. apply nth_error_None in E. rewrite (Ha l eq_refl) in E. lia.
      - destruct (doc_bound s K key us u n Hk Na Hu Hn) as (u' & b & -> & Eb). eauto. }
    exists m. rewrite map_map. split; auto. apply (mapM_some _ (fun n => req_bound s auxb (key, u, n))); auto.
    intros n I. specialize (Hn n I). unfold entry_bounds, req_bound in *. cbn [oi_key oi_unit]. destruct (String.eqb_spec key "aux") as [->|Na].
    - destruct auxb as [l|]; [|exists both_inf; auto]. destruct (aux_element _ _ _ Hn) as (i & -> & Hi & Li).
      destruct (nth_error l (Z.to_nat i)) as [b|] eqn:E; [|apply nth_error_None in E; rewrite (Ha l eq_refl) in E; lia].
      exists b. split; auto. apply py_nth_nonneg; auto.
    - destruct (doc_bound s K key us u n Hk Na Hu Hn) as (u' & b & -> & Eb). exists b. split; auto.
      unfold bound in Eb. unfold dgetE. destruct (dget String.eqb (get_state_space s) key); [|discriminate]. cbn [bind].
      destruct (dget eid_eqb l n); [|discriminate]. cbn [bind]. rewrite Eb. auto.
  Qed.
  Lemma item_values (s0 s1 : sim F) (K : Z) (e : env) st it : item_ok s0 K it -> strip s1 = strip s0 -> sm_state (e_sim e) = Some (gather_state s1) ->
    e_state e = Some st -> e_K e = Z.to_nat K -> (Z.to_nat K <= List.length st)%nat ->
    exists m, (let* ns := item_nodes it in mapM (extract_entry e it) ns) = Ok m /\ map Some m = map (req_value e st) (item_reqs it).
  Proof.
    intros (key & us & u & ns & -> & Hk & Hu & Hn) S Hs Hst HK L. cbn [item_nodes oi_nodes bind]. unfold item_reqs. cbn [oi_nodes oi_key oi_unit].
    assert (V : forall n, In n ns -> exists b, req_value e st (key, u, n) = Some b /\ extract_entry e (mkItem key (NList ns) u) n = Ok b).
    { intros n I. specialize (Hn n I). unfold req_value. destruct (String.eqb_spec key "aux") as [->|Na].
      - destruct (aux_element _ _ _ Hn) as (i & -> & Hi & Li). rewrite HK.
        destruct (nth_error (skipn (List.length st - Z.to_nat K) st) (Z.to_nat i)) as [b|] eqn:E.
        + exists b. split; auto. unfold extract_entry. rewrite Hs. cbn [oi_key]. change (dget String.eqb (gather_state s1) "aux") with (@None (list (string * list (eid * F)))).
          cbn [String.eqb Ascii.eqb Bool.eqb]. rewrite Hst, HK. apply py_nth_neg; auto.
        + apply nth_error_None in E. rewrite skipn_length in E. lia.
      - destruct (doc_value s0 s1 K key us u n S Hk Na Hu Hn) as (u' & v & -> & Ev). exists v.
        assert (Eo : obs (e_sim e) key u' n = Some v) by (unfold obs; rewrite Hs; auto). split; auto.
        unfold read in Ev. destruct (dget String.eqb (gather_state s1) key) as [units|] eqn:Eu; [|discriminate].
        rewrite (extract_obs e key u' (NList ns) n _ _ Hs Eu), Eo. auto. }
    destruct (forall_some (fun n => req_value e st (key, u, n)) ns) as (m & Em).
    { intros n I. destruct (V n I) as (b & E & _). eauto. }
    exists m. rewrite map_map. split; auto. apply (mapM_some _ (fun n => req_value e st (key, u, n))); auto.
  Qed.

  (** documented lists become good items *)
  Lemma tuples_items (s : sim F) K l rs : Forall2 (fun t r => requested s K t = Some r) l rs -> (forall t, In t l -> ~ i_magn_default t) ->
    exists l1 items, mapM add_default_unit l = Ok l1 /\ expand_all s (Z.to_nat K) l1 = Ok items /\ Forall (item_ok s K) items /\
      List.concat rs = List.concat (map item_reqs items).
  Proof.
    intros H. induction H as [|t r l rs Ht H IH]; intros Hd; [exists [], []; auto|].
    destruct IH as (l1 & items & A & B & C & D); [intros; apply Hd; right; auto|].
    destruct (requested_item s K t r Ht (Hd t (or_introl eq_refl))) as (key & us & u & ns & it & P1 & P2 & P3 & P4 & P5 & P6).
    exists (it :: l1), (mkItem key (NList ns) u :: items). cbn [mapM]. rewrite P5, A. cbn [bind]. split; auto. unfold expand_all in *. cbn [mapM]. rewrite P6, B. cbn [bind]. split; auto.
    split; [constructor; auto; exists key, us, u, ns; auto|]. cbn [map List.concat]. rewrite <- D, P3. reflexivity.
  Qed.
  Lemma items_bounds (s : sim F) K auxb items : Forall (item_ok s K) items -> (forall l, auxb = Some l -> List.length l = Z.to_nat K) ->
    exists B, observation_bounds (get_state_space s) auxb (Some items) = Ok (Some (mkBox (map fst B) (map snd B) false)) /\
              map Some B = map (req_bound s auxb) (List.concat (map item_reqs items)).
  Proof.
    intros Hi Ha. unfold observation_bounds.
    destruct (mapM_concat (fun it => let* ns := item_nodes it in mapM (entry_bounds (get_state_space s) auxb it) ns) (fun it => map (req_bound s auxb) (item_reqs it)) items) as (ms & E1 & E2).
    { intros it I. apply (item_bounds s K); auto. rewrite Forall_forall in Hi. auto. }
    exists (List.concat ms). rewrite E1. cbn [bind]. split; auto. rewrite E2, concat_map, map_map. auto.
  Qed.
  Lemma items_values (s0 s1 : sim F) (K : Z) (e : env) st items : Forall (item_ok s0 K) items -> strip s1 = strip s0 -> sm_state (e_sim e) = Some (gather_state s1) ->
    e_state e = Some st -> e_K e = Z.to_nat K -> (Z.to_nat K <= List.length st)%nat ->
    exists X, extract_vars e items = Ok X /\ map Some X = map (req_value e st) (List.concat (map item_reqs items)).
  Proof.
    intros Hi S Hs Hst HK L. unfold extract_vars.
    destruct (mapM_concat (fun it => let* ns := item_nodes it in mapM (extract_entry e it) ns) (fun it => map (req_value e st) (item_reqs it)) items) as (ms & E1 & E2).
    { intros it I. apply (item_values s0 s1 K); auto. rewrite Forall_forall in Hi. auto. }
    exists (List.concat ms). rewrite E1. cbn [bind]. split; auto. rewrite E2, concat_map, map_map. auto.
  Qed.
End ObsList.
