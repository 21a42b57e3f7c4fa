(** Validation of the arguments of an environment. *)
From Coq Require Import Permutation Sorted Ascii.
From Verif Require Import Base Num Devices BusBranch CheckNetwork LoadFlow Simulator EnvArgs Env LibBase LibNum LibSim
  SpecNet ProofNet LibInit SpecSim ProofSim ProofObs SpecEnv ProofEnv ProofStep ProofState SpecObs ProofObsList.
Local Open Scope string_scope.
Local Open Scope list_scope.
Local Open Scope num_scope.

Lemma foldM_unit {A} (f : A -> res unit) l : foldM (fun _ a => f a) l tt = Ok tt <-> Forall (fun a => f a = Ok tt) l.
Proof.
  induction l as [|a l IH]; cbn; [split; auto|]. destruct (f a) as [[]|x] eqn:E; cbn.
  - rewrite IH. split; [constructor; auto|intros H; inversion H; auto].
  - split; [discriminate|]. intros H; inversion H; congruence.
Qed.
Lemma foldM_unit_err {A} (f : A -> res unit) l x : foldM (fun _ a => f a) l tt = Err x -> exists a, In a l /\ f a = Err x.
Proof.
  induction l as [|a l IH]; cbn; [discriminate|]. destruct (f a) as [[]|y] eqn:E; cbn.
  - intros H. destruct (IH H) as (b & I & Hb). eauto.
  - intros H; injection H as ->. eauto.
Qed.
Lemma substr_pu u : substr u "pu" = true <-> In u [""; "p"; "u"; "pu"].
Proof.
  split.
  - unfold substr. destruct u as [|c1 u]; [cbn; auto|].
    cbn [String.index prefix]. destruct (Ascii.ascii_dec c1 "p"%char) as [->|N1].
    + destruct u as [|c2 u]; [cbn; auto|]. cbn [prefix]. destruct (Ascii.ascii_dec c2 "u"%char) as [->|N2].
      * destruct u as [|c3 u]; [cbn; auto|]. cbn. discriminate.
      * destruct (Ascii.ascii_dec "p"%char "u"%char) as [E|_]; [discriminate E|]. discriminate.
    + destruct (Ascii.ascii_dec c1 "u"%char) as [->|N2].
      * destruct u as [|c2 u]; [cbn; auto|]. cbn. discriminate.
      * discriminate.
  - cbn. intros [<-|[<-|[<-|[<-|[]]]]]; reflexivity.
Qed.

Section Args.
  Context {F G : Type} {N : Num F}.

  Lemma state_units key : match dget String.eqb STATE_VARIABLES key with
    | None => dget String.eqb doc_units key = None
    | Some (UTuple l) => dget String.eqb doc_units key = Some l /\ l <> [] /\ key <> "branch_i_magn"
    | Some (UString s) => key = "branch_i_magn" /\ s = "pu" /\ dget String.eqb doc_units key = Some [Some "pu"]
    end.
  Proof.
    unfold STATE_VARIABLES, doc_units. cbn [dget].
    repeat match goal with |- context [String.eqb key ?b] => destruct (String.eqb_spec key b); [subst key; repeat split; discriminate|] end. reflexivity.
  Qed.
  Lemma key_bounds (s : sim F) key us : dget String.eqb doc_units key = Some us -> key <> "aux" -> exists q, dget String.eqb (get_state_space s) key = Some q.
  Proof.
    intros H Na. apply doc_cases in H. cbn [In doc_units] in H.
    repeat (destruct H as [H|H]; [injection H as <- <-; try congruence; cbn [dget get_state_space String.eqb Ascii.eqb Bool.eqb]; eauto|]). destruct H.
  Qed.
  Lemma dget_not_in {V} (d : list (eid * V)) n : dget eid_eqb d n = None -> ~ In n (map fst d).
  Proof. intros H I. apply dget_keys in I as (v & E). congruence. Qed.

  (** the nodes of a tuple: accepted iff among the elements, or small indices of auxiliary variables *)
  Lemma nodes_iff (s : sim F) (K : Z) key us nodes : dget String.eqb doc_units key = Some us ->
    (check_nodes key nodes (get_state_space s) K = Ok tt <->
     match nodes with
     | NAll => True
     | NList l => if String.eqb key "aux" then Forall (fun n => exists i, n = EId i /\ (i < K)%Z) l
                  else forallb (fun n => existsb (eid_eqb n) (elements s K key)) l = true
     | NOther => False
     end).
  Proof.
    intros Hk. unfold check_nodes. destruct nodes as [|l|]; [tauto| |].
    - destruct (String.eqb_spec key "aux") as [->|Na].
      + rewrite (foldM_unit (fun n => match n with EId i => raise_if (K <=? i)%Z ObsSpaceError | EBr _ _ => Err TypeErr end)). rewrite !Forall_forall. split; intros H n I; specialize (H n I).
        * destruct n as [i|]; [|discriminate]. apply raise_if_ok in H. exists i. split; auto. lia.
        * destruct H as (i & -> & L). apply raise_if_ok. lia.
      + rewrite (foldM_unit (fun n => let* b := dgetE String.eqb (get_state_space s) key in raise_if (match dget eid_eqb b n with Some _ => false | None => true end) ObsSpaceError)).
        rewrite Forall_forall, forallb_forall. unfold elements. destruct (String.eqb_spec key "aux") as [|_]; [contradiction|].
        destruct (key_bounds s key us Hk Na) as (q & Hq). unfold dgetE. rewrite Hq. cbn [bind]. split; intros H n I; specialize (H n I).
        * apply raise_if_ok in H. apply existsb_eid. destruct (dget eid_eqb q n) as [v|] eqn:E; [|discriminate].
          apply (dget_in eid_eqb) in E; [|apply eid_eqb_iff]. apply (in_map fst) in E. exact E.
        * apply raise_if_ok. apply existsb_eid in H. apply dget_keys in H as (v & ->). auto.
    - destruct (String.eqb key "aux"); split; [discriminate|tauto|discriminate|tauto].
  Qed.

  Lemma tuple_iff (s : sim F) (K : Z) t : check_obs_tuple (get_state_space s) K t = Ok tt <-> requested s K t <> None \/ quirk s K t.
  Proof.
    (* nodes: what check_nodes accepts is what [requested] accepts, or a list of small indices *)
    assert (Nd : forall key us nodes u, dget String.eqb doc_units key = Some us ->
      let pick := match nodes with
        | NAll => Some (map (fun n => (key, u, n)) (elements s K key))
        | NList l => if forallb (fun n => existsb (eid_eqb n) (elements s K key)) l then Some (map (fun n => (key, u, n)) l) else None
        | NOther => None
        end : option (list req) in
      (pick <> None -> check_nodes key nodes (get_state_space s) K = Ok tt) /\
      (check_nodes key nodes (get_state_space s) K = Ok tt -> pick <> None \/ (key = "aux" /\ exists l, nodes = NList l /\ Forall (fun n => exists i, n = EId i /\ (i < K)%Z) l))).
    { intros key us nodes u Hk. cbv zeta. rewrite (nodes_iff s K key us nodes Hk). destruct nodes as [|l|]; [split; [auto|left; discriminate]| |tauto].
      destruct (String.eqb_spec key "aux") as [->|Na].
      - split; [|right; eauto]. destruct (forallb _ l) eqn:E; [|congruence]. intros _. rewrite forallb_forall in E. apply Forall_forall. intros n I.
        specialize (E n I). apply existsb_eid in E. destruct (aux_element _ _ _ E) as (i & -> & A & B). exists i. split; auto. lia.
      - destruct (forallb _ l); split; auto; try congruence. left; discriminate. }
    destruct t as [key nodes|key nodes u|]; cbn [check_obs_tuple].
    - pose proof (state_units key) as SU. unfold requested. destruct (dget String.eqb STATE_VARIABLES key) as [[l|su]|] eqn:Es.
      + destruct SU as (Hd & Hl & Hi). rewrite Hd. destruct l as [|u l]; [congruence|].
        destruct (Nd key (u :: l) nodes u Hd) as (A & B). split.
        * intros H. destruct (B H) as [P|(-> & ns & -> & P)]; auto. right. left. eauto.
        * intros [H|[(ns & [E|E] & P)|(ns & v & E & _)]]; auto; try discriminate.
          injection E as -> ->. apply (nodes_iff s K "aux" _ _ Hd). exact P.
      + destruct SU as (-> & -> & Hd). rewrite Hd. destruct (Nd "branch_i_magn" _ nodes (Some "pu") Hd) as (A & B). split.
        * intros H. destruct (B H) as [P|(E & _)]; [auto|discriminate].
        * intros [H|[(ns & [E|E] & P)|(ns & v & E & _)]]; auto; discriminate.
      + rewrite SU. split; [discriminate|]. intros [H|[(ns & [E|E] & P)|(ns & v & E & _)]]; [congruence|..]; try discriminate. injection E as -> ->. discriminate Es.
    - pose proof (state_units key) as SU. destruct (dget String.eqb STATE_VARIABLES key) as [[l|su]|] eqn:Es.
      + destruct SU as (Hd & Hl & Hi). unfold requested. rewrite Hd. destruct (Nd key l nodes u Hd) as (A & B). cbn [unit_in]. split.
        * intros H. apply bind_ok in H as ([] & H1 & H). cbn [bind] in H. apply raise_if_ok in H. apply negb_false_iff in H. rewrite H.
          destruct (B H1) as [P|(-> & ns & -> & P)]; auto. right. left. exists ns. split; auto. right.
          assert (El : l = [None]) by (cbn in Hd; congruence). subst l. cbn in H. rewrite orb_false_r in H. destruct u; [discriminate|reflexivity].
        * intros [H|[(ns & [E|E] & P)|(ns & v & E & _)]]; try discriminate.
          -- destruct (existsb (opts_eqb u) l); [|congruence]. rewrite (A H). cbn. reflexivity.
          -- injection E as -> -> ->. rewrite (proj2 (nodes_iff s K "aux" _ (NList ns) Hd) P). cbn in Hd. injection Hd as <-. reflexivity.
          -- injection E as -> -> ->. congruence.
      + destruct SU as (-> & -> & Hd). destruct (Nd "branch_i_magn" _ nodes u Hd) as (A & B). destruct (Nd "branch_i_magn" _ nodes (Some "pu") Hd) as (A2 & B2). split.
        * intros H. apply bind_ok in H as ([] & H1 & H). destruct u as [u|]; [|discriminate H]. cbn [unit_in bind] in H. apply raise_if_ok in H. apply negb_false_iff in H.
          apply substr_pu in H.
          destruct (B2 H1) as [P|(E & _)]; [|discriminate].
          assert (D : u = "pu" \/ In u [""; "p"; "u"]) by (cbn in *; intuition). destruct D as [->|D].
          -- left. unfold requested. rewrite Hd. cbn [existsb opts_eqb]. rewrite String.eqb_refl. cbn [orb]. exact P.
          -- right. right. exists nodes, u. repeat split; auto.
        * intros [H|[(ns & [E|E] & P)|(ns & v & E & P & D)]]; try discriminate.
          -- unfold requested in H. rewrite Hd in H. cbn [existsb] in H. destruct (opts_eqb u (Some "pu")) eqn:Eu; cbn [orb] in H; [|congruence]. apply opts_eqb_iff in Eu. subst u.
             rewrite (A H). cbn [bind unit_in]. reflexivity.
          -- injection E as -> ->. unfold requested in P. rewrite Hd in P. rewrite (A2 P). cbn [bind unit_in].
             assert (Su : substr v "pu" = true) by (apply substr_pu; cbn in *; intuition). rewrite Su. reflexivity.
      + unfold requested. rewrite SU. split; [discriminate|]. intros [H|[(ns & [E|E] & P)|(ns & v & E & _)]]; [congruence|..]; try discriminate; injection E as -> -> ->; discriminate Es.
    - split; [discriminate|]. intros [H|[(ns & [E|E] & P)|(ns & v & E & _)]]; try discriminate. cbn in H. congruence.
  Qed.

  (** which error a rejected tuple gives *)
  Lemma tuple_errs (s : sim F) (K : Z) t x : check_obs_tuple (get_state_space s) K t = Err x -> In x [ObsSpaceError; ObsNotSupportedError; UnitsNotSupportedError; TypeErr].
  Proof.
    assert (Ne : forall key nodes y us, dget String.eqb doc_units key = Some us -> check_nodes key nodes (get_state_space s) K = Err y -> In y [ObsSpaceError; ObsNotSupportedError; UnitsNotSupportedError; TypeErr]).
    { intros key nodes y us Hk. unfold check_nodes. destruct nodes as [|l|]; [discriminate| |].
      - destruct (String.eqb_spec key "aux") as [->|Na].
        + intros H. apply (foldM_unit_err (fun n => match n with EId i => raise_if (K <=? i)%Z ObsSpaceError | EBr _ _ => Err TypeErr end)) in H as (n & _ & H).
          destruct n as [i|]; [unfold raise_if in H; destruct (K <=? i)%Z; [|discriminate]|]; injection H as <-; cbn; auto.
        + intros H. apply (foldM_unit_err (fun n => let* b := dgetE String.eqb (get_state_space s) key in raise_if (match dget eid_eqb b n with Some _ => false | None => true end) ObsSpaceError)) in H as (n & _ & H).
          destruct (key_bounds s key us Hk Na) as (q & Hq). unfold dgetE in H. rewrite Hq in H. cbn [bind] in H. unfold raise_if in H. destruct (dget eid_eqb q n); [discriminate|]. injection H as <-; cbn; auto.
      - destruct (String.eqb key "aux"); intros H; injection H as <-; cbn; auto. }
    assert (Hd : forall key us, dget String.eqb STATE_VARIABLES key = Some us -> exists l, dget String.eqb doc_units key = Some l).
    { intros key us E. pose proof (state_units key) as SU. rewrite E in SU. destruct us; [exists l; tauto|exists [Some "pu"]; tauto]. }
    destruct t as [key nodes|key nodes u|]; cbn [check_obs_tuple].
    - destruct (dget String.eqb STATE_VARIABLES key) as [us|] eqn:Es; [|intros H; injection H as <-; cbn; auto].
      destruct (Hd _ _ Es) as (l & Hl). eauto.
    - destruct (dget String.eqb STATE_VARIABLES key) as [us|] eqn:Es; [|intros H; injection H as <-; cbn; auto].
      destruct (Hd _ _ Es) as (l & Hl). destruct (check_nodes _ _ _ _) as [[]|y] eqn:Ec; cbn [bind]; [|intros H; injection H as ->; eauto].
      destruct us as [us|su]; cbn [unit_in bind].
      + unfold raise_if. destruct (negb _); [|discriminate]. intros H; injection H as <-; cbn; auto.
      + destruct u as [u|]; cbn [bind]; [|intros H; injection H as <-; cbn; auto]. unfold raise_if. destruct (negb _); [|discriminate]. intros H; injection H as <-; cbn; auto.
    - intros H; injection H as <-; cbn; auto.
  Qed.

  (** the whole check *)
  Lemma args_cases (s : sim F) K dt gamma lamb (o : obs_arg F) auxb :
    (bad_args K dt gamma lamb o auxb -> exists x, check_env_args K dt lamb gamma o auxb (get_state_space s) = Err x) /\
    (bad_args K dt gamma lamb o auxb -> (forall l, o = ObsList l -> check_observation_vars l (get_state_space s) K = Ok tt) ->
       check_env_args K dt lamb gamma o auxb (get_state_space s) = Err ArgsError) /\
    (~ bad_args K dt gamma lamb o auxb -> check_env_args K dt lamb gamma o auxb (get_state_space s) =
       match o with ObsList l => check_observation_vars l (get_state_space s) K | _ => Ok tt end).
  Proof.
    unfold check_env_args, bad_args.
    destruct (Z.ltb_spec K 0) as [H1|H1]; [cbn; repeat split; eauto; intros H; exfalso; apply H; auto|].
    cbn [raise_if bind]. destruct (nleb dt n0) eqn:H2; [cbn; repeat split; eauto; intros H; exfalso; apply H; auto|].
    cbn [raise_if bind]. destruct (nltb lamb n0) eqn:H3; [cbn; repeat split; eauto; intros H; exfalso; apply H; auto|].
    cbn [raise_if bind]. destruct (nltb gamma n0) eqn:H4; [cbn; repeat split; eauto; intros H; exfalso; apply H; tauto|].
    destruct (nltb n1 gamma) eqn:H5; [cbn; repeat split; eauto; intros H; exfalso; apply H; tauto|]. cbn [orb raise_if bind].
    assert (Ab : forall X : res unit, (exists l, auxb = Some l /\ Z.of_nat (List.length l) <> K) \/
      match auxb with None => Ok tt | Some l => raise_if (negb (Z.of_nat (List.length l) =? K)%Z) ArgsError end = Ok tt).
    { intros _. destruct auxb as [l|]; [|auto]. destruct (Z.eqb_spec (Z.of_nat (List.length l)) K); [right; reflexivity|left; eauto]. }
    assert (Ab' : (exists l, auxb = Some l /\ Z.of_nat (List.length l) <> K) ->
      match auxb with None => Ok tt | Some l => raise_if (negb (Z.of_nat (List.length l) =? K)%Z) ArgsError end = Err ArgsError).
    { intros (l & -> & Hl). destruct (Z.eqb_spec (Z.of_nat (List.length l)) K); [contradiction|reflexivity]. }
    destruct o as [|l|f|]; cbn [bind].
    - repeat split.
      + intros [?|[?|[?|[?|[?|[?|H]]]]]]; try congruence; try lia; rewrite (Ab' H); eauto.
      + intros [?|[?|[?|[?|[?|[?|H]]]]]]; try congruence; try lia; auto.
      + intros H. destruct (Ab (Ok tt)) as [A|A]; [exfalso; apply H; tauto|auto].
    - destruct (check_observation_vars l _ K) as [[]|y] eqn:Ec; cbn [bind].
      + repeat split.
        * intros [?|[?|[?|[?|[?|[?|H]]]]]]; try congruence; try lia; rewrite (Ab' H); eauto.
        * intros [?|[?|[?|[?|[?|[?|H]]]]]]; try congruence; try lia; auto.
        * intros H. destruct (Ab (Ok tt)) as [A|A]; [exfalso; apply H; tauto|auto].
      + repeat split; eauto. intros _ H. specialize (H l eq_refl). congruence.
    - repeat split.
      + intros [?|[?|[?|[?|[?|[?|H]]]]]]; try congruence; try lia; rewrite (Ab' H); eauto.
      + intros [?|[?|[?|[?|[?|[?|H]]]]]]; try congruence; try lia; auto.
      + intros H. destruct (Ab (Ok tt)) as [A|A]; [exfalso; apply H; tauto|auto].
    - repeat split; eauto. intros H. exfalso. apply H. tauto.
  Qed.

  Lemma bind_err {A B} (m : res A) (k : A -> res B) x : bind m k = Err x -> m = Err x \/ exists a, m = Ok a /\ k a = Err x.
  Proof. destruct m as [a|y]; cbn; intros H; [right; exists a; split; [reflexivity|exact H]|left; injection H as ->; reflexivity]. Qed.
  Lemma mapM_err {A B} (f : A -> res B) l x : mapM f l = Err x -> exists a, In a l /\ f a = Err x.
  Proof.
    induction l as [|a l IH]; cbn; [discriminate|]. destruct (f a) as [b|y] eqn:E; cbn.
    - destruct (mapM f l) as [m|y] eqn:Em; cbn; [discriminate|]. intros H. injection H as ->. destruct (IH eq_refl) as (a' & I & E'). eauto.
    - intros H. injection H as ->. eauto.
  Qed.
  Lemma expand_no (s : sim F) K l : expand_all s K l <> Err ArgsError.
  Proof.
    intros H. apply mapM_err in H as (it & _ & H). unfold expand_item in H. destruct (oi_nodes it); try discriminate.
    repeat match type of H with context [if ?c then _ else _] => destruct c end; discriminate.
  Qed.
  Lemma build_no (s : sim F) K sv (o : obs_arg F) : build_observation s K sv o <> Err ArgsError.
  Proof.
    intros H. destruct o as [|l|f|]; cbn in H; try discriminate.
    - apply bind_err in H as [H|(a & _ & H)]; [exact (expand_no _ _ _ H)|discriminate].
    - apply bind_err in H as [H|(a & _ & H)].
      + apply mapM_err in H as (t & _ & H). destruct t as [k n|k n u|]; unfold add_default_unit in H; try discriminate.
        destruct (dget String.eqb STATE_VARIABLES k) as [us|]; [|discriminate].
        apply bind_err in H as [H|(b & _ & H)]; [|discriminate]. destruct us as [[|u l']|[|c r]]; discriminate.
      + apply bind_err in H as [H|(b & _ & H)]; [exact (expand_no _ _ _ H)|discriminate].
  Qed.
  Lemma bounds_no (s : sim F) auxb ov : observation_bounds (get_state_space s) auxb ov <> Err ArgsError.
  Proof.
    intros H. destruct ov as [l|]; cbn in H; [|discriminate]. apply bind_err in H as [H|(b & _ & H)]; [|discriminate].
    apply mapM_err in H as (it & _ & H). apply bind_err in H as [H|(ns & _ & H)]; [unfold item_nodes in H; destruct (oi_nodes it); discriminate|].
    apply mapM_err in H as (n & _ & H). unfold entry_bounds in H. destruct (String.eqb _ _).
    - destruct auxb; [|discriminate]. destruct n; [|discriminate]. unfold py_nth, nth_res in H. destruct (py_index _ _); [|discriminate]. destruct (nth_error _ _); discriminate.
    - unfold dgetE in H. destruct (dget _ _ (oi_key it)); cbn in H; [|discriminate]. destruct (dget _ _ n); cbn in H; [|discriminate].
      destruct (oi_unit it); [|discriminate]. destruct (dget _ _ _); discriminate.
  Qed.
  Lemma bad_dec K (dt gamma lamb : F) (o : obs_arg F) auxb : bad_args K dt gamma lamb o auxb \/ ~ bad_args K dt gamma lamb o auxb.
  Proof.
    unfold bad_args. destruct (Z.lt_ge_cases K 0); [auto|]. destruct (nleb dt n0); [auto|]. destruct (nltb lamb n0); [auto|]. destruct (nltb gamma n0); [tauto|]. destruct (nltb n1 gamma); [tauto|].
    assert (D : (exists l, auxb = Some l /\ Z.of_nat (List.length l) <> K) \/ ~ (exists l, auxb = Some l /\ Z.of_nat (List.length l) <> K)).
    { destruct auxb as [l|]; [|right; intros (l & E & _); discriminate]. destruct (Z.eq_dec (Z.of_nat (List.length l)) K); [right; intros (l' & E' & Hl); injection E' as <-; contradiction|left; eauto]. }
    destruct D as [D|D]; [tauto|].
    destruct o; try (right; intros [?|[?|[?|[?|[?|[?|?]]]]]]; try lia; try discriminate; tauto). tauto.
  Qed.
  Lemma requested_state (s : sim F) K t : In t state_tuples -> exists r, requested s K t = Some r.
  Proof. cbn. intros [<-|[<-|[<-|[<-|[<-|[]]]]]]; eexists; reflexivity. Qed.
  Lemma state_ok nw K (dt gamma lamb : F) auxb clip (g : G) s0 : sim_init nw dt lamb = Ok s0 -> ~ bad_args K dt gamma lamb ObsState auxb ->
    exists e0, env_init nw ObsState K dt gamma lamb auxb clip g = Ok e0.
  Proof.
    intros Hs Hb. assert (R : exists rs, Forall2 (fun t r => requested s0 K t = Some r) state_tuples rs).
    { assert (P : forall t, In t state_tuples -> exists r, requested s0 K t = Some r) by (intros; apply requested_state; auto). revert P. generalize state_tuples as l.
      induction l as [|t l IH]; intros P; [exists []; constructor|]. destruct (P t (or_introl eq_refl)) as (r & Hr). destruct IH as (rs & H); [intros; apply P; right; auto|]. exists (r :: rs). constructor; auto. }
    destruct R as (rs & R). destruct (tuples_items s0 K _ rs R) as (l1 & items & I1 & I2 & I3 & I4).
    { cbn. intros t [<-|[<-|[<-|[<-|[<-|[]]]]]] (n & E); discriminate. }
    assert (Ha : forall lb, auxb = Some lb -> List.length lb = Z.to_nat K).
    { intros lb ->. destruct (Z.eq_dec (Z.of_nat (List.length lb)) K) as [E|E]; [lia|]. exfalso. apply Hb. unfold bad_args. do 6 right. eauto. }
    destruct (items_bounds s0 K auxb items I3 Ha) as (B & B1 & _).
    destruct (args_cases s0 K dt gamma lamb ObsState auxb) as (_ & _ & A). specialize (A Hb).
    cbn [mapM state_tuples add_default_unit bind] in I1. injection I1 as <-.
    unfold env_init. rewrite Hs. cbn [bind]. rewrite A. cbn [bind].
    assert (Ev : expand_all s0 (Z.to_nat K) state_items = Ok (svals_of s0 (Z.to_nat K))) by reflexivity. rewrite Ev. cbn [bind].
    unfold state_items in Ev. rewrite Ev in I2. injection I2 as <-. change (build_observation s0 (Z.to_nat K) (svals_of s0 (Z.to_nat K)) ObsState) with (Ok (Some (svals_of s0 (Z.to_nat K)), @None (list F -> obs_val F))). cbn [bind]. rewrite B1. cbn [bind]. eauto.
  Qed.
End Args.
