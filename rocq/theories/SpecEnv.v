(** Histories of an environment and the vocabulary of its properties. *)
From Coq Require Import Sorted.
From Verif Require Import Base Num Devices BusBranch CheckNetwork LoadFlow Simulator EnvArgs Env SpecSim.
Local Open Scope string_scope.
Local Open Scope list_scope.

(** [l] is the list of the IDs, in increasing order, of the devices of the file whose DEV_TYPE is in [ts]. *)
Definition ids_of {F} (nw : network F) (ts : list Z) (l : list Z) : Prop :=
  Sorted Z.lt l /\
  forall i, In i l <-> exists r t, In r (nw_dev nw) /\ dr_id r = Some i /\ dr_type r = Some t /\ In t ts.
(** DEV_TYPE codes (documentation of the network files) *)
Definition ALL : list Z := [-1; 0; 1; 2; 3]%Z.
Definition LOADS : list Z := [-1]%Z.
Definition GENS : list Z := [1; 2]%Z.     (* non-slack generators *)
Definition STORS : list Z := [3]%Z.

Section SpecEnv.
  Context {F G : Type} {N : Num F}.

  (** A call on an environment, with the behaviour of the external solvers during the call. *)
  Inductive ecall :=
  | EReset (Or : oracles F) (seed : option Z)
  | EStep (Or : oracles F) (action : list F).
  (** The object after the call, whether the call returned or raised. *)
  Definition run_ecall (T : task F G) (e : env F G) (c : ecall) : env F G :=
    match c with
    | EReset Or seed => fst (env_reset Or T seed e)
    | EStep Or a => fst (env_step Or T a e)
    end.
  Definition erun (T : task F G) (e : env F G) (cs : list ecall) : env F G := fold_left (run_ecall T) cs e.

  (** [env.action_space.contains(a)] *)
  Definition valid_action (e : env F G) (a : list F) : Prop := box_contains (e_aspace e) (mkObs true a) = true.

  (** [simulator.state[key][unit][i]] for the listed elements *)
  Definition reads (s : sim F) (key unit_ : string) (ids : list Z) : list (option F) :=
    map (fun i => obs s key unit_ (EId i)) ids.
  (** [simulator.state_bounds[key][i][unit]] for the listed elements *)
  Definition bounds_of (s : sim F) (key unit_ : string) (ids : list Z) : list (option (F * F)) :=
    map (fun i => bound s key unit_ (EId i)) ids.

  (** The dictionaries handed to [Simulator.transition] hold, for each device, the entry of the action or
      of the sampled variables that the documented layouts give:
      action [P_gen, Q_gen, P_des, Q_des], variables [P_load, P_max_gen, aux]. *)
  Definition layout (loads gens dess : list Z) (vars a : list F) (inp : tr_in F) : Prop :=
    let nl := List.length loads in let ng := List.length gens in let nd := List.length dess in
    (forall k i, nth_error loads k = Some i -> dget Z.eqb (ti_load inp) i = nth_error vars k) /\
    (forall k i, nth_error gens k = Some i ->
       dget Z.eqb (ti_pot inp) i = nth_error vars (nl + k) /\
       dget Z.eqb (ti_p inp) i = nth_error a k /\ dget Z.eqb (ti_q inp) i = nth_error a (ng + k)) /\
    (forall k i, nth_error dess k = Some i ->
       dget Z.eqb (ti_p inp) i = nth_error a (2 * ng + k) /\ dget Z.eqb (ti_q inp) i = nth_error a (2 * ng + nd + k)).

  (** The state vector [P, Q, SoC, P_max, aux] of a simulator. *)
  Definition state_layout (devs gens dess : list Z) (K : nat) (s : sim F) (aux st : list F) : Prop :=
    List.length aux = K /\
    map Some st = reads s "dev_p" "MW" devs ++ reads s "dev_q" "MVAr" devs ++ reads s "des_soc" "MWh" dess ++
                  reads s "gen_p_max" "MW" gens ++ map Some aux.

  (** The steps, among the calls, that were neither absorbed by a terminal state nor raised, since the
      last reset. *)
  Fixpoint steps_since_reset (T : task F G) (e : env F G) (n : Z) (cs : list ecall) : Z :=
    match cs with
    | [] => n
    | c :: cs' =>
        let n' := match c with
                  | EReset _ _ => 0%Z
                  | EStep Or a => if is_ok (snd (env_step Or T a e)) &&
                                     negb (match e_term e with Some t => t | None => false end) then (n + 1)%Z else n
                  end in
        steps_since_reset T (run_ecall T e c) n' cs'
    end.

  (** Successive draws of [init_state]: the k-th sample and the generator after it. *)
  Fixpoint draw (T : task F G) (g : G) (k : nat) : res (list F) * G :=
    match k with O => t_init T g | S k' => draw T (snd (t_init T g)) k' end.
  (** The sample [d] has size [sz] and, on the freshly built simulator, resetting to it makes the power flow
      converge ([b = true]) or not. *)
  Definition attempt (Or : oracles F) (s0 : sim F) (sz : nat) (d : res (list F) * G) (b : bool) : Prop :=
    exists init, fst d = Ok init /\ List.length init = sz /\ snd (sim_reset Or init s0) = Ok b.
  (** the random generator that a reset uses *)
  Definition gen_at (T : task F G) (seed : option Z) (e : env F G) : G :=
    match seed with Some z => t_seed T z | None => e_rng e end.
  (** [env.observation(st)], checked against the observation space *)
  Definition observed (e' : env F G) (st : list F) : res (list F) :=
    match observe e' st, e_ospace e' with
    | Err x, _ => Err x
    | Ok _, None => Err AttributeError
    | Ok ov, Some sp => if box_contains sp ov then Ok (ov_vec ov) else Err AssertionError
    end.
  (** [v] is inside the box, entry by entry *)
  Definition inside (sp : box F) (v : list F) : Prop :=
    Forall2 (fun lo x => nleb lo x = true) (bx_lo sp) v /\ Forall2 (fun x hi => nleb x hi = true) v (bx_hi sp).
  (** everything that a sequence of calls returns *)
  Fixpoint outputs (T : task F G) (e : env F G) (cs : list (ecall)) : list (res (list F) + res (step_out F)) :=
    match cs with
    | [] => []
    | c :: cs' => (match c with
                   | EReset Or seed => inl (snd (env_reset Or T seed e))
                   | EStep Or a => inr (snd (env_step Or T a e))
                   end) :: outputs T (run_ecall T e c) cs'
    end.
End SpecEnv.
Arguments ecall F : clear implicits.
