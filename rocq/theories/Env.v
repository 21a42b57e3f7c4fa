(** The environment: gym_anm/envs/anm_env.py. *)
From Verif Require Import Base Num Devices BusBranch CheckNetwork LoadFlow Simulator EnvArgs.
Local Open Scope string_scope.
Local Open Scope list_scope.
Local Open Scope num_scope.

(** gymnasium.spaces.Box, reduced to its bounds and whether its dtype is float32
    (the gymnasium default) instead of float64.  The checks that some gymnasium
    versions make on the bounds at construction are not modelled. *)
Record box (F : Type) := mkBox { bx_lo : list F; bx_hi : list F; bx_f32 : bool }.
Arguments mkBox {F}. Arguments bx_lo {F}. Arguments bx_hi {F}. Arguments bx_f32 {F}.

(** (key, ids, unit) after expansion of 'all' and default units. *)
Record obs_item := mkItem { oi_key : string; oi_nodes : obs_nodes; oi_unit : option string }.

(** The environment object (anm_env.py 79-156).  [G] is the type of the random
    generator (and of any extra attribute a subclass keeps).  [e_terminated = None]
    and [e_state = None]: the attribute does not exist before [reset]. *)
Record env (F G : Type) := mkEnv {
  e_K : nat; e_gamma : F; e_clip : F * F; e_auxb : option (list (F * F));
  e_sim : sim F;
  e_svals : list obs_item; e_ovals : option (list obs_item); e_ofun : option (list F -> obs_val F);
  e_aspace : box F; e_ospace : option (box F);
  e_term : option bool; e_time : Z; e_eloss : F; e_pen : F; e_state : option (list F);
  e_rng : G }.
Arguments mkEnv {F G}. Arguments e_K {F G}. Arguments e_gamma {F G}. Arguments e_clip {F G}.
Arguments e_auxb {F G}. Arguments e_sim {F G}. Arguments e_svals {F G}. Arguments e_ovals {F G}.
Arguments e_ofun {F G}. Arguments e_aspace {F G}. Arguments e_ospace {F G}. Arguments e_term {F G}.
Arguments e_time {F G}. Arguments e_eloss {F G}. Arguments e_pen {F G}. Arguments e_state {F G}.
Arguments e_rng {F G}.

(** The task-specific methods [init_state] and [next_vars] (anm_env.py 158-191), and
    gymnasium's seeding of the generator. *)
Record task (F G : Type) := mkTask {
  t_seed : Z -> G;
  t_init : G -> res (list F) * G;
  t_next : list F -> G -> res (list F) * G }.
Arguments mkTask {F G}. Arguments t_seed {F G}. Arguments t_init {F G}. Arguments t_next {F G}.

(** What [step] returns (the info dictionary is always empty). *)
Record step_out (F : Type) := mkOut {
  so_obs : list F; so_reward : F; so_terminated : bool; so_truncated : bool }.
Arguments mkOut {F}. Arguments so_obs {F}. Arguments so_reward {F}. Arguments so_terminated {F}.
Arguments so_truncated {F}.

Section Env.
  Context {F G : Type} {N : Num F}.

  (** ---- spaces ---- *)

  (** [Box.contains(x)] for an array x: dtype castable, same shape, within bounds *)
  Definition box_contains (b : box F) (x : obs_val F) : bool :=
    negb (ov_f64 x && bx_f32 b) &&
    Nat.eqb (List.length (ov_vec x)) (List.length (bx_lo b)) &&
    forallb (fun p => fst p <=? snd p) (combine (bx_lo b) (ov_vec x)) &&
    forallb (fun p => fst p <=? snd p) (combine (ov_vec x) (bx_hi b)).

  (** anm_env.py 475-495 ([_build_action_space]) *)
  Definition build_action_space (s : sim F) : box F :=
    let '(pg, qg, pd, qd) := get_action_space s in
    let all := sort_by fst pg ++ sort_by fst qg ++ sort_by fst pd ++ sort_by fst qd in
    mkBox (map (fun x => fst (snd x)) all) (map (fun x => snd (snd x)) all) false.

  (** anm_env.py 523-549 ([_expand_all_ids]), one tuple *)
  Definition expand_item (s : sim F) (K : nat) (o : obs_item) : res obs_item :=
    match oi_nodes o with
    | NAll =>
        let k := oi_key o in
        let* ids :=
          if substr "bus" k then Ok (map (fun b => EId (b_id b)) (sm_buses s))
          else if substr "dev" k then Ok (map (fun d => EId (d_id d)) (sm_devs s))
          else if substr "des" k then Ok (map (fun d => EId (d_id d)) (filter is_stor (sm_devs s)))
          else if substr "gen" k then Ok (map (fun d => EId (d_id d)) (filter is_nsgen (sm_devs s)))
          else if substr "branch" k then Ok (map (fun b => EBr (ln_f b) (ln_t b)) (sm_branches s))
          else if String.eqb k "aux" then Ok (map (fun i => EId (Z.of_nat i)) (seq 0 K))
          else Err ObsNotSupportedError in
        Ok (mkItem k (NList ids) (oi_unit o))
    | _ => Ok o
    end.
  Definition expand_all (s : sim F) (K : nat) (l : list obs_item) : res (list obs_item) :=
    mapM (expand_item s K) l.

  (** anm_env.py 139-145 *)
  Definition state_items : list obs_item :=
    [ mkItem "dev_p" NAll (Some "MW"); mkItem "dev_q" NAll (Some "MVAr");
      mkItem "des_soc" NAll (Some "MWh"); mkItem "gen_p_max" NAll (Some "MW");
      mkItem "aux" NAll None ].

  Definition item_len (o : obs_item) : nat :=
    match oi_nodes o with NList l => List.length l | _ => 0 end.
  (** anm_env.py 147: [state_N] *)
  Definition items_len (l : list obs_item) : nat := list_sum (map item_len l).

  (** anm_env.py 506-510: default units *)
  Definition add_default_unit (o : obs_tuple) : res obs_item :=
    match o with
    | OT3 k n u => Ok (mkItem k n u)
    | OT2 k n =>
        match dget String.eqb STATE_VARIABLES k with
        | None => Err KeyError
        | Some us => let* u := default_unit us in Ok (mkItem k n u)
        end
    | OTBad => Err IndexError
    end.

  (** anm_env.py 497-521 ([_build_observation_space]): obs_values, and the function
      that replaces [self.observation] *)
  Definition build_observation (s : sim F) (K : nat) (svals : list obs_item) (o : obs_arg F)
    : res (option (list obs_item) * option (list F -> obs_val F)) :=
    match o with
    | ObsState => let* l := expand_all s K svals in Ok (Some l, None)
    | ObsList l => let* l1 := mapM add_default_unit l in
                   let* l2 := expand_all s K l1 in Ok (Some l2, None)
    | ObsFun f => Ok (None, Some f)
    | ObsOther => Err ObsSpaceError
    end.

  Definition py_nth {A} (l : list A) (i : Z) : res A :=
    match py_index (List.length l) i with
    | Some k => nth_res l k
    | None => Err IndexError
    end.

  (** anm_env.py 219-229: bounds of one observed entry *)
  Definition entry_bounds (bounds : fbounds F) (auxb : option (list (F * F))) (o : obs_item) (n : eid)
    : res (F * F) :=
    if String.eqb (oi_key o) "aux" then
      match auxb with
      | Some l => match n with EId i => py_nth l i | EBr _ _ => Err TypeErr end
      | None => Ok both_inf
      end
    else
      let* b1 := dgetE String.eqb bounds (oi_key o) in
      let* b2 := dgetE eid_eqb b1 n in
      match oi_unit o with
      | Some u => dgetE String.eqb b2 u
      | None => Err KeyError
      end.

  Definition item_nodes (o : obs_item) : res (list eid) :=
    match oi_nodes o with NList l => Ok l | _ => Err TypeErr end.

  (** anm_env.py 193-233 ([observation_bounds]) *)
  Definition observation_bounds (bounds : fbounds F) (auxb : option (list (F * F)))
             (ovals : option (list obs_item)) : res (option (box F)) :=
    match ovals with
    | None => Ok None
    | Some l =>
        let* bs := mapM (fun o => let* ns := item_nodes o in mapM (entry_bounds bounds auxb o) ns) l in
        let bl := List.concat bs in
        Ok (Some (mkBox (map fst bl) (map snd bl) false))
    end.

  (** anm_env.py 125-130 *)
  Definition clip_arg (c : option (option F * option F)) : F * F :=
    match c with
    | None => (ninf, ninf)
    | Some (a, b) => (match a with None => ninf | Some v => v end,
                      match b with None => ninf | Some v => v end)
    end.

  (** anm_env.py 79-156 ([__init__]); [g] is the initial random generator. *)
  Definition env_init (nw : network F) (obs : obs_arg F) (K : Z) (dt gamma lamb : F)
             (auxb : option (list (F * F))) (clip : option (option F * option F)) (g : G)
    : res (env F G) :=
    let* s := sim_init nw dt lamb in
    let bounds := get_state_space s in
    let* _ := check_env_args K dt lamb gamma obs auxb bounds in
    let k := Z.to_nat K in
    let* svals := expand_all s k state_items in
    let aspace := build_action_space s in
    let* '(ovals, ofun) := build_observation s k svals obs in
    let* ospace := observation_bounds bounds auxb ovals in
    Ok (mkEnv k gamma (clip_arg clip) auxb s svals ovals ofun aspace ospace
              None 0 n0 n0 None g).

  (** attribute assignments *)
  Definition env_set_sim (e : env F G) s := mkEnv (e_K e) (e_gamma e) (e_clip e) (e_auxb e) s
    (e_svals e) (e_ovals e) (e_ofun e) (e_aspace e) (e_ospace e) (e_term e) (e_time e) (e_eloss e)
    (e_pen e) (e_state e) (e_rng e).
  Definition env_set_rng (e : env F G) (g : G) := mkEnv (e_K e) (e_gamma e) (e_clip e) (e_auxb e) (e_sim e)
    (e_svals e) (e_ovals e) (e_ofun e) (e_aspace e) (e_ospace e) (e_term e) (e_time e) (e_eloss e)
    (e_pen e) (e_state e) g.
  Definition env_set_state (e : env F G) st := mkEnv (e_K e) (e_gamma e) (e_clip e) (e_auxb e) (e_sim e)
    (e_svals e) (e_ovals e) (e_ofun e) (e_aspace e) (e_ospace e) (e_term e) (e_time e) (e_eloss e)
    (e_pen e) st (e_rng e).
  Definition env_set_term (e : env F G) t := mkEnv (e_K e) (e_gamma e) (e_clip e) (e_auxb e) (e_sim e)
    (e_svals e) (e_ovals e) (e_ofun e) (e_aspace e) (e_ospace e) t (e_time e) (e_eloss e)
    (e_pen e) (e_state e) (e_rng e).
  Definition env_set_costs (e : env F G) el pen := mkEnv (e_K e) (e_gamma e) (e_clip e) (e_auxb e)
    (e_sim e) (e_svals e) (e_ovals e) (e_ofun e) (e_aspace e) (e_ospace e) (e_term e) (e_time e) el
    pen (e_state e) (e_rng e).
  Definition env_set_time (e : env F G) t := mkEnv (e_K e) (e_gamma e) (e_clip e) (e_auxb e)
    (e_sim e) (e_svals e) (e_ovals e) (e_ofun e) (e_aspace e) (e_ospace e) (e_term e) t (e_eloss e)
    (e_pen e) (e_state e) (e_rng e).
  Definition env_set_ospace (e : env F G) sp := mkEnv (e_K e) (e_gamma e) (e_clip e) (e_auxb e)
    (e_sim e) (e_svals e) (e_ovals e) (e_ofun e) (e_aspace e) sp (e_term e) (e_time e) (e_eloss e)
    (e_pen e) (e_state e) (e_rng e).

  (** anm_env.py 562-592: one entry *)
  Definition extract_entry (e : env F G) (o : obs_item) (n : eid) : res F :=
    match sm_state (e_sim e) with
    | None => Err AttributeError
    | Some full =>
        match dget String.eqb full (oi_key o) with
        | Some units =>
            match oi_unit o with
            | None => Err KeyError
            | Some u => let* d := dgetE String.eqb units u in dgetE eid_eqb d n
            end
        | None =>
            if String.eqb (oi_key o) "aux" then
              match n, e_state e with
              | EId i, Some st => py_nth st (i - Z.of_nat (e_K e))%Z
              | EId _, None => Err AttributeError
              | EBr _ _, _ => Err TypeErr
              end
            else Err ObsNotSupportedError
        end
    end.

  (** anm_env.py 562-592 ([_extract_state_variables]) *)
  Definition extract_vars (e : env F G) (items : list obs_item) : res (list F) :=
    let* l := mapM (fun o => let* ns := item_nodes o in mapM (extract_entry e o) ns) items in
    Ok (List.concat l).

  (** anm_env.py 551-560 ([_construct_state]) *)
  Definition construct_state (e : env F G) : res (list F) := extract_vars e (e_svals e).

  Definition clip_vec (x lo hi : list F) : list F :=
    zip_with (fun a b => np_clip a (fst b) (snd b)) x (combine lo hi).

  (** anm_env.py 313-331 ([observation]) or the user-supplied function (line 515).
      The default method is only used with a known observation space. *)
  Definition observe (e : env F G) (st : list F) : res (obs_val F) :=
    match e_ofun e with
    | Some f => Ok (f st)
    | None =>
        match e_ovals e, e_ospace e with
        | Some items, Some sp =>
            let* x := extract_vars e items in
            Ok (mkObs true (clip_vec x (bx_lo sp) (bx_hi sp)))
        | _, _ => Err AttributeError
        end
    end.

  (** anm_env.py 594-608 *)
  Definition terminal_state (n : nat) : list F := repeat n0 n.

  (** [observation_N] (lines 155-156, 300) *)
  Definition observation_N (e : env F G) : res nat :=
    match e_ospace e with Some sp => Ok (List.length (bx_lo sp)) | None => Err AttributeError end.

  (** anm_env.py 274: expected size of the initial state *)
  Definition state_size (e : env F G) : nat :=
    2 * n_device (e_sim e) + n_des (e_sim e) + n_nsgen (e_sim e) + e_K e.

  (** anm_env.py 269-289: at most [rem] further samples; the last one always ends in
      the error branch, whose message uses the non-existent [self.__name__]. *)
  Fixpoint reset_loop (O : oracles F) (T : task F G) (rem : nat) (e : env F G)
    : env F G * res unit :=
    match rem with
    | O => (e, Err AttributeError)
    | S rem' =>
        match t_init T (e_rng e) with
        | (Err x, g) => (env_set_rng e g, Err x)
        | (Ok s0, g) =>
            let e1 := env_set_state (env_set_rng e g) (Some s0) in
            if negb (Nat.eqb (List.length s0) (state_size e1)) then (e1, Err EnvInitializationError)
            else
              match sim_reset O s0 (e_sim e1) with
              | (s', Err x) => (env_set_sim e1 s', Err x)
              | (s', Ok found) =>
                  let e2 := env_set_sim e1 s' in
                  match rem' with
                  | O => (e2, Err AttributeError)
                  | _ => if found then (e2, Ok tt) else reset_loop O T rem' e2
                  end
              end
        end
    end.

  (** anm_env.py 294-303: observation, default observation space of a callable (dtype
      float32 by default), and the assertion *)
  Definition finish_obs (e : env F G) (st : list F) : env F G * res (list F) :=
    match observe e st with
    | Err x => (e, Err x)
    | Ok o =>
        let n := List.length (ov_vec o) in
        let e1 := match e_ospace e with
                  | None => env_set_ospace e (Some (mkBox (repeat nninf n) (repeat ninf n) true))
                  | Some _ => e
                  end in
        match e_ospace e1 with
        | None => (e1, Err AttributeError)
        | Some sp => if box_contains sp o then (e1, Ok (ov_vec o)) else (e1, Err AssertionError)
        end
    end.

  (** anm_env.py 235-311 ([reset]); the result is the observation.  Lines 307-309 are
      dead code ([self.terminated] is False there). *)
  Definition env_reset (O : oracles F) (T : task F G) (seed : option Z) (e : env F G)
    : env F G * res (list F) :=
    let e0 := match seed with Some z => env_set_rng e (t_seed T z) | None => e end in
    let e1 := env_set_costs (env_set_time (env_set_term e0 (Some false)) 0) n0 n0 in
    match reset_loop O T 100 e1 with
    | (e2, Err x) => (e2, Err x)
    | (e2, Ok _) =>
        match construct_state e2 with
        | Err x => (e2, Err x)
        | Ok st => finish_obs (env_set_state e2 (Some st)) st
        end
    end.

  (** anm_env.py 376-410: dictionaries from the sampled variables and the action *)
  Definition step_inputs (e : env F G) (vars action : list F) : tr_in F :=
    let s := e_sim e in
    let loads := map d_id (filter is_load (sm_devs s)) in
    let gens := map d_id (filter is_nsgen (sm_devs s)) in
    let dess := map d_id (filter is_stor (sm_devs s)) in
    let ng := List.length gens in
    let nd := List.length dess in
    mkIn (combine loads (firstn (n_load s) vars))
         (combine gens (slice (n_load s) (n_nsgen s) vars))
         (combine gens (firstn ng action) ++ combine dess (slice (2 * ng) nd action))
         (combine gens (slice ng ng action) ++ combine dess (skipn (2 * ng + nd) action)).

  (** anm_env.py 424-427: clipped costs *)
  Definition clip_eloss (e : env F G) (x : F) : F := np_sign x * np_clip (nabs x) n0 (fst (e_clip e)).
  Definition clip_pen (e : env F G) (x : F) : F := np_clip x n0 (snd (e_clip e)).

  (** anm_env.py 436-437: overwrite the last K entries of the state *)
  Definition write_aux (st aux : list F) (K : nat) : res (list F) :=
    if Nat.leb K (List.length st) then Ok (firstn (List.length st - K) st ++ aux) else Err IndexError.

  (** anm_env.py 333-453 ([step]) *)
  Definition env_step (O : oracles F) (T : task F G) (action : list F) (e : env F G)
    : env F G * res (step_out F) :=
    if negb (box_contains (e_aspace e) (mkObs true action)) then (e, Err AssertionError)
    else
      match e_term e with
      | None => (e, Err AttributeError)
      | Some true =>
          match observation_N e with
          | Err x => (e, Err x)
          | Ok n => (e, Ok (mkOut (terminal_state n) n0 true false))
          end
      | Some false =>
          match e_state e with
          | None => (e, Err AttributeError)
          | Some st =>
              match t_next T st (e_rng e) with
              | (Err x, g) => (env_set_rng e g, Err x)
              | (Ok vars, g) =>
                  let e1 := env_set_rng e g in
                  let s := e_sim e1 in
                  if negb (Nat.eqb (List.length vars) (n_load s + n_nsgen s + e_K e))
                  then (e1, Err EnvNextVarsError)
                  else
                    let aux := skipn (n_load s + n_nsgen s) vars in
                    match transition O (step_inputs e1 vars action) s with
                    | (s', Err x) => (env_set_sim e1 s', Err x)
                    | (s', Ok (_, _, el, pen, conv)) =>
                        let e2 := env_set_term (env_set_sim e1 s') (Some (negb conv)) in
                        if conv then
                          let el' := clip_eloss e2 el in
                          let pen' := clip_pen e2 pen in
                          let e3 := env_set_costs e2 el' pen' in
                          match write_aux st aux (e_K e) with
                          | Err x => (e3, Err x)
                          | Ok st1 =>
                              let e4 := env_set_state e3 (Some st1) in
                              match construct_state e4 with
                              | Err x => (e4, Err x)
                              | Ok st2 =>
                                  let e5 := env_set_state e4 (Some st2) in
                                  match observe e5 st2 with
                                  | Err x => (e5, Err x)
                                  | Ok o =>
                                      match e_ospace e5 with
                                      | None => (e5, Err AttributeError)
                                      | Some sp =>
                                          if box_contains sp o then
                                            (env_set_time e5 (e_time e5 + 1)%Z,
                                             Ok (mkOut (ov_vec o) (- (el' + pen')) false false))
                                          else (e5, Err AssertionError)
                                      end
                                  end
                              end
                          end
                        else
                          match pydiv (- snd (e_clip e)) (n1 - e_gamma e) with
                          | Err x => (e2, Err x)
                          | Ok r =>
                              let e3 := env_set_costs e2 (fst (e_clip e)) (snd (e_clip e)) in
                              let e4 := env_set_state e3 (Some (terminal_state (items_len (e_svals e)))) in
                              match observation_N e4 with
                              | Err x => (e4, Err x)
                              | Ok n =>
                                  (env_set_time e4 (e_time e4 + 1)%Z,
                                   Ok (mkOut (terminal_state n) r true false))
                              end
                          end
                    end
              end
          end
      end.
End Env.
