(** Specifications for the rendering: what a frame shows, rendering sessions, messages received by a browser. *)
From Verif Require Import Base Num Devices BusBranch CheckNetwork LoadFlow Simulator EnvArgs Env Anm6 SpecSim SpecEnv SpecAnm6.
Local Open Scope string_scope.
Local Open Scope list_scope.

Section SpecRender.
  Context {F G : Type} {N : Num F}.

  (** the elements for which the simulator advertises a quantity, in the order of the dictionary of bounds *)
  Definition elements (s : sim F) (k : string) : list eid :=
    match dget String.eqb (get_state_space s) k with None => [] | Some q => map fst q end.
  (** [l]: the current values of a quantity, element by element *)
  Definition column (s : sim F) (k u : string) (l : list F) : Prop := map Some l = map (obs s k u) (elements s k).
  (** the frame [f] shows the current date, the current state and the last costs *)
  Record pictures (a : anm6 F G) (f : frame F) : Prop := mkPic {
    pc_date : a_date a = Some (fr_date f); pc_year : a_year a = fr_year f;
    pc_p : column (e_sim (a_env a)) "dev_p" "MW" (fr_dev_p f); pc_q : column (e_sim (a_env a)) "dev_q" "MVAr" (fr_dev_q f);
    pc_s : column (e_sim (a_env a)) "branch_s" "MVA" (fr_branch_s f); pc_soc : column (e_sim (a_env a)) "des_soc" "MWh" (fr_soc f);
    pc_gen : column (e_sim (a_env a)) "gen_p_max" "MW" (fr_gen f); pc_v : column (e_sim (a_env a)) "bus_v_magn" "pu" (fr_bus_v f);
    pc_costs : fr_costs f = [e_eloss (a_env a); e_pen (a_env a)];
    pc_coll : fr_collapsed f = true <-> sm_conv (e_sim (a_env a)) <> Some true }.

  (** [session ro k m a a']: from an object [a] that is not rendering to [a'] by [m] calls to [render], all with [skip_frames = k], the first
      of which started the servers, and any other calls but [close]; a [reset] made while rendering returned. *)
  Inductive session (ro : rng_ops F G) (k : Z) : nat -> anm6 F G -> anm6 F G -> Prop :=
  | SsNone a : rd_mode (a_rd a) = false -> session ro k 0 a a
  | SsStep m a a1 Or T action : session ro k m a a1 -> session ro k m a (fst (anm6_step Or T action a1))
  | SsDate m a a1 d : session ro k m a a1 -> session ro k m a (reset_date d a1)
  | SsReset m a a1 Or T seed date : session ro k m a a1 -> (m = 0%nat \/ exists ob, snd (anm6_reset Or T ro seed date a1) = Ok ob) ->
      session ro k m a (fst (anm6_reset Or T ro seed date a1))
  | SsRender m a a1 human started up : session ro k m a a1 -> (m = 0%nat -> human = true /\ started = true) ->
      session ro k (S m) a (fst (anm6_render human k started up a1)).

  (** [tidy ro a cs]: along the calls [cs] from [a], no [reset] made while rendering raises, and no call to [render] that starts the
      servers raises *)
  Fixpoint tidy (ro : rng_ops F G) (a : anm6 F G) (cs : list (acall F G)) : Prop :=
    match cs with
    | [] => True
    | c :: cs' =>
        match c with
        | AReset _ _ _ _ => rd_mode (a_rd a) = true -> snd (run_acall ro a c) = None
        | ARender human _ _ _ => rd_mode (a_rd a) = false -> human = true -> snd (run_acall ro a c) = None
        | _ => True
        end /\ tidy ro (fst (run_acall ro a c)) cs'
    end.
End SpecRender.

(** the messages that client [c] receives during a schedule of the WebSocket server *)
Definition received {M} (s : ws_state M) (es : list (ws_event M)) (c : nat) : list (ws_msg M) :=
  map snd (filter (fun x => Nat.eqb (fst x) c) (snd (ws_run s es))).
Definition ws_empty {M} : ws_state M := mkWs [] None.
Definition connects {M} (c : nat) (es : list (ws_event M)) : Prop := In (WConnect c) es.
Definition inits {M} (es : list (ws_event M)) : Prop := exists c m, In (WMsg c (MInit m)) es.
Definition is_update {M} (x : ws_msg M) : Prop := exists m, x = MUpdate m.
