(** The 6-bus environments: gym_anm/envs/anm6_env/anm6.py, anm6_easy.py, utils.py and
    network.py, with the life cycle of the rendering servers
    (rendering/py/rendering.py 12-107, 168-181). *)
From Verif Require Import Base Num Devices BusBranch CheckNetwork LoadFlow Simulator EnvArgs Env.
Local Open Scope string_scope.
Local Open Scope list_scope.
Local Open Scope num_scope.

(** The two draws of [numpy.random.Generator] used by the tasks: [integers(lo, hi)] and
    [uniform(lo, hi)]. *)
Record rng_ops (F G : Type) := mkRng {
  r_int : Z -> Z -> G -> Z * G;
  r_unif : F -> F -> G -> F * G }.
Arguments mkRng {F G}. Arguments r_int {F G}. Arguments r_unif {F G}.

(** The arguments of one call to [rendering.update] (anm6.py 215-227). *)
Record frame (F : Type) := mkFrame {
  fr_date : Z; fr_year : Z;
  fr_dev_p : list F; fr_dev_q : list F; fr_branch_s : list F; fr_soc : list F;
  fr_gen : list F; fr_bus_v : list F; fr_costs : list F; fr_collapsed : bool }.
Arguments mkFrame {F}. Arguments fr_date {F}. Arguments fr_year {F}. Arguments fr_dev_p {F}.
Arguments fr_dev_q {F}. Arguments fr_branch_s {F}. Arguments fr_soc {F}. Arguments fr_gen {F}.
Arguments fr_bus_v {F}. Arguments fr_costs {F}. Arguments fr_collapsed {F}.

(** Rendering attributes of the environment.  [rd_mode]: [render_mode is not None];
    [rd_live]: identifiers of the server pairs (processes) that are running, [rd_cur]: the
    pair stored in [self.http_server, self.ws_server] (None: attributes not set),
    [rd_next]: next fresh identifier; [rd_frames]: frames sent so far, oldest first. *)
Record rstate (F : Type) := mkRs {
  rd_mode : bool; rd_skipped : Z; rd_isr : bool;
  rd_live : list nat; rd_cur : option nat; rd_next : nat; rd_frames : list (frame F) }.
Arguments mkRs {F}. Arguments rd_mode {F}. Arguments rd_skipped {F}. Arguments rd_isr {F}.
Arguments rd_live {F}. Arguments rd_cur {F}. Arguments rd_next {F}. Arguments rd_frames {F}.

(** The ANM6 object (anm6.py 32-44).  Dates are whole minutes since 2020-01-01 00:00
    (simplification: user-supplied dates have minute resolution). *)
Record anm6 (F G : Type) := mkA6 {
  a_env : env F G; a_len : Z; a_date : option Z; a_date_init : option Z; a_year : Z;
  a_rd : rstate F }.
Arguments mkA6 {F G}. Arguments a_env {F G}. Arguments a_len {F G}. Arguments a_date {F G}.
Arguments a_date_init {F G}. Arguments a_year {F G}. Arguments a_rd {F G}.

Section Anm6.
  Context {F G : Type} {N : Num F}.

  (** ---- anm6.py ---- *)

  Definition a_set_env (a : anm6 F G) (e : env F G) := mkA6 e (a_len a) (a_date a) (a_date_init a) (a_year a) (a_rd a).
  Definition a_set_rd (a : anm6 F G) r := mkA6 (a_env a) (a_len a) (a_date a) (a_date_init a) (a_year a) r.
  Definition a_set_dates (a : anm6 F G) d di y := mkA6 (a_env a) (a_len a) d di y (a_rd a).
  Definition rd_set_mode (r : rstate F) m :=
    mkRs m (rd_skipped r) (rd_isr r) (rd_live r) (rd_cur r) (rd_next r) (rd_frames r).
  Definition rd_set_skipped (r : rstate F) k :=
    mkRs (rd_mode r) k (rd_isr r) (rd_live r) (rd_cur r) (rd_next r) (rd_frames r).
  Definition rd_set_isr (r : rstate F) b :=
    mkRs (rd_mode r) (rd_skipped r) b (rd_live r) (rd_cur r) (rd_next r) (rd_frames r).

  (** anm6.py 32-44 ([ANM6.__init__] on an already constructed base environment):
      the rendering specifications are computed here (TypeError when a VMIN is None). *)
  Definition anm6_init (dt : F) (e : env F G) : res (anm6 F G) :=
    let* _ := rendering_bus_v (e_sim e) in
    let* len := match ntrunc (nofZ 60 * dt) with Some k => Ok k | None => Err ValueError end in
    Ok (mkA6 e len None None 0 (mkRs false 0 false [] None 0 [])).

  (** utils.py 5-23 ([random_date]); [start] is January 1st of the year. *)
  Definition random_date (ro : rng_ops F G) (start : Z) (g : G) : Z * G :=
    let '(d, g') := r_int ro 1%Z 365%Z g in ((start + 1440 * d)%Z, g').

  (** anm6.py 113-122 ([step]).  [timedelta.days] is the floor of the number of days. *)
  Definition anm6_step (O : oracles F) (T : task F G) (action : list F) (a : anm6 F G)
    : anm6 F G * res (step_out F) :=
    match env_step O T action (a_env a) with
    | (e', Err x) => (a_set_env a e', Err x)
    | (e', Ok o) =>
        let a1 := a_set_env a e' in
        match a_date a, a_date_init a with
        | Some d, Some di =>
            let d' := (d + a_len a)%Z in
            (a_set_dates a1 (Some d') (Some di) ((d' - di) / 1440 / 365)%Z, Ok o)
        | _, _ => (a1, Err TypeErr)
        end
    end.

  (** anm6.py 124-141 ([reset]).  [ANMEnv.reset] sets [render_mode] to None (anm_env.py
      260), so an exception leaves it None.  [date_opt]: options["date_init"]. *)
  Definition anm6_reset (O : oracles F) (T : task F G) (ro : rng_ops F G) (seed : option Z)
             (date_opt : option Z) (a : anm6 F G) : anm6 F G * res (list F) :=
    match env_reset O T seed (a_env a) with
    | (e', Err x) => (a_set_rd (a_set_env a e') (rd_set_mode (a_rd a) false), Err x)
    | (e', Ok obs) =>
        match date_opt with
        | Some d => (a_set_dates (a_set_env a e') (Some d) (Some d) 0, Ok obs)
        | None =>
            let '(d, g) := random_date ro 0 (e_rng e') in
            (a_set_dates (a_set_env a (env_set_rng e' g)) (Some d) (Some d) 0, Ok obs)
        end
    end.

  (** anm6.py 143-146 *)
  Definition reset_date (d : Z) (a : anm6 F G) : anm6 F G :=
    a_set_dates a (Some d) (Some d) (a_year a).

  Definition dict_vals (st : fstate F) (k u : string) : res (list F) :=
    let* q := dgetE String.eqb st k in
    let* d := dgetE String.eqb q u in
    Ok (map snd d).

  (** anm6.py 101-111, 215-227 and rendering.py 142-163: send one frame.  [up]: whether
      the connection to a running server succeeds. *)
  Definition send_frame (up : bool) (a : anm6 F G) : res (frame F) :=
    match sm_state (e_sim (a_env a)) with
    | None => Err TypeErr
    | Some st =>
        let* p := dict_vals st "dev_p" "MW" in
        let* q := dict_vals st "dev_q" "MVAr" in
        let* s := dict_vals st "branch_s" "MVA" in
        let* soc := dict_vals st "des_soc" "MWh" in
        let* g := dict_vals st "gen_p_max" "MW" in
        let* v := dict_vals st "bus_v_magn" "pu" in
        let coll := match sm_conv (e_sim (a_env a)) with Some c => negb c | None => true end in
        match rd_cur (a_rd a) with
        | None => Err AttributeError
        | Some c =>
            if up && existsb (Nat.eqb c) (rd_live (a_rd a)) then
              match a_date a with
              | None => Err AttributeError
              | Some d => Ok (mkFrame d (a_year a) p q s soc g v
                                      [e_eloss (a_env a); e_pen (a_env a)] coll)
              end
            else Err ConnectionErr
        end
    end.

  (** anm6.py 97-111: the else branch of [render] *)
  Definition render_update (skip : Z) (up : bool) (a : anm6 F G) : anm6 F G * res unit :=
    if Z.eqb (skip + 1) 0 then (a, Err ZeroDivisionError)
    else
      let k := ((rd_skipped (a_rd a) + 1) mod (skip + 1))%Z in
      let a1 := a_set_rd a (rd_set_skipped (a_rd a) k) in
      if negb (Z.eqb k 0) then (a1, Ok tt)
      else match send_frame up a1 with
           | Err x => (a1, Err x)
           | Ok f => let r := a_rd a1 in
                     (a_set_rd a1 (mkRs (rd_mode r) (rd_skipped r) (rd_isr r) (rd_live r)
                                        (rd_cur r) (rd_next r) (rd_frames r ++ [f])), Ok tt)
           end.

  (** anm6.py 81-94: [rendering.start] launches two processes, then may raise
      ([started = false]) before the handles are stored. *)
  Definition anm6_render (human : bool) (skip : Z) (started up : bool) (a : anm6 F G)
    : anm6 F G * res unit :=
    let r := a_rd a in
    if rd_mode r then render_update skip up a
    else if negb human then (a, Err NotImplementedError)
    else
      let live := rd_next r :: rd_live r in
      if started then
        let a1 := a_set_rd a (mkRs true 0 (rd_isr r) live (Some (rd_next r)) (S (rd_next r)) (rd_frames r)) in
        match render_update skip up a1 with
        | (a2, Err x) => (a2, Err x)
        | (a2, Ok _) => (a_set_rd a2 (rd_set_isr (a_rd a2) true), Ok tt)
        end
      else (a_set_rd a (mkRs true 0 (rd_isr r) live (rd_cur r) (S (rd_next r)) (rd_frames r)),
            Err ConnectionErr).

  (** anm6.py 229-239 ([close]) *)
  Definition anm6_close (a : anm6 F G) : anm6 F G :=
    let r := a_rd a in
    let live := if rd_isr r then
                  match rd_cur r with
                  | Some c => filter (fun k => negb (Nat.eqb k c)) (rd_live r)
                  | None => rd_live r
                  end
                else rd_live r in
    a_set_rd a (mkRs false (rd_skipped r) (rd_isr r) live (rd_cur r) (rd_next r) (rd_frames r)).

  (** ---- network.py 49-82 ---- *)
  Local Notation z k := (Some (nofZ k)).
  Local Notation dec a b := (Some (nrat a b)).
  Definition anm6_network : network F :=
    let bus i ty kv vmax vmin := mkBusRow (Some i) (Some ty) (z kv) vmax vmin in
    let dev i b ty qp p1 p2 q1 q2 pp pm qp' qm s1 s2 eff :=
      mkDevRow (Some i) (Some b) (Some ty) qp p1 p2 q1 q2 pp pm qp' qm s1 s2 eff in
    let br f t r x rate := mkBranchRow (Some f) (Some t) r x (z 0) (z rate) (z 1) (z 0) in
    mkNet (nofZ 100)
      [ bus 0%Z 0%Z 132%Z (z 1) (z 1);
        bus 1%Z 1%Z 33%Z (dec 11 10) (dec 9 10);
        bus 2%Z 1%Z 33%Z (dec 11 10) (dec 9 10);
        bus 3%Z 1%Z 33%Z (dec 11 10) (dec 9 10);
        bus 4%Z 1%Z 33%Z (dec 11 10) (dec 9 10);
        bus 5%Z 1%Z 33%Z (dec 11 10) (dec 9 10) ]
      [ dev 0%Z 0%Z 0%Z None (z 200) (z (-200)) (z 200) (z (-200)) None None None None None None None;
        dev 1%Z 3%Z (-1)%Z (dec 2 10) (z 0) (z (-10)) None None None None None None None None None;
        dev 2%Z 3%Z 2%Z None (z 30) (z 0) (z 30) (z (-30)) (z 20) None (z 15) (z (-15)) None None None;
        dev 3%Z 4%Z (-1)%Z (dec 2 10) (z 0) (z (-30)) None None None None None None None None None;
        dev 4%Z 4%Z 2%Z None (z 50) (z 0) (z 50) (z (-50)) (z 35) None (z 20) (z (-20)) None None None;
        dev 5%Z 5%Z (-1)%Z (dec 2 10) (z 0) (z (-30)) None None None None None None None None None;
        dev 6%Z 5%Z 3%Z None (z 50) (z (-50)) (z 50) (z (-50)) (z 30) (z (-30)) (z 25) (z (-25))
          (z 100) (z 0) (dec 9 10) ]
      [ br 0%Z 1%Z (dec 36 10000) (dec 1834 10000) 32%Z;
        br 1%Z 2%Z (dec 3 100) (dec 22 1000) 25%Z;
        br 1%Z 3%Z (dec 307 10000) (dec 621 10000) 18%Z;
        br 2%Z 4%Z (dec 303 10000) (dec 611 10000) 18%Z;
        br 2%Z 5%Z (dec 159 10000) (dec 502 10000) 18%Z ].

  (** ---- anm6_easy.py ---- *)

  (** [np.linspace(a, b, 7)]: a + k * ((b - a) / 6), the last point set to b *)
  Definition linspace7 (a b : F) : list F :=
    let st := (b - a) / nofZ 6 in
    map (fun k => nofZ k * st + a) [0; 1; 2; 3; 4; 5]%Z ++ [b].

  (** anm6_easy.py 86 (and 94, 102, 119, 127): the common layout of a day *)
  Definition day_series (v1 : F) (s12 : list F) (v2 : F) (s23 : list F) (v3 : F) : list F :=
    repeat v1 25 ++ s12 ++ repeat v2 13 ++ s23 ++ repeat v3 13 ++
    rev s23 ++ repeat v2 13 ++ rev s12 ++ repeat v1 4.

  (** anm6_easy.py 77-107 ([_get_load_time_series]) *)
  Definition P_loads : list (list F) :=
    [ day_series (- n1) (linspace7 (nrat (-15) 10) (nrat (-45) 10)) (nofZ (-5))
        (linspace7 (nrat (-4625) 1000) (nrat (-2375) 1000)) (nofZ (-2));
      day_series (nofZ (-4)) (linspace7 (nrat (-475) 100) (nrat (-925) 100)) (nofZ (-10))
        (linspace7 (nrat (-1125) 100) (nrat (-1875) 100)) (nofZ (-20));
      day_series n0 (linspace7 (nrat (-3125) 1000) (nrat (-21875) 1000)) (nofZ (-25))
        (linspace7 (nrat (-21875) 1000) (nrat (-3125) 1000)) n0 ].

  (** anm6_easy.py 110-132 ([_get_gen_time_series]) *)
  Definition P_maxs : list (list F) :=
    [ day_series n0 (linspace7 (nrat 5 10) (nrat 35 10)) (nofZ 4)
        (linspace7 (nrat 725 100) (nrat 3675 100)) (nofZ 30);
      day_series (nofZ 40) (linspace7 (nrat 36375 1000) (nrat 14625 1000)) (nofZ 11)
        (linspace7 (nrat 14725 1000) (nrat 36375 1000)) (nofZ 40) ].

  (** anm6_easy.py 11-19: constructor arguments *)
  Definition easy_dt : F := nrat 1 4.
  Definition easy_gamma : F := nrat 995 1000.
  Definition easy_env (g : G) : res (env F G) :=
    env_init anm6_network ObsState 1 easy_dt easy_gamma (nofZ 100)
             (Some [(n0, nofZ 24 / easy_dt - n1)]) (Some (Some n1, Some (nofZ 100))) g.

  Definition find_dev (s : sim F) (i : Z) : res (device F) :=
    match find (fun d => Z.eqb (d_id d) i) (sm_devs s) with
    | Some d => Ok d | None => Err KeyError
    end.
  (** [self.simulator.devices[dev_id].qp_ratio / .soc_min / .soc_max] *)
  Definition dev_qp (d : device F) : res F :=
    match d_spec d with SLoad l => Ok (l_qp l) | _ => Err AttributeError end.
  Definition dev_soc_rng (d : device F) : res (F * F) :=
    match d_spec d with SStor t => Ok (s_socmin t, s_socmax t) | _ => Err AttributeError end.

  (** anm6_easy.py 25-52 ([init_state]) on the constructed simulator [s].  The zero
      vector of length 2*7+1+2+1 is filled in: P (7), Q (7), SoC (1), P_max (2), aux (1). *)
  Definition easy_init (ro : rng_ops F G) (s : sim F) (g : G) : res (list F) * G :=
    let '(t0, g1) := r_int ro 0%Z 96%Z g in
    let k := Z.to_nat t0 in
    match (let* d2 := find_dev s 2 in let* d4 := find_dev s 4 in Ok (d2, d4)) with
    | Err x => (Err x, g1)
    | Ok (d2, d4) =>
        let '(q2, g2) := r_unif ro (d_qmin d2) (d_qmax d2) g1 in
        let '(q4, g3) := r_unif ro (d_qmin d4) (d_qmax d4) g2 in
        match (let* d6 := find_dev s 6 in dev_soc_rng d6) with
        | Err x => (Err x, g3)
        | Ok (lo, hi) =>
            let '(soc, g4) := r_unif ro lo hi g3 in
            (let* l1 := nth_res (nth 0 P_loads []) k in
             let* l3 := nth_res (nth 1 P_loads []) k in
             let* l5 := nth_res (nth 2 P_loads []) k in
             let* m2 := nth_res (nth 0 P_maxs []) k in
             let* m4 := nth_res (nth 1 P_maxs []) k in
             let* r1 := (let* d := find_dev s 1 in dev_qp d) in
             let* r3 := (let* d := find_dev s 3 in dev_qp d) in
             let* r5 := (let* d := find_dev s 5 in dev_qp d) in
             Ok [ n0; l1; m2; l3; m4; l5; n0;
                  n0; l1 * r1; q2; l3 * r3; q4; l5 * r5; n0;
                  soc; m2; m4; nofZ t0 ], g4)
        end
    end.

  (** anm6_easy.py 54-65 ([next_vars]); [last s_t] is [s_t[-1]].  int() of NaN or
      infinity raises ValueError. *)
  Definition easy_next (st : list F) : res (list F) :=
    match st with
    | [] => Err IndexError
    | _ =>
        match ntrunc (nmod (last st n0 + n1) (nofZ 24 / easy_dt)) with
        | None => Err ValueError
        | Some aux =>
            let* ls := mapM (fun row => py_nth row aux) P_loads in
            let* ms := mapM (fun row => py_nth row aux) P_maxs in
            Ok (ls ++ ms ++ [nofZ aux])
        end
    end.

  Definition easy_task (ro : rng_ops F G) (seedf : Z -> G) (s : sim F) : task F G :=
    mkTask seedf (easy_init ro s) (fun st g => (easy_next st, g)).

  (** anm6_easy.py 67-74 ([reset]).  Simplification: the auxiliary variable is truncated
      to an integer number of timesteps (it is one on every reachable state). *)
  Definition easy_reset (O : oracles F) (ro : rng_ops F G) (seedf : Z -> G) (seed : option Z)
             (date_opt : option Z) (a : anm6 F G) : anm6 F G * res (list F) :=
    match anm6_reset O (easy_task ro seedf (e_sim (a_env a))) ro seed date_opt a with
    | (a1, Err x) => (a1, Err x)
    | (a1, Ok obs) =>
        match a_date a1, e_state (a_env a1) with
        | Some d, Some st =>
            match ntrunc (last st n0) with
            | Some k => (reset_date (d + k * a_len a1)%Z a1, Ok obs)
            | None => (a1, Err ValueError)
            end
        | _, _ => (a1, Err TypeErr)
        end
    end.

  Definition easy_step (O : oracles F) (ro : rng_ops F G) (seedf : Z -> G) (action : list F)
             (a : anm6 F G) : anm6 F G * res (step_out F) :=
    anm6_step O (easy_task ro seedf (e_sim (a_env a))) action a.

  (** anm6_easy.py 11-22: the constructor *)
  Definition easy_make (g : G) : res (anm6 F G) :=
    let* e := easy_env g in anm6_init easy_dt e.
End Anm6.

(** The WebSocket relay: rendering/py/servers.py 83-141.  [ws_conn]: connected clients
    (the [clients] of the library server, which [send_message_to_all] uses, lines 122-123);
    [ws_init]: init message and the client that sent it. *)
Inductive ws_msg (M : Type) := MInit (m : M) | MUpdate (m : M).
Arguments MInit {M}. Arguments MUpdate {M}.
Record ws_state (M : Type) := mkWs { ws_conn : list nat; ws_init : option (ws_msg M * nat) }.
Arguments mkWs {M}. Arguments ws_conn {M}. Arguments ws_init {M}.
Inductive ws_event (M : Type) :=
| WConnect (c : nat) | WMsg (c : nat) (m : ws_msg M) | WLeave (c : nat).
Arguments WConnect {M}. Arguments WMsg {M}. Arguments WLeave {M}.

(** servers.py 83-141: new state and the messages sent, as (client, message) pairs *)
Definition ws_step {M} (s : ws_state M) (e : ws_event M) : ws_state M * list (nat * ws_msg M) :=
  match e with
  | WConnect c =>
      (mkWs (ws_conn s ++ [c]) (ws_init s),
       match ws_init s with
       | Some (m, c0) => if Nat.eqb c c0 then [] else [(c, m)]
       | None => []
       end)
  | WMsg c (MInit m) => (mkWs (ws_conn s) (Some (MInit m, c)), [])
  | WMsg c (MUpdate m) => (s, map (fun k => (k, MUpdate m)) (ws_conn s))
  | WLeave c => (mkWs (filter (fun k => negb (Nat.eqb k c)) (ws_conn s)) (ws_init s), [])
  end.

Fixpoint ws_run {M} (s : ws_state M) (es : list (ws_event M)) : ws_state M * list (nat * ws_msg M) :=
  match es with
  | [] => (s, [])
  | e :: es' => let '(s1, o1) := ws_step s e in
                let '(s2, o2) := ws_run s1 es' in (s2, o1 ++ o2)
  end.
