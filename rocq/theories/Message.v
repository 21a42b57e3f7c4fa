(** Model of the first message sent to the browser: gym_anm/envs/anm6_env/anm6.py 148-192 ([_init_render]), rendering/py/rendering.py 82-98,
    with the specifications of simulator.py 295-339 ([get_rendering_specs]). *)
From Verif Require Import Base Num Devices BusBranch CheckNetwork LoadFlow Simulator EnvArgs Env Anm6.
Local Open Scope num_scope.
Local Open Scope string_scope.
Local Open Scope list_scope.

(** simulator.py 328-337 restricted to the six entries that anm6.py 88-89 keeps *)
Record rspecs (F : Type) := mkSpecs {
  rs_type : list (Z * Z); rs_p : list (eid * list (string * (F * F))); rs_q : list (eid * list (string * (F * F)));
  rs_s : list (Z * Z * list (string * (F * F))); rs_v : list (Z * list (string * (F * F))); rs_soc : list (eid * list (string * (F * F))) }.
Arguments mkSpecs {F}. Arguments rs_type {F}. Arguments rs_p {F}. Arguments rs_q {F}. Arguments rs_s {F}. Arguments rs_v {F}. Arguments rs_soc {F}.

(** The numbers of the "init" message (rendering.py 82-96), without its label and title. *)
Record init_msg (F : Type) := mkMsg {
  im_type : list Z; im_p : list F; im_q : list F; im_s : list F; im_vmin : list F; im_vmax : list F; im_soc : list F; im_eloss : F; im_pen : F }.
Arguments mkMsg {F}. Arguments im_type {F}. Arguments im_p {F}. Arguments im_q {F}. Arguments im_s {F}. Arguments im_vmin {F}. Arguments im_vmax {F}.
Arguments im_soc {F}. Arguments im_eloss {F}. Arguments im_pen {F}.

Section Render.
  Context {F : Type} {N : Num F}.

  (** simulator.py 295-339 and anm6.py 37, 88-89.  [state_bounds] was computed by the constructor from attributes that never change, so it is recomputed here. *)
  Definition rendering_specs (s : sim F) : res (rspecs F) :=
    let* v := rendering_bus_v s in
    let* p := dgetE String.eqb (get_state_space s) "dev_p" in
    let* q := dgetE String.eqb (get_state_space s) "dev_q" in
    let* soc := dgetE String.eqb (get_state_space s) "des_soc" in
    Ok (mkSpecs (map (fun d => (d_id d, d_type d)) (sm_devs s)) p q (rendering_branch_s s) v soc).

  (** anm6.py 166-169: [np.max(np.abs([lo, hi]))] *)
  Definition largest (b : F * F) : F := np_max (nabs (fst b)) (nabs (snd b)).
  (** anm6.py 184-185: [default if x is None else x] *)
  Definition or_default (d : F) (x : option F) : F := match x with Some c => c | None => d end.

  (** anm6.py 160-192.  [clip] is [self.costs_clipping], whose elements may be None as far as this function is concerned. *)
  Definition init_render (sp : rspecs F) (clip : option F * option F) : res (init_msg F) :=
    let* ps := mapM (fun kv => let* b := dgetE String.eqb (snd kv) "MW" in Ok (largest b)) (rs_p sp) in
    let* qs := mapM (fun kv => let* d := dgetE eid_eqb (rs_q sp) (fst kv) in let* b := dgetE String.eqb d "MVAr" in Ok (largest b)) (rs_p sp) in
    let* ss := mapM (fun kv => let* b := dgetE String.eqb (snd kv) "MVA" in Ok (snd b)) (rs_s sp) in
    let* lo := mapM (fun kv => let* b := dgetE String.eqb (snd kv) "pu" in Ok (fst b)) (rs_v sp) in
    let* hi := mapM (fun kv => let* b := dgetE String.eqb (snd kv) "pu" in Ok (snd b)) (rs_v sp) in
    let* soc := mapM (fun kv => let* b := dgetE String.eqb (snd kv) "MWh" in Ok (snd b)) (rs_soc sp) in
    Ok (mkMsg (map snd (rs_type sp)) ps qs ss lo hi soc (or_default (nofZ 100) (fst clip)) (or_default (nofZ 10000) (snd clip))).

  (** The message sent by the first [render] of an environment (anm6.py 81-90): [self.costs_clipping] was normalised by anm_env.py 125-130. *)
  Definition first_message {G : Type} (e : env F G) : res (init_msg F) :=
    let* sp := rendering_specs (e_sim e) in
    init_render sp (Some (fst (e_clip e)), Some (snd (e_clip e))).
End Render.
