(** Electrical devices: gym_anm/simulator/components/devices.py. *)
From Verif Require Import Base Num.
Local Open Scope num_scope.

(** One row of the [device] array of a network file (constants.py 2-18); a cell
    holding [None] is [None].  Simplification: IDs and types are integers. *)
Record dev_row (F : Type) := mkDevRow {
  dr_id : option Z; dr_bus : option Z; dr_type : option Z;
  dr_qp : option F; dr_pmax : option F; dr_pmin : option F;
  dr_qmax : option F; dr_qmin : option F;
  dr_pplus : option F; dr_pminus : option F;
  dr_qplus : option F; dr_qminus : option F;
  dr_socmax : option F; dr_socmin : option F; dr_eff : option F
}.
Arguments mkDevRow {F}.
Arguments dr_id {F}. Arguments dr_bus {F}. Arguments dr_type {F}.
Arguments dr_qp {F}. Arguments dr_pmax {F}. Arguments dr_pmin {F}.
Arguments dr_qmax {F}. Arguments dr_qmin {F}. Arguments dr_pplus {F}.
Arguments dr_pminus {F}. Arguments dr_qplus {F}. Arguments dr_qminus {F}.
Arguments dr_socmax {F}. Arguments dr_socmin {F}. Arguments dr_eff {F}.

(** Attributes of a [Load] set by its checks (devices.py 126-154), in p.u. *)
Record load_spec (F : Type) := mkLoad {
  l_qp : F; l_pmin : F; l_pmax : F; l_qmin : F; l_qmax : F }.
Arguments mkLoad {F}. Arguments l_qp {F}. Arguments l_pmin {F}. Arguments l_pmax {F}.
Arguments l_qmin {F}. Arguments l_qmax {F}.

(** Attributes of a [Generator] (devices.py 189-278), in p.u. *)
Record gen_spec (F : Type) := mkGen {
  g_pmin : F; g_pmax : F; g_qmin : F; g_qmax : F;
  g_pplus : F; g_qplus : F; g_qminus : F;
  g_tau1 : F; g_tau2 : F; g_rho1 : F; g_rho2 : F }.
Arguments mkGen {F}. Arguments g_pmin {F}. Arguments g_pmax {F}. Arguments g_qmin {F}.
Arguments g_qmax {F}. Arguments g_pplus {F}. Arguments g_qplus {F}. Arguments g_qminus {F}.
Arguments g_tau1 {F}. Arguments g_tau2 {F}. Arguments g_rho1 {F}. Arguments g_rho2 {F}.

(** Attributes of a [StorageUnit] (devices.py 338-470), in p.u. *)
Record stor_spec (F : Type) := mkStor {
  s_pmin : F; s_pmax : F; s_qmin : F; s_qmax : F;
  s_pplus : F; s_pminus : F; s_qplus : F; s_qminus : F;
  s_tau1 : F; s_tau2 : F; s_rho1 : F; s_rho2 : F;
  s_tau3 : F; s_tau4 : F; s_rho3 : F; s_rho4 : F;
  s_socmin : F; s_socmax : F; s_eff : F }.
Arguments mkStor {F}. Arguments s_pmin {F}. Arguments s_pmax {F}. Arguments s_qmin {F}.
Arguments s_qmax {F}. Arguments s_pplus {F}. Arguments s_pminus {F}. Arguments s_qplus {F}.
Arguments s_qminus {F}. Arguments s_tau1 {F}. Arguments s_tau2 {F}. Arguments s_rho1 {F}.
Arguments s_rho2 {F}. Arguments s_tau3 {F}. Arguments s_tau4 {F}. Arguments s_rho3 {F}.
Arguments s_rho4 {F}. Arguments s_socmin {F}. Arguments s_socmax {F}. Arguments s_eff {F}.

(** The class of the object: [Load], [Generator] or [StorageUnit].
    [RenewableGen] is a [Generator] of type 2, the slack device one of type 0. *)
Inductive dspec (F : Type) :=
| SLoad (l : load_spec F)
| SGen (g : gen_spec F)
| SStor (s : stor_spec F).
Arguments SLoad {F}. Arguments SGen {F}. Arguments SStor {F}.

(** A device object (devices.py 57-110).  [d_p], [d_q], [d_ppot] hold [None] in
    Python before the first transition; the code never reads them before
    writing, so the model starts them at a number.  [d_soc = None] is kept. *)
Record device (F : Type) := mkDev {
  d_id : Z; d_bus : Z; d_type : Z; d_spec : dspec F;
  d_p : F; d_q : F; d_ppot : F; d_soc : option F }.
Arguments mkDev {F}. Arguments d_id {F}. Arguments d_bus {F}. Arguments d_type {F}.
Arguments d_spec {F}. Arguments d_p {F}. Arguments d_q {F}. Arguments d_ppot {F}.
Arguments d_soc {F}.

(** One linear inequality [qa * P + qb * Q <= qh] of the set-point QP. *)
Record qrow (F : Type) := mkRow { qa : F; qb : F; qh : F }.
Arguments mkRow {F}. Arguments qa {F}. Arguments qb {F}. Arguments qh {F}.

(** The external QP solver: [cp.Problem(Minimize(sum_squares(x - point)),
    [G @ x <= h]).solve()] followed by reading [x.value] (devices.py 298-304,
    516-522).  It may return anything or raise (reading [x.value[0]] raises
    TypeError when the problem is infeasible). *)
Definition qp_solver (F : Type) := list (qrow F) -> F * F -> res (F * F).

Section Devices.
  Context {F : Type} {N : Num F}.

  (** devices.py 45, 90-93: [is_slack] *)
  Definition d_slack (d : device F) : bool := Z.eqb (d_type d) 0.
  (** isinstance tests *)
  Definition is_load (d : device F) : bool := match d_spec d with SLoad _ => true | _ => false end.
  Definition is_gen (d : device F) : bool := match d_spec d with SGen _ => true | _ => false end.
  Definition is_stor (d : device F) : bool := match d_spec d with SStor _ => true | _ => false end.
  (** isinstance(d, RenewableGen): simulator.py 167-168 creates it iff DEV_TYPE = 2 *)
  Definition is_rer (d : device F) : bool := is_gen d && Z.eqb (d_type d) 2.
  (** isinstance(d, Generator) and not d.is_slack *)
  Definition is_nsgen (d : device F) : bool := is_gen d && negb (d_slack d).

  (** p_min, p_max, q_min, q_max attributes of any device *)
  Definition d_pmin (d : device F) : F :=
    match d_spec d with SLoad l => l_pmin l | SGen g => g_pmin g | SStor s => s_pmin s end.
  Definition d_pmax (d : device F) : F :=
    match d_spec d with SLoad l => l_pmax l | SGen g => g_pmax g | SStor s => s_pmax s end.
  Definition d_qmin (d : device F) : F :=
    match d_spec d with SLoad l => l_qmin l | SGen g => g_qmin g | SStor s => s_qmin s end.
  Definition d_qmax (d : device F) : F :=
    match d_spec d with SLoad l => l_qmax l | SGen g => g_qmax g | SStor s => s_qmax s end.

  (** devices.py 126-154.  Note: PMAX is *not* divided by baseMVA (lines 135-141). *)
  Definition load_check (r : dev_row F) (ty : Z) (base : F) : res (load_spec F) :=
    let* _ := raise_if (negb (Z.eqb ty (-1))) LoadSpecError in
    let* qp := match dr_qp r with None => Err LoadSpecError | Some v => Ok v end in
    let* pmax := match dr_pmax r with
                 | None => Ok n0
                 | Some v => if n0 <? v then Err LoadSpecError else Ok v
                 end in
    let pmin := match dr_pmin r with None => nninf | Some v => v / base end in
    let* _ := raise_if (pmax <? pmin) LoadSpecError in
    Ok (mkLoad qp pmin pmax (pmin * qp) (pmax * qp)).

  (** devices.py 189-278 *)
  Definition gen_check (r : dev_row F) (slack : bool) (base : F) : res (gen_spec F) :=
    let* pmax := match dr_pmax r with
                 | None => Ok ninf
                 | Some v => if (v <? n0) && negb slack then Err GenSpecError else Ok (v / base)
                 end in
    let* pmin := match dr_pmin r with
                 | None => Ok (if slack then nninf else n0)
                 | Some v => if (v <? n0) && negb slack then Err GenSpecError else Ok (v / base)
                 end in
    let* _ := raise_if (pmax <? pmin) GenSpecError in
    let qmax := match dr_qmax r with None => ninf | Some v => v / base end in
    let qmin := match dr_qmin r with None => nninf | Some v => v / base end in
    let* _ := raise_if (qmax <? qmin) GenSpecError in
    let pplus := match dr_pplus r with None => pmax | Some v => v / base end in
    let* _ := raise_if (pplus <? pmin) GenSpecError in
    let* _ := raise_if (pmax <? pplus) GenSpecError in
    let qplus := match dr_qplus r with None => qmax | Some v => v / base end in
    let* _ := raise_if (qmax <? qplus) GenSpecError in
    let qminus := match dr_qminus r with None => qmin | Some v => v / base end in
    let* _ := raise_if (qminus <? qmin) GenSpecError in
    let* _ := raise_if (qplus <? qminus) GenSpecError in
    let tau1 := if pmax =? pplus then n0 else (qplus - qmax) / (pmax - pplus) in
    let tau2 := if pmax =? pplus then n0 else (qminus - qmin) / (pmax - pplus) in
    let rho1 := qmax - tau1 * pplus in
    let rho2 := qmin - tau2 * pplus in
    Ok (mkGen pmin pmax qmin qmax pplus qplus qminus tau1 tau2 rho1 rho2).

  (** devices.py 338-470 *)
  Definition stor_check (r : dev_row F) (base : F) : res (stor_spec F) :=
    let* pmax := match dr_pmax r with
                 | None => Ok ninf
                 | Some v => if v <? n0 then Err StorageSpecError else Ok (v / base)
                 end in
    let* pmin := match dr_pmin r with
                 | None => Ok nninf
                 | Some v => if n0 <? v then Err StorageSpecError else Ok (v / base)
                 end in
    let* _ := raise_if (pmax <? pmin) StorageSpecError in
    let qmax := match dr_qmax r with None => ninf | Some v => v / base end in
    let qmin := match dr_qmin r with None => nninf | Some v => v / base end in
    let* _ := raise_if (qmax <? qmin) StorageSpecError in
    let pplus := match dr_pplus r with None => pmax | Some v => v / base end in
    let* _ := raise_if (pplus <? pmin) StorageSpecError in
    let* _ := raise_if (pmax <? pplus) StorageSpecError in
    let pminus := match dr_pminus r with None => pmin | Some v => v / base end in
    let* _ := raise_if (pminus <? pmin) StorageSpecError in
    let* _ := raise_if (pmax <? pminus) StorageSpecError in
    let* _ := raise_if (pplus <? pminus) StorageSpecError in
    let qplus := match dr_qplus r with None => qmax | Some v => v / base end in
    let* _ := raise_if (qmax <? qplus) StorageSpecError in
    let qminus := match dr_qminus r with None => qmin | Some v => v / base end in
    let* _ := raise_if (qminus <? qmin) StorageSpecError in
    let* _ := raise_if (qplus <? qminus) StorageSpecError in
    let tau1 := if pmax =? pplus then n0 else (qplus - qmax) / (pmax - pplus) in
    let tau2 := if pmax =? pplus then n0 else (qminus - qmin) / (pmax - pplus) in
    let rho1 := qmax - tau1 * pplus in
    let rho2 := qmin - tau2 * pplus in
    let tau3 := if pmin =? pminus then n0 else (qmin - qminus) / (pminus - pmin) in
    let tau4 := if pmin =? pminus then n0 else (qmax - qplus) / (pminus - pmin) in
    let rho3 := qmin - tau3 * pminus in
    let rho4 := qmax - tau4 * pminus in
    let* socmin := match dr_socmin r with
                   | None => Ok n0
                   | Some v => if v <? n0 then Err StorageSpecError else Ok (v / base)
                   end in
    let* socmax := match dr_socmax r with
                   | None => Err StorageSpecError
                   | Some v => if v <? n0 then Err StorageSpecError else Ok (v / base)
                   end in
    let* _ := raise_if (socmax <? socmin) StorageSpecError in
    let* eff := match dr_eff r with
                | None => Ok n1
                | Some v => if (v <? n0) || (n1 <? v) then Err StorageSpecError else Ok v
                end in
    Ok (mkStor pmin pmax qmin qmax pplus pminus qplus qminus
               tau1 tau2 rho1 rho2 tau3 tau4 rho3 rho4 socmin socmax eff).

  (** The Python class whose constructor is called. *)
  Inductive dclass := CLoad | CGen | CStor.

  (** devices.py 57-110 ([Device.__init__]) and 121-124, 175-187, 334-336.
      For a type outside {-1,..,3}, the error message [" ... %d ... %s" % allowed]
      (line 88) itself raises TypeError because [allowed] is a list. *)
  Definition dev_init (c : dclass) (r : dev_row F) (bus_ids : list Z) (base : F)
    : res (device F) :=
    let* id := match dr_id r with None => Err DeviceSpecError | Some v => Ok v end in
    let* bus := match dr_bus r with
                | None => Err DeviceSpecError
                | Some b => if zmem b bus_ids then Ok b else Err DeviceSpecError
                end in
    let* ty := match dr_type r with
               | None => Err TypeErr
               | Some t => if zmem t [-1; 0; 1; 2; 3]%Z then Ok t else Err TypeErr
               end in
    match c with
    | CLoad =>
        let* l := load_check r ty base in
        Ok (mkDev id bus ty (SLoad l) n0 n0 n0 None)
    | CGen =>
        let* g := gen_check r (Z.eqb ty 0) base in
        (* line 179: self.p_pot = self.p_max, through the clipping setter *)
        Ok (mkDev id bus ty (SGen g) n0 n0 (np_clip (g_pmax g) (g_pmin g) (g_pmax g)) None)
    | CStor =>
        let* s := stor_check r base in
        Ok (mkDev id bus ty (SStor s) n0 n0 n0 None)
    end.

  (** attribute assignments *)
  Definition d_set_pq (d : device F) (p q : F) : device F :=
    mkDev (d_id d) (d_bus d) (d_type d) (d_spec d) p q (d_ppot d) (d_soc d).
  Definition d_set_ppot (d : device F) (v : F) : device F :=
    mkDev (d_id d) (d_bus d) (d_type d) (d_spec d) (d_p d) (d_q d) v (d_soc d).
  Definition d_set_soc (d : device F) (v : F) : device F :=
    mkDev (d_id d) (d_bus d) (d_type d) (d_spec d) (d_p d) (d_q d) (d_ppot d) (Some v).

  (** devices.py 156-167 ([Load.map_pq]): new (p, q) *)
  Definition load_map_pq (l : load_spec F) (p : F) : F * F :=
    let p' := np_clip p (l_pmin l) (l_pmax l) in (p', p' * l_qp l).

  (** devices.py 185-187: the [p_pot] setter *)
  Definition gen_clip_ppot (g : gen_spec F) (v : F) : F := np_clip v (g_pmin g) (g_pmax g).

  (** devices.py 293-296: rows of G and h *)
  Definition gen_rows (g : gen_spec F) (ppot : F) : list (qrow F) :=
    [ mkRow (- n1) n0 (- g_pmin g);
      mkRow n1 n0 (g_pmax g);
      mkRow n1 n0 ppot;
      mkRow n0 (- n1) (- g_qmin g);
      mkRow n0 n1 (g_qmax g);
      mkRow (- g_tau1 g) n1 (g_rho1 g);
      mkRow (g_tau2 g) (- n1) (- g_rho2 g) ].

  (** devices.py 280-304 ([Generator.map_pq]): new (p, q) *)
  Definition gen_map_pq (qp : qp_solver F) (g : gen_spec F) (ppot p q : F) : res (F * F) :=
    qp (gen_rows g ppot) (p, q).

  (** devices.py 485-514: rows of G and h.  In the (usual) object-dtype network
      arrays the two divisions are Python float divisions and raise on zero. *)
  Definition stor_rows (s : stor_spec F) (soc dt : F) : res (list (qrow F)) :=
    let* hlo := pydiv (- (soc - s_socmax s)) (dt * s_eff s) in
    let* hhi := pydiv (s_eff s * (soc - s_socmin s)) dt in
    Ok [ mkRow (- n1) n0 (- s_pmin s);
         mkRow n1 n0 (s_pmax s);
         mkRow n0 (- n1) (- s_qmin s);
         mkRow n0 n1 (s_qmax s);
         mkRow (- s_tau1 s) n1 (s_rho1 s);
         mkRow (s_tau2 s) (- n1) (- s_rho2 s);
         mkRow (s_tau3 s) (- n1) (- s_rho3 s);
         mkRow (- s_tau4 s) n1 (s_rho4 s);
         mkRow (- n1) n0 hlo;
         mkRow n1 n0 hhi ].

  (** devices.py 472-522 ([StorageUnit.map_pq]): new (p, q).  [soc = None] (never
      reset) makes [self.soc - self.soc_max] raise TypeError. *)
  Definition stor_map_pq (qp : qp_solver F) (s : stor_spec F) (soc : option F) (p q dt : F)
    : res (F * F) :=
    match soc with
    | None => Err TypeErr
    | Some c => let* rows := stor_rows s c dt in qp rows (p, q)
    end.

  (** devices.py 524-545 ([StorageUnit.update_soc]): new SoC *)
  Definition stor_update_soc (s : stor_spec F) (soc p dt : F) : F :=
    let soc' := if p <=? n0 then soc - dt * s_eff s * p else soc - dt * p / s_eff s in
    np_clip soc' (s_socmin s) (s_socmax s).
End Devices.
