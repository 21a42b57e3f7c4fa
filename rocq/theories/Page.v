(** Model of the page shown by the browser: gym_anm/envs/anm6_env/rendering/js/{init,graph,devices,dateTime,reward,text}.js, and the time array of
    rendering/py/rendering.py 144.  The page is the drawing network.svg whose elements the scripts modify; [dom] records the modifications. *)
From Verif Require Import Base Num Anm6 Message SvgLabels.
Local Open Scope string_scope.
Local Open Scope list_scope.
Local Open Scope num_scope.

(** What the scripts write: attributes [height], [width], [y]; [style.fill], [style.stroke]; [innerHTML]; the angle of the rotation appended to an arrow by
    [initArrowDirection] (its centre is not modelled). *)
Inductive attr := AHeight | AWidth | AY | AFill | AStroke | AText | ARotate.
Definition attr_eqb (a b : attr) : bool :=
  match a, b with
  | AHeight, AHeight | AWidth, AWidth | AY, AY | AFill, AFill | AStroke, AStroke | AText, AText | ARotate, ARotate => true
  | _, _ => false
  end.

Section Page.
  Context {F : Type} {N : Num F}.

  (** Pieces of text.  The conversions of numbers to text are those of the browser and are kept symbolic: [PFixed x k] is [x.toFixed(k)],
      [PPrec x k] is [x.toPrecision(k)], [PNum x] is [x.toString()]; [PInt] is a whole number. *)
  Inductive piece := PStr (s : string) | PFixed (x : F) (k : nat) | PPrec (x : F) (k : nat) | PNum (x : F) | PInt (z : Z).
  Inductive aval := VNum (x : F) | VColor (c : string) | VText (t : list piece) | VAngle (z : Z).

  (** The modifications, newest first; [look]: the current value of an attribute that was modified *)
  Definition dom := list (string * attr * aval).
  Fixpoint look (d : dom) (i : string) (a : attr) : option aval :=
    match d with
    | [] => None
    | (i', a', v) :: d' => if (String.eqb i i' && attr_eqb a a')%bool then Some v else look d' i a
    end.

  (** Scripts modify the page and may raise: [TypeErr] is JavaScript's TypeError. *)
  Definition script (A : Type) := dom -> dom * res A.
  Definition sret {A} (a : A) : script A := fun d => (d, Ok a).
  Definition sthen {A B} (m : script A) (k : A -> script B) : script B :=
    fun d => match m d with (d', Ok a) => k a d' | (d', Err e) => (d', Err e) end.
  (** [getElementById] gives null for an ID that is not in the drawing, and null has no attributes *)
  Definition in_svg (i : string) : bool := existsb (String.eqb i) svg_ids.
  Definition put (i : string) (a : attr) (v : aval) : script unit := fun d => if in_svg i then ((i, a, v) :: d, Ok tt) else (d, Err TypeErr).
  (** assigning [undefined] to a style property changes nothing *)
  Definition put_fill (i : string) (c : option string) : script unit :=
    match c with Some c => put i AFill (VColor c) | None => fun d => if in_svg i then (d, Ok tt) else (d, Err TypeErr) end.
  (** An entry of an array used as a number or as an ID.  Simplification: the missing entry (undefined) raises where it is read; in the scripts it raises a little
      later, at the first [toFixed], [toPrecision] or attribute of null, after some other attributes were set (in [StorageUnit] the tick would show "undefined"). *)
  Definition entry {A} (o : option A) : script A := fun d => match o with Some a => (d, Ok a) | None => (d, Err TypeErr) end.
  Fixpoint each {A} (f : A -> script unit) (l : list A) : script unit :=
    match l with [] => sret tt | a :: l' => sthen (f a) (fun _ => each f l') end.
  Fixpoint collect {A B} (f : nat -> A -> script B) (i : nat) (l : list A) : script (list B) :=
    match l with [] => sret [] | a :: l' => sthen (f i a) (fun b => sthen (collect f (S i) l') (fun bs => sret (b :: bs))) end.
  Notation "'do' x <- m ;; k" := (sthen m (fun x => k)) (at level 200, x name, m at level 100, k at level 200).
  Notation "m ;;; k" := (sthen m (fun _ => k)) (at level 199, k at level 200, right associativity).

  (** svgLabels.js 20, 27-29 *)
  Definition p_height : F := nrat 198 10.
  Definition i_height : F := nrat 246 10.
  Definition soc_height : F := nrat 198 10.
  Definition rw_width : F := nrat 938 10.
  (** the [y] attributes of the two red bars in network.svg (elements rect4394 and rect4421) *)
  Definition svg_y (i : string) : F :=
    if String.eqb i "rect4394" then nrat (-17053412) 100000 else if String.eqb i "rect4421" then nrat (-17053409) 100000 else nnan.

  (** devices.js 382-393 *)
  Definition precision (x : F) : piece :=
    if (nofZ 10000000000 <? nabs x) || (nabs x <? nrat 1 10) then PPrec x 1
    else if (nofZ 1000 <=? nabs x) || (nabs x <? n1) then PPrec x 2
    else PPrec x 3.

  (** devices.js 364-375 *)
  Definition init_arrow (i : string) : script unit := put i ARotate (VAngle 0).

  (** devices.js 19-64; [do_gen]: isNonSlackGen, [do_poty]: pPotentialY (only read when [do_gen]) *)
  Record dev_obj := mkDo { do_lab : dev_label; do_load : bool; do_gen : bool; do_pmax : F; do_qmax : F; do_poty : F }.
  Definition get_y (i : string) : script F := fun d => (d, Ok (match look d i AY with Some (VNum y) => y | _ => svg_y i end)).
  Definition new_device (L : dev_label) (ty : Z) (pmax qmax : F) : script dev_obj :=
    let gen := (Z.eqb ty 1 || Z.eqb ty 2)%bool in
    put (dl_ptick L) AText (VText [PFixed pmax 0]) ;;;
    put (dl_qtick L) AText (VText [PFixed qmax 0]) ;;;
    do y <- (if gen then do r <- entry (dl_pot L) ;; put r AHeight (VNum n0) ;;; put r AFill (VColor pot_color) ;;; get_y r else sret nnan) ;;
    init_arrow (dl_arrow L) ;;;
    sret (mkDo L (Z.ltb ty 0) gen pmax qmax y).

  (** devices.js 137-149 *)
  Definition dev_angle (load : bool) (p : F) : Z := if load then (if n0 <? p then 180%Z else 0%Z) else (if p <? n0 then 180%Z else 0%Z).
  (** devices.js 73-131; [pot]: the potential power, absent when undefined, so that [p_pot > p] is false *)
  Definition bar (h lo hi x : F) : F := np_min (h * (nabs x - lo) / (hi - lo)) h.
  Definition update_device (o : dev_obj) (p q : F) (pot : option F) : script unit :=
    let L := do_lab o in
    let pbar := bar p_height n0 (do_pmax o) p in
    let qbar := bar p_height n0 (do_qmax o) q in
    put (dl_prect L) AHeight (VNum pbar) ;;;
    put (dl_prect L) AFill (VColor (if n0 <=? p then gen_color else load_color)) ;;;
    put (dl_qrect L) AHeight (VNum qbar) ;;;
    put (dl_qrect L) AFill (VColor (if n0 <=? q then gen_color else load_color)) ;;;
    put (dl_ptext L) AText (VText [precision p; PStr " "; PStr "MW"]) ;;;
    put (dl_qtext L) AText (VText [precision q; PStr " "; PStr "MVAr"]) ;;;
    (if do_gen o then
       do r <- entry (dl_pot L) ;;
       let up := match pot with Some x => p <? x | None => false end in
       let x := match pot with Some x => x | None => n0 end in
       put r AHeight (VNum (if up then p_height * (x - n0) / (do_pmax o - n0) - pbar else n0)) ;;;
       put r AY (VNum ((if up then pbar else n0) + do_poty o))
     else sret tt) ;;;
    put (dl_arrow L) ARotate (VAngle (dev_angle (do_load o) p)).

  (** devices.js 162-203 *)
  Record line_obj := mkLo { lo_lab : line_label; lo_max : F }.
  Definition new_line (L : line_label) (rate : F) : script line_obj :=
    each (fun i => put i AStroke (VColor "none")) (ll_cross L) ;;;
    each init_arrow (ll_arrows L) ;;;
    sret (mkLo L rate).
  (** devices.js 209-259.  [Math.round(x)] is the floor of [x + 1/2], here the truncation, as [x] is at least 0 (when the rate is not negative; its value for the
      doubles just below 1/2 is not modelled); an index below 0 or NaN gives undefined. *)
  Definition round_index (x : F) : option string :=
    match ntrunc (np_min (nofZ 100) x + nrat 1 2) with
    | Some k => if (k - 1 <? 0)%Z then None else nth_error color_gradient (Z.to_nat (k - 1))
    | None => None
    end.
  Definition update_line (o : line_obj) (s : F) : script unit :=
    let L := lo_lab o in
    let pc := nofZ 100 * (nabs s - n0) / (lo_max o - n0) in
    put (ll_rect L) AHeight (VNum (bar i_height n0 (lo_max o) s)) ;;;
    put_fill (ll_rect L) (round_index pc) ;;;
    put (ll_text L) AText (VText [precision pc; PStr " %"]) ;;;
    each (fun i => put i AStroke (VColor (if nofZ 100 <? pc then broken_color else "none"))) (ll_cross L) ;;;
    each (fun i => put i ARotate (VAngle (dev_angle false s))) (ll_arrows L).

  (** devices.js 325-358 *)
  Record stor_obj := mkSo { so_lab : stor_label; so_max : F }.
  Definition new_storage (L : stor_label) (mx : F) : script stor_obj := put (sl_tick L) AText (VText [PNum mx]) ;;; sret (mkSo L mx).
  Definition update_storage (o : stor_obj) (x : F) : script unit :=
    let L := so_lab o in
    put (sl_rect L) AHeight (VNum (soc_height * (x - n0) / (so_max o - n0))) ;;;
    put (sl_rect L) AFill (VColor soc_color) ;;;
    put (sl_text L) AText (VText [precision x; PStr " "; PStr "MWh"]).

  (** devices.js 273-311 *)
  Record bus_obj := mkBo { bo_lab : bus_label; bo_min : F; bo_max : F }.
  Definition new_bus (L : bus_label) (lo hi : F) : script bus_obj := each (fun i => put i AStroke (VColor "none")) (bl_cross L) ;;; sret (mkBo L lo hi).
  Definition update_bus (o : bus_obj) (v : F) : script unit :=
    let L := bo_lab o in
    put (bl_text L) AText (VText [PStr "|V| = "; precision v; PStr " "; PStr "pu"]) ;;;
    each (fun i => put i AStroke (VColor (if ((v <? bo_min o) || (bo_max o <? v))%bool then broken_color else "none"))) (bl_cross L).

  (** graph.js 32-82: one object per label; labels beyond the end of an array of the message raise, entries of the message beyond the labels are not shown *)
  Record graph := mkGraph { gr_devs : list dev_obj; gr_lines : list line_obj; gr_stor : list stor_obj; gr_buses : list bus_obj }.
  Definition new_graph (m : init_msg F) : script graph :=
    do ds <- collect (fun i L => do t <- entry (nth_error (im_type m) i) ;; do p <- entry (nth_error (im_p m) i) ;; do q <- entry (nth_error (im_q m) i) ;; new_device L t p q) 0 svg_devices ;;
    do ls <- collect (fun i L => do s <- entry (nth_error (im_s m) i) ;; new_line L s) 0 svg_lines ;;
    do ss <- collect (fun i L => do s <- entry (nth_error (im_soc m) i) ;; new_storage L s) 0 svg_storage ;;
    do bs <- collect (fun i L => do lo <- entry (nth_error (im_vmin m) i) ;; do hi <- entry (nth_error (im_vmax m) i) ;; new_bus L lo hi) 0 svg_buses ;;
    sret (mkGraph ds ls ss bs).

  (** graph.js 98-126; [i]: index of the device, [k]: pPotIdx *)
  Fixpoint update_devices (f : frame F) (i k : nat) (ds : list dev_obj) : script unit :=
    match ds with
    | [] => sret tt
    | o :: ds' =>
        do p <- entry (nth_error (fr_dev_p f) i) ;; do q <- entry (nth_error (fr_dev_q f) i) ;;
        update_device o p q (if do_gen o then nth_error (fr_gen f) k else None) ;;;
        update_devices f (S i) (if do_gen o then S k else k) ds'
    end.
  Definition update_graph (g : graph) (f : frame F) : script unit :=
    update_devices f 0 0 (gr_devs g) ;;;
    do _u <- collect (fun i o => do s <- entry (nth_error (fr_branch_s f) i) ;; update_line o s) 0 (gr_lines g) ;;
    do _v <- collect (fun i o => do s <- entry (nth_error (fr_soc f) i) ;; update_storage o s) 0 (gr_stor g) ;;
    do _w <- collect (fun i o => do v <- entry (nth_error (fr_bus_v f) i) ;; update_bus o v) 0 (gr_buses g) ;;
    sret tt.

  (** rendering.py 144: month, day, hour and minute of a date.  [datetime] is Python's proleptic Gregorian calendar; dates are minutes since 2020-01-01 00:00 (as in
      Anm6.v), 7305 days after 2000-01-01, and the calendar repeats itself after 146097 days. *)
  Definition leapb (y : Z) : bool := (Z.eqb (y mod 4) 0 && (negb (Z.eqb (y mod 100) 0) || Z.eqb (y mod 400) 0))%bool.
  Definition month_lengths (leap : bool) : list Z := [31; if leap then 29 else 28; 31; 30; 31; 30; 31; 31; 30; 31; 30; 31]%Z.
  Fixpoint find_year (fuel : nat) (y n : Z) : Z * Z :=
    let len := if leapb y then 366%Z else 365%Z in
    match fuel with
    | O => (y, n)
    | S k => if (n <? len)%Z then (y, n) else find_year k (y + 1) (n - len)
    end.
  Fixpoint find_month (m n : Z) (l : list Z) : Z * Z :=
    match l with
    | [] => (m, n)
    | len :: l' => if (n <? len)%Z then (m, (n + 1)%Z) else find_month (m + 1) (n - len) l'
    end.
  Definition month_day (date : Z) : Z * Z :=
    let '(y, n) := find_year 400 2000 ((date / 1440 + 7305) mod 146097)%Z in find_month 1 n (month_lengths (leapb y)).
  Definition hour_minute (date : Z) : Z * Z := ((date mod 1440) / 60, date mod 60)%Z.

  (** dateTime.js *)
  Definition months : list string := ["January"; "February"; "March"; "April"; "May"; "June"; "July"; "August"; "September"; "October"; "November"; "December"].
  Definition month_name (m : Z) : string := if (m - 1 <? 0)%Z then "undefined" else nth (Z.to_nat (m - 1)) months "undefined".
  Definition two_digits (z : Z) : list piece := if (z <? 10)%Z then [PStr "0"; PInt z] else [PInt z].
  Definition update_date (md : Z * Z) : script unit := put lb_date AText (VText [PStr (month_name (fst md)); PStr " "; PInt (snd md)]).
  Definition update_time (hm : Z * Z) : script unit := put lb_time AText (VText (two_digits (fst hm) ++ [PStr ":"] ++ two_digits (snd hm))).
  Definition update_year (y : Z) : script unit := put lb_year AText (VText [PStr "Year count: "; PInt y]).

  (** reward.js; [toPrecision(undefined)] (12: [numPrecision] does not exist) is [toString] *)
  Definition new_reward (eloss pen : F) : script (F * F) :=
    put rw_loss_max AText (VText [PNum eloss]) ;;; put rw_pen_max AText (VText [PNum pen]) ;;;
    put rw_loss_rect AWidth (VNum n0) ;;; put rw_loss_rect AFill (VColor neg_color) ;;;
    put rw_pen_rect AWidth (VNum n0) ;;; put rw_pen_rect AFill (VColor neg_color) ;;;
    sret (eloss, pen).
  Definition update_reward (mx : F * F) (eloss pen : F) : script unit :=
    put rw_loss_rect AWidth (VNum (np_min (rw_width * nabs eloss / fst mx) rw_width)) ;;;
    put rw_loss_rect AFill (VColor (if n0 <? eloss then neg_color else pos_color)) ;;;
    put rw_pen_rect AWidth (VNum (np_min (rw_width * pen / snd mx) rw_width)) ;;;
    put rw_loss_text AText (VText [PFixed eloss 2]) ;;;
    put rw_pen_text AText (VText [PFixed pen 2]).

  (** text.js *)
  Definition add_title (t : string) : script unit := put lb_title AText (VText [PStr t]).
  Definition show_collapsed (c : bool) : script unit :=
    put lb_check AText (VText [PStr (if c then "check mark" else "")]) ;;;
    each (fun i => put i AFill (VColor (if c then "#ff0000" else "#000000"))) lb_group.

  (** init.js 7-10, 16: the variables of the page; 44-74: the messages.  [title] is the title of the first message.  A browser reports an exception of a message
      handler on its console and goes on with the next message. *)
  Record page := mkPage { pg_dom : dom; pg_graph : option graph; pg_reward : option (F * F) }.
  Definition blank : page := mkPage [] None None.
  Inductive page_msg := GInit (m : init_msg F) (title : string) | GUpdate (f : frame F).
  Definition on_message (g : page) (x : page_msg) : page * res unit :=
    match x with
    | GInit m title =>
        match new_graph m (pg_dom g) with
        | (d, Err e) => (mkPage d (pg_graph g) (pg_reward g), Err e)
        | (d, Ok gr) =>
            match (add_title title ;;; new_reward (im_eloss m) (im_pen m)) d with
            | (d', Err e) => (mkPage d' (Some gr) (pg_reward g), Err e)
            | (d', Ok r) => (mkPage d' (Some gr) (Some r), Ok tt)
            end
        end
    | GUpdate f =>
        let '(d, r) :=
          (do gr <- entry (pg_graph g) ;;
           update_graph gr f ;;;
           update_date (month_day (fr_date f)) ;;;
           update_time (hour_minute (fr_date f)) ;;;
           update_year (fr_year f) ;;;
           do mx <- entry (pg_reward g) ;; do x <- entry (nth_error (fr_costs f) 0) ;; do y <- entry (nth_error (fr_costs f) 1) ;;
           update_reward mx x y ;;;
           show_collapsed (fr_collapsed f)) (pg_dom g)
        in (mkPage d (pg_graph g) (pg_reward g), r)
    end.
  (** a page that receives messages one after the other: its final state, and what the message handlers raised *)
  Fixpoint page_run (g : page) (l : list page_msg) : page * list (res unit) :=
    match l with
    | [] => (g, [])
    | x :: l' => let '(g', r) := on_message g x in let '(g'', rs) := page_run g' l' in (g'', r :: rs)
    end.
End Page.
