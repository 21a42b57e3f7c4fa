(** What a reader of the picture of the 6-bus network sees: the vocabulary of C85 and C86, in exact arithmetic. *)
From Coq Require Import Reals Lra.
From Verif Require Import Base Num NumXR LibXR Anm6 Message SpecAnm6 SvgLabels Page.
Local Open Scope R_scope.
Local Open Scope string_scope.
Local Open Scope list_scope.

(** The attributes of an element of the picture. *)
Definition height (d : @dom XR) (i : string) (h : R) : Prop := look d i AHeight = Some (VNum (Fin h)).
Definition width (d : @dom XR) (i : string) (w : R) : Prop := look d i AWidth = Some (VNum (Fin w)).
Definition top (d : @dom XR) (i : string) (y : R) : Prop := look d i AY = Some (VNum (Fin y)).
Definition fill (d : @dom XR) (i c : string) : Prop := look d i AFill = Some (VColor c).
Definition stroke (d : @dom XR) (i c : string) : Prop := look d i AStroke = Some (VColor c).
Definition angle (d : @dom XR) (i : string) (z : Z) : Prop := look d i ARotate = Some (VAngle z).
Definition text {F} (d : @dom F) (i : string) (t : list (@piece F)) : Prop := look d i AText = Some (VText t).
(** a bar of full height [H] for the value [mx], filled up to [x] and never beyond *)
Definition gauge (H mx x : R) : R := H * Rmin 1 (Rabs x / mx).
(** a red cross, made of the strokes [l], is drawn, or is not *)
Definition crossed (d : @dom XR) (l : list string) : Prop := forall i, In i l -> stroke d i "#ff0000".
Definition not_crossed (d : @dom XR) (l : list string) : Prop := forall i, In i l -> stroke d i "none".
(** a number shown with 1, 2 or 3 significant digits *)
Definition shown_with (x : R) (k : nat) : Prop :=
  ((Rabs x < 1/10 \/ 10000000000 < Rabs x) /\ k = 1%nat) \/
  ((1/10 <= Rabs x < 1 \/ 1000 <= Rabs x <= 10000000000) /\ k = 2%nat) \/
  (1 <= Rabs x < 1000 /\ k = 3%nat).
(** the number of generators (types 1 and 2) before device [i] *)
Fixpoint gens_before (tys : list Z) (i : nat) : nat :=
  match i, tys with
  | S i', t :: tys' => (if (t =? 1)%Z || (t =? 2)%Z then 1 else 0) + gens_before tys' i'
  | _, _ => 0
  end.

(** The drawing of a device whose power is [p], [q], and whose range is up to [pm], [qm]. *)
Record dev_drawn (d : @dom XR) (L : dev_label) (ty : Z) (pm qm p q : R) : Prop := {
  dd_ptick : text d (dl_ptick L) [PFixed (Fin pm) 0]; dd_qtick : text d (dl_qtick L) [PFixed (Fin qm) 0];
  dd_pbar : 0 < pm -> height d (dl_prect L) (gauge 19.8 pm p);
  dd_qbar : 0 < qm -> height d (dl_qrect L) (gauge 19.8 qm q);
  dd_pgreen : 0 <= p -> fill d (dl_prect L) "#31b620"; dd_pblue : p < 0 -> fill d (dl_prect L) "#4960fb";
  dd_qgreen : 0 <= q -> fill d (dl_qrect L) "#31b620"; dd_qblue : q < 0 -> fill d (dl_qrect L) "#4960fb";
  dd_ptext : exists k, text d (dl_ptext L) [PPrec (Fin p) k; PStr " "; PStr "MW"] /\ shown_with p k;
  dd_qtext : exists k, text d (dl_qtext L) [PPrec (Fin q) k; PStr " "; PStr "MVAr"] /\ shown_with q k;
  (** the arrow of a load points the other way *)
  dd_arrow : (ty < 0 -> angle d (dl_arrow L) (if Rlt_dec 0 p then 180 else 0))%Z /\ (0 <= ty -> angle d (dl_arrow L) (if Rlt_dec p 0 then 180 else 0))%Z }.
(** The red bar of a generator: with an available power [x] above its output [p], the green and the red bar together fill the gauge up to [x]; it is empty otherwise.
    [y0] is where the red bar is when it is empty. *)
Definition pot_drawn (d : @dom XR) (r : string) (y0 pm p x : R) : Prop :=
  (x <= p -> height d r 0 /\ top d r y0) /\
  (0 < pm -> 0 <= p -> p < x -> x <= pm -> exists h, height d r h /\ gauge 19.8 pm p + h = gauge 19.8 pm x /\ 0 < h /\ top d r (y0 + gauge 19.8 pm p)).
(** The drawing of a branch of rating [mx] with the apparent flow [s]. *)
Record line_drawn (d : @dom XR) (L : line_label) (mx s : R) : Prop := {
  ld_bar : height d (ll_rect L) (gauge 24.6 mx s);
  ld_color : forall k, (1 <= k <= 100)%nat -> (INR k - 1/2 <= Rmin 100 (100 * (Rabs s / mx)) < INR k + 1/2) -> exists c, nth_error color_gradient (k - 1) = Some c /\ fill d (ll_rect L) c;
  ld_text : exists k, text d (ll_text L) [PPrec (Fin (100 * Rabs s / mx)) k; PStr " %"] /\ shown_with (100 * Rabs s / mx) k;
  ld_over : mx < Rabs s -> crossed d (ll_cross L); ld_ok : Rabs s <= mx -> not_crossed d (ll_cross L);
  ld_arrows : forall i, In i (ll_arrows L) -> angle d i (if Rlt_dec s 0 then 180 else 0)%Z }.
(** The drawing of a storage unit of capacity [mx] with the state of charge [x]. *)
Record stor_drawn (d : @dom XR) (L : stor_label) (mx x : R) : Prop := {
  sd_tick : text d (sl_tick L) [PNum (Fin mx)];
  sd_bar : 0 < mx -> 0 <= x <= mx -> height d (sl_rect L) (gauge 19.8 mx x); sd_fill : fill d (sl_rect L) "#f17741";
  sd_text : exists k, text d (sl_text L) [PPrec (Fin x) k; PStr " "; PStr "MWh"] /\ shown_with x k }.
(** The drawing of a bus of voltage [v] and range [lo, hi]. *)
Record bus_drawn (d : @dom XR) (L : bus_label) (lo hi v : R) : Prop := {
  bd_text : exists k, text d (bl_text L) [PStr "|V| = "; PPrec (Fin v) k; PStr " "; PStr "pu"] /\ shown_with v k;
  bd_out : (v < lo \/ hi < v) -> crossed d (bl_cross L); bd_in : (lo <= v <= hi) -> not_crossed d (bl_cross L) }.

(** Days of the months before month [mo] of a year. *)
Definition days_in (leap : bool) (mo : Z) : Z := nth (Z.to_nat (mo - 1)) (month_lengths leap) 0%Z.
Definition days_upto (leap : bool) (mo : Z) : Z := fold_right Z.add 0%Z (firstn (Z.to_nat (mo - 1)) (month_lengths leap)).
(** [date] is [y]-[mo]-[dy] [h]:[mi] in the calendar whose years start at [jan1] *)
Definition is_date (jan1 : Z -> Z) (y mo dy h mi date : Z) : Prop :=
  (1 <= mo <= 12 /\ 0 <= h < 24 /\ 0 <= mi < 60)%Z /\
  exists leap : bool, (leap = true <-> SpecAnm6.leap y) /\ (1 <= dy <= days_in leap mo)%Z /\ date = (jan1 y + (days_upto leap mo + (dy - 1)) * 1440 + h * 60 + mi)%Z.

(** The names of the months *)
Definition month_title (mo : Z) : string :=
  match mo with
  | 1 => "January" | 2 => "February" | 3 => "March" | 4 => "April" | 5 => "May" | 6 => "June"
  | 7 => "July" | 8 => "August" | 9 => "September" | 10 => "October" | 11 => "November" | 12 => "December" | _ => ""
  end%Z.

(** The whole picture after the first message [m] and the update [f], the last of several.  The green bars of the generators, rect1227 and rect4052, start at
    y = - 170.53409 in network.svg, so the red bars have to be measured from there. *)
Record drawn (m : init_msg XR) (title : string) (f : frame XR) (d : @dom XR) : Prop := {
  dn_title : text d "text5968" [PStr title];
  dn_dev : forall i L ty pm qm p q, nth_error svg_devices i = Some L -> nth_error (im_type m) i = Some ty -> nth_error (im_p m) i = Some (Fin pm) -> nth_error (im_q m) i = Some (Fin qm) ->
    nth_error (fr_dev_p f) i = Some (Fin p) -> nth_error (fr_dev_q f) i = Some (Fin q) -> dev_drawn d L ty pm qm p q;
  dn_pot : forall i L ty pm p r x, nth_error svg_devices i = Some L -> nth_error (im_type m) i = Some ty -> (ty = 1 \/ ty = 2)%Z -> nth_error (im_p m) i = Some (Fin pm) ->
    nth_error (fr_dev_p f) i = Some (Fin p) -> dl_pot L = Some r -> nth_error (fr_gen f) (gens_before (im_type m) i) = Some (Fin x) ->
    exists y0, Rabs (y0 + 170.53409) <= 0.00003 /\ fill d r "#ff0000" /\ pot_drawn d r y0 pm p x;
  dn_line : forall i L mx s, nth_error svg_lines i = Some L -> nth_error (im_s m) i = Some (Fin mx) -> nth_error (fr_branch_s f) i = Some (Fin s) -> 0 < mx -> line_drawn d L mx s;
  dn_stor : forall i L mx x, nth_error svg_storage i = Some L -> nth_error (im_soc m) i = Some (Fin mx) -> nth_error (fr_soc f) i = Some (Fin x) -> stor_drawn d L mx x;
  dn_bus : forall i L lo hi v, nth_error svg_buses i = Some L -> nth_error (im_vmin m) i = Some (Fin lo) -> nth_error (im_vmax m) i = Some (Fin hi) ->
    nth_error (fr_bus_v f) i = Some (Fin v) -> bus_drawn d L lo hi v;
  dn_date : forall jan1 y mo dy h mi, SpecAnm6.calendar jan1 -> jan1 2020%Z = 0%Z -> is_date jan1 y mo dy h mi (fr_date f) ->
    text d "tspan5951" [PStr (month_title mo); PStr " "; PInt dy] /\
    (exists a b, text d "tspan5955" (a ++ [PStr ":"] ++ b) /\
       (a = if (h <? 10)%Z then [PStr "0"; PInt h] else [PInt h]) /\ (b = if (mi <? 10)%Z then [PStr "0"; PInt mi] else [PInt mi]));
  dn_year : text d "tspan1071" [PStr "Year count: "; PInt (fr_year f)];
  dn_costs : forall ml mp l p, im_eloss m = Fin ml -> im_pen m = Fin mp -> fr_costs f = [Fin l; Fin p] ->
    text d "text3022" [PNum (Fin ml)] /\ text d "text2992" [PNum (Fin mp)] /\ text d "text3028" [PFixed (Fin l) 2] /\ text d "text3034" [PFixed (Fin p) 2] /\
    (0 < ml -> width d "rect5879" (gauge 93.8 ml l)) /\ (0 < mp -> 0 <= p -> width d "rect5903" (gauge 93.8 mp p)) /\
    (0 < l -> fill d "rect5879" "#ff0000") /\ (l <= 0 -> fill d "rect5879" "#31b620") /\ fill d "rect5903" "#ff0000";
  dn_collapsed : (fr_collapsed f = true -> text d "text6301" [PStr "check mark"] /\ fill d "text6301" "#ff0000" /\ fill d "text1128" "#ff0000") /\
    (fr_collapsed f = false -> text d "text6301" [PStr ""] /\ fill d "text6301" "#000000" /\ fill d "text1128" "#000000") }.

(** The lengths that the picture expects, and generators only where the picture has a red bar. *)
Definition fits_msg {F} (m : init_msg F) : Prop :=
  List.length (im_type m) = 7%nat /\ List.length (im_p m) = 7%nat /\ List.length (im_q m) = 7%nat /\ List.length (im_s m) = 5%nat /\ List.length (im_soc m) = 1%nat /\
  List.length (im_vmin m) = 6%nat /\ List.length (im_vmax m) = 6%nat /\
  (forall i t, nth_error (im_type m) i = Some t -> (t = 1 \/ t = 2)%Z -> i = 2%nat \/ i = 4%nat).
Definition fits_frame {F} (f : frame F) : Prop :=
  List.length (fr_dev_p f) = 7%nat /\ List.length (fr_dev_q f) = 7%nat /\ List.length (fr_branch_s f) = 5%nat /\ List.length (fr_soc f) = 1%nat /\ List.length (fr_bus_v f) = 6%nat /\ List.length (fr_costs f) = 2%nat.
