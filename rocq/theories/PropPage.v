(** C85: what the page of the browser shows. *)
From Coq Require Import Reals Lra.
From Verif Require Import Base Num NumXR LibXR Anm6 Message SpecAnm6 SpecMessage SvgLabels Page SpecPage ProofPage ProofPage2 ProofPage3 PropEasy.
From Coq Require Import List.
Import ListNotations.
Local Open Scope string_scope.
Local Open Scope list_scope.
Local Open Scope R_scope.

(** The page handles the first message and every later update without an exception, in any arithmetic. *)
Theorem C85_never_raises : forall (F : Type) (N : Num F) (m : init_msg F) title (fs : list (frame F)), fits_msg m -> Forall fits_frame fs ->
  Forall (fun r => r = Ok tt) (snd (page_run blank (GInit m title :: map GUpdate fs))).
Proof.
  intros F N m title fs Fm H. rewrite (run_ok m title fs Fm H). cbn [snd]. constructor; [reflexivity|]. clear. induction fs; constructor; [reflexivity|exact IHfs].
Qed.

Lemma zi_some {F} {N : Num F} (l : list F) i x : nth_error l i = Some x -> zi l i = x.
Proof. intros H. unfold zi. exact (nth_error_nth l i n0 H). Qed.
Lemma ge_dec p : (if nleb (n0 (Num := XRnum)) (Fin p) then "#31b620" else "#4960fb") = if Rle_dec 0 p then "#31b620" else "#4960fb".
Proof. cbn [nleb n0 XRnum xleb]. unfold Rleb. destruct (Rle_dec 0 p); reflexivity. Qed.

Lemma dev_drawn_ok (m : init_msg XR) title f hs i L ty pm qm p q : nth_error svg_devices i = Some L -> nth_error (im_type m) i = Some ty -> nth_error (im_p m) i = Some (Fin pm) ->
  nth_error (im_q m) i = Some (Fin qm) -> nth_error (fr_dev_p f) i = Some (Fin p) -> nth_error (fr_dev_q f) i = Some (Fin q) -> dev_drawn (history m title (f :: hs)) L ty pm qm p q.
Proof.
  intros H T P Q A B. destruct (dev_attrs m title f hs i L H) as (D1 & D2 & D3 & D4 & D5 & D6 & D7 & D8 & D9 & _).
  rewrite ?(zi_some _ _ _ P), ?(zi_some _ _ _ Q), ?(zi_some _ _ _ A), ?(zi_some _ _ _ B), ?(nth_error_nth _ _ _ T) in *.
  unfold gen_color, load_color in *. rewrite ge_dec in *. rewrite p_height_XR in *.
  constructor; unfold text, height, fill, angle.
  - exact D1.
  - exact D2.
  - intros M. rewrite D3, bar_XR by lra. reflexivity.
  - intros M. rewrite D4, bar_XR by lra. reflexivity.
  - intros M. rewrite D5. destruct (Rle_dec 0 p); [reflexivity|lra].
  - intros M. rewrite D5. destruct (Rle_dec 0 p); [lra|reflexivity].
  - intros M. rewrite D6. destruct (Rle_dec 0 q); [reflexivity|lra].
  - intros M. rewrite D6. destruct (Rle_dec 0 q); [lra|reflexivity].
  - destruct (precision_XR p) as (k & E & S). exists k. rewrite D7, E. split; [reflexivity|exact S].
  - destruct (precision_XR q) as (k & E & S). exists k. rewrite D8, E. split; [reflexivity|exact S].
  - rewrite D9. split; intros Ty; unfold dev_angle; cbn [nltb n0 XRnum xltb]; unfold Rltb.
    + replace (ty <? 0)%Z with true by (symmetry; apply Z.ltb_lt; lia). destruct (Rlt_dec 0 p); reflexivity.
    + replace (ty <? 0)%Z with false by (symmetry; apply Z.ltb_ge; lia). destruct (Rlt_dec p 0); reflexivity.
Qed.
Lemma gauge_in mx x : 0 < mx -> 0 <= x <= mx -> forall H, gauge H mx x = H * (x / mx).
Proof.
  intros M X H. unfold gauge. rewrite Rabs_pos_eq by lra. rewrite Rmin_right; [reflexivity|]. apply (Rmult_le_reg_r mx); [lra|]. unfold Rdiv. rewrite Rmult_assoc, Rinv_l by lra. lra.
Qed.
Lemma pot_drawn_ok (m : init_msg XR) title f hs i L ty pm p r x : List.length (im_type m) = 7%nat -> nth_error svg_devices i = Some L -> nth_error (im_type m) i = Some ty ->
  (ty = 1 \/ ty = 2)%Z -> nth_error (im_p m) i = Some (Fin pm) -> nth_error (fr_dev_p f) i = Some (Fin p) -> dl_pot L = Some r ->
  nth_error (fr_gen f) (gens_before (im_type m) i) = Some (Fin x) -> exists y0, Rabs (y0 + 170.53409) <= 0.00003 /\ fill (history m title (f :: hs)) r "#ff0000" /\ pot_drawn (history m title (f :: hs)) r y0 pm p x.
Proof.
  intros LT H T G P A R X. destruct (dev_attrs m title f hs i L H) as (_ & _ & _ & _ & _ & _ & _ & _ & _ & D).
  rewrite (nth_error_nth _ _ _ T) in D. specialize (D r R). rewrite (zi_some _ _ _ P), (zi_some _ _ _ A) in D.
  assert (I7 : (i < 7)%nat) by (assert (K := nth_len _ _ _ T); lia). rewrite (ngens_types m LT i I7), X in D.
  destruct D as (D1 & D2 & D3); [unfold is_gen; destruct G as [->| ->]; reflexivity|].
  assert (Y : exists y0, svg_y (F := XR) r = Fin y0 /\ Rabs (y0 + 170.53409) <= 0.00003).
  { clear - H R. do 7 (destruct i as [|i]; [cbn in H; injection H as <-; cbn in R; try discriminate R; injection R as <-; unfold svg_y; cbn [String.eqb Ascii.eqb Bool.eqb]; rewrite nrat_XR by lia; (eexists; split; [reflexivity|apply Rabs_le; lra])|]).
    destruct i; discriminate H. }
  destruct Y as (y0 & Y & Yb). exists y0. split; [exact Yb|]. split; [exact D3|]. rewrite Y, p_height_XR in *. cbn [nltb n0 XRnum xltb] in D1, D2. unfold Rltb in D1, D2. split.
  - intros XP. destruct (Rlt_dec p x); [lra|]. split; [exact D1|]. unfold top. rewrite D2. cbn [nadd XRnum xadd]. f_equal. f_equal. f_equal. lra.
  - intros M P0 PX XM. destruct (Rlt_dec p x) as [_|]; [|lra]. exists (gauge 19.8 pm x - gauge 19.8 pm p). unfold height, top. rewrite D1, D2.
    change (Fin 0) with (n0 (Num := XRnum)). rewrite bar_XR by lra. cbn [nsub nmul nadd n0 ndiv XRnum xsub xmul xadd]. rewrite xdiv_Fin by lra. cbn [xsub xadd].
    rewrite (gauge_in pm x), (gauge_in pm p) by lra. split; [f_equal; f_equal; f_equal; field; lra|]. split; [lra|]. split; [|f_equal; f_equal; f_equal; lra].
    assert (p / pm < x / pm) by (apply Rmult_lt_compat_r; [apply Rinv_0_lt_compat; lra|lra]). lra.
Qed.
Lemma line_drawn_ok (m : init_msg XR) title f hs i L mx s : nth_error svg_lines i = Some L -> nth_error (im_s m) i = Some (Fin mx) -> nth_error (fr_branch_s f) i = Some (Fin s) ->
  0 < mx -> line_drawn (history m title (f :: hs)) L mx s.
Proof.
  intros H P A M. destruct (line_attrs m title f hs i L H) as (D1 & D2 & _ & D3 & D4 & D5). rewrite (zi_some _ _ _ P), (zi_some _ _ _ A) in *.
  assert (PC : ndiv (nmul (nofZ 100) (nsub (nabs (Fin s)) n0)) (nsub (Fin mx) n0) = Fin (100 * Rabs s / mx)).
  { cbn [nofZ nabs n0 nsub nmul ndiv XRnum xabs xsub xmul]. rewrite xdiv_Fin by lra. f_equal. field. lra. }
  rewrite PC in *. assert (Sp := Rabs_pos s). assert (Ip := Rinv_0_lt_compat mx M).
  assert (Pp : 0 <= 100 * Rabs s / mx) by (unfold Rdiv; apply Rmult_le_pos; lra).
  constructor; unfold height, fill, text, crossed, not_crossed, stroke, angle.
  - rewrite D1, i_height_XR, bar_XR by lra. reflexivity.
  - intros k K E. destruct (round_XR (100 * Rabs s / mx) k Pp K) as (c & C1 & C2).
    + unfold Rdiv in *. rewrite <- Rmult_assoc in E. exact E.
    + exists c. split; [exact C1|]. apply D2, C2.
  - destruct (precision_XR (100 * Rabs s / mx)) as (k & E & S). exists k. rewrite D3, E. split; [reflexivity|exact S].
  - intros O j J. rewrite (D4 j J). change (nofZ 100) with (Fin 100). cbn [nltb XRnum xltb]. unfold Rltb. destruct (Rlt_dec 100 _) as [|C]; [reflexivity|].
    exfalso. apply C. apply (Rmult_lt_reg_r mx); [lra|]. unfold Rdiv. rewrite Rmult_assoc, Rinv_l by lra. lra.
  - intros O j J. rewrite (D4 j J). change (nofZ 100) with (Fin 100). cbn [nltb XRnum xltb]. unfold Rltb. destruct (Rlt_dec 100 _) as [C|]; [|reflexivity].
    exfalso. apply (Rmult_lt_compat_r mx) in C; [|lra]. unfold Rdiv in C. rewrite Rmult_assoc, Rinv_l in C by lra. lra.
  - intros j J. rewrite (D5 j J). unfold dev_angle. cbn [nltb n0 XRnum xltb]. unfold Rltb. destruct (Rlt_dec s 0); reflexivity.
Qed.
Lemma stor_drawn_ok (m : init_msg XR) title f hs i L mx x : nth_error svg_storage i = Some L -> nth_error (im_soc m) i = Some (Fin mx) -> nth_error (fr_soc f) i = Some (Fin x) ->
  stor_drawn (history m title (f :: hs)) L mx x.
Proof.
  intros H P A. destruct (stor_attrs m title f hs i L H) as (D1 & D2 & D3 & D4). rewrite (zi_some _ _ _ P), (zi_some _ _ _ A) in *. constructor.
  - exact D1.
  - intros M X. unfold height. rewrite D2, soc_height_XR. cbn [n0 nsub nmul ndiv XRnum xsub xmul]. rewrite xdiv_Fin by lra. rewrite gauge_in by lra. do 3 f_equal. field. lra.
  - exact D3.
  - destruct (precision_XR x) as (k & E & S). exists k. unfold text. rewrite D4, E. split; [reflexivity|exact S].
Qed.
Lemma bus_drawn_ok (m : init_msg XR) title f hs i L lo hi v : nth_error svg_buses i = Some L -> nth_error (im_vmin m) i = Some (Fin lo) -> nth_error (im_vmax m) i = Some (Fin hi) ->
  nth_error (fr_bus_v f) i = Some (Fin v) -> bus_drawn (history m title (f :: hs)) L lo hi v.
Proof.
  intros H P Q A. destruct (bus_attrs m title f hs i L H) as (D1 & D2). rewrite (zi_some _ _ _ P), (zi_some _ _ _ Q), (zi_some _ _ _ A) in *. constructor.
  - destruct (precision_XR v) as (k & E & S). exists k. unfold text. rewrite D1, E. split; [reflexivity|exact S].
  - intros O j J. unfold stroke. rewrite (D2 j J). cbn [nltb XRnum xltb]. unfold Rltb. destruct (Rlt_dec v lo); [reflexivity|]. destruct (Rlt_dec hi v); [reflexivity|]. exfalso. lra.
  - intros O j J. unfold stroke. rewrite (D2 j J). cbn [nltb XRnum xltb]. unfold Rltb. destruct (Rlt_dec v lo); [lra|]. destruct (Rlt_dec hi v); [lra|]. reflexivity.
Qed.

(** After the first message and any updates, the page shows the numbers of the first message and of the last update. *)
Theorem C85_drawn : forall (m : init_msg XR) title (fs : list (frame XR)) f, fits_msg m -> Forall fits_frame (fs ++ [f]) ->
  drawn m title f (pg_dom (fst (page_run blank (GInit m title :: map GUpdate (fs ++ [f]))))).
Proof.
  intros m title fs f Fm Ff. rewrite (run_ok m title _ Fm Ff). cbn [fst pg_dom]. rewrite rev_app_distr. cbn [rev app]. set (hs := rev fs).
  destruct (rest_attrs m title f hs) as (R1 & R2 & R3 & R4 & R5 & R6 & R7 & R8 & R9 & R10 & R11 & R12 & R13 & R14). constructor.
  - exact R1.
  - intros. eapply dev_drawn_ok; eassumption.
  - intros. eapply pot_drawn_ok; try eassumption. apply Fm.
  - intros. eapply line_drawn_ok; eassumption.
  - intros. eapply stor_drawn_ok; eassumption.
  - intros. eapply bus_drawn_ok; eassumption.
  - intros jan1 y mo dy h mi C Z0 D. destruct (date_ok _ _ _ _ _ _ _ C Z0 D) as [E1 E2]. rewrite E1 in R2. rewrite E2 in R3. cbn [fst snd] in R2, R3. split.
    + unfold text. change "tspan5951" with lb_date. rewrite R2. destruct D as ((M & _) & _).
      assert (Mo : (mo = 1 \/ mo = 2 \/ mo = 3 \/ mo = 4 \/ mo = 5 \/ mo = 6 \/ mo = 7 \/ mo = 8 \/ mo = 9 \/ mo = 10 \/ mo = 11 \/ mo = 12)%Z) by lia.
      repeat destruct Mo as [-> |Mo]; [reflexivity..|subst mo; reflexivity].
    + exists (two_digits h), (two_digits mi). split; [exact R3|]. split; reflexivity.
  - exact R4.
  - intros ml mp l p E1 E2 E3. rewrite E3, E1, E2 in *. unfold zi in *. cbn [nth] in *. rewrite rw_width_XR in *.
    split; [exact R5|]. split; [exact R6|]. split; [exact R7|]. split; [exact R8|]. split; [|split; [|split; [|split]]].
    + intros M. unfold width. change "rect5879" with rw_loss_rect. rewrite R9. cbn [nabs nmul ndiv XRnum xabs xmul]. rewrite xdiv_Fin by lra. rewrite min_XR. do 3 f_equal.
      unfold gauge. rewrite <- scale_min by lra. f_equal. field. lra.
    + intros M P. unfold width. change "rect5903" with rw_pen_rect. rewrite R10. cbn [nmul ndiv XRnum xmul]. rewrite xdiv_Fin by lra. rewrite min_XR. do 3 f_equal.
      unfold gauge. rewrite <- scale_min by lra. rewrite Rabs_pos_eq by lra. f_equal. field. lra.
    + intros M. unfold fill. change "rect5879" with rw_loss_rect. rewrite R11. cbn [nltb n0 XRnum xltb]. unfold Rltb. destruct (Rlt_dec 0 l); [reflexivity|lra].
    + intros M. unfold fill. change "rect5879" with rw_loss_rect. rewrite R11. cbn [nltb n0 XRnum xltb]. unfold Rltb. destruct (Rlt_dec 0 l); [lra|reflexivity].
    + exact R12.
  - split; intros C; rewrite C in *; (split; [exact R13|split; [apply R14; right; left; reflexivity|apply R14; left; reflexivity]]).
Qed.

(** ---- the earlier updates ---- *)
Section Last.
  Context {F : Type} {N : Num F}.
  Notation write := (string * attr * @aval F)%type.
  Lemma look_in (ws : @dom F) i a : look ws i a = None <-> ~ In (i, a) (map fst ws).
  Proof.
    induction ws as [|[[i' a'] v] ws IH]; [cbn; tauto|]. cbn [look map fst In]. destruct (String.eqb_spec i i') as [->|E]; cbn [andb].
    - destruct (attr_eqb a a') eqn:A; [apply attr_eqb_ok in A; subst a'; split; [discriminate|intros C; exfalso; apply C; left; reflexivity]|]. rewrite IH. split; [|tauto].
      intros C [D|D]; [|exact (C D)]. injection D as ->. assert (attr_eqb a a = true) by (apply attr_eqb_ok; reflexivity). congruence.
    - rewrite IH. split; [|tauto]. intros C [D|D]; [congruence|exact (C D)].
  Qed.
  (** the fill colour of the bar of a branch *)
  Definition line_fill (i : string) (a : attr) : Prop := a = AFill /\ exists L, In L svg_lines /\ i = ll_rect L.
  Definition same_keys (b b' : list write) : Prop := forall i a, ~ line_fill i a -> In (i, a) (map fst b) -> In (i, a) (map fst b').
  Lemma flat_same bl bl' : Forall2 same_keys bl bl' -> same_keys (flat bl) (flat bl').
  Proof.
    intros H. induction H as [|b b' bl bl' A B IH]; intros i a L I; [exact I|]. rewrite flat_cons, map_app, in_app_iff in *. destruct I as [I|I]; [left; apply IH; assumption|right; apply A; assumption].
  Qed.
  Lemma same_mapi {A} (W W' : nat -> A -> list write) l : forall i, (forall k a, In a l -> same_keys (W k a) (W' k a)) -> Forall2 same_keys (mapi W i l) (mapi W' i l).
  Proof. induction l as [|a l IH]; intros i H; constructor; [apply H; left; reflexivity|]. apply IH. intros k b I. apply H. right. exact I. Qed.
  Lemma same_eq (b b' : list write) : map fst b = map fst b' -> same_keys b b'.
  Proof. intros E i a _. rewrite E. trivial. Qed.
  Lemma same_dev f g ds : forall i k, Forall2 same_keys (dev_blocks f i k ds) (dev_blocks g i k ds).
  Proof.
    induction ds as [|o ds IH]; intros i k; constructor; [|apply IH]. apply same_eq. unfold ud_writes. cbv zeta. rewrite !map_app. destruct (do_gen o); [|reflexivity].
    destruct (dl_pot (do_lab o)); reflexivity.
  Qed.
  Lemma same_upd m f g : Forall2 same_keys (upd_blocks m f) (upd_blocks m g).
  Proof.
    unfold upd_blocks, gr_blocks. rewrite <- !app_assoc. apply Forall2_app; [apply same_dev|]. apply Forall2_app; [|apply Forall2_app; [|apply Forall2_app]].
    - apply same_mapi. intros k o O i a L I. unfold ul_writes in *. cbv zeta in *. rewrite !map_app, !in_app_iff in *. rewrite !map_rev, !map_map in *. cbn [fst] in *.
      destruct I as [I|[I|[I|[I|I]]]]; auto 6. exfalso. apply L. destruct (round_index _); [|destruct I]. destruct I as [I|[]]. injection I as <- <-.
      split; [reflexivity|]. unfold graph_of in O. cbn [gr_lines] in O. apply mapi_in in O. destruct O as (j & L0 & J & ->). exists L0. split; [eapply nth_error_In, J|reflexivity].
    - apply same_mapi. intros k o O. apply same_eq. reflexivity.
    - apply same_mapi. intros k o O. apply same_eq. unfold ub_writes. cbv zeta. rewrite !map_app, !map_rev, !map_map. reflexivity.
    - repeat (constructor; [apply same_eq; reflexivity|]). constructor.
  Qed.
  Lemma last_look m title f hs i a : ~ line_fill i a -> look (history (F := F) m title (f :: hs)) i a = look (history m title [f]) i a.
  Proof.
    intros L. cbn [history]. rewrite !look_app. destruct (look (flat (upd_blocks m f)) i a) eqn:E; [reflexivity|]. apply look_in in E.
    induction hs as [|g hs IH]; [reflexivity|]. cbn [history]. rewrite look_app.
    assert (E' : look (flat (upd_blocks m g)) i a = None). { apply look_in. intros I. apply E. exact (flat_same _ _ (same_upd m g f) i a L I). }
    rewrite E'. exact IH.
  Qed.
End Last.
(** The page depends on the first message and the last update only, not on the updates before it, but for the colours of the bars of the branches. *)
Theorem C85_last_update_partial : forall (F : Type) (N : Num F) (m : init_msg F) title (fs fs' : list (frame F)) f i a, fits_msg m -> Forall fits_frame (fs ++ [f]) -> Forall fits_frame (fs' ++ [f]) ->
  ~ (a = AFill /\ exists L, In L svg_lines /\ i = ll_rect L) ->
  look (pg_dom (fst (page_run blank (GInit m title :: map GUpdate (fs ++ [f]))))) i a = look (pg_dom (fst (page_run blank (GInit m title :: map GUpdate (fs' ++ [f]))))) i a.
Proof.
  intros F N m title fs fs' f i a Fm F1 F2 L. rewrite (run_ok m title _ Fm F1), (run_ok m title _ Fm F2). cbn [fst pg_dom]. rewrite !rev_app_distr. cbn [rev app].
  transitivity (look (history m title [f]) i a); [exact (last_look m title f (rev fs) i a L)|symmetry; exact (last_look m title f (rev fs') i a L)].
Qed.

Lemma set_nth_frame (f : frame XR) k x : (k < 5)%nat -> fits_frame f -> exists g : frame XR, fits_frame g /\ nth_error (fr_branch_s g) k = Some x.
Proof.
  intros K (L1 & L2 & L3 & L4 & L5 & L6). exists (mkFrame (fr_date f) (fr_year f) (fr_dev_p f) (fr_dev_q f) (repeat x 5) (fr_soc f) (fr_gen f) (fr_bus_v f) (fr_costs f) (fr_collapsed f)).
  split; [repeat split; assumption|]. cbn [fr_branch_s]. do 5 (destruct k as [|k]; [reflexivity|]). lia.
Qed.
(** The bar of a branch loaded below half a percent has whatever colour an earlier update gave it. *)
Theorem C85_stale_color_refuted : forall (m : init_msg XR) title f i L mx s, fits_msg m -> fits_frame f -> nth_error svg_lines i = Some L -> nth_error (im_s m) i = Some (Fin mx) ->
  nth_error (fr_branch_s f) i = Some (Fin s) -> 0 < mx -> Rabs s < mx / 200 ->
  forall c, In c color_gradient -> exists f0, fits_frame f0 /\ fill (pg_dom (fst (page_run blank [GInit m title; GUpdate f0; GUpdate f]))) (ll_rect L) c.
Proof.
  intros m title f i L mx s Fm Ff H P A M Sm c C. apply In_nth_error in C. destruct C as [j C]. assert (J := nth_len _ _ _ C). rewrite gradient_100 in J.
  assert (I5 : (i < 5)%nat) by (apply nth_len in H; exact H). assert (Pj := pos_INR j). assert (Ip := Rinv_0_lt_compat mx M).
  destruct (set_nth_frame f i (Fin (mx * (INR (S j) / 100))) I5 Ff) as (f0 & F0 & E0). exists f0. split; [exact F0|].
  change [GInit m title; GUpdate f0; GUpdate f] with (GInit m title :: map GUpdate [f0; f]). rewrite (run_ok m title [f0; f] Fm) by (constructor; [exact F0|constructor; [exact Ff|constructor]]).
  cbn [fst pg_dom rev app]. unfold fill. destruct (line_attrs m title f [f0] i L H) as (_ & _ & D & _). rewrite (zi_some _ _ _ P), (zi_some _ _ _ A) in D.
  rewrite D.
  - assert (Ld := line_drawn_ok m title f0 [] i L mx _ H P E0 M). destruct Ld as [_ Lc _ _ _ _].
    assert (Jr : INR (S j) <= 100) by (replace 100 with (INR 100) by (rewrite INR_IZR_INZ; reflexivity); apply le_INR; lia).
    assert (Ex : 100 * (Rabs (mx * (INR (S j) / 100)) / mx) = INR (S j)).
    { rewrite Rabs_pos_eq; [field; lra|]. apply Rmult_le_pos; [lra|]. rewrite S_INR. lra. }
    destruct (Lc (S j) ltac:(lia)) as (c' & C1 & C2).
    + rewrite Ex, Rmin_right by exact Jr. lra.
    + replace (S j - 1)%nat with j in C1 by lia. rewrite C in C1. injection C1 as <-. exact C2.
  - cbn [nofZ nabs n0 nsub nmul ndiv XRnum xabs xsub xmul]. rewrite xdiv_Fin by lra. apply round_low. assert (Sp := Rabs_pos s). rewrite !Rminus_0_r. split.
    + unfold Rdiv. apply Rmult_le_pos; lra.
    + apply (Rmult_lt_reg_r mx); [lra|]. unfold Rdiv in *. rewrite Rmult_assoc, Rinv_l by lra. lra.
Qed.

(** a first message of the 6-bus network and two updates, the second on New Year's Day 2021 at 00:15 *)
Definition ex_page_msg : init_msg XR :=
  mkMsg [0; -1; 2; -1; 2; -1; 3]%Z (map Fin [200; 10; 30; 30; 50; 30; 50]) (map Fin [200; 2; 30; 6; 50; 6; 50]) (map Fin [32; 25; 18; 18; 18]) (map Fin [0.9; 0.9; 0.9; 0.9; 0.9; 0.9]) (map Fin [1.1; 1.1; 1.1; 1.1; 1.1; 1.1]) [Fin 100] (Fin 1) (Fin 100).
Definition ex_page_frame (date : Z) (s v : R) : frame XR :=
  mkFrame date 1 (map Fin [-10; -1; 15; -4; 0; -30; 25]) (map Fin [1; -0.2; 0; -0.8; 0; -6; -10]) (map Fin [s; -20; 0.05; 9; 18]) [Fin 25] (map Fin [30; 40]) (map Fin [1; 1; v; 0.95; 1.05; 1.1]) (map Fin [0.5; 2]) false.
Example C85_ex : fits_msg ex_page_msg /\ fits_frame (ex_page_frame 0 40 1.2) /\ is_date jan1_2020 2021 1 1 0 15 (366 * 1440 + 15) /\
  let d := pg_dom (fst (page_run blank (GInit ex_page_msg "title" :: map GUpdate [ex_page_frame 0 10 1; ex_page_frame (366 * 1440 + 15) 40 1.2]))) in
  crossed d ["path1591"; "path1593"] /\ not_crossed d ["path8986"; "path8988"] /\ crossed d ["path1105"; "path1108"] /\ not_crossed d ["path1131"; "path1133"] /\
  height d "rect1227" (19.8 * (15/30)) /\ height d "rect1607" (19.8 * (25/100)) /\ text d "tspan5951" [PStr "January"; PStr " "; PInt 1] /\
  width d "rect5879" (93.8 * (1/2)) /\ angle d "g2899" 0 /\ angle d "g2863" 180.
Proof.
  assert (Fm : fits_msg ex_page_msg).
  { repeat split. intros i t T. do 7 (destruct i as [|i]; [cbn in T; injection T as <-; lia|]). destruct i; discriminate T. }
  assert (Ff : forall dt s v, fits_frame (ex_page_frame dt s v)) by (intros; repeat split). split; [exact Fm|]. split; [apply Ff|].
  assert (Dt : is_date jan1_2020 2021 1 1 0 15 (366 * 1440 + 15)).
  { split; [lia|]. exists false. split; [split; [discriminate|intros (L & _); destruct L as (q & L); lia]|]. split; [cbn; lia|reflexivity]. }
  split; [exact Dt|]. intros d. assert (D := C85_drawn ex_page_msg "title" [ex_page_frame 0 10 1] (ex_page_frame (366 * 1440 + 15) 40 1.2) Fm ltac:(repeat (constructor; [apply Ff|]); constructor)).
  cbn [app] in D. fold d in D. destruct D as [_ Dd Dp Dl Ds Db Dt' _ Dc _].
  split; [|split; [|split; [|split; [|split; [|split; [|split; [|split; [|split]]]]]]]].
  - apply (ld_over _ _ _ _ (Dl 0%nat _ 32 40 eq_refl eq_refl eq_refl ltac:(lra))). rewrite Rabs_pos_eq; lra.
  - apply (ld_ok _ _ _ _ (Dl 1%nat _ 25 (-20) eq_refl eq_refl eq_refl ltac:(lra))). rewrite Rabs_left; lra.
  - apply (bd_out _ _ _ _ _ (Db 2%nat _ 0.9 1.1 1.2 eq_refl eq_refl eq_refl eq_refl)). lra.
  - apply (bd_in _ _ _ _ _ (Db 0%nat _ 0.9 1.1 1 eq_refl eq_refl eq_refl eq_refl)). lra.
  - rewrite <- (gauge_in 30 15) by lra. apply (dd_pbar _ _ _ _ _ _ _ (Dd 2%nat _ _ 30 30 15 0 eq_refl eq_refl eq_refl eq_refl eq_refl eq_refl)). lra.
  - rewrite <- (gauge_in 100 25) by lra. apply (sd_bar _ _ _ _ (Ds 0%nat _ 100 25 eq_refl eq_refl eq_refl)); lra.
  - destruct (Dt' jan1_2020 2021%Z 1%Z 1%Z 0%Z 15%Z jan1_calendar eq_refl Dt) as [T _]. exact T.
  - destruct (Dc 1 100 0.5 2 eq_refl eq_refl eq_refl) as (_ & _ & _ & _ & W & _). replace (93.8 * (1/2)) with (gauge 93.8 1 0.5); [apply W; lra|]. rewrite gauge_in by lra. lra.
  - destruct (dd_arrow _ _ _ _ _ _ _ (Dd 1%nat _ _ 10 2 (-1) (-0.2) eq_refl eq_refl eq_refl eq_refl eq_refl eq_refl)) as [A _].
    cbn [dl_arrow] in A. specialize (A ltac:(lia)). destruct (Rlt_dec 0 (-1)); [lra|]. exact A.
  - destruct (dd_arrow _ _ _ _ _ _ _ (Dd 0%nat _ _ 200 200 (-10) 1 eq_refl eq_refl eq_refl eq_refl eq_refl eq_refl)) as [_ A].
    cbn [dl_arrow] in A. specialize (A ltac:(lia)). destruct (Rlt_dec (-10) 0); [|lra]. exact A.
Qed.
Print Assumptions C85_never_raises.
Print Assumptions C85_drawn.
Print Assumptions C85_last_update_partial.
Print Assumptions C85_stale_color_refuted.
