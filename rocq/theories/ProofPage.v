(** Proofs about the page: what the scripts write, block by block. *)
From Coq Require Import Reals Lra.
From Verif Require Import Base Num Anm6 Message SvgLabels Page SpecPage.
From Coq Require Import List.
Import ListNotations.
Local Open Scope string_scope.
Local Open Scope list_scope.
Local Open Scope num_scope.

Lemma attr_eqb_ok a b : attr_eqb a b = true <-> a = b.
Proof. destruct a, b; cbn; split; intros H; try reflexivity; discriminate H. Qed.

Section Writes.
  Context {F : Type} {N : Num F}.
  Notation write := (string * attr * @aval F)%type.
  Notation dom := (@dom F).
  Definition wid (w : write) : string := fst (fst w).
  Definition wat (w : write) : attr := snd (fst w).

  Lemma look_app (ws d : dom) i a : look (ws ++ d) i a = match look ws i a with Some v => Some v | None => look d i a end.
  Proof. induction ws as [|[[i' a'] v] ws IH]; [reflexivity|]. cbn [look app]. destruct (_ && _)%bool; [reflexivity|exact IH]. Qed.
  Lemma look_other (ws : dom) i a : ~ In i (map wid ws) -> look ws i a = None.
  Proof.
    induction ws as [|[[i' a'] v] ws IH]; [reflexivity|]. intros H. cbn [look]. destruct (String.eqb_spec i i') as [->|]; [exfalso; apply H; left; reflexivity|].
    cbn [andb]. apply IH. intros I. apply H. right. exact I.
  Qed.
  Lemma look_attr (ws : dom) i a : ~ In a (map wat ws) -> look ws i a = None.
  Proof.
    induction ws as [|[[i' a'] v] ws IH]; [reflexivity|]. intros H. cbn [look]. destruct (attr_eqb a a') eqn:E; [apply attr_eqb_ok in E; subst a'; exfalso; apply H; left; reflexivity|].
    rewrite andb_false_r. apply IH. intros I. apply H. right. exact I.
  Qed.

  (** the blocks written one after the other: oldest block first in [bl], newest write first in the page *)
  Definition flat (bl : list (list write)) : dom := concat (rev bl).
  Lemma flat_cons b bl : flat (b :: bl) = flat bl ++ b.
  Proof. unfold flat. cbn [rev]. rewrite concat_app. cbn [concat]. rewrite app_nil_r. reflexivity. Qed.
  Lemma flat_app b1 b2 : flat (b1 ++ b2) = flat b2 ++ flat b1.
  Proof. unfold flat. rewrite rev_app_distr, concat_app. reflexivity. Qed.

  Definition within (ids : list string) (ws : list write) : Prop := forall i, In i (map wid ws) -> In i ids.
  Lemma flat_within keys bl : Forall2 within keys bl -> forall i, In i (map wid (flat bl)) -> In i (concat keys).
  Proof.
    intros H. induction H as [|ids ws keys bl A B IH]; intros i I; [exact I|]. rewrite flat_cons, map_app in I. apply in_app_iff in I. cbn [concat]. apply in_app_iff.
    destruct I as [I|I]; [right; apply IH, I|left; apply A, I].
  Qed.
  Lemma look_block keys bl : Forall2 within keys bl -> NoDup (concat keys) -> forall k ids ws d i a, nth_error keys k = Some ids -> nth_error bl k = Some ws -> In i ids ->
    look (flat bl ++ d) i a = match look ws i a with Some v => Some v | None => look d i a end.
  Proof.
    intros H. induction H as [|ids0 ws0 keys bl A B IH]; intros ND k ids ws d i a K W I; [destruct k; discriminate K|].
    cbn [concat] in ND. rewrite flat_cons, <- app_assoc. destruct k as [|k].
    - cbn in K, W. injection K as ->. injection W as ->. rewrite look_app, look_other; [apply look_app|].
      intros J. apply (flat_within _ _ B) in J. revert ND I J. clear. induction ids as [|x ids IH]; intros ND I J; [exact I|].
      cbn [app] in ND. inversion ND as [|? ? X Y]; subst. destruct I as [->|I]; [apply X, in_app_iff; right; exact J|apply IH; assumption].
    - cbn in K, W. assert (ND' : NoDup (concat keys)) by (clear - ND; induction ids0; [exact ND|inversion ND; auto]).
      rewrite (IH ND' k ids ws (ws0 ++ d) i a K W I). destruct (look ws i a); [reflexivity|]. rewrite look_app, look_other; [reflexivity|].
      intros J. apply A in J. assert (C : In i (concat keys)) by (apply in_concat; exists ids; split; [eapply nth_error_In; exact K|exact I]).
      revert ND J C. clear. induction ids0 as [|x ids0 IH]; intros ND J C; [exact J|]. cbn [app] in ND. inversion ND as [|? ? X Y]; subst.
      destruct J as [->|J]; [apply X, in_app_iff; right; exact C|apply IH; assumption].
  Qed.
  Lemma look_none keys bl d i a : Forall2 within keys bl -> ~ In i (concat keys) -> look (flat bl ++ d) i a = look d i a.
  Proof. intros H J. rewrite look_app, look_other; [reflexivity|]. intros I. apply J, (flat_within _ _ H), I. Qed.

  (** scripts that write a block; [b]: on a page where no [y] attribute was set, and without setting one *)
  Definition no_y (d : list write) : Prop := ~ In AY (map wat d).
  Definition writes {A} (b : bool) (m : script A) (ws : list write) (a : A) : Prop :=
    (forall d, (b = true -> no_y d) -> m d = (ws ++ d, Ok a)) /\ (b = true -> no_y ws).
  Lemma no_y_app w1 w2 : no_y w1 -> no_y w2 -> no_y (w1 ++ w2).
  Proof. intros A B C. rewrite map_app in C. apply in_app_iff in C. destruct C as [C|C]; [exact (A C)|exact (B C)]. Qed.
  Lemma w_ret {A} b (a : A) : writes b (sret a) [] a.
  Proof. split; [intros d _; reflexivity|intros _ C; exact C]. Qed.
  Lemma w_put b i a v : in_svg i = true -> (b = true -> a <> AY) -> writes b (put i a v) [(i, a, v)] tt.
  Proof. intros H Y. split; [intros d _; unfold put; rewrite H; reflexivity|]. intros B [C|[]]. apply (Y B). exact C. Qed.
  Lemma w_then {A B} b (m : script A) (k : A -> script B) w1 w2 a c : writes b m w1 a -> writes b (k a) w2 c -> writes b (sthen m k) (w2 ++ w1) c.
  Proof.
    intros [H1 Y1] [H2 Y2]. split.
    - intros d Hd. unfold sthen. rewrite (H1 d Hd), H2, app_assoc; [reflexivity|]. intros B0. apply no_y_app; auto.
    - intros B0. apply no_y_app; auto.
  Qed.
  Lemma w_eq {A} b (m : script A) w w' a : writes b m w a -> w = w' -> writes b m w' a.
  Proof. intros H <-. exact H. Qed.
  Lemma w_entry {A} b (o : option A) a : o = Some a -> writes b (entry o) [] a.
  Proof. intros ->. split; [intros d _; reflexivity|intros _ C; exact C]. Qed.
  Lemma w_each {A} b (f : A -> script unit) (W : A -> write) l : (forall a, In a l -> writes b (f a) [W a] tt) -> writes b (each f l) (rev (map W l)) tt.
  Proof.
    induction l as [|a l IH]; intros H; [apply w_ret|]. cbn [each map rev]. apply (w_then b _ _ [W a] (rev (map W l)) tt tt).
    - apply H. left. reflexivity.
    - apply IH. intros x X. apply H. right. exact X.
  Qed.
  Fixpoint mapi {A B} (f : nat -> A -> B) (i : nat) (l : list A) : list B := match l with [] => [] | a :: l' => f i a :: mapi f (S i) l' end.
  Lemma nth_mapi {A B} (f : nat -> A -> B) l : forall i k, nth_error (mapi f i l) k = option_map (f (i + k)%nat) (nth_error l k).
  Proof. induction l as [|a l IH]; intros i k; [destruct k; reflexivity|]. destruct k as [|k]; cbn; [rewrite Nat.add_0_r; reflexivity|]. rewrite IH. f_equal. f_equal. lia. Qed.
  Lemma w_collect {A B} b (f : nat -> A -> script B) W (V : nat -> A -> B) l : forall i,
    (forall k a, nth_error l k = Some a -> writes b (f (i + k)%nat a) (W (i + k)%nat a) (V (i + k)%nat a)) -> writes b (collect f i l) (flat (mapi W i l)) (mapi V i l).
  Proof.
    induction l as [|a l IH]; intros i H; [apply w_ret|]. cbn [collect mapi]. rewrite flat_cons.
    apply (w_then b _ _ (W i a) _ (V i a)); [specialize (H 0%nat a eq_refl); rewrite Nat.add_0_r in H; exact H|].
    apply (w_then b _ _ (flat (mapi W (S i) l)) [] (mapi V (S i) l)); [|apply w_ret]. apply IH. intros k x K. specialize (H (S k) x K).
    replace (S i + k)%nat with (i + S k)%nat by lia. exact H.
  Qed.

  (** ---- the blocks of the first message ---- *)
  Definition is_gen (ty : Z) : bool := (Z.eqb ty 1 || Z.eqb ty 2)%bool.
  Definition opt_list {A B} (o : option A) (f : A -> list B) : list B := match o with Some a => f a | None => [] end.
  Definition nd_writes (L : dev_label) (ty : Z) (p q : F) : list write :=
    [(dl_arrow L, ARotate, VAngle 0)] ++ (if is_gen ty then opt_list (dl_pot L) (fun r => [(r, AFill, VColor pot_color); (r, AHeight, VNum n0)]) else []) ++
    [(dl_qtick L, AText, VText [PFixed q 0]); (dl_ptick L, AText, VText [PFixed p 0])].
  Definition nd_obj (L : dev_label) (ty : Z) (p q : F) : @dev_obj F :=
    mkDo L (Z.ltb ty 0) (is_gen ty) p q (if is_gen ty then match dl_pot L with Some r => svg_y r | None => nnan end else nnan).
  Definition dev_ids (L : dev_label) : list string :=
    [dl_ptick L; dl_qtick L; dl_prect L; dl_qrect L; dl_ptext L; dl_qtext L; dl_arrow L] ++ opt_list (dl_pot L) (fun r => [r]).
  Definition line_ids (L : line_label) : list string := [ll_rect L; ll_text L] ++ ll_cross L ++ ll_arrows L.
  Definition stor_ids (L : stor_label) : list string := [sl_tick L; sl_text L; sl_rect L].
  Definition bus_ids (L : bus_label) : list string := bl_text L :: bl_cross L.
  Definition in_pic (l : list string) : Prop := forall i, In i l -> in_svg i = true.

  Lemma w_get_y r : writes true (get_y r) [] (svg_y r).
  Proof.
    split; [|intros _ C; exact C]. intros d Y. unfold get_y. rewrite look_attr; [reflexivity|exact (Y eq_refl)].
  Qed.
  Lemma w_new_device L ty p q : in_pic (dev_ids L) -> (is_gen ty = true -> dl_pot L <> None) -> writes true (new_device L ty p q) (nd_writes L ty p q) (nd_obj L ty p q).
  Proof.
    intros P G. unfold new_device, nd_writes, nd_obj, init_arrow. change (Z.eqb ty 1 || Z.eqb ty 2)%bool with (is_gen ty).
    assert (PU : forall i a v, In i (dev_ids L) -> a <> AY -> writes true (put i a v) [(i, a, v)] tt) by (intros i a v I A; apply w_put; auto).
    destruct (is_gen ty) eqn:E.
    - destruct (dl_pot L) as [r|] eqn:R; [|destruct (G eq_refl eq_refl)]. assert (IR : In r (dev_ids L)) by (unfold dev_ids; rewrite R; cbn; tauto).
      eapply w_eq.
      + eapply w_then; [apply PU; [cbn; tauto|discriminate]|]. eapply w_then; [apply PU; [cbn; tauto|discriminate]|].
        eapply w_then.
        { eapply w_then; [apply w_entry; reflexivity|]. eapply w_then; [apply PU; [exact IR|discriminate]|]. eapply w_then; [apply PU; [exact IR|discriminate]|]. apply w_get_y. }
        eapply w_then; [apply PU; [cbn; tauto|discriminate]|apply w_ret].
      + reflexivity.
    - eapply w_eq.
      + eapply w_then; [apply PU; [cbn; tauto|discriminate]|]. eapply w_then; [apply PU; [cbn; tauto|discriminate]|].
        eapply w_then; [apply w_ret|]. eapply w_then; [apply PU; [cbn; tauto|discriminate]|apply w_ret].
      + reflexivity.
  Qed.
  Definition nl_writes (L : line_label) : list write := rev (map (fun i => (i, ARotate, VAngle 0)) (ll_arrows L)) ++ rev (map (fun i => (i, AStroke, VColor "none")) (ll_cross L)).
  Lemma w_new_line b L s : in_pic (line_ids L) -> writes b (new_line L s) (nl_writes L) (mkLo L s).
  Proof.
    intros P. unfold new_line, nl_writes.
    assert (PU : forall i a v, In i (line_ids L) -> a <> AY -> writes b (put i a v) [(i, a, v)] tt) by (intros i a v I A; apply w_put; auto).
    eapply w_eq.
    - eapply w_then; [apply w_each; intros i I; apply PU; [unfold line_ids; rewrite !in_app_iff; tauto|discriminate]|].
      eapply w_then; [apply w_each; intros i I; apply PU; [unfold line_ids; rewrite !in_app_iff; tauto|discriminate]|apply w_ret].
    - reflexivity.
  Qed.
  Definition ns_writes (L : stor_label) (x : F) : list write := [(sl_tick L, AText, VText [PNum x])].
  Lemma w_new_storage b L x : in_pic (stor_ids L) -> writes b (new_storage L x) (ns_writes L x) (mkSo L x).
  Proof. intros P. eapply w_eq; [eapply w_then; [apply w_put; [apply P; left; reflexivity|discriminate]|apply w_ret]|reflexivity]. Qed.
  Definition nb_writes (L : bus_label) : list write := rev (map (fun i => (i, AStroke, VColor "none")) (bl_cross L)).
  Lemma w_new_bus b L lo hi : in_pic (bus_ids L) -> writes b (new_bus L lo hi) (nb_writes L) (mkBo L lo hi).
  Proof.
    intros P. eapply w_eq.
    - eapply w_then; [apply w_each; intros i I; apply w_put; [apply P; right; exact I|discriminate]|apply w_ret].
    - reflexivity.
  Qed.

  (** ---- the blocks of an update ---- *)
  Definition ud_writes (o : @dev_obj F) (p q : F) (pot : option F) : list write :=
    let L := do_lab o in
    let pbar := bar p_height n0 (do_pmax o) p in
    let up := match pot with Some x => p <? x | None => false end in
    let x := match pot with Some x => x | None => n0 end in
    [(dl_arrow L, ARotate, VAngle (dev_angle (do_load o) p))] ++
    (if do_gen o then opt_list (dl_pot L) (fun r => [(r, AY, VNum ((if up then pbar else n0) + do_poty o));
       (r, AHeight, VNum (if up then p_height * (x - n0) / (do_pmax o - n0) - pbar else n0))]) else []) ++
    [(dl_qtext L, AText, VText [precision q; PStr " "; PStr "MVAr"]); (dl_ptext L, AText, VText [precision p; PStr " "; PStr "MW"]);
     (dl_qrect L, AFill, VColor (if n0 <=? q then gen_color else load_color)); (dl_qrect L, AHeight, VNum (bar p_height n0 (do_qmax o) q));
     (dl_prect L, AFill, VColor (if n0 <=? p then gen_color else load_color)); (dl_prect L, AHeight, VNum pbar)].
  Lemma w_update_device o p q pot : in_pic (dev_ids (do_lab o)) -> (do_gen o = true -> dl_pot (do_lab o) <> None) ->
    writes false (update_device o p q pot) (ud_writes o p q pot) tt.
  Proof.
    intros P G. unfold update_device, ud_writes. cbv zeta. set (L := do_lab o) in *.
    assert (PU : forall i a v, In i (dev_ids L) -> writes false (put i a v) [(i, a, v)] tt) by (intros i a v I; apply w_put; [auto|discriminate]).
    destruct (do_gen o) eqn:E.
    - destruct (dl_pot L) as [r|] eqn:R; [|destruct (G eq_refl eq_refl)]. assert (IR : In r (dev_ids L)) by (unfold dev_ids; rewrite R; cbn; tauto).
      eapply w_eq.
      + do 6 (eapply w_then; [apply PU; cbn; tauto|]). eapply w_then; [|apply PU; cbn; tauto].
        eapply w_then; [apply w_entry; reflexivity|]. cbv beta. eapply w_then; apply PU; exact IR.
      + reflexivity.
    - eapply w_eq.
      + do 6 (eapply w_then; [apply PU; cbn; tauto|]). eapply w_then; [apply w_ret|apply PU; cbn; tauto].
      + reflexivity.
  Qed.
  Definition ul_writes (o : @line_obj F) (s : F) : list write :=
    let L := lo_lab o in
    let pc := nofZ 100 * (nabs s - n0) / (lo_max o - n0) in
    rev (map (fun i => (i, ARotate, VAngle (dev_angle false s))) (ll_arrows L)) ++
    rev (map (fun i => (i, AStroke, VColor (if nofZ 100 <? pc then broken_color else "none"))) (ll_cross L)) ++
    [(ll_text L, AText, VText [precision pc; PStr " %"])] ++ opt_list (round_index pc) (fun c => [(ll_rect L, AFill, VColor c)]) ++
    [(ll_rect L, AHeight, VNum (bar i_height n0 (lo_max o) s))].
  Lemma w_update_line o s : in_pic (line_ids (lo_lab o)) -> writes false (update_line o s) (ul_writes o s) tt.
  Proof.
    intros P. unfold update_line, ul_writes. cbv zeta. set (L := lo_lab o) in *. set (pc := nofZ 100 * _ / _).
    assert (PU : forall i a v, In i (line_ids L) -> writes false (put i a v) [(i, a, v)] tt) by (intros i a v I; apply w_put; [auto|discriminate]).
    eapply w_eq.
    - eapply w_then; [apply PU; cbn; tauto|]. eapply w_then.
      { assert (W : writes false (put_fill (ll_rect L) (round_index pc)) (opt_list (round_index pc) (fun c => [(ll_rect L, AFill, VColor c)])) tt); [|exact W].
        unfold put_fill. destruct (round_index pc); [apply PU; cbn; tauto|]. cbn [opt_list]. rewrite (P (ll_rect L)) by (cbn; tauto). apply w_ret. }
      eapply w_then; [apply PU; cbn; tauto|]. eapply w_then; (apply w_each; intros i I; apply PU; unfold line_ids; rewrite !in_app_iff; tauto).
    - rewrite <- !app_assoc. reflexivity.
  Qed.
  Definition us_writes (o : @stor_obj F) (x : F) : list write :=
    let L := so_lab o in
    [(sl_text L, AText, VText [precision x; PStr " "; PStr "MWh"]); (sl_rect L, AFill, VColor soc_color); (sl_rect L, AHeight, VNum (soc_height * (x - n0) / (so_max o - n0)))].
  Lemma w_update_storage o x : in_pic (stor_ids (so_lab o)) -> writes false (update_storage o x) (us_writes o x) tt.
  Proof.
    intros P. unfold update_storage, us_writes. cbv zeta. set (L := so_lab o) in *. eapply w_eq.
    - do 2 (eapply w_then; [apply w_put; [apply P; cbn; tauto|discriminate]|]). apply w_put; [apply P; cbn; tauto|discriminate].
    - reflexivity.
  Qed.
  Definition ub_writes (o : @bus_obj F) (v : F) : list write :=
    let L := bo_lab o in
    rev (map (fun i => (i, AStroke, VColor (if ((v <? bo_min o) || (bo_max o <? v))%bool then broken_color else "none"))) (bl_cross L)) ++
    [(bl_text L, AText, VText [PStr "|V| = "; precision v; PStr " "; PStr "pu"])].
  Lemma w_update_bus o v : in_pic (bus_ids (bo_lab o)) -> writes false (update_bus o v) (ub_writes o v) tt.
  Proof.
    intros P. unfold update_bus, ub_writes. cbv zeta. set (L := bo_lab o) in *. eapply w_eq.
    - eapply w_then; [apply w_put; [apply P; cbn; tauto|discriminate]|]. apply w_each. intros i I. apply w_put; [apply P; right; exact I|discriminate].
    - reflexivity.
  Qed.
  Fixpoint dev_blocks (f : frame F) (i k : nat) (ds : list (@dev_obj F)) : list (list write) :=
    match ds with
    | [] => []
    | o :: ds' => ud_writes o (nth i (fr_dev_p f) n0) (nth i (fr_dev_q f) n0) (if do_gen o then nth_error (fr_gen f) k else None) ::
                  dev_blocks f (S i) (if do_gen o then S k else k) ds'
    end.
  Lemma nth_entry {A} (l : list A) i (d : A) : (i < List.length l)%nat -> nth_error l i = Some (nth i l d).
  Proof. revert i. induction l as [|a l IH]; intros [|i] H; cbn in *; try lia; [reflexivity|]. apply IH. lia. Qed.
  Lemma w_update_devices f ds : (forall o, In o ds -> in_pic (dev_ids (do_lab o)) /\ (do_gen o = true -> dl_pot (do_lab o) <> None)) -> forall i k,
    (i + List.length ds <= List.length (fr_dev_p f))%nat -> (i + List.length ds <= List.length (fr_dev_q f))%nat -> writes false (update_devices f i k ds) (flat (dev_blocks f i k ds)) tt.
  Proof.
    induction ds as [|o ds IH]; intros H i k L1 L2; [apply w_ret|]. cbn [List.length] in L1, L2. cbn [update_devices dev_blocks]. rewrite flat_cons.
    rewrite <- (app_nil_r (flat _ ++ _)). eapply w_then; [apply w_entry, (nth_entry _ _ n0); lia|]. rewrite <- (app_nil_r (flat _ ++ _)).
    eapply w_then; [apply w_entry, (nth_entry _ _ n0); lia|]. eapply w_then; [apply w_update_device; apply H; left; reflexivity|].
    apply IH; [intros o' I; apply H; right; exact I|lia|lia].
  Qed.

  (** ---- whole messages ---- *)
  Definition rw_ids : list string := [rw_loss_rect; rw_pen_rect; rw_loss_max; rw_loss_text; rw_pen_max; rw_pen_text].
  Definition obj_keys : list (list string) := map dev_ids svg_devices ++ map line_ids svg_lines ++ map stor_ids svg_storage ++ map bus_ids svg_buses.
  Definition init_keys : list (list string) := obj_keys ++ [[lb_title]; rw_ids].
  Definition upd_keys : list (list string) := obj_keys ++ [[lb_date]; [lb_time]; [lb_year]; rw_ids; lb_group].
  Definition zi (l : list F) (i : nat) : F := nth i l n0.
  Definition graph_of (m : init_msg F) : @graph F :=
    mkGraph (mapi (fun i L => nd_obj L (nth i (im_type m) 0%Z) (zi (im_p m) i) (zi (im_q m) i)) 0 svg_devices)
      (mapi (fun i L => mkLo L (zi (im_s m) i)) 0 svg_lines) (mapi (fun i L => mkSo L (zi (im_soc m) i)) 0 svg_storage)
      (mapi (fun i L => mkBo L (zi (im_vmin m) i) (zi (im_vmax m) i)) 0 svg_buses).
  Definition init_obj_blocks (m : init_msg F) : list (list write) :=
    mapi (fun i L => nd_writes L (nth i (im_type m) 0%Z) (zi (im_p m) i) (zi (im_q m) i)) 0 svg_devices ++
    mapi (fun i L => nl_writes L) 0 svg_lines ++ mapi (fun i L => ns_writes L (zi (im_soc m) i)) 0 svg_storage ++ mapi (fun i L => nb_writes L) 0 svg_buses.
  Definition init_rw (m : init_msg F) : list write :=
    [(rw_pen_rect, AFill, VColor neg_color); (rw_pen_rect, AWidth, VNum n0); (rw_loss_rect, AFill, VColor neg_color); (rw_loss_rect, AWidth, VNum n0);
     (rw_pen_max, AText, VText [PNum (im_pen m)]); (rw_loss_max, AText, VText [PNum (im_eloss m)])].
  Definition init_blocks (m : init_msg F) (title : string) : list (list write) := init_obj_blocks m ++ [[(lb_title, AText, VText [PStr title])]; init_rw m].
  Definition gr_blocks (g : @graph F) (f : frame F) : list (list write) :=
    dev_blocks f 0 0 (gr_devs g) ++ mapi (fun i o => ul_writes o (zi (fr_branch_s f) i)) 0 (gr_lines g) ++
    mapi (fun i o => us_writes o (zi (fr_soc f) i)) 0 (gr_stor g) ++ mapi (fun i o => ub_writes o (zi (fr_bus_v f) i)) 0 (gr_buses g).
  Definition upd_rw (mx : F * F) (f : frame F) : list write :=
    let l := zi (fr_costs f) 0 in let p := zi (fr_costs f) 1 in
    [(rw_pen_text, AText, VText [PFixed p 2]); (rw_loss_text, AText, VText [PFixed l 2]); (rw_pen_rect, AWidth, VNum (np_min (rw_width * p / snd mx) rw_width));
     (rw_loss_rect, AFill, VColor (if n0 <? l then neg_color else pos_color)); (rw_loss_rect, AWidth, VNum (np_min (rw_width * nabs l / fst mx) rw_width))].
  Definition upd_blocks (m : init_msg F) (f : frame F) : list (list write) :=
    gr_blocks (graph_of m) f ++
    [[(lb_date, AText, VText [PStr (month_name (fst (month_day (fr_date f)))); PStr " "; PInt (snd (month_day (fr_date f)))])];
     [(lb_time, AText, VText (two_digits (fst (hour_minute (fr_date f))) ++ [PStr ":"] ++ two_digits (snd (hour_minute (fr_date f)))))];
     [(lb_year, AText, VText [PStr "Year count: "; PInt (fr_year f)])]; upd_rw (im_eloss m, im_pen m) f;
     rev (map (fun i => (i, AFill, VColor (if fr_collapsed f then "#ff0000" else "#000000"))) lb_group) ++ [(lb_check, AText, VText [PStr (if fr_collapsed f then "check mark" else "")])]].

  Lemma pic_all : in_pic (List.concat (init_keys ++ upd_keys)).
  Proof. intros i I. assert (forallb in_svg (List.concat (init_keys ++ upd_keys)) = true) as H by (vm_compute; reflexivity). rewrite forallb_forall in H. apply H, I. Qed.
  Lemma pic_of ids : In ids obj_keys -> in_pic ids.
  Proof. intros H i I. apply pic_all. apply in_concat. exists ids. split; [|exact I]. apply in_app_iff. left. apply in_app_iff. left. exact H. Qed.
  Lemma pic_dev k L : nth_error svg_devices k = Some L -> in_pic (dev_ids L).
  Proof. intros H. apply pic_of, in_app_iff. left. apply in_map. eapply nth_error_In, H. Qed.
  Lemma pic_line k L : nth_error svg_lines k = Some L -> in_pic (line_ids L).
  Proof. intros H. apply pic_of, in_app_iff. right. apply in_app_iff. left. apply in_map. eapply nth_error_In, H. Qed.
  Lemma pic_stor k L : nth_error svg_storage k = Some L -> in_pic (stor_ids L).
  Proof. intros H. apply pic_of, in_app_iff. right. apply in_app_iff. right. apply in_app_iff. left. apply in_map. eapply nth_error_In, H. Qed.
  Lemma pic_bus k L : nth_error svg_buses k = Some L -> in_pic (bus_ids L).
  Proof. intros H. apply pic_of, in_app_iff. right. apply in_app_iff. right. apply in_app_iff. right. apply in_map. eapply nth_error_In, H. Qed.
  Lemma in_pic1 i : In i (List.concat (init_keys ++ upd_keys)) -> in_svg i = true.
  Proof. apply pic_all. Qed.

  Lemma nth_len {A} (l : list A) k a : nth_error l k = Some a -> (k < List.length l)%nat.
  Proof. intros H. apply nth_error_Some. rewrite H. discriminate. Qed.
  Lemma gen_pot (m : init_msg F) k L : fits_msg m -> nth_error svg_devices k = Some L -> is_gen (nth k (im_type m) 0%Z) = true -> dl_pot L <> None.
  Proof.
    intros (L1 & _ & _ & _ & _ & _ & _ & G) H E. assert (K := nth_len _ _ _ H). cbn in K.
    assert (Q : k = 2%nat \/ k = 4%nat).
    { apply (G k (nth k (im_type m) 0%Z)); [apply nth_entry; lia|]. unfold is_gen in E. apply orb_true_iff in E. rewrite !Z.eqb_eq in E. exact E. }
    destruct Q as [-> | ->]; cbn in H; injection H as <-; discriminate.
  Qed.
  Lemma w_init (m : init_msg F) : fits_msg m -> writes true (new_graph m) (flat (init_obj_blocks m)) (graph_of m).
  Proof.
    intros Fm. assert (FM := Fm). destruct Fm as (L1 & L2 & L3 & L4 & L5 & L6 & L7 & G). unfold new_graph, init_obj_blocks, graph_of. rewrite !flat_app.
    eapply w_eq.
    - eapply w_then.
      { apply (w_collect true _ (fun i L => nd_writes L (nth i (im_type m) 0%Z) (zi (im_p m) i) (zi (im_q m) i)) (fun i L => nd_obj L (nth i (im_type m) 0%Z) (zi (im_p m) i) (zi (im_q m) i))). intros k L H. assert (K := nth_len _ _ _ H). cbn in K. cbn [Nat.add].
        eapply w_eq.
        - eapply w_then; [apply w_entry, (nth_entry _ _ 0%Z); lia|]. cbv beta. eapply w_then; [apply w_entry, (nth_entry _ _ n0); lia|]. cbv beta.
          eapply w_then; [apply w_entry, (nth_entry _ _ n0); lia|]. cbv beta. apply w_new_device; [eapply pic_dev, H|]. apply (gen_pot m); assumption.
        - rewrite !app_nil_r. reflexivity. }
      cbv beta. eapply w_then.
      { apply (w_collect true _ (fun i L => nl_writes L) (fun i L => mkLo L (zi (im_s m) i))). intros k L H. assert (K := nth_len _ _ _ H). cbn in K. cbn [Nat.add].
        eapply w_eq.
        - eapply w_then; [apply w_entry, (nth_entry _ _ n0); lia|]. cbv beta. apply w_new_line. eapply pic_line, H.
        - rewrite !app_nil_r. reflexivity. }
      cbv beta. eapply w_then.
      { apply (w_collect true _ (fun i L => ns_writes L (zi (im_soc m) i)) (fun i L => mkSo L (zi (im_soc m) i))). intros k L H. assert (K := nth_len _ _ _ H). cbn in K. cbn [Nat.add].
        eapply w_eq.
        - eapply w_then; [apply w_entry, (nth_entry _ _ n0); lia|]. cbv beta. apply w_new_storage. eapply pic_stor, H.
        - rewrite !app_nil_r. reflexivity. }
      cbv beta. eapply w_then.
      { apply (w_collect true _ (fun i L => nb_writes L) (fun i L => mkBo L (zi (im_vmin m) i) (zi (im_vmax m) i))). intros k L H. assert (K := nth_len _ _ _ H). cbn in K. cbn [Nat.add].
        eapply w_eq.
        - eapply w_then; [apply w_entry, (nth_entry _ _ n0); lia|]. cbv beta. eapply w_then; [apply w_entry, (nth_entry _ _ n0); lia|]. cbv beta. apply w_new_bus. eapply pic_bus, H.
        - rewrite !app_nil_r. reflexivity. }
      apply w_ret.
    - rewrite <- !app_assoc. reflexivity.
  Qed.

  Lemma init_msg_ok (m : init_msg F) title : fits_msg m ->
    on_message blank (GInit m title) = (mkPage (flat (init_blocks m title)) (Some (graph_of m)) (Some (im_eloss m, im_pen m)), Ok tt).
  Proof.
    intros H. destruct (w_init m H) as [W _]. unfold on_message. cbn [pg_dom blank]. rewrite (W []) by (intros _ C; exact C). rewrite app_nil_r.
    assert (W2 : writes false (sthen (add_title title) (fun _ => new_reward (im_eloss m) (im_pen m))) (init_rw m ++ [(lb_title, AText, VText [PStr title])]) (im_eloss m, im_pen m)).
    { eapply w_eq.
      - eapply w_then; [apply w_put; [vm_compute; reflexivity|discriminate]|]. unfold new_reward.
        do 6 (eapply w_then; [apply w_put; [vm_compute; reflexivity|discriminate]|]). apply w_ret.
      - reflexivity. }
    destruct W2 as [W2 _]. rewrite W2 by discriminate. unfold init_blocks. rewrite flat_app. reflexivity.
  Qed.

  Lemma mapi_in {A B} (g : nat -> A -> B) l i o : In o (mapi g i l) -> exists k a, nth_error l k = Some a /\ o = g (i + k)%nat a.
  Proof. intros H. apply In_nth_error in H. destruct H as [k H]. rewrite nth_mapi in H. destruct (nth_error l k) as [a|] eqn:E; [|discriminate H]. injection H as <-. exists k, a. auto. Qed.
  Lemma mapi_len {A B} (g : nat -> A -> B) l : forall i, List.length (mapi g i l) = List.length l.
  Proof. induction l as [|a l IH]; intros i; cbn; [reflexivity|]. rewrite IH. reflexivity. Qed.
  Lemma collect_units {A} b (f : nat -> A -> script unit) W l i : (forall k a, nth_error l k = Some a -> writes b (f (i + k)%nat a) (W (i + k)%nat a) tt) ->
    writes b (collect f i l) (flat (mapi W i l)) (mapi (fun _ _ => tt) i l).
  Proof. intros H. apply w_collect. exact H. Qed.
  Lemma w_graph (m : init_msg F) f : fits_msg m -> fits_frame f -> writes false (update_graph (graph_of m) f) (flat (gr_blocks (graph_of m) f)) tt.
  Proof.
    intros Fm (L1 & L2 & L3 & L4 & L5 & L6). unfold update_graph, gr_blocks. rewrite !flat_app. eapply w_eq.
    - eapply w_then.
      { apply w_update_devices.
        - intros o I. cbn [graph_of gr_devs] in I. apply mapi_in in I. destruct I as (k & L & K & ->). cbn [Nat.add]. unfold nd_obj. cbn [do_lab do_gen].
          split; [eapply pic_dev, K|]. apply (gen_pot m); assumption.
        - unfold graph_of. cbn [gr_devs]. rewrite mapi_len, L1. cbn. lia.
        - unfold graph_of. cbn [gr_devs]. rewrite mapi_len, L2. cbn. lia. }
      eapply w_then.
      { apply (collect_units false _ (fun i o => ul_writes o (zi (fr_branch_s f) i))). intros k o K. assert (KL := nth_len _ _ _ K). cbn [graph_of gr_lines] in K, KL.
        rewrite mapi_len in KL. cbn in KL. rewrite nth_mapi in K. destruct (nth_error svg_lines k) as [L|] eqn:E; [|discriminate K]. cbn [option_map] in K. injection K as <-.
        cbn [Nat.add]. eapply w_eq; [eapply w_then; [apply w_entry, (nth_entry _ _ n0); lia|]; cbv beta; apply w_update_line; eapply pic_line, E|]. rewrite app_nil_r. reflexivity. }
      eapply w_then.
      { apply (collect_units false _ (fun i o => us_writes o (zi (fr_soc f) i))). intros k o K. assert (KL := nth_len _ _ _ K). cbn [graph_of gr_stor] in K, KL.
        rewrite mapi_len in KL. cbn in KL. rewrite nth_mapi in K. destruct (nth_error svg_storage k) as [L|] eqn:E; [|discriminate K]. cbn [option_map] in K. injection K as <-.
        cbn [Nat.add]. eapply w_eq; [eapply w_then; [apply w_entry, (nth_entry _ _ n0); lia|]; cbv beta; apply w_update_storage; eapply pic_stor, E|]. rewrite app_nil_r. reflexivity. }
      eapply w_then.
      { apply (collect_units false _ (fun i o => ub_writes o (zi (fr_bus_v f) i))). intros k o K. assert (KL := nth_len _ _ _ K). cbn [graph_of gr_buses] in K, KL.
        rewrite mapi_len in KL. cbn in KL. rewrite nth_mapi in K. destruct (nth_error svg_buses k) as [L|] eqn:E; [|discriminate K]. cbn [option_map] in K. injection K as <-.
        cbn [Nat.add]. eapply w_eq; [eapply w_then; [apply w_entry, (nth_entry _ _ n0); lia|]; cbv beta; apply w_update_bus; eapply pic_bus, E|]. rewrite app_nil_r. reflexivity. }
      apply w_ret.
    - rewrite <- !app_assoc. reflexivity.
  Qed.

  Lemma upd_msg_ok (m : init_msg F) f d : fits_msg m -> fits_frame f ->
    on_message (mkPage d (Some (graph_of m)) (Some (im_eloss m, im_pen m))) (GUpdate f) =
    (mkPage (flat (upd_blocks m f) ++ d) (Some (graph_of m)) (Some (im_eloss m, im_pen m)), Ok tt).
  Proof.
    intros Fm Ff. assert (FF := Ff). destruct FF as (_ & _ & _ & _ & _ & LC). unfold on_message. cbn [pg_dom pg_graph pg_reward].
    match goal with |- (let '(_, _) := ?s d in _) = _ => assert (W : writes false s (flat (upd_blocks m f)) tt) end.
    { eapply w_eq.
      - eapply w_then; [apply w_entry; reflexivity|]. cbv beta. eapply w_then; [apply w_graph; assumption|].
        do 3 (eapply w_then; [apply w_put; [vm_compute; reflexivity|discriminate]|]).
        eapply w_then; [apply w_entry; reflexivity|]. cbv beta. eapply w_then; [apply w_entry, (nth_entry _ _ n0); lia|]. cbv beta.
        eapply w_then; [apply w_entry, (nth_entry _ _ n0); lia|]. cbv beta. eapply w_then.
        { unfold update_reward. do 4 (eapply w_then; [apply w_put; [vm_compute; reflexivity|discriminate]|]). apply w_put; [vm_compute; reflexivity|discriminate]. }
        unfold show_collapsed. eapply w_then; [apply w_put; [vm_compute; reflexivity|discriminate]|]. apply w_each. intros i I. apply w_put; [|discriminate].
        destruct I as [<-|[<-|[]]]; vm_compute; reflexivity.
      - unfold upd_blocks. rewrite flat_app. unfold flat at 2. cbn [rev app List.concat]. rewrite ?app_nil_r, <- ?app_assoc. reflexivity. }
    destruct W as [W _]. rewrite W by discriminate. reflexivity.
  Qed.

  Fixpoint history (m : init_msg F) (title : string) (fs : list (frame F)) : dom :=
    match fs with [] => flat (init_blocks m title) | f :: fs' => flat (upd_blocks m f) ++ history m title fs' end.
  Lemma updates_ok (m : init_msg F) title fs : fits_msg m -> Forall fits_frame fs -> forall hs,
    page_run (mkPage (history m title hs) (Some (graph_of m)) (Some (im_eloss m, im_pen m))) (map GUpdate fs) =
    (mkPage (history m title (rev fs ++ hs)) (Some (graph_of m)) (Some (im_eloss m, im_pen m)), map (fun _ => Ok tt) fs).
  Proof.
    intros Fm H. induction H as [|f fs A B IH]; intros hs; [reflexivity|]. cbn [map page_run]. rewrite (upd_msg_ok m f _ Fm A).
    change (flat (upd_blocks m f) ++ history m title hs) with (history m title (f :: hs)). rewrite IH. cbn [rev]. rewrite <- app_assoc. reflexivity.
  Qed.
  Lemma run_ok (m : init_msg F) title fs : fits_msg m -> Forall fits_frame fs ->
    page_run blank (GInit m title :: map GUpdate fs) =
    (mkPage (history m title (rev fs)) (Some (graph_of m)) (Some (im_eloss m, im_pen m)), Ok tt :: map (fun _ => Ok tt) fs).
  Proof.
    intros Fm H. cbn [page_run]. rewrite (init_msg_ok m title Fm). change (flat (init_blocks m title)) with (history m title []).
    rewrite (updates_ok m title fs Fm H []). rewrite app_nil_r. reflexivity.
  Qed.
End Writes.
