(** Proofs about the page: the attributes of every element after the last update. *)
From Coq Require Import Reals Lra.
From Verif Require Import Base Num Anm6 Message SvgLabels Page SpecPage ProofPage.
From Coq Require Import List.
Import ListNotations.
Local Open Scope string_scope.
Local Open Scope list_scope.
Local Open Scope num_scope.

Section Looks.
  Context {F : Type} {N : Num F}.
  Notation write := (string * attr * @aval F)%type.
  Notation dom := (@dom F).

  Fixpoint nodupb (l : list string) : bool := match l with [] => true | x :: l' => (negb (existsb (String.eqb x) l') && nodupb l')%bool end.
  Lemma nodupb_ok l : nodupb l = true -> NoDup l.
  Proof.
    induction l as [|x l IH]; intros H; [constructor|]. cbn [nodupb] in H. apply andb_true_iff in H. destruct H as [A B]. constructor; [|apply IH, B].
    intros I. apply negb_true_iff in A. assert (existsb (String.eqb x) l = true) as C; [apply existsb_exists; exists x; split; [exact I|apply String.eqb_refl]|]. congruence.
  Qed.
  Lemma nodup_init : NoDup (List.concat init_keys).
  Proof. apply nodupb_ok. vm_compute. reflexivity. Qed.
  Lemma nodup_upd : NoDup (List.concat upd_keys).
  Proof. apply nodupb_ok. vm_compute. reflexivity. Qed.

  Lemma wid_rev (a : attr) (v : @aval F) l : map wid (rev (map (fun i => (i, a, v)) l)) = rev l.
  Proof. rewrite map_rev, map_map. cbn. rewrite map_id. reflexivity. Qed.
  Lemma look_rev (a : attr) (v : @aval F) l i : In i l -> look (rev (map (fun i => (i, a, v)) l)) i a = Some v.
  Proof.
    intros H. apply in_rev in H. rewrite <- map_rev. induction (rev l) as [|x m IH]; [destruct H|]. cbn [map look].
    destruct (String.eqb_spec i x) as [E|E]; [destruct a; reflexivity|]. destruct H as [H|H]; [congruence|]. apply IH, H.
  Qed.
  Lemma within_mapi {A} (ids : A -> list string) (W : nat -> A -> list write) l : (forall k a, within (ids a) (W k a)) -> forall i, Forall2 within (map ids l) (mapi W i l).
  Proof. intros H. induction l as [|a l IH]; intros i; constructor; auto. Qed.
  Ltac inside := intros x X; cbn in X |- *; intuition subst; tauto.
  Lemma within_ud o p q pot : within (dev_ids (do_lab o)) (ud_writes (F := F) o p q pot).
  Proof.
    intros x X. unfold ud_writes in X. cbv zeta in X. unfold dev_ids. rewrite !map_app, !in_app_iff in X. rewrite in_app_iff.
    destruct X as [X|[X|X]]; [left; cbn in *; tauto| |left; cbn in *; tauto]. destruct (do_gen o); [|destruct X]. destruct (dl_pot (do_lab o)); cbn in *; [tauto|destruct X].
  Qed.
  Lemma within_nd L ty p q : within (dev_ids L) (nd_writes (F := F) L ty p q).
  Proof.
    intros x X. unfold nd_writes in X. unfold dev_ids. rewrite !map_app, !in_app_iff in X. rewrite in_app_iff.
    destruct X as [X|[X|X]]; [left; cbn in *; tauto| |left; cbn in *; tauto]. destruct (is_gen ty); [|destruct X]. destruct (dl_pot L); cbn in *; [tauto|destruct X].
  Qed.
  Lemma within_ul o s : within (line_ids (lo_lab o)) (ul_writes (F := F) o s).
  Proof.
    intros x X. unfold ul_writes in X. cbv zeta in X. unfold line_ids. rewrite !map_app, !in_app_iff, !wid_rev, <- !in_rev in X. rewrite !in_app_iff.
    destruct X as [X|[X|[X|[X|X]]]]; [tauto|tauto|left; cbn in *; tauto| |left; cbn in *; tauto]. destruct (round_index _); cbn in *; [tauto|destruct X].
  Qed.
  Lemma within_nl L : within (line_ids L) (nl_writes (F := F) L).
  Proof. intros x X. unfold nl_writes in X. unfold line_ids. rewrite !map_app, !in_app_iff, !wid_rev, <- !in_rev in X. rewrite !in_app_iff. tauto. Qed.
  Lemma within_us o x : within (stor_ids (so_lab o)) (us_writes (F := F) o x).
  Proof. intros y Y. cbn in *. tauto. Qed.
  Lemma within_ns L x : within (stor_ids L) (ns_writes (F := F) L x).
  Proof. intros y Y. cbn in *. tauto. Qed.
  Lemma within_ub o v : within (bus_ids (bo_lab o)) (ub_writes (F := F) o v).
  Proof. intros x X. unfold ub_writes in X. cbv zeta in X. unfold bus_ids. rewrite !map_app, !in_app_iff, !wid_rev, <- !in_rev in X. cbn in *. tauto. Qed.
  Lemma within_nb L : within (bus_ids L) (nb_writes (F := F) L).
  Proof. intros x X. unfold nb_writes in X. rewrite !wid_rev, <- !in_rev in X. right. exact X. Qed.
  Lemma within_dev f ds : forall i k, Forall2 within (map (fun o => dev_ids (do_lab o)) ds) (dev_blocks (F := F) f i k ds).
  Proof. induction ds as [|o ds IH]; intros i k; cbn [map dev_blocks]; constructor; [apply within_ud|apply IH]. Qed.

  Lemma within_init m title : Forall2 within init_keys (init_blocks (F := F) m title).
  Proof.
    unfold init_keys, obj_keys, init_blocks, init_obj_blocks. rewrite <- !app_assoc.
    apply Forall2_app; [apply within_mapi; intros; apply within_nd|]. apply Forall2_app; [apply within_mapi; intros; apply within_nl|].
    apply Forall2_app; [apply within_mapi; intros; apply within_ns|]. apply Forall2_app; [apply within_mapi; intros; apply within_nb|].
    constructor; [intros x X; exact X|]. constructor; [intros x X; cbn in *; tauto|constructor].
  Qed.
  Lemma map_mapi {A B C} (h : B -> C) (g : nat -> A -> B) l : forall i, map h (mapi g i l) = mapi (fun i a => h (g i a)) i l.
  Proof. induction l as [|a l IH]; intros i; cbn; [reflexivity|]. rewrite IH. reflexivity. Qed.
  Lemma within_upd m f : Forall2 within upd_keys (upd_blocks (F := F) m f).
  Proof.
    unfold upd_keys, obj_keys, upd_blocks, gr_blocks. rewrite <- !app_assoc.
    apply Forall2_app; [exact (within_dev f (gr_devs (graph_of m)) 0 0)|].
    apply Forall2_app; [exact (within_mapi (fun o => line_ids (lo_lab o)) _ (gr_lines (graph_of m)) (fun k o => within_ul o _) 0)|].
    apply Forall2_app; [exact (within_mapi (fun o => stor_ids (so_lab o)) _ (gr_stor (graph_of m)) (fun k o => within_us o _) 0)|].
    apply Forall2_app; [exact (within_mapi (fun o => bus_ids (bo_lab o)) _ (gr_buses (graph_of m)) (fun k o => within_ub o _) 0)|].
    repeat (constructor; [intros x X; cbn in *; tauto|]). constructor.
  Qed.

  Definition block (l : list (list write)) (k : nat) : list write := nth k l [].
  Lemma F2_len {A B} (R : A -> B -> Prop) l l' : Forall2 R l l' -> List.length l = List.length l'.
  Proof. intros H. induction H; cbn; congruence. Qed.
  Lemma look_upd m title f hs k ids i a : nth_error upd_keys k = Some ids -> In i ids ->
    look (history m title (f :: hs)) i a = match look (block (upd_blocks m f) k) i a with Some v => Some v | None => look (history m title hs) i a end.
  Proof.
    intros K I. cbn [history]. apply (look_block upd_keys (upd_blocks m f) (within_upd m f) nodup_upd k ids); [exact K| |exact I].
    apply nth_entry. rewrite <- (F2_len _ _ _ (within_upd m f)). eapply nth_len, K.
  Qed.
  Lemma look_init m title k ids i a : nth_error init_keys k = Some ids -> In i ids -> look (history m title []) i a = look (block (init_blocks m title) k) i a.
  Proof.
    intros K I. cbn [history]. rewrite <- (app_nil_r (flat _)). rewrite (look_block init_keys (init_blocks m title) (within_init m title) nodup_init k ids (block (init_blocks m title) k) [] i a K); [|apply nth_entry; rewrite <- (F2_len _ _ _ (within_init m title)); eapply nth_len, K|exact I].
    destruct (look _ i a); reflexivity.
  Qed.
  (** attributes that no update touches keep the value of the first message *)
  Lemma look_kept m title hs i a : (forall f, In f hs -> exists k ids, nth_error upd_keys k = Some ids /\ In i ids /\ look (block (upd_blocks m f) k) i a = None) ->
    look (history m title hs) i a = look (history m title []) i a.
  Proof.
    induction hs as [|f hs IH]; intros H; [reflexivity|]. destruct (H f (or_introl eq_refl)) as (k & ids & K & I & E). rewrite (look_upd m title f hs k ids i a K I), E.
    apply IH. intros g G. apply H. right. exact G.
  Qed.

  Fixpoint ngens (ds : list (@dev_obj F)) (i : nat) : nat := match i, ds with S i', o :: ds' => (if do_gen o then 1 else 0) + ngens ds' i' | _, _ => 0 end.
  Lemma nth_dev_blocks f ds : forall i k j o, nth_error ds j = Some o ->
    nth_error (dev_blocks f i k ds) j = Some (ud_writes o (nth (i + j) (fr_dev_p f) n0) (nth (i + j) (fr_dev_q f) n0) (if do_gen o then nth_error (fr_gen f) (k + ngens ds j) else None)).
  Proof.
    induction ds as [|o0 ds IH]; intros i k j o H; [destruct j; discriminate H|]. cbn [dev_blocks]. destruct j as [|j].
    - cbn in H. injection H as ->. cbn [nth_error ngens]. rewrite !Nat.add_0_r. reflexivity.
    - cbn [nth_error] in *. rewrite (IH (S i) _ j o H). replace (S i + j)%nat with (i + S j)%nat by lia. cbn [ngens]. do 3 f_equal. destruct (do_gen o); [|reflexivity]. f_equal.
      destruct (do_gen o0); cbn [Nat.add]; lia.
  Qed.
  Lemma ngens_types m : List.length (im_type m) = 7%nat -> forall i, (i < 7)%nat -> ngens (gr_devs (graph_of m)) i = gens_before (im_type m) i.
  Proof.
    intros H i I. unfold graph_of. cbn [gr_devs]. destruct (im_type m) as [|t0 [|t1 [|t2 [|t3 [|t4 [|t5 [|t6 [|]]]]]]]]; try discriminate H.
    do 7 (destruct i as [|i]; [reflexivity|]). lia.
  Qed.

  Lemma dev_block m f k L : nth_error svg_devices k = Some L -> block (upd_blocks m f) k =
    ud_writes (nd_obj L (nth k (im_type m) 0%Z) (zi (im_p m) k) (zi (im_q m) k)) (zi (fr_dev_p f) k) (zi (fr_dev_q f) k)
      (if is_gen (nth k (im_type m) 0%Z) then nth_error (fr_gen f) (ngens (gr_devs (graph_of m)) k) else None).
  Proof.
    intros H. unfold block. apply nth_error_nth. unfold upd_blocks, gr_blocks. rewrite <- !app_assoc. rewrite nth_error_app1.
    2:{ rewrite <- (F2_len _ _ _ (within_dev f (gr_devs (graph_of m)) 0 0)). rewrite map_length. unfold graph_of. cbn [gr_devs]. rewrite mapi_len. eapply nth_len, H. }
    apply (nth_dev_blocks f (gr_devs (graph_of m)) 0 0 k (nd_obj L (nth k (im_type m) 0%Z) (zi (im_p m) k) (zi (im_q m) k))).
    unfold graph_of. cbn [gr_devs]. rewrite nth_mapi, H. reflexivity.
  Qed.
  Ltac each_one := repeat match goal with H : nth_error ?l ?k = Some _ |- _ => is_var k; destruct k; cbn [nth_error svg_devices svg_lines svg_storage svg_buses] in H;
    try discriminate H; try (injection H as <-) end.
  Ltac finish_pot := match goal with R : None = Some _ |- _ => discriminate R | R : false = true |- _ => discriminate R | R : Some _ = Some _ |- _ => injection R as <-; reflexivity | _ => reflexivity end.
  Lemma dev_key k L : nth_error svg_devices k = Some L -> nth_error upd_keys k = Some (dev_ids L) /\ nth_error init_keys k = Some (dev_ids L).
  Proof. intros H. each_one; split; reflexivity. Qed.
  Lemma ud_look k L o p q pot : nth_error svg_devices k = Some L -> do_lab o = L ->
    look (ud_writes (F := F) o p q pot) (dl_prect L) AHeight = Some (VNum (bar p_height n0 (do_pmax o) p)) /\
    look (ud_writes o p q pot) (dl_qrect L) AHeight = Some (VNum (bar p_height n0 (do_qmax o) q)) /\
    look (ud_writes o p q pot) (dl_prect L) AFill = Some (VColor (if n0 <=? p then gen_color else load_color)) /\
    look (ud_writes o p q pot) (dl_qrect L) AFill = Some (VColor (if n0 <=? q then gen_color else load_color)) /\
    look (ud_writes o p q pot) (dl_ptext L) AText = Some (VText [precision p; PStr " "; PStr "MW"]) /\
    look (ud_writes o p q pot) (dl_qtext L) AText = Some (VText [precision q; PStr " "; PStr "MVAr"]) /\
    look (ud_writes o p q pot) (dl_arrow L) ARotate = Some (VAngle (dev_angle (do_load o) p)) /\
    look (ud_writes o p q pot) (dl_ptick L) AText = None /\ look (ud_writes o p q pot) (dl_qtick L) AText = None /\
    (forall r, dl_pot L = Some r -> do_gen o = true -> let up := match pot with Some x => p <? x | None => false end in let x := match pot with Some x => x | None => n0 end in
       look (ud_writes o p q pot) r AHeight = Some (VNum (if up then p_height * (x - n0) / (do_pmax o - n0) - bar p_height n0 (do_pmax o) p else n0)) /\
       look (ud_writes o p q pot) r AY = Some (VNum ((if up then bar p_height n0 (do_pmax o) p else n0) + do_poty o)) /\
       look (ud_writes o p q pot) r AFill = None).
  Proof.
    intros H E. unfold ud_writes. cbv zeta. rewrite E. clear E.
    each_one; cbn [dl_pot]; destruct (do_gen o); repeat split; intros; finish_pot.
  Qed.
  Lemma nd_look k L ty p q : nth_error svg_devices k = Some L ->
    look (nd_writes (F := F) L ty p q) (dl_ptick L) AText = Some (VText [PFixed p 0]) /\ look (nd_writes L ty p q) (dl_qtick L) AText = Some (VText [PFixed q 0]) /\
    (forall r, dl_pot L = Some r -> is_gen ty = true -> look (nd_writes L ty p q) r AFill = Some (VColor pot_color)).
  Proof.
    intros H. unfold nd_writes. each_one; cbn [dl_pot]; destruct (is_gen ty); repeat split; intros; finish_pot.
  Qed.
  Lemma init_dev_block m title k L : nth_error svg_devices k = Some L -> block (init_blocks m title) k = nd_writes L (nth k (im_type m) 0%Z) (zi (im_p m) k) (zi (im_q m) k).
  Proof. intros H. each_one; reflexivity. Qed.

  Variables (m : init_msg F) (title : string).
  Notation D f hs := (history m title (f :: hs)).
  Lemma dev_look f hs k L i a v : nth_error svg_devices k = Some L -> In i (dev_ids L) -> look (block (upd_blocks m f) k) i a = Some v -> look (D f hs) i a = Some v.
  Proof. intros H I E. destruct (dev_key k L H) as [K _]. rewrite (look_upd m title f hs k _ i a K I), E. reflexivity. Qed.
  Lemma dev_kept hs k L i a : nth_error svg_devices k = Some L -> In i (dev_ids L) -> (forall f, look (block (upd_blocks m f) k) i a = None) ->
    look (history m title hs) i a = look (nd_writes L (nth k (im_type m) 0%Z) (zi (im_p m) k) (zi (im_q m) k)) i a.
  Proof.
    intros H I E. destruct (dev_key k L H) as [K1 K2]. rewrite look_kept; [rewrite (look_init m title k _ i a K2 I), (init_dev_block m title k L H); reflexivity|].
    intros f _. exists k, (dev_ids L). auto.
  Qed.
  Lemma dev_attrs f hs k L : nth_error svg_devices k = Some L -> let ty := nth k (im_type m) 0%Z in let pm := zi (im_p m) k in let qm := zi (im_q m) k in
    let p := zi (fr_dev_p f) k in let q := zi (fr_dev_q f) k in
    look (D f hs) (dl_ptick L) AText = Some (VText [PFixed pm 0]) /\ look (D f hs) (dl_qtick L) AText = Some (VText [PFixed qm 0]) /\
    look (D f hs) (dl_prect L) AHeight = Some (VNum (bar p_height n0 pm p)) /\ look (D f hs) (dl_qrect L) AHeight = Some (VNum (bar p_height n0 qm q)) /\
    look (D f hs) (dl_prect L) AFill = Some (VColor (if n0 <=? p then gen_color else load_color)) /\
    look (D f hs) (dl_qrect L) AFill = Some (VColor (if n0 <=? q then gen_color else load_color)) /\
    look (D f hs) (dl_ptext L) AText = Some (VText [precision p; PStr " "; PStr "MW"]) /\ look (D f hs) (dl_qtext L) AText = Some (VText [precision q; PStr " "; PStr "MVAr"]) /\
    look (D f hs) (dl_arrow L) ARotate = Some (VAngle (dev_angle (Z.ltb ty 0) p)) /\
    (forall r, dl_pot L = Some r -> is_gen ty = true -> let pot := nth_error (fr_gen f) (ngens (gr_devs (graph_of m)) k) in
       let up := match pot with Some x => p <? x | None => false end in let x := match pot with Some x => x | None => n0 end in
       look (D f hs) r AHeight = Some (VNum (if up then p_height * (x - n0) / (pm - n0) - bar p_height n0 pm p else n0)) /\
       look (D f hs) r AY = Some (VNum ((if up then bar p_height n0 pm p else n0) + svg_y r)) /\ look (D f hs) r AFill = Some (VColor pot_color)).
  Proof.
    intros H ty pm qm p q. set (o := nd_obj L ty pm qm). set (pot := if is_gen ty then nth_error (fr_gen f) (ngens (gr_devs (graph_of m)) k) else None).
    assert (B := dev_block m f k L H). fold ty pm qm p q o in B. fold pot in B.
    destruct (ud_look k L o p q pot H eq_refl) as (U1 & U2 & U3 & U4 & U5 & U6 & U7 & _ & _ & U8).
    destruct (nd_look k L ty pm qm H) as (I1 & I2 & I3).
    assert (KT : forall g i, (i = dl_ptick L \/ i = dl_qtick L) -> look (block (upd_blocks m g) k) i AText = None).
    { intros g i I. rewrite (dev_block m g k L H). edestruct (ud_look k L) as (_ & _ & _ & _ & _ & _ & _ & X & Y & _); [exact H| |destruct I as [->| ->]; [exact X|exact Y]]. reflexivity. }
    split; [|split; [|split; [|split; [|split; [|split; [|split; [|split; [|split]]]]]]]].
    - rewrite (dev_kept _ k L _ _ H); [exact I1|cbn; tauto|]. intros g. apply KT. left. reflexivity.
    - rewrite (dev_kept _ k L _ _ H); [exact I2|cbn; tauto|]. intros g. apply KT. right. reflexivity.
    - apply (dev_look f hs k L); [exact H|cbn; tauto|]. rewrite B. exact U1.
    - apply (dev_look f hs k L); [exact H|cbn; tauto|]. rewrite B. exact U2.
    - apply (dev_look f hs k L); [exact H|cbn; tauto|]. rewrite B. exact U3.
    - apply (dev_look f hs k L); [exact H|cbn; tauto|]. rewrite B. exact U4.
    - apply (dev_look f hs k L); [exact H|cbn; tauto|]. rewrite B. exact U5.
    - apply (dev_look f hs k L); [exact H|cbn; tauto|]. rewrite B. exact U6.
    - apply (dev_look f hs k L); [exact H|cbn; tauto|]. rewrite B. exact U7.
    - intros r R G. assert (IR : In r (dev_ids L)) by (unfold dev_ids; rewrite R; cbn; tauto). unfold pot in B, U8. rewrite G in B, U8. cbv zeta.
      destruct (U8 r R G) as (V1 & V2 & _). split; [|split].
      + apply (dev_look f hs k L); [exact H|exact IR|]. rewrite B. exact V1.
      + apply (dev_look f hs k L); [exact H|exact IR|]. rewrite B. rewrite V2. unfold o, nd_obj. cbn [do_poty]. rewrite G, R. reflexivity.
      + rewrite (dev_kept _ k L _ _ H); [exact (I3 r R G)|exact IR|]. intros g. rewrite (dev_block m g k L H).
        match goal with |- look (ud_writes ?o ?p ?q ?t) _ _ = _ => destruct (ud_look k L o p q t H eq_refl) as (_ & _ & _ & _ & _ & _ & _ & _ & _ & X) end.
        destruct (X r R G) as (_ & _ & Y). exact Y.
  Qed.

  Lemma line_attrs f hs k L : nth_error svg_lines k = Some L -> let mx := zi (im_s m) k in let s := zi (fr_branch_s f) k in let pc := nofZ 100 * (nabs s - n0) / (mx - n0) in
    look (D f hs) (ll_rect L) AHeight = Some (VNum (bar i_height n0 mx s)) /\
    (forall c, round_index pc = Some c -> look (D f hs) (ll_rect L) AFill = Some (VColor c)) /\
    (round_index pc = None -> look (D f hs) (ll_rect L) AFill = look (history m title hs) (ll_rect L) AFill) /\
    look (D f hs) (ll_text L) AText = Some (VText [precision pc; PStr " %"]) /\
    (forall i, In i (ll_cross L) -> look (D f hs) i AStroke = Some (VColor (if nofZ 100 <? pc then broken_color else "none"))) /\
    (forall i, In i (ll_arrows L) -> look (D f hs) i ARotate = Some (VAngle (dev_angle false s))).
  Proof.
    intros H mx s pc.
    assert (B : block (upd_blocks m f) (7 + k) = ul_writes (mkLo L mx) s) by (unfold mx, s; clear mx s pc; each_one; reflexivity).
    assert (K : nth_error upd_keys (7 + k) = Some (line_ids L)) by (clear - H; each_one; reflexivity).
    assert (ND : NoDup (line_ids L)) by (clear - H; each_one; apply nodupb_ok; reflexivity).
    assert (LK : forall i a, In i (line_ids L) -> look (D f hs) i a = match look (ul_writes (mkLo L mx) s) i a with Some v => Some v | None => look (history m title hs) i a end).
    { intros i a I. rewrite (look_upd m title f hs (7 + k) _ i a K I), B. reflexivity. }
    assert (A1 : forall i x, In i (ll_arrows L) -> In x [ll_rect L; ll_text L] -> i <> x).
    { intros i x I X ->. unfold line_ids in ND. clear - ND I X. cbn [app] in ND. inversion ND as [|? ? N1 N2]; subst. inversion N2 as [|? ? N3 N4]; subst.
      destruct X as [<-|[<-|[]]]; [apply N1; right; apply in_app_iff; right; exact I|apply N3, in_app_iff; right; exact I]. }
    assert (A2 : forall i x, In i (ll_cross L) -> In x [ll_rect L; ll_text L] -> i <> x).
    { intros i x I X ->. unfold line_ids in ND. clear - ND I X. cbn [app] in ND. inversion ND as [|? ? N1 N2]; subst. inversion N2 as [|? ? N3 N4]; subst.
      destruct X as [<-|[<-|[]]]; [apply N1; right; apply in_app_iff; left; exact I|apply N3, in_app_iff; left; exact I]. }
    assert (A3 : ll_rect L <> ll_text L).
    { unfold line_ids in ND. cbn [app] in ND. inversion ND as [|? ? N1 N2]; subst. intros E. apply N1. left. symmetry. exact E. }
    assert (NR : forall a (v : @aval F) l x a', ~ In x l -> look (rev (map (fun i => (i, a, v)) l)) x a' = None).
    { intros a v l x a' X. apply look_other. rewrite wid_rev, <- in_rev. exact X. }
    assert (SK : forall x, In x [ll_rect L; ll_text L] -> forall a, look (ul_writes (mkLo L mx) s) x a =
       look ([(ll_text L, AText, VText [precision pc; PStr " %"])] ++ opt_list (round_index pc) (fun c => [(ll_rect L, AFill, VColor c)]) ++ [(ll_rect L, AHeight, VNum (bar i_height n0 mx s))]) x a).
    { intros x X a. unfold ul_writes. cbv zeta. cbn [lo_lab lo_max]. rewrite look_app, NR; [|intros I; exact (A1 x x I X eq_refl)].
      rewrite look_app, NR; [|intros I; exact (A2 x x I X eq_refl)]. reflexivity. }
    assert (E1 : String.eqb (ll_rect L) (ll_text L) = false) by (apply String.eqb_neq; exact A3).
    assert (S1 : forall a, look (ul_writes (mkLo L mx) s) (ll_rect L) a = look (opt_list (round_index pc) (fun c => [(ll_rect L, AFill, VColor c)]) ++ [(ll_rect L, AHeight, VNum (bar i_height n0 mx s))]) (ll_rect L) a).
    { intros a. rewrite SK by (left; reflexivity). cbn [app look]. rewrite E1. reflexivity. }
    split; [|split; [|split; [|split; [|split]]]].
    - rewrite LK by (cbn; tauto). rewrite S1. destruct (round_index pc); cbn [opt_list app look]; rewrite String.eqb_refl; reflexivity.
    - intros c C. rewrite LK by (cbn; tauto). rewrite S1, C. cbn [opt_list app look]. rewrite String.eqb_refl. reflexivity.
    - intros C. rewrite LK by (cbn; tauto). rewrite S1, C. cbn [opt_list app look]. rewrite String.eqb_refl. reflexivity.
    - rewrite LK by (cbn; tauto). rewrite SK by (right; left; reflexivity). cbn [app look]. rewrite String.eqb_refl. reflexivity.
    - intros i I. rewrite LK by (unfold line_ids; rewrite !in_app_iff; tauto). unfold ul_writes. cbv zeta. cbn [lo_lab lo_max]. rewrite look_app, look_attr.
      + rewrite look_app, look_rev by exact I. reflexivity.
      + rewrite map_rev, map_map. cbn. intros J. apply in_rev, in_map_iff in J. destruct J as (? & J & _). discriminate J.
    - intros i I. rewrite LK by (unfold line_ids; rewrite !in_app_iff; tauto). unfold ul_writes. cbv zeta. cbn [lo_lab lo_max]. rewrite look_app, look_rev by exact I. reflexivity.
  Qed.

  Lemma stor_attrs f hs k L : nth_error svg_storage k = Some L -> let mx := zi (im_soc m) k in let x := zi (fr_soc f) k in
    look (D f hs) (sl_tick L) AText = Some (VText [PNum mx]) /\ look (D f hs) (sl_rect L) AHeight = Some (VNum (soc_height * (x - n0) / (mx - n0))) /\
    look (D f hs) (sl_rect L) AFill = Some (VColor soc_color) /\ look (D f hs) (sl_text L) AText = Some (VText [precision x; PStr " "; PStr "MWh"]).
  Proof.
    intros H mx x. unfold mx, x. each_one.
    assert (LK : forall g hs i a, In i (stor_ids (mkSl "text1215" "text4215" "rect1607")) -> look (D g hs) i a =
      match look (us_writes (mkSo (mkSl "text1215" "text4215" "rect1607") (zi (im_soc m) 0)) (zi (fr_soc g) 0)) i a with Some v => Some v | None => look (history m title hs) i a end).
    { intros g hs0 i a I. exact (look_upd m title g hs0 12 _ i a eq_refl I). }
    split; [|split; [|split]]; [|rewrite LK by (cbn; tauto); reflexivity..].
    cbn [sl_tick]. rewrite look_kept; [rewrite (look_init m title 12 _ _ _ eq_refl); [reflexivity|left; reflexivity]|].
    intros g _. exists 12%nat, (stor_ids (mkSl "text1215" "text4215" "rect1607")). repeat split. left. reflexivity.
  Qed.

  Lemma bus_attrs f hs k L : nth_error svg_buses k = Some L -> let lo := zi (im_vmin m) k in let hi := zi (im_vmax m) k in let v := zi (fr_bus_v f) k in
    look (D f hs) (bl_text L) AText = Some (VText [PStr "|V| = "; precision v; PStr " "; PStr "pu"]) /\
    (forall i, In i (bl_cross L) -> look (D f hs) i AStroke = Some (VColor (if ((v <? lo) || (hi <? v))%bool then broken_color else "none"))).
  Proof.
    intros H lo hi v.
    assert (B : block (upd_blocks m f) (13 + k) = ub_writes (mkBo L lo hi) v) by (unfold lo, hi, v; clear lo hi v; each_one; reflexivity).
    assert (K : nth_error upd_keys (13 + k) = Some (bus_ids L)) by (clear - H; each_one; reflexivity).
    assert (LK : forall i a, In i (bus_ids L) -> look (D f hs) i a = match look (ub_writes (mkBo L lo hi) v) i a with Some v => Some v | None => look (history m title hs) i a end).
    { intros i a I. rewrite (look_upd m title f hs (13 + k) _ i a K I), B. reflexivity. }
    split.
    - rewrite LK by (left; reflexivity). unfold ub_writes. cbv zeta. cbn [bo_lab bo_min bo_max]. rewrite look_app, look_attr.
      + cbn [look]. rewrite String.eqb_refl. reflexivity.
      + rewrite map_rev, map_map. cbn. intros J. apply in_rev, in_map_iff in J. destruct J as (? & J & _). discriminate J.
    - intros i I. rewrite LK by (right; exact I). unfold ub_writes. cbv zeta. cbn [bo_lab bo_min bo_max]. rewrite look_app, look_rev by exact I. reflexivity.
  Qed.

  Lemma rest_attrs f hs : let l := zi (fr_costs f) 0 in let p := zi (fr_costs f) 1 in
    look (D f hs) lb_title AText = Some (VText [PStr title]) /\
    look (D f hs) lb_date AText = Some (VText [PStr (month_name (fst (month_day (fr_date f)))); PStr " "; PInt (snd (month_day (fr_date f)))]) /\
    look (D f hs) lb_time AText = Some (VText (two_digits (fst (hour_minute (fr_date f))) ++ [PStr ":"] ++ two_digits (snd (hour_minute (fr_date f))))) /\
    look (D f hs) lb_year AText = Some (VText [PStr "Year count: "; PInt (fr_year f)]) /\
    look (D f hs) rw_loss_max AText = Some (VText [PNum (im_eloss m)]) /\ look (D f hs) rw_pen_max AText = Some (VText [PNum (im_pen m)]) /\
    look (D f hs) rw_loss_text AText = Some (VText [PFixed l 2]) /\ look (D f hs) rw_pen_text AText = Some (VText [PFixed p 2]) /\
    look (D f hs) rw_loss_rect AWidth = Some (VNum (np_min (rw_width * nabs l / im_eloss m) rw_width)) /\
    look (D f hs) rw_pen_rect AWidth = Some (VNum (np_min (rw_width * p / im_pen m) rw_width)) /\
    look (D f hs) rw_loss_rect AFill = Some (VColor (if n0 <? l then neg_color else pos_color)) /\ look (D f hs) rw_pen_rect AFill = Some (VColor neg_color) /\
    look (D f hs) lb_check AText = Some (VText [PStr (if fr_collapsed f then "check mark" else "")]) /\
    (forall i, In i lb_group -> look (D f hs) i AFill = Some (VColor (if fr_collapsed f then "#ff0000" else "#000000"))).
  Proof.
    intros l p.
    assert (RK : forall i a, In i rw_ids -> look (D f hs) i a = match look (upd_rw (im_eloss m, im_pen m) f) i a with Some v => Some v | None => look (history m title hs) i a end).
    { intros i a I. exact (look_upd m title f hs 22 _ i a eq_refl I). }
    assert (KP : forall i a, In i rw_ids -> (forall g, look (upd_rw (im_eloss m, im_pen m) g) i a = None) -> look (D f hs) i a = look (init_rw m) i a).
    { intros i a I E. rewrite look_kept; [exact (look_init m title 20 _ i a eq_refl I)|]. intros g _. exists 22%nat, rw_ids. repeat split; [exact I|exact (E g)]. }
    assert (IW : forall i, In i rw_ids \/ ~ In i rw_ids) by (intros i; destruct (in_dec String.string_dec i rw_ids); auto).
    split; [|split; [|split; [|split; [|split; [|split; [|split; [|split; [|split; [|split; [|split; [|split; [|split]]]]]]]]]]]].
    - transitivity (look (history m title []) lb_title AText); [|exact (look_init m title 19 _ _ _ eq_refl (or_introl eq_refl))].
      assert (NT : ~ In lb_title (List.concat upd_keys)).
      { intros I. assert (existsb (String.eqb lb_title) (List.concat upd_keys) = true) as C; [apply existsb_exists; exists lb_title; split; [exact I|reflexivity]|]. vm_compute in C. discriminate C. }
      generalize (f :: hs). intros fs. induction fs as [|g fs IH]; [reflexivity|]. cbn [history]. rewrite (look_none upd_keys _ _ _ _ (within_upd m g) NT). exact IH.
    - exact (look_upd m title f hs 19 _ _ AText eq_refl (or_introl eq_refl)).
    - exact (look_upd m title f hs 20 _ _ AText eq_refl (or_introl eq_refl)).
    - exact (look_upd m title f hs 21 _ _ AText eq_refl (or_introl eq_refl)).
    - rewrite KP; [reflexivity|cbn; tauto|reflexivity].
    - rewrite KP; [reflexivity|cbn; tauto|reflexivity].
    - rewrite RK by (cbn; tauto). reflexivity.
    - rewrite RK by (cbn; tauto). reflexivity.
    - rewrite RK by (cbn; tauto). reflexivity.
    - rewrite RK by (cbn; tauto). reflexivity.
    - rewrite RK by (cbn; tauto). reflexivity.
    - rewrite KP; [reflexivity|cbn; tauto|reflexivity].
    - exact (look_upd m title f hs 23 _ _ AText eq_refl (or_intror (or_introl eq_refl))).
    - intros i I. rewrite (look_upd m title f hs 23 _ i AFill eq_refl I). destruct I as [<-|[<-|[]]]; reflexivity.
  Qed.
End Looks.
