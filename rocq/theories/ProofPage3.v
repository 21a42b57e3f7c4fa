(** Proofs about the page: exact arithmetic of the bars and the calendar. *)
From Coq Require Import Reals Lra.
From Verif Require Import Base Num NumXR LibXR Anm6 Message SpecAnm6 SvgLabels Page SpecPage ProofPage ProofPage2 PropEasy.
From Coq Require Import List.
Import ListNotations.
Local Open Scope string_scope.
Local Open Scope list_scope.
Local Open Scope R_scope.

Lemma min_XR a b : np_min (Fin a) (Fin b) = Fin (Rmin a b).
Proof.
  unfold np_min, nisnan. cbn [nleb neqb XRnum xleb xeqb]. unfold Rleb, Reqb, Rmin. destruct (Rle_dec a b); [reflexivity|]. destruct (Req_EM_T a a); [reflexivity|]. congruence.
Qed.
Lemma p_height_XR : @p_height XR _ = Fin 19.8.
Proof. unfold p_height. rewrite nrat_XR by lia. f_equal; lra. Qed.
Lemma i_height_XR : @i_height XR _ = Fin 24.6.
Proof. unfold i_height. rewrite nrat_XR by lia. f_equal; lra. Qed.
Lemma soc_height_XR : @soc_height XR _ = Fin 19.8.
Proof. unfold soc_height. rewrite nrat_XR by lia. f_equal; lra. Qed.
Lemma rw_width_XR : @rw_width XR _ = Fin 93.8.
Proof. unfold rw_width. rewrite nrat_XR by lia. f_equal; lra. Qed.
Lemma scale_min H a : 0 <= H -> Rmin (H * a) H = H * Rmin 1 a.
Proof. intros P. unfold Rmin. destruct (Rle_dec (H * a) H), (Rle_dec 1 a); try nra. Qed.
Lemma bar_XR H mx x : 0 <= H -> 0 < mx -> bar (Fin H) n0 (Fin mx) (Fin x) = Fin (gauge H mx x).
Proof.
  intros P M. unfold bar, gauge. cbn [nabs n0 nsub nmul ndiv XRnum xabs xsub xmul]. rewrite xdiv_Fin by lra. rewrite min_XR. f_equal. rewrite <- scale_min by exact P.
  f_equal. field. lra.
Qed.
Lemma precision_XR x : exists k, precision (Fin x) = PPrec (Fin x) k /\ shown_with x k.
Proof.
  unfold precision, shown_with. rewrite nrat_XR by lia. cbn [nabs nofZ n1 nleb nltb XRnum xabs xleb xltb].
  unfold Rltb, Rleb. assert (P := Rabs_pos x).
  destruct (Rlt_dec 10000000000 (Rabs x)) as [A|A]; cbn [orb]; [exists 1%nat; split; [reflexivity|left; split; [right; exact A|reflexivity]]|].
  destruct (Rlt_dec (Rabs x) (1 / 10)) as [B|B]; cbn [orb]; [exists 1%nat; split; [reflexivity|left; split; [left; exact B|reflexivity]]|].
  destruct (Rle_dec 1000 (Rabs x)) as [C|C]; cbn [orb]; [exists 2%nat; split; [reflexivity|right; left; split; [right; lra|reflexivity]]|].
  destruct (Rlt_dec (Rabs x) 1) as [E|E]; [exists 2%nat; split; [reflexivity|right; left; split; [left; lra|reflexivity]]|].
  exists 3%nat. split; [reflexivity|]. right. right. split; [lra|reflexivity].
Qed.

Lemma gradient_100 : List.length color_gradient = 100%nat.
Proof. reflexivity. Qed.
Lemma rtrunc_floor x (z : Z) : 0 <= x -> IZR z <= x < IZR z + 1 -> rtrunc x = z.
Proof.
  intros P H. unfold rtrunc. destruct (Rle_dec 0 x); [|lra]. unfold Int_part. assert (E : (z + 1)%Z = up x); [|lia]. apply tech_up; rewrite plus_IZR; lra.
Qed.
(** the colour of a branch loaded at [pc] percent *)
Lemma round_XR pc (k : nat) : 0 <= pc -> (1 <= k <= 100)%nat -> INR k - 1/2 <= Rmin 100 pc < INR k + 1/2 -> exists c, nth_error color_gradient (k - 1) = Some c /\ round_index (Fin pc) = Some c.
Proof.
  intros P K H. assert (Q : nth_error color_gradient (k - 1) <> None) by (apply nth_error_Some; rewrite gradient_100; lia).
  destruct (nth_error color_gradient (k - 1)) as [c|] eqn:E; [|congruence]. exists c. split; [reflexivity|]. unfold round_index. rewrite nrat_XR by lia.
  change (nofZ 100) with (Fin 100). rewrite min_XR. cbn [nadd XRnum xadd ntrunc xtrunc].
  rewrite (rtrunc_floor _ (Z.of_nat k)).
  - replace (Z.of_nat k - 1 <? 0)%Z with false by (symmetry; apply Z.ltb_ge; lia). replace (Z.to_nat (Z.of_nat k - 1)) with (k - 1)%nat by lia. exact E.
  - assert (0 <= Rmin 100 pc) by (apply Rmin_glb; lra). lra.
  - rewrite <- INR_IZR_INZ. lra.
Qed.
Lemma round_low pc : 0 <= pc < 1/2 -> round_index (Fin pc) = None.
Proof.
  intros P. unfold round_index. rewrite nrat_XR by lia. change (nofZ 100) with (Fin 100). rewrite min_XR. cbn [nadd XRnum xadd ntrunc xtrunc]. rewrite (rtrunc_floor _ 0); [reflexivity| |].
  - rewrite Rmin_right by lra. lra.
  - rewrite Rmin_right by lra. lra.
Qed.

(** ---- the calendar ---- *)
Local Open Scope Z_scope.
Lemma leapb_ok y : leapb y = true <-> SpecAnm6.leap y.
Proof.
  assert (D : forall m, 0 < m -> (Z.eqb (y mod m) 0 = true <-> (m | y))) by (intros m M; rewrite Z.eqb_eq; apply Z.mod_divide; lia).
  unfold leapb, SpecAnm6.leap. rewrite andb_true_iff, orb_true_iff, negb_true_iff, <- not_true_iff_false, (D 4), (D 100), (D 400) by lia. tauto.
Qed.
Lemma leapb_400 y : leapb (y + 400) = leapb y.
Proof. unfold leapb. rewrite <- (Z.add_mod_idemp_r y 400 4), <- (Z.add_mod_idemp_r y 400 100), <- (Z.add_mod_idemp_r y 400 400) by lia.
  change (400 mod 4) with 0. change (400 mod 100) with 0. change (400 mod 400) with 0. rewrite Z.add_0_r. reflexivity. Qed.
Definition ylen (y : Z) : Z := if leapb y then 366 else 365.
Fixpoint ysum (k : nat) (y : Z) : Z := match k with O => 0 | S k' => ylen y + ysum k' (y + 1) end.
Lemma find_year_ok k : forall fuel y n, (k < fuel)%nat -> 0 <= n < ylen (y + Z.of_nat k) -> find_year fuel y (ysum k y + n) = (y + Z.of_nat k, n).
Proof.
  induction k as [|k IH]; intros fuel y n Fu H; destruct fuel as [|fuel]; try lia; cbn [find_year ysum]; fold (ylen y).
  - replace (y + Z.of_nat 0) with y in * by lia. rewrite Z.add_0_l. replace (n <? ylen y) with true by (symmetry; apply Z.ltb_lt; lia). reflexivity.
  - assert (P : 0 <= ysum k (y + 1)) by (clear; generalize (y + 1); induction k as [|k IH]; intros z; cbn [ysum]; [lia|]; specialize (IH (z + 1)); unfold ylen; destruct (leapb z); lia).
    replace (ylen y + ysum k (y + 1) + n <? ylen y) with false by (symmetry; apply Z.ltb_ge; lia).
    replace (ylen y + ysum k (y + 1) + n - ylen y) with (ysum k (y + 1) + n) by lia. rewrite IH; [f_equal; lia|lia|]. replace (y + 1 + Z.of_nat k) with (y + Z.of_nat (S k)) by lia. exact H.
Qed.
Lemma jan1_next jan1 : calendar jan1 -> forall y, jan1 (y + 1) = jan1 y + ylen y * 1440.
Proof.
  intros C y. destruct (C y) as [A B]. unfold ylen. destruct (leapb y) eqn:E; [apply A, leapb_ok, E|]. apply B. rewrite <- leapb_ok, E. discriminate.
Qed.
Lemma jan1_sum jan1 : calendar jan1 -> forall k y, jan1 (y + Z.of_nat k) = jan1 y + ysum k y * 1440.
Proof.
  intros C. induction k as [|k IH]; intros y; [cbn [ysum]; replace (y + Z.of_nat 0) with y by lia; lia|]. cbn [ysum]. replace (y + Z.of_nat (S k)) with ((y + 1) + Z.of_nat k) by lia.
  rewrite IH, (jan1_next jan1 C). lia.
Qed.
Lemma ylen_400 y : ylen (y + 400) = ylen y.
Proof. unfold ylen. rewrite leapb_400. reflexivity. Qed.
Lemma ysum_snoc k : forall y, ysum (S k) y = ysum k y + ylen (y + Z.of_nat k).
Proof.
  induction k as [|k IH]; intros y; [cbn [ysum]; replace (y + Z.of_nat 0) with y by lia; lia|]. cbn [ysum] in *. rewrite IH. replace (y + 1 + Z.of_nat k) with (y + Z.of_nat (S k)) by lia. lia.
Qed.
Lemma cycle_len y : ysum 400 y = 146097.
Proof.
  assert (Sh : forall z, ysum 400 (z + 1) = ysum 400 z).
  { intros z. assert (A := ysum_snoc 400 z). change (Z.of_nat 400) with 400 in A. rewrite ylen_400 in A.
    change (ysum (S 400) z) with (ylen z + ysum 400 (z + 1)) in A. clear - A. lia. }
  assert (B : ysum 400 2000 = 146097) by (vm_compute; reflexivity).
  assert (U : forall k z, ysum 400 (z + Z.of_nat k) = ysum 400 z).
  { induction k as [|k IH]; intros z; [f_equal; lia|]. replace (z + Z.of_nat (S k)) with ((z + Z.of_nat k) + 1) by lia. rewrite Sh. apply IH. }
  destruct (Z.le_ge_cases 2000 y) as [H|H].
  - replace y with (2000 + Z.of_nat (Z.to_nat (y - 2000))) by lia. rewrite U. exact B.
  - rewrite <- B. replace 2000 with (y + Z.of_nat (Z.to_nat (2000 - y))) by lia. rewrite U. reflexivity.
Qed.
Lemma jan1_cycles jan1 : calendar jan1 -> forall q y, jan1 (y + 400 * q) = jan1 y + 146097 * 1440 * q.
Proof.
  intros C. assert (A : forall y, jan1 (y + 400) = jan1 y + 146097 * 1440).
  { intros y. change 400 with (Z.of_nat 400). rewrite (jan1_sum jan1 C), cycle_len. reflexivity. }
  assert (P : forall k y, jan1 (y + 400 * Z.of_nat k) = jan1 y + 146097 * 1440 * Z.of_nat k).
  { induction k as [|k IH]; intros y; [replace (y + 400 * Z.of_nat 0) with y by lia; lia|]. replace (y + 400 * Z.of_nat (S k)) with ((y + 400 * Z.of_nat k) + 400) by lia. rewrite A, IH. lia. }
  intros q y. destruct (Z.le_ge_cases 0 q) as [H|H].
  - replace q with (Z.of_nat (Z.to_nat q)) by lia. apply P.
  - assert (E := P (Z.to_nat (- q)) (y + 400 * q)). replace (y + 400 * q + 400 * Z.of_nat (Z.to_nat (- q))) with y in E by lia. lia.
Qed.
Lemma find_month_ok l : forall mo0 k n, (k < List.length l)%nat -> 0 <= n < nth k l 0 -> Forall (fun x => 0 <= x) l ->
  find_month mo0 (fold_right Z.add 0 (firstn k l) + n) l = (mo0 + Z.of_nat k, n + 1).
Proof.
  induction l as [|x l IH]; intros mo0 k n K H P; [cbn in K; lia|]. inversion P as [|? ? Px Pl]; subst. destruct k as [|k]; cbn [firstn fold_right find_month nth] in *.
  - rewrite Z.add_0_l. replace (n <? x) with true by (symmetry; apply Z.ltb_lt; lia). f_equal. lia.
  - assert (Q : 0 <= fold_right Z.add 0 (firstn k l)).
    { clear - Pl. revert k. induction Pl as [|y l A B IH]; intros [|k]; cbn; try lia. specialize (IH k). lia. }
    replace (x + fold_right Z.add 0 (firstn k l) + n <? x) with false by (symmetry; apply Z.ltb_ge; lia).
    replace (x + fold_right Z.add 0 (firstn k l) + n - x) with (fold_right Z.add 0 (firstn k l) + n) by lia. rewrite IH; [f_equal; lia|cbn in K; lia|exact H|exact Pl].
Qed.
Lemma upto_year leap mo : 1 <= mo <= 12 -> 0 <= days_upto leap mo /\ days_upto leap mo + days_in leap mo <= (if leap then 366 else 365).
Proof.
  intros H. unfold days_upto, days_in. assert (E : (Z.to_nat (mo - 1) < 12)%nat) by lia. generalize dependent (Z.to_nat (mo - 1)). intros k K.
  do 12 (destruct k as [|k]; [destruct leap; vm_compute; split; discriminate|]). lia.
Qed.
Lemma date_ok jan1 y mo dy h mi date : calendar jan1 -> jan1 2020 = 0 -> is_date jan1 y mo dy h mi date -> month_day date = (mo, dy) /\ hour_minute date = (h, mi).
Proof.
  intros C Z0 ((M & H & I) & leap & Lp & D & E). assert (L : leap = leapb y) by (apply eq_true_iff_eq; rewrite Lp, leapb_ok; reflexivity). subst leap.
  assert (J0 : jan1 2000 = - 7305 * 1440).
  { assert (A := jan1_sum jan1 C 20 2000). change (2000 + Z.of_nat 20) with 2020 in A. change (ysum 20 2000) with 7305 in A. lia. }
  set (q := (y - 2000) / 400). set (k := Z.to_nat ((y - 2000) mod 400)).
  assert (B := Z.mod_pos_bound (y - 2000) 400 ltac:(lia)). assert (Dv := Z.div_mod (y - 2000) 400 ltac:(lia)). fold q in Dv.
  assert (Ey : y = 2000 + Z.of_nat k + 400 * q) by (unfold k; lia). assert (Kb : (k < 400)%nat) by (unfold k; lia).
  assert (Jy : jan1 y = (ysum k 2000 - 7305 + 146097 * q) * 1440) by (rewrite Ey, (jan1_cycles jan1 C), (jan1_sum jan1 C), J0; lia).
  destruct (upto_year (leapb y) mo M) as [U1 U2]. set (n := days_upto (leapb y) mo + (dy - 1)) in *.
  assert (Hn : 0 <= n < ylen y) by (unfold n, ylen; destruct (leapb y); lia).
  assert (Dd : date / 1440 = ysum k 2000 - 7305 + 146097 * q + n).
  { symmetry. apply (Z.div_unique _ _ _ (h * 60 + mi)); [lia|]. rewrite E, Jy. lia. }
  assert (Ms : date mod 1440 = h * 60 + mi).
  { symmetry. apply (Z.mod_unique _ _ (ysum k 2000 - 7305 + 146097 * q + n)); [lia|]. rewrite E, Jy. lia. }
  assert (Yl : ylen y = ylen (2000 + Z.of_nat k)).
  { rewrite Ey. clear. assert (P : forall j z, leapb (z + 400 * Z.of_nat j) = leapb z).
    { induction j as [|j IH]; intros z; [f_equal; lia|]. replace (z + 400 * Z.of_nat (S j)) with (z + 400 * Z.of_nat j + 400) by lia. rewrite leapb_400. apply IH. }
    unfold ylen. destruct (Z.le_ge_cases 0 q) as [Q|Q].
    - replace q with (Z.of_nat (Z.to_nat q)) by lia. rewrite P. reflexivity.
    - rewrite <- (P (Z.to_nat (- q)) (2000 + Z.of_nat k + 400 * q)). replace (2000 + Z.of_nat k + 400 * q + 400 * Z.of_nat (Z.to_nat (- q))) with (2000 + Z.of_nat k) by lia. reflexivity. }
  assert (Lk : leapb (2000 + Z.of_nat k) = leapb y) by (unfold ylen in Yl; destruct (leapb y), (leapb (2000 + Z.of_nat k)); auto; discriminate Yl).
  assert (Sm : 0 <= ysum k 2000 /\ ysum k 2000 + ylen (2000 + Z.of_nat k) <= 146097).
  { clear - Kb. assert (Pos : forall j z, 0 <= ysum j z) by (induction j as [|j IH]; intros z; cbn [ysum]; [lia|]; specialize (IH (z + 1)); unfold ylen; destruct (leapb z); lia).
    assert (Mono : forall j i z, (i <= j)%nat -> ysum i z <= ysum j z).
    { induction j as [|j IH]; intros i z L; destruct i as [|i]; try lia; [apply Pos|]. cbn [ysum]. specialize (IH i (z + 1) ltac:(lia)). lia. }
    split; [apply Pos|]. rewrite <- ysum_snoc, <- (cycle_len 2000). apply Mono. lia. }
  assert (MD : (date / 1440 + 7305) mod 146097 = ysum k 2000 + n).
  { symmetry. apply (Z.mod_unique _ _ q); [lia|]. rewrite Dd. lia. }
  split.
  - unfold month_day. rewrite MD, find_year_ok; [|exact Kb|rewrite <- Yl; exact Hn]. rewrite Lk. unfold n, days_upto. rewrite find_month_ok.
    + f_equal; lia.
    + cbn. lia.
    + unfold days_in in D. lia.
    + destruct (leapb y); repeat (constructor; [lia|]); constructor.
  - unfold hour_minute. rewrite Ms. f_equal.
    + symmetry. apply (Z.div_unique _ _ _ mi); lia.
    + symmetry. apply (Z.mod_unique _ _ (date / 1440 * 24 + h)); [lia|]. assert (X := Z.div_mod date 1440 ltac:(lia)). lia.
Qed.
