(** ANM6Easy: time of day, dates, time series (C44, C45, C46, C57). *)
From Coq Require Import Reals Lra Floats Znumtheory.
From Verif Require Import Base Num NumXR NumFloat Devices BusBranch CheckNetwork LoadFlow Simulator EnvArgs Env Anm6 LibBase LibNum LibXR LibEval
  SpecSim SpecEnv SpecAnm6 ProofDraw ProofEasy.
Local Open Scope string_scope.
Local Open Scope list_scope.
Local Open Scope num_scope.
Set Bullet Behavior "Strict Subproofs".

(** ---- the arithmetic of the clock ---- *)
Lemma Int_part_div (a b : Z) : (0 < b)%Z -> Int_part (IZR a / IZR b) = (a / b)%Z.
Proof.
  intros Hb. assert (Hb' : (0 < IZR b)%R) by (apply IZR_lt; auto).
  pose proof (Z.div_mod a b ltac:(lia)) as E. pose proof (Z.mod_pos_bound a b Hb) as M.
  unfold Int_part. rewrite <- (tech_up (IZR a / IZR b) (a / b + 1)); [lia| |].
  - rewrite plus_IZR. apply Rmult_lt_reg_r with (IZR b); auto. unfold Rdiv. rewrite Rmult_assoc, Rinv_l, Rmult_1_r by lra.
    rewrite <- plus_IZR, <- mult_IZR. apply IZR_lt. nia.
  - rewrite plus_IZR. apply Rplus_le_compat_r. apply Rmult_le_reg_r with (IZR b); auto. unfold Rdiv. rewrite Rmult_assoc, Rinv_l, Rmult_1_r by lra.
    rewrite <- mult_IZR. apply IZR_le. nia.
Qed.
Lemma rtrunc_IZR k : (0 <= k)%Z -> rtrunc (IZR k) = k.
Proof.
  intros H. unfold rtrunc. destruct (Rle_dec 0 (IZR k)) as [L|L]; [|exfalso; apply L, IZR_le; auto].
  replace (IZR k) with (IZR k / IZR 1)%R by (unfold Rdiv; rewrite Rinv_1; lra). rewrite Int_part_div by lia. apply Z.div_1_r.
Qed.
Lemma easy_dt_XR : (easy_dt : XR) = Fin (1 / 4).
Proof. unfold easy_dt, nrat. cbn [ndiv nofZ XRnum]. apply xdiv_Fin. lra. Qed.
Lemma clock_XR : clock_ok (F := XR).
Proof.
  unfold clock_ok. rewrite easy_dt_XR. cbn [ndiv nofZ nadd nmul nmod ntrunc XRnum n1 xadd xmul]. rewrite xdiv_Fin by lra. cbn [xtrunc xmod]. split; [|split].
  - intros k H. destruct (Req_EM_T (24 / (1 / 4)) 0) as [E|E]; [lra|]. unfold rmod. cbn [xtrunc].
    replace (24 / (1 / 4))%R with (IZR 96) by lra. replace (IZR k + 1)%R with (IZR (k + 1)) by (rewrite plus_IZR; lra).
    rewrite Int_part_div by lia. rewrite <- mult_IZR, <- minus_IZR, <- Z.mod_eq by lia. rewrite rtrunc_IZR; auto. apply Z.mod_pos_bound. lia.
  - intros k H. rewrite rtrunc_IZR by lia. auto.
  - replace (60 * (1 / 4))%R with (IZR 15) by lra. rewrite rtrunc_IZR by lia. auto.
Qed.
(** binary64: it is enough that the library's [fmod] and [int] are exact on the integers up to 96 *)
Definition small_ints_exact (L : libm) : Prop :=
  (forall k, (0 <= k <= 96)%Z -> ftrunc L (ffmod L (float_of_Z k) 96%float) = Some (k mod 96)%Z) /\
  (forall k, (0 <= k < 96)%Z -> ftrunc L (float_of_Z k) = Some k).
Ltac each_below n k H := let rec go m := lazymatch m with
    | O => exfalso; lia
    | S ?m' => destruct (Z.eq_dec k (Z.of_nat m')) as [->|]; [|go m']
    end in go n.
Lemma float_succ k : (0 <= k < 96)%Z -> PrimFloat.add (float_of_Z k) 1 = float_of_Z (k + 1).
Proof. intros H. each_below 96%nat k H; reflexivity. Qed.
Lemma clock_float L : small_ints_exact L -> clock_ok (F := float) (N := Fnum L).
Proof.
  intros (M & T). unfold clock_ok. split; [|split].
  - intros k H. cbn [nadd n1 nofZ Fnum]. rewrite float_succ by auto. apply M. lia.
  - intros k H. apply T; auto.
  - apply (T 15%Z). lia.
Qed.

(** ---- C44, C45 ---- *)
Section C44.
  Context {F G : Type} {N : Num F} (Hc : clock_ok) (ro : rng_ops F G) (Rs : rng_sound ro) (sf : Z -> G) (g : G) (a0 : anm6 F G).
  Hypothesis built : easy_make g = Ok a0.

  Lemma C44_lemma cs Or seed date a1 ob : easy_reset Or ro sf seed date (run6 ro sf a0 cs) = (a1, Ok ob) ->
    exists t0, (0 <= t0 < 96)%Z /\
      (forall n a, stepping ro sf alive n a1 a -> let k := ((t0 + Z.of_nat n) mod 96)%Z in
         time_index a = Some (nofZ k) /\ exists v, sampled ro sf a = Some (Ok v) /\ at_index ((k + 1) mod 96) v) /\
      (exists d0, (match date with Some d => d0 = d | None => exists j, (1 <= j < 365)%Z /\ d0 = (1440 * j)%Z end) /\
         forall n a, stepping ro sf any n a1 a ->
           a_date a = Some (d0 + 15 * (t0 + Z.of_nat n))%Z /\ a_year a = (15 * Z.of_nat n / (365 * 1440))%Z).
  Proof.
    intros H. destruct (easy_make_inv g a0 Hc built) as (e0 & R0 & _).
    assert (R : reach6 g e0 (run6 ro sf a0 cs)) by (apply run6_reach; auto).
    pose proof (easy_reset_reach g e0 Or ro sf seed date _ R) as R1. rewrite H in R1. cbn [fst] in R1.
    destruct (reset_index g e0 Or ro sf seed date _ a1 ob Hc Rs R H) as (t0 & B & Ti & Te & Ty & d0 & Hd & E1 & E2).
    exists t0. split; [auto|]. split.
    - intros n a St k. assert (Ta : time_index a = Some (nofZ k)) by (eapply stepping_index; eauto).
      split; [auto|]. unfold time_index in Ta. unfold sampled. destruct (e_state (a_env a)) as [st|]; [|discriminate].
      assert (Ls : forall d, last st d = nofZ k).
      { destruct (nth_error_split st (List.length st - 1) Ta) as (u & w & -> & Lu). rewrite app_length in Lu. cbn in Lu. destruct w; [intros; apply last_last|cbn in Lu; lia]. }
      destruct (easy_next_val st k Ls) as (v & Ev & Iv); auto; [destruct st; [discriminate|congruence]|apply Z.mod_pos_bound; lia|].
      exists v. split; [|auto]. cbn. rewrite Ev. auto.
    - exists d0. split; [auto|]. intros n a St. destruct (stepping_dates ro sf any n a1 a (d0 + 15 * t0) St (proj2 R1) E1 E2 Ty) as (_ & A & _ & Y).
      rewrite A, Y. split; [f_equal; lia|]. rewrite Z.div_div by lia. reflexivity.
  Qed.
End C44.

(** C44.  After a reset and [n] steps that did not end the episode, the auxiliary variable is (t0 + n) mod 96 for the t0 drawn by the reset,
    and the next demands and generation limits are those of the tables at the next index.  [clock_ok] (remainder and truncation are right on
    the integers up to 96) holds of exact numbers ([clock_XR]) and of binary64 ([clock_float]). *)
Theorem C44_time_index : forall (F G : Type) (N : Num F) (ro : rng_ops F G) sf g a0 cs Or seed date a1 ob,
  clock_ok -> rng_sound ro -> easy_make g = Ok a0 -> easy_reset Or ro sf seed date (run6 ro sf a0 cs) = (a1, Ok ob) ->
  exists t0, (0 <= t0 < 96)%Z /\ forall n a, stepping ro sf alive n a1 a ->
    time_index a = Some (nofZ ((t0 + Z.of_nat n) mod 96)) /\
    exists v, sampled ro sf a = Some (Ok v) /\ at_index ((t0 + Z.of_nat n + 1) mod 96) v.
Proof.
  intros F G N ro sf g a0 cs Or seed date a1 ob Hc Rs B H. destruct (C44_lemma Hc ro Rs sf g a0 B cs Or seed date a1 ob H) as (t0 & Ht & A & _).
  exists t0. split; [auto|]. intros n a St. specialize (A n a St). cbv zeta in A. rewrite Zplus_mod_idemp_l in A. exact A.
Qed.
(** ... so both repeat with period 96. *)
Theorem C44_period : forall (F G : Type) (N : Num F) (ro : rng_ops F G) sf g a0 cs Or seed date a1 ob,
  clock_ok -> rng_sound ro -> easy_make g = Ok a0 -> easy_reset Or ro sf seed date (run6 ro sf a0 cs) = (a1, Ok ob) ->
  forall n m a b, stepping ro sf alive n a1 a -> stepping ro sf alive m a1 b -> (Z.of_nat n mod 96 = Z.of_nat m mod 96)%Z ->
    time_index a = time_index b /\ sampled ro sf a = sampled ro sf b.
Proof.
  intros F G N ro sf g a0 cs Or seed date a1 ob Hc Rs B H n m a b Sn Sm E. destruct (C44_time_index F G N ro sf g a0 cs Or seed date a1 ob Hc Rs B H) as (t0 & _ & A).
  destruct (A n a Sn) as (A1 & v & A2 & A3), (A m b Sm) as (B1 & w & B2 & B3).
  assert (E1 : ((t0 + Z.of_nat n) mod 96 = (t0 + Z.of_nat m) mod 96)%Z) by (rewrite Zplus_mod, E, <- Zplus_mod; auto).
  assert (E2 : ((t0 + Z.of_nat n + 1) mod 96 = (t0 + Z.of_nat m + 1) mod 96)%Z) by (rewrite Zplus_mod, E1, <- Zplus_mod; auto).
  rewrite E2 in A3. rewrite (at_index_fun _ _ _ A3 B3) in A2. rewrite A1, B1, E1, A2, B2. auto.
Qed.

(** C45.  The date: [d0] is the date given to the reset or midnight of a random day of 2020 (dates are minutes since 2020-01-01 00:00); the
    date goes on after the episode has ended, the auxiliary variable does not. *)
Theorem C45_dates : forall (F G : Type) (N : Num F) (ro : rng_ops F G) sf g a0 cs Or seed date a1 ob,
  clock_ok -> rng_sound ro -> easy_make g = Ok a0 -> easy_reset Or ro sf seed date (run6 ro sf a0 cs) = (a1, Ok ob) ->
  exists t0 d0, (0 <= t0 < 96)%Z /\ (match date with Some d => d0 = d | None => exists j, (1 <= j < 365)%Z /\ d0 = (1440 * j)%Z end) /\
    (forall n a, stepping ro sf any n a1 a ->
       a_date a = Some (d0 + 15 * (t0 + Z.of_nat n))%Z /\ a_year a = (15 * Z.of_nat n / (365 * 1440))%Z) /\
    (forall n a, stepping ro sf alive n a1 a -> (d0 mod 1440 = 0)%Z ->
       exists d k, a_date a = Some d /\ time_index a = Some (nofZ k) /\ (0 <= k < 96)%Z /\ (d mod 1440 = 15 * k)%Z).
Proof.
  intros F G N ro sf g a0 cs Or seed date a1 ob Hc Rs B H. destruct (C44_lemma Hc ro Rs sf g a0 B cs Or seed date a1 ob H) as (t0 & Ht & A & d0 & Hd & D).
  exists t0, d0. split; [auto|]. split; [auto|]. split; [auto|]. intros n a St M. destruct (A n a St) as (T & _).
  assert (Sa : stepping ro sf any n a1 a).
  { clear -St. induction St; [constructor|eapply SStep; eauto; exact Logic.I|constructor; auto|constructor; auto|constructor; auto]. }
  destruct (D n a Sa) as (Da & _). exists (d0 + 15 * (t0 + Z.of_nat n))%Z, ((t0 + Z.of_nat n) mod 96)%Z. split; [auto|]. split; [exact T|].
  split; [apply Z.mod_pos_bound; lia|].
  rewrite <- Zplus_mod_idemp_l, M, Z.add_0_l. change 1440%Z with (15 * 96)%Z. rewrite Z.mul_mod_distr_l by lia. reflexivity.
Qed.

(** ---- C57 ---- *)
Theorem C57_random_date : forall (F G : Type) (N : Num F) (ro : rng_ops F G) jan1 y g, rng_sound ro -> calendar jan1 ->
  let d := fst (random_date ro (jan1 y) g) in
  (jan1 y <= d < jan1 (y + 1))%Z /\ exists j, (d = jan1 y + 1440 * j)%Z.
Proof.
  intros F G N ro jan1 y g Rs C. unfold random_date. pose proof (rs_int ro Rs 1%Z 365%Z g ltac:(lia)) as B. destruct (r_int ro 1%Z 365%Z g) as (j, g'). cbn [fst] in B |- *.
  split; [|exists j; lia]. assert (D : (365 * 1440 <= jan1 (y + 1) - jan1 y)%Z); [|lia].
  destruct (C y) as (C1 & C2). assert (De : leap y \/ ~ leap y).
  { unfold leap. destruct (Zdivide_dec 4 y); [|tauto]. destruct (Zdivide_dec 100 y); destruct (Zdivide_dec 400 y); tauto. }
  destruct De as [De|De]; [rewrite C1 by auto|rewrite C2 by auto]; lia.
Qed.
(** ... but not every day of the year: never January 1st, nor December 31st of a leap year. *)
Theorem C57_first_day_never : forall (F G : Type) (N : Num F) (ro : rng_ops F G) jan1 y g, rng_sound ro -> calendar jan1 ->
  let d := fst (random_date ro (jan1 y) g) in
  (jan1 y + 1440 <= d)%Z /\ (leap y -> d < jan1 (y + 1) - 1440)%Z.
Proof.
  intros F G N ro jan1 y g Rs C. unfold random_date. pose proof (rs_int ro Rs 1%Z 365%Z g ltac:(lia)) as B. destruct (r_int ro 1%Z 365%Z g) as (j, g'). cbn [fst] in B |- *.
  split; [lia|]. intros Ly. rewrite (proj1 (C y) Ly). lia.
Qed.
(** a calendar with January 1st, 2020 at 0 *)
Definition days_before (y : Z) : Z := (365 * (y - 1) + (y - 1) / 4 - (y - 1) / 100 + (y - 1) / 400)%Z.
Definition jan1_2020 (y : Z) : Z := (1440 * (days_before y - days_before 2020))%Z.
Lemma div_next y m : (0 < m)%Z -> ((m | y) -> (y / m = (y - 1) / m + 1)%Z) /\ (~ (m | y) -> (y / m = (y - 1) / m)%Z).
Proof.
  intros Hm. split.
  - intros (q & ->). rewrite Z.div_mul by lia. replace (q * m - 1)%Z with ((q - 1) * m + (m - 1))%Z by lia. rewrite Z.div_add_l, (Z.div_small (m - 1) m) by lia. lia.
  - intros Nd. pose proof (Z.div_mod y m ltac:(lia)) as E. pose proof (Z.mod_pos_bound y m Hm) as M.
    assert (y mod m <> 0)%Z by (intros Z0; apply Nd; exists (y / m)%Z; lia).
    apply (Z.div_unique_pos (y - 1) m (y / m) (y mod m - 1)); lia.
Qed.
Lemma jan1_calendar : calendar jan1_2020.
Proof.
  intros y. unfold leap, jan1_2020, days_before. replace (y + 1 - 1)%Z with y by lia.
  destruct (div_next y 4 ltac:(lia)) as (A1 & A2), (div_next y 100 ltac:(lia)) as (B1 & B2), (div_next y 400 ltac:(lia)) as (C1 & C2).
  assert (D1 : (400 | y)%Z -> (100 | y)%Z) by (intros (q & ->); exists (4 * q)%Z; lia).
  assert (D2 : (100 | y)%Z -> (4 | y)%Z) by (intros (q & ->); exists (25 * q)%Z; lia).
  destruct (Zdivide_dec 4 y) as [d4|d4]; destruct (Zdivide_dec 100 y) as [d1|d1]; destruct (Zdivide_dec 400 y) as [dd|dd]; try tauto;
    repeat match goal with H : ?P -> _, K : ?P |- _ => specialize (H K) end; split; intros L; try (exfalso; tauto); lia.
Qed.
Example C57_ex : calendar jan1_2020 /\ jan1_2020 2020 = 0%Z /\ leap 2020 /\ ~ leap 2021 /\
  exists ro : rng_ops XR nat, rng_sound ro /\ fst (random_date ro (jan1_2020 2021) 0%nat) = (jan1_2020 2021 + 1440)%Z.
Proof.
  split; [exact jan1_calendar|]. split; [reflexivity|]. split; [split; [exists 505%Z; reflexivity|left; intros (q & E); lia]|].
  split; [intros ((q & E) & _); lia|]. exists (mkRng (fun lo hi g => (lo, g)) (fun lo hi g => (lo, g))). split; [|reflexivity].
  split; cbn; [intros; lia|]. intros lo hi g H. split; auto. destruct lo; cbn in *; try discriminate; auto. apply Rleb_spec. lra.
Qed.

(** ---- C46 ---- *)
Local Open Scope R_scope.
(** the table of device [i] (the loads 1, 3, 5; the generators 2, 4) and the limits of its row *)
Definition table (i : Z) : list XR := nth (Z.to_nat ((i - 1) / 2)) (if Z.even i then P_maxs else P_loads) [].
Definition limits (i : Z) (lo hi : R) : Prop := exists row, In row (nw_dev anm6_network) /\ dr_id row = Some i /\
  dr_pmin row = Some (Fin lo) /\ dr_pmax row = Some (Fin hi).

Lemma nrat_XR a b : (0 < b)%Z -> nrat a b = Fin (IZR a / IZR b).
Proof. intros H. unfold nrat. cbn [ndiv nofZ XRnum]. apply xdiv_Fin. apply not_0_IZR. lia. Qed.
Lemma lin7 (a b : R) : linspace7 (Fin a) (Fin b) = map (fun j => Fin (a + (b - a) * j / 6)) [0; 1; 2; 3; 4; 5; 6].
Proof.
  unfold linspace7. cbn [nsub XRnum ndiv nofZ]. cbn [xsub xadd xopp]. rewrite xdiv_Fin by lra. cbn [map app nmul nadd XRnum xmul xadd].
  repeat apply f_equal2; try reflexivity; f_equal; field.
Qed.
Definition lin8 (x y : R) : list XR := map (fun j => Fin (x + (y - x) * j / 8)) [1; 2; 3; 4; 5; 6; 7].
Lemma lin78 x y a b : a = x + (y - x) / 8 -> b = x + 7 * (y - x) / 8 -> linspace7 (Fin a) (Fin b) = lin8 x y.
Proof. intros -> ->. rewrite lin7. unfold lin8. cbn [map]. repeat apply f_equal2; try reflexivity; f_equal; field. Qed.
Definition second_ramp k := between k 45 51 || between k 65 71.
Ltac consts := repeat match goal with |- context [IZR (Z.of_nat ?a - Z.of_nat ?b)] =>
  let z := eval vm_compute in (Z.of_nat a - Z.of_nat b)%Z in change (Z.of_nat a - Z.of_nat b)%Z with z end.
Ltac scen := unfold scenario, between; cbn [Nat.leb andb orb]; unfold ramp; consts.
Lemma series_shape s1 s2 s3 k x1 x2 x3 x4 x5 x6 x7 : (k < 96)%nat ->
  let xs := map Fin [x1; x2; x3; x4; x5; x6; x7] in
  nth_error (day_series (Fin s1) (lin8 s1 s2) (Fin s2) xs (Fin s3)) k =
  Some (if between k 45 51 then nth (k - 45) xs NaN else if between k 65 71 then nth (71 - k) xs NaN else Fin (scenario s1 s2 s3 k)).
Proof.
  intros Hk. unfold day_series, lin8. cbn [map rev app repeat]. cbv zeta.
  do 96 (destruct k as [|k]; [cbn [nth_error]; unfold between at 1 2; cbn [Nat.leb andb]; cbn [nth Nat.sub map]; try reflexivity; scen; do 2 f_equal; lra|]). lia.
Qed.
Lemma series_all s1 s2 s3 k : (k < 96)%nat ->
  nth_error (day_series (Fin s1) (lin8 s1 s2) (Fin s2) (lin8 s2 s3) (Fin s3)) k = Some (Fin (scenario s1 s2 s3 k)).
Proof.
  intros Hk. replace (lin8 s2 s3) with (map Fin [s2 + (s3 - s2) * 1 / 8; s2 + (s3 - s2) * 2 / 8; s2 + (s3 - s2) * 3 / 8; s2 + (s3 - s2) * 4 / 8; s2 + (s3 - s2) * 5 / 8; s2 + (s3 - s2) * 6 / 8; s2 + (s3 - s2) * 7 / 8]) by reflexivity.
  rewrite (series_shape s1 s2 s3 k) by auto. cbv zeta.
  destruct (between k 45 51) eqn:E1; [|destruct (between k 65 71) eqn:E2; [|auto]].
  - apply andb_prop in E1. destruct E1 as (A & B). apply Nat.leb_le in A, B.
    do 52 (destruct k as [|k]; [try lia; cbn [Nat.sub nth map]; scen; do 2 f_equal; lra|]). lia.
  - apply andb_prop in E2. destruct E2 as (A & B). apply Nat.leb_le in A, B.
    do 72 (destruct k as [|k]; [try lia; cbn [Nat.sub nth map]; scen; do 2 f_equal; lra|]). lia.
Qed.

Lemma scenario_bounds s1 s2 s3 lo hi k : (k < 96)%nat -> lo <= s1 <= hi -> lo <= s2 <= hi -> lo <= s3 <= hi -> lo <= scenario s1 s2 s3 k <= hi.
Proof. intros Hk B1 B2 B3. do 96 (destruct k as [|k]; [scen; lra|]). lia. Qed.

Ltac tabs := unfold table, P_loads, P_maxs; cbn [Z.even]; match goal with |- context [Z.to_nat ?z] => let n := eval vm_compute in (Z.to_nat z) in change (Z.to_nat z) with n end;
  cbn [nth]; rewrite ?nrat_XR by lia; cbn [nopp n0 n1 nofZ XRnum xopp].
Lemma table1 : table 1 = day_series (Fin (-1)) (lin8 (-1) (-5)) (Fin (-5)) (lin8 (-5) (-2)) (Fin (-2)).
Proof. tabs. rewrite (lin78 (-1) (-5)), (lin78 (-5) (-2)) by lra. reflexivity. Qed.
Lemma table3 : table 3 = day_series (Fin (-4)) (lin8 (-4) (-10)) (Fin (-10)) (lin8 (-10) (-20)) (Fin (-20)).
Proof. tabs. rewrite (lin78 (-4) (-10)), (lin78 (-10) (-20)) by lra. reflexivity. Qed.
Lemma table5 : table 5 = day_series (Fin 0) (lin8 0 (-25)) (Fin (-25)) (lin8 (-25) 0) (Fin 0).
Proof. tabs. rewrite (lin78 0 (-25)), (lin78 (-25) 0) by lra. reflexivity. Qed.
Definition fin7 (a b : R) := map Fin [a; a + (b - a) / 6; a + 2 * (b - a) / 6; a + 3 * (b - a) / 6; a + 4 * (b - a) / 6; a + 5 * (b - a) / 6; b].
Lemma lin7' a b : linspace7 (Fin a) (Fin b) = fin7 a b.
Proof. rewrite lin7. unfold fin7. cbn [map]. repeat apply f_equal2; try reflexivity; f_equal; field. Qed.
Lemma table2 : table 2 = day_series (Fin 0) (lin8 0 4) (Fin 4) (fin7 (725 / 100) (3675 / 100)) (Fin 30).
Proof. tabs. rewrite (lin78 0 4), lin7' by lra. reflexivity. Qed.
Lemma table4 : table 4 = day_series (Fin 40) (lin8 40 11) (Fin 11) (fin7 (14725 / 1000) (36375 / 1000)) (Fin 40).
Proof. tabs. rewrite (lin78 40 11), lin7' by lra. reflexivity. Qed.

(** C46, what holds: the demands follow the documented day and respect the limits of their devices; the potentials do so outside the
    ramps between the second and the third period (quarters 45-51 and 65-71), and the wind farm respects its limits throughout.
    Missing: the two ramps of the generators; the limit of the PV at four quarters (both refuted below). *)
Theorem C46_series_partial : forall k, (k < 96)%nat ->
  (forall i s1 s2 s3, In (i, (s1, s2, s3)) [(1, (-1, -5, -2)); (3, (-4, -10, -20)); (5, (0, -25, 0))]%Z ->
     nth_error (table i) k = Some (Fin (scenario (IZR s1) (IZR s2) (IZR s3) k)) /\
     exists lo hi, limits i lo hi /\ lo <= scenario (IZR s1) (IZR s2) (IZR s3) k <= hi) /\
  (forall i s1 s2 s3, In (i, (s1, s2, s3)) [(2, (0, 4, 30)); (4, (40, 11, 40))]%Z -> between k 45 51 = false -> between k 65 71 = false ->
     nth_error (table i) k = Some (Fin (scenario (IZR s1) (IZR s2) (IZR s3) k))) /\
  (exists x lo hi, nth_error (table 2) k = Some (Fin x) /\ limits 2 lo hi /\ lo <= x /\ (~ In k [50; 51; 65; 66]%nat -> x <= hi)) /\
  (exists x lo hi, nth_error (table 4) k = Some (Fin x) /\ limits 4 lo hi /\ lo <= x <= hi).
Proof.
  intros k Hk.
  assert (L : forall i lo hi, In (i, (lo, hi)) [(1, (-10, 0)); (3, (-30, 0)); (5, (-30, 0)); (2, (0, 30)); (4, (0, 50))]%Z -> limits i (IZR lo) (IZR hi)).
  { intros i lo hi I. unfold limits. cbn [nw_dev anm6_network]. cbn in I. decompose [or] I; try contradiction;
      match goal with E : _ = _ |- _ => injection E as <- <- <- end.
    - eexists; split; [right; left; reflexivity|split; [|split]; reflexivity].
    - eexists; split; [right; right; right; left; reflexivity|split; [|split]; reflexivity].
    - eexists; split; [right; right; right; right; right; left; reflexivity|split; [|split]; reflexivity].
    - eexists; split; [right; right; left; reflexivity|split; [|split]; reflexivity].
    - eexists; split; [right; right; right; right; left; reflexivity|split; [|split]; reflexivity]. }
  split; [|split; [|split]].
  - intros i s1 s2 s3 I. cbn [In] in I. destruct I as [E|[E|[E|[]]]]; injection E as <- <- <- <-.
    + rewrite table1, series_all by auto. split; [auto|]. exists (-10), 0. split; [apply (L 1%Z (-10)%Z 0%Z); cbn; tauto|apply scenario_bounds; auto; lra].
    + rewrite table3, series_all by auto. split; [auto|]. exists (-30), 0. split; [apply (L 3%Z (-30)%Z 0%Z); cbn; tauto|apply scenario_bounds; auto; lra].
    + rewrite table5, series_all by auto. split; [auto|]. exists (-30), 0. split; [apply (L 5%Z (-30)%Z 0%Z); cbn; tauto|apply scenario_bounds; auto; lra].
  - intros i s1 s2 s3 I B1 B2. cbn [In] in I. destruct I as [E|[E|[]]]; injection E as <- <- <- <-.
    + rewrite table2. unfold fin7. rewrite series_shape, B1, B2 by auto. auto.
    + rewrite table4. unfold fin7. rewrite series_shape, B1, B2 by auto. auto.
  - rewrite table2. unfold fin7. rewrite series_shape by auto. cbv zeta. pose proof (L 2%Z 0%Z 30%Z ltac:(cbn; tauto)) as Li.
    destruct (between k 45 51) eqn:E1; [|destruct (between k 65 71) eqn:E2].
    + apply andb_prop in E1. destruct E1 as (A & B). apply Nat.leb_le in A, B.
      do 52 (destruct k as [|k]; [first [exfalso; lia|cbn [Nat.sub nth map]; eexists; exists 0, 30; split; [reflexivity|split; [exact Li|split; [lra|intros Nk; try lra; exfalso; apply Nk; cbn; tauto]]]]|]). lia.
    + apply andb_prop in E2. destruct E2 as (A & B). apply Nat.leb_le in A, B.
      do 72 (destruct k as [|k]; [first [exfalso; lia|cbn [Nat.sub nth map]; eexists; exists 0, 30; split; [reflexivity|split; [exact Li|split; [lra|intros Nk; try lra; exfalso; apply Nk; cbn; tauto]]]]|]). lia.
    + exists (scenario 0 4 30 k), 0, 30. split; [auto|]. split; [exact Li|]. pose proof (scenario_bounds 0 4 30 0 30 k Hk). lra.
  - rewrite table4. unfold fin7. rewrite series_shape by auto. cbv zeta. pose proof (L 4%Z 0%Z 50%Z ltac:(cbn; tauto)) as Li.
    destruct (between k 45 51) eqn:E1; [|destruct (between k 65 71) eqn:E2].
    + apply andb_prop in E1. destruct E1 as (A & B). apply Nat.leb_le in A, B.
      do 52 (destruct k as [|k]; [first [exfalso; lia|cbn [Nat.sub nth map]; eexists; exists 0, 50; split; [reflexivity|split; [exact Li|lra]]]|]). lia.
    + apply andb_prop in E2. destruct E2 as (A & B). apply Nat.leb_le in A, B.
      do 72 (destruct k as [|k]; [first [exfalso; lia|cbn [Nat.sub nth map]; eexists; exists 0, 50; split; [reflexivity|split; [exact Li|lra]]]|]). lia.
    + exists (scenario 40 11 40 k), 0, 50. split; [auto|]. split; [exact Li|]. pose proof (scenario_bounds 40 11 40 0 50 k Hk). lra.
Qed.
(** The PV potential exceeds the installed 30 MW (36.75 MW at 12:45 and 16:15), and its ramp is not the line from 4 to 30 MW. *)
Theorem C46_pv_refuted : exists k x lo hi, (k < 96)%nat /\ nth_error (table 2) k = Some (Fin x) /\ limits 2 lo hi /\ hi < x /\
  x <> scenario 0 4 30 k.
Proof.
  exists 51%nat. rewrite table2. unfold fin7. rewrite series_shape by lia. cbv zeta.
  unfold between at 1 2. cbn [Nat.leb andb]; cbn [nth Nat.sub map]. exists (3675 / 100), 0, 30. split; [lia|]. split; [auto|]. split; [|split; [lra|scen; lra]].
  unfold limits. eexists; split; [right; right; left; reflexivity|split; [|split]; reflexivity].
Qed.
(** The wind ramp starts at 14.725 MW instead of 14.625 MW: it is not the line from 11 to 40 MW. *)
Theorem C46_wind_refuted : exists k x, (k < 96)%nat /\ nth_error (table 4) k = Some (Fin x) /\ x <> scenario 40 11 40 k.
Proof.
  exists 45%nat. rewrite table4. unfold fin7. rewrite series_shape by lia. cbv zeta.
  unfold between at 1 2. cbn [Nat.leb andb]; cbn [nth Nat.sub map]. exists (14725 / 1000). split; [lia|]. split; [auto|]. scen; lra.
Qed.

Print Assumptions C44_time_index.
Print Assumptions C44_period.
Print Assumptions C45_dates.
Print Assumptions C46_series_partial.
Print Assumptions C46_pv_refuted.
Print Assumptions C46_wind_refuted.
Print Assumptions C57_random_date.
Print Assumptions C57_first_day_never.
