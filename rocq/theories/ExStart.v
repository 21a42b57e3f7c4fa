(** C55 beside a binary64 run: the servers of an ANM6Easy environment fail to start; the later calls meet the hypotheses of [C55_failed_start_refuted]. *)
From Coq Require Import Floats Uint63.
From Verif Require Import Base Num NumFloat Devices BusBranch CheckNetwork LoadFlow Simulator EnvArgs Env Anm6 Exec SpecSim SpecEnv SpecAnm6 SpecRender LibBase ExFloat ExRender.
From Coq Require Import List. Import ListNotations.

Definition start_test (a0 : anm6 float nat) : bool :=
  let a1 := fst (run_acall (N := Fnum tlibm) trng a0 (ARender true 0 false true)) in
  let '(a2, r2) := run_acall (N := Fnum tlibm) trng a1 (AReset tor (rtask a0) None None) in
  let '(a3, r3) := run_acall (N := Fnum tlibm) trng a2 (ARender true 0 true true) in
  rd_mode (a_rd a2) && match r2, r3 with None, Some AttributeError => true | _, _ => false end.
Lemma start_test_ok : match easy_make (N := Fnum tlibm) 30%nat with Ok a0 => start_test a0 | Err _ => false end = true.
Proof. vm_compute. reflexivity. Qed.
Example C55_start_ex : exists (a0 : anm6 float nat) T, easy_make (N := Fnum tlibm) 30%nat = Ok a0 /\
  let a1 := fst (run_acall (N := Fnum tlibm) trng a0 (ARender true 0 false true)) in
  let cs := [AReset tor T None None; ARender true 0 true true] in
  tidy (N := Fnum tlibm) trng a1 cs /\ ~ In AClose cs /\ rd_frames (a_rd (arun (N := Fnum tlibm) trng a1 cs)) = rd_frames (a_rd a1).
Proof.
  pose proof start_test_ok as H. destruct (easy_make 30%nat) as [a0|]; [|discriminate H]. exists a0, (rtask a0). split; [reflexivity|]. cbv zeta. unfold start_test in H.
  set (a1 := fst (run_acall trng a0 _)) in *. assert (E1 : rd_frames (a_rd a1) = rd_frames (a_rd a1)) by reflexivity. destruct (run_acall trng a1 (AReset tor (rtask a0) None None)) as (a2, r2) eqn:E2.
  destruct (run_acall trng a2 (ARender true 0 true true)) as (a3, r3) eqn:E3. apply andb_true_iff in H as [M H]. destruct r2; [discriminate H|]. destruct r3 as [[]|]; try discriminate H.
  split; [|split].
  - cbn [tidy]. rewrite E2. cbn [fst snd]. split; [reflexivity|]. split; [|exact I]. rewrite M. discriminate.
  - intros [Q|[Q|[]]]; discriminate Q.
  - unfold arun. cbn [fold_left]. rewrite E2. cbn [fst]. cbn [run_acall] in E2, E3 |- *.
    assert (R2 : rd_frames (a_rd a2) = rd_frames (a_rd a1)).
    { pose proof (PropRender.reset_rd (N := Fnum tlibm) tor (rtask a0) trng None None a1) as R. destruct (anm6_reset tor (rtask a0) trng None None a1) as (a', [ob|x]); [|discriminate E2].
      injection E2 as <-. cbn [fst snd] in R. destruct R as [(_ & _ & ->)|(x & Q & _)]; [reflexivity|discriminate Q]. }
    rewrite <- R2. revert E3. unfold anm6_render. rewrite M. unfold render_update. destruct (Z.eqb _ _); [discriminate|]. destruct (negb _); [discriminate|]. destruct (send_frame _ _); [discriminate|].
    intros _. reflexivity.
Qed.
