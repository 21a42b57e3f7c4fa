(** A rendering session of ANM6Easy in binary64 arithmetic. *)
From Coq Require Import Floats Uint63.
From Verif Require Import Base Num NumFloat Devices BusBranch CheckNetwork LoadFlow Simulator EnvArgs Env Anm6 Exec SpecSim SpecEnv SpecAnm6 SpecRender LibBase PropRender ExFloat.
Local Open Scope string_scope.
Local Open Scope list_scope.

(** reset, render, step, render, with [skip_frames = 1]: one frame is sent, by the second call *)
Definition rrun : bool :=
  match easy_make (N := Fnum tlibm) 30%nat with
  | Err _ => false
  | Ok a0 =>
      let T := easy_task (N := Fnum tlibm) trng tsf (e_sim (a_env a0)) in
      let a1 := arun (N := Fnum tlibm) trng a0 [AReset tor T None None] in
      let '(a2, r2) := anm6_render true 1 true true a1 in
      let a3 := fst (anm6_step (N := Fnum tlibm) tor T tact1 a2) in
      let '(a4, r4) := anm6_render false 1 false true a3 in
      negb (rd_mode (a_rd a1)) && match rd_frames (a_rd a2), rd_frames (a_rd a4), r2, r4 with
      | [], [f], Ok _, Ok _ => near (nth_error (fr_dev_p f) 1) (-4.5) && near (nth_error (fr_soc f) 0) 0 && negb (fr_collapsed f)
      | _, _, _, _ => false end
  end.
Lemma rrun_ok : rrun = true.
Proof. vm_compute. reflexivity. Qed.
Example C54_ex : exists e0 a0 T a3, easy_env (N := Fnum tlibm) 30%nat = Ok e0 /\ anm6_init (N := Fnum tlibm) (easy_dt (N := Fnum tlibm)) e0 = Ok a0 /\
  session (N := Fnum tlibm) trng 1 1 (arun (N := Fnum tlibm) trng a0 [AReset tor T None None]) a3 /\ rd_frames (a_rd a3) = [] /\
  exists f, rd_frames (a_rd (fst (anm6_render false 1 false true a3))) = [f] /\ near (nth_error (fr_dev_p f) 1) (-4.5) = true.
Proof.
  pose proof rrun_ok as H. unfold rrun, easy_make in H. destruct (easy_env (N := Fnum tlibm) 30%nat) as [e0|] eqn:E; [|discriminate H]. cbn [bind] in H.
  destruct (anm6_init (easy_dt (N := Fnum tlibm)) e0) as [a0|] eqn:A; [|discriminate H]. cbv zeta in H. set (T := easy_task (N := Fnum tlibm) trng tsf (e_sim (a_env a0))) in *.
  set (a1 := arun (N := Fnum tlibm) trng a0 [AReset tor T None None]) in *. destruct (anm6_render true 1 true true a1) as (a2, r2) eqn:R2.
  destruct (anm6_render false 1 false true (fst (anm6_step (N := Fnum tlibm) tor T tact1 a2))) as (a4, r4) eqn:R4. apply andb_true_iff in H as (Md & H). apply negb_true_iff in Md.
  destruct (rd_frames (a_rd a2)) eqn:F2; [|discriminate H]. destruct (rd_frames (a_rd a4)) as [|f [|]] eqn:F4; try discriminate H. destruct r2, r4; try discriminate H.
  apply andb_true_iff in H as (H & _). apply andb_true_iff in H as (H & _). exists e0, a0, T, (fst (anm6_step (N := Fnum tlibm) tor T tact1 a2)).
  split; [auto|]. split; [auto|]. split; [|split].
  - apply SsStep. replace a2 with (fst (anm6_render true 1 true true a1)) by (rewrite R2; reflexivity). apply SsRender; [apply SsNone; exact Md|auto].
  - rewrite (step_rd (N := Fnum tlibm)). exact F2.
  - exists f. rewrite R4. split; [exact F4|exact H].
Qed.
(** C55: a tidy session with one live pair, and the untidy histories of the refutations *)
Definition rtask (a0 : anm6 float nat) : task float nat := easy_task (N := Fnum tlibm) trng tsf (e_sim (a_env a0)).
(** a task whose initial states have the wrong shape: reset raises *)
Definition badtask : task float nat := mkTask (F := float) tsf (fun g => (Ok [], g)) (fun st g => (Ok [], g)).
Definition lcheck (ro : rng_ops float nat) (Or : oracles float) (T T' : task float nat) (a0 : anm6 float nat) : bool :=
  let a1 := fst (run_acall (N := Fnum tlibm) ro a0 (AReset Or T None None)) in
  let '(a2, r2) := run_acall (N := Fnum tlibm) ro a1 (ARender true 1 true true) in
  let '(a3, r3) := run_acall (N := Fnum tlibm) ro a2 (AReset Or T' None None) in
  negb (rd_mode (a_rd a0)) && match r2, r3 with None, Some _ => true | _, _ => false end && rd_mode (a_rd a2) && (List.length (rd_live (a_rd a2)) =? 1)%nat.
Lemma lcheck_ok ro Or T T' a0 : lcheck ro Or T T' a0 = true -> exists x,
  let cs := [AReset Or T None None; ARender true 1 true true] in
  let a := arun (N := Fnum tlibm) ro a0 cs in
  tidy (N := Fnum tlibm) ro a0 cs /\ rd_mode (a_rd a) = true /\ List.length (rd_live (a_rd a)) = 1%nat /\
  snd (run_acall (N := Fnum tlibm) ro a (AReset Or T' None None)) = Some x.
Proof.
  unfold lcheck, arun. cbn [fold_left tidy]. cbv zeta. set (a1 := fst (run_acall ro a0 _)). destruct (run_acall ro a1 _) as (a2, r2). cbn [fst snd].
  destruct (run_acall ro a2 _) as (a3, r3). cbn [snd]. intros H. apply andb_true_iff in H as (H & L). apply andb_true_iff in H as (H & M2). apply andb_true_iff in H as (M0 & H).
  apply negb_true_iff in M0. rewrite M0. destruct r2; [discriminate H|]. destruct r3 as [x|]; [|discriminate H]. exists x.
  split; [split; [intros K; discriminate K|split; auto]|]. split; [exact M2|]. split; [apply Nat.eqb_eq; exact L|reflexivity].
Qed.
Definition lrun : bool := match easy_make (N := Fnum tlibm) 30%nat with Err _ => false | Ok a0 => lcheck trng tor (rtask a0) badtask a0 end.
Lemma lrun_ok : lrun = true.
Proof. vm_compute. reflexivity. Qed.
Example C55_ex : exists e0 a0 T T' x, easy_env (N := Fnum tlibm) 30%nat = Ok e0 /\ anm6_init (N := Fnum tlibm) (easy_dt (N := Fnum tlibm)) e0 = Ok a0 /\
  let cs := [AReset tor T None None; ARender true 1 true true] in
  let a := arun (N := Fnum tlibm) trng a0 cs in
  tidy (N := Fnum tlibm) trng a0 cs /\ rd_mode (a_rd a) = true /\ List.length (rd_live (a_rd a)) = 1%nat /\
  snd (run_acall (N := Fnum tlibm) trng a (AReset tor T' None None)) = Some x.
Proof.
  pose proof lrun_ok as H. unfold lrun, easy_make in H. destruct (easy_env (N := Fnum tlibm) 30%nat) as [e0|]; [|discriminate H]. cbn [bind] in H.
  destruct (anm6_init (easy_dt (N := Fnum tlibm)) e0) as [a0|] eqn:A; [|discriminate H]. destruct (lcheck_ok _ _ _ _ _ H) as (x & K).
  exists e0, a0, (rtask a0), badtask, x. split; [reflexivity|]. split; [exact A|exact K].
Qed.

Print Assumptions C54_ex.
Print Assumptions C55_ex.
