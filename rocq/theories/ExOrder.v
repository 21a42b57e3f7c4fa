(** C76 beside the network of ANM6, and what remains of it in binary64. *)
From Coq Require Import Reals Lra Floats Permutation.
From Verif Require Import Base Num NumXR NumFloat Devices BusBranch CheckNetwork LoadFlow Simulator EnvArgs Env Anm6 LibBase SpecNet LibInit SpecSim SpecEnv PropEasy4 PropMake SpecOrder PropOrder ExFloat.
Local Open Scope string_scope.
Local Open Scope list_scope.
Set Bullet Behavior "Strict Subproofs".

(** the network of ANM6 with all its rows in the reverse order *)
Definition upside_down {F} (nw : network F) : network F := mkNet (nw_base nw) (rev (nw_bus nw)) (rev (nw_dev nw)) (rev (nw_br nw)).
Lemma upside_down_reordered {F} (nw : network F) : reordered nw (upside_down nw).
Proof. repeat split; apply Permutation_rev. Qed.

Example C76_ex : forall (G : Type) (g : G), exists e e',
  env_init (N := XRnum) anm6_network ObsState 1 easy_dt easy_gamma (nofZ 100) (Some [(n0, nsub (ndiv (nofZ 24) easy_dt) n1)]) (Some (Some n1, Some (nofZ 100))) g = Ok e /\
  env_init (N := XRnum) (upside_down anm6_network) ObsState 1 easy_dt easy_gamma (nofZ 100) (Some [(n0, nsub (ndiv (nofZ 24) easy_dt) n1)]) (Some (Some n1, Some (nofZ 100))) g = Ok e' /\
  map (fun b => (ln_f b, ln_t b)) (sm_branches (e_sim e)) = [(0, 1); (1, 2); (1, 3); (2, 4); (2, 5)]%Z /\
  forall T cs Or seed, snd (env_reset Or T seed (erun T e' cs)) = snd (env_reset Or T seed (erun T e cs)).
Proof.
  intros G g. destruct (C74_constructed G g) as (a0 & E0). unfold easy_make in E0. apply bind_ok in E0 as (e & E & _). unfold easy_env in E.
  assert (Nn : Forall (fun i => 0 <= i)%Z (file_ids (anm6_network (N := XRnum)))) by (cbn; repeat constructor; lia).
  destruct (C76_env_row_order _ _ G ObsState _ _ _ _ _ _ _ _ (upside_down_reordered _) Nn I E) as (e' & E' & K).
  exists e, e'. split; auto. split; auto. split; [|intros; apply K].
  unfold env_init in E. apply bind_ok in E as (s & Es & E). apply bind_ok in E as (? & _ & E). apply bind_ok in E as (? & _ & E). apply bind_ok in E as ((? & ?) & _ & E).
  apply bind_ok in E as (? & _ & E). injection E as <-. cbn [e_sim]. destruct (sim_init_built _ _ _ _ Es) as (bs & ds & B). pose proof (bt_brs _ _ _ _ _ _ B) as Eb. apply mapM_ok in Eb.
  revert Eb. unfold anm6_network. cbn [nw_br]. generalize (sm_branches s). intros brs Eb.
  repeat match goal with H : Forall2 _ (_ :: _) _ |- _ => inversion H as [|? ? ? ? ?Hb ?Eb]; clear H; subst | H : Forall2 _ [] _ |- _ => inversion H; clear H; subst end.
  repeat match goal with H : branch_init _ _ _ = Ok _ |- _ => apply branch_init_ends in H; destruct H as (H & H' & _); cbn [lr_f lr_t] in H, H'; injection H as H; injection H' as H'; revert H H' end.
  intros. cbn. congruence.
Qed.

(** ---- binary64 ---- *)
Notation f6 := (anm6_network (N := Fnum tlibm)).
Definition fenv (nw : network float) := env_init (N := Fnum tlibm) nw ObsState 1 0.25%float 0.995%float 100%float (Some [(0%float, 95%float)]) (Some (Some 1%float, Some 100%float)) 30%nat.
Definition ftask := easy_task (N := Fnum tlibm) trng tsf.
Definition ftest (nw nw' : network float) : bool :=
  match fenv nw, fenv nw' with
  | Ok e, Ok e' =>
    match env_reset (N := Fnum tlibm) tor (ftask (e_sim e)) None e, env_reset (N := Fnum tlibm) tor (ftask (e_sim e)) None e' with
    | (e1, Ok ob), (e1', Ok ob') =>
      match env_step (N := Fnum tlibm) tor (ftask (e_sim e)) tact1 e1, env_step (N := Fnum tlibm) tor (ftask (e_sim e)) tact1 e1' with
      | (_, Ok o), (_, Ok o') => negb (PrimFloat.eqb (hd 0%float ob) (hd 0%float ob')) && negb (PrimFloat.eqb (so_reward o) (so_reward o'))
      | _, _ => false end
    | _, _ => false end
  | _, _ => false end.
Lemma ftest_ok : ftest f6 (upside_down f6) = true.
Proof. vm_compute. reflexivity. Qed.
(** The additions of binary64 are not associative, so C76_env_row_order does not extend to it: with the network of ANM6 and its rows in the reverse order, the same
    seed, the same action and the same solvers give another active power of the slack generator and another reward (in the last digits). *)
Theorem C76_binary64_refuted : exists (nw nw' : network float) e e' (T : task float nat) e1 e1' ob ob' a e2 e2' o o',
  reordered nw nw' /\ fenv nw = Ok e /\ fenv nw' = Ok e' /\
  env_reset (N := Fnum tlibm) tor T None e = (e1, Ok ob) /\ env_reset (N := Fnum tlibm) tor T None e' = (e1', Ok ob') /\
  PrimFloat.eqb (hd 0%float ob) (hd 0%float ob') = false /\
  env_step (N := Fnum tlibm) tor T a e1 = (e2, Ok o) /\ env_step (N := Fnum tlibm) tor T a e1' = (e2', Ok o') /\
  PrimFloat.eqb (so_reward o) (so_reward o') = false.
Proof.
  pose proof ftest_ok as H. unfold ftest in H. destruct (fenv f6) as [e|] eqn:E1; [|discriminate]. destruct (fenv (upside_down f6)) as [e'|] eqn:E2; [|discriminate].
  destruct (env_reset tor (ftask (e_sim e)) None e) as (e1, [ob|]) eqn:E3; [|discriminate]. destruct (env_reset tor (ftask (e_sim e)) None e') as (e1', [ob'|]) eqn:E4; [|discriminate].
  destruct (env_step tor (ftask (e_sim e)) tact1 e1) as (e2, [o|]) eqn:E5; [|discriminate]. destruct (env_step tor (ftask (e_sim e)) tact1 e1') as (e2', [o'|]) eqn:E6; [|discriminate].
  apply andb_true_iff in H as (H1 & H2). apply negb_true_iff in H1, H2.
  exists f6, (upside_down f6), e, e', (ftask (e_sim e)), e1, e1', ob, ob', tact1, e2, e2', o, o'. repeat split; auto; apply Permutation_rev.
Qed.

Print Assumptions C76_ex.
Print Assumptions C76_binary64_refuted.
