(** C55: servers that fail to start. *)
From Verif Require Import Base Num Devices BusBranch CheckNetwork LoadFlow Simulator EnvArgs Env Anm6 LibBase SpecSim SpecEnv SpecAnm6 SpecRender PropRender.
From Coq Require Import List. Import ListNotations.
Set Bullet Behavior "Strict Subproofs".

Section Start.
  Context {F G : Type} {N : Num F}.
  (** the object believes that it is rendering, but has no servers to send to *)
  Definition deaf (a : anm6 F G) : Prop :=
    let r := a_rd a in rd_mode r = true /\ rd_cur r = None /\ rd_isr r = false /\ rd_frames r = [] /\ List.length (rd_live r) = 1%nat.
  Lemma deaf_update skip up a : deaf a -> deaf (fst (render_update skip up a)).
  Proof.
    intros (A & B & C & D & E). unfold render_update. destruct (Z.eqb _ _); [repeat split; auto|]. set (r := rd_set_skipped _ _).
    destruct (negb _); [repeat split; auto|]. destruct (send_frame up (a_set_rd a r)) as [f|x] eqn:Es; [|repeat split; auto]. exfalso. revert Es. unfold send_frame.
    destruct (sm_state _); [|discriminate]. intros Es. do 6 (apply bind_ok in Es as (? & _ & Es)). unfold r in Es. cbn [a_rd a_set_rd rd_cur rd_set_skipped] in Es. rewrite B in Es. discriminate Es.
  Qed.
  Lemma deaf_run ro cs : forall a, deaf a -> tidy ro a cs -> ~ In AClose cs -> deaf (arun ro a cs).
  Proof.
    induction cs as [|c cs IH]; intros a H Ht Nc; [exact H|]. destruct Ht as (T1 & T2). unfold arun. cbn [fold_left]. apply IH; [|exact T2|intros I; apply Nc; right; exact I]. clear IH T2.
    destruct c as [Or T seed date|Or T action|d|human skip started up|].
    - unfold deaf in *. cbn [run_acall] in *. pose proof (reset_rd Or T ro seed date a) as R. destruct (anm6_reset Or T ro seed date a) as (a', r). cbn [fst snd] in *.
      destruct R as [(ob & _ & ->)|(x & -> & _)]; [exact H|]. destruct H as (M & _). specialize (T1 M). discriminate T1.
    - unfold deaf in *. cbn [run_acall]. pose proof (step_rd Or T action a) as R. destruct (anm6_step Or T action a). cbn [fst] in *. rewrite R. exact H.
    - exact H.
    - cbn [run_acall]. unfold anm6_render. pose proof H as (M1 & _). rewrite M1. pose proof (deaf_update skip up a H) as D. destruct (render_update skip up a). exact D.
    - exfalso. apply Nc. left. reflexivity.
  Qed.
End Start.

(** C55 is false when the servers fail to start: the call raises, yet the environment considers itself rendering.  Whatever is called next, short of [close] or a
    reset that raises, nothing is ever sent, no call to [render] tries again, and the processes that were launched survive [close]. *)
Theorem C55_failed_start_refuted : forall (F G : Type) (N : Num F) dt e0 (a0 : anm6 F G) ro skip up,
  anm6_init dt e0 = Ok a0 ->
  let '(a1, r) := run_acall ro a0 (ARender true skip false up) in
  r = Some ConnectionErr /\
  forall cs, tidy ro a1 cs -> ~ In AClose cs ->
    rd_frames (a_rd (arun ro a1 cs)) = [] /\ List.length (rd_live (a_rd (arun ro a1 cs))) = 1%nat /\ List.length (rd_live (a_rd (arun ro a1 (cs ++ [AClose])))) = 1%nat.
Proof.
  intros F G N dt e0 a0 ro skip up A. unfold anm6_init in A. apply bind_ok in A as (u & _ & A). apply bind_ok in A as (len & _ & A). injection A as <-. cbn [run_acall].
  unfold anm6_render. cbn. split; [reflexivity|]. intros cs T Nc.
  match goal with |- context [arun ro ?x cs] => assert (D : deaf (arun ro x cs)) by (apply deaf_run; [repeat split|exact T|exact Nc]); set (a1 := x) in * end.
  destruct D as (M & C & I & Fr & L). split; [exact Fr|]. split; [exact L|]. unfold arun. rewrite fold_left_app. cbn [fold_left run_acall fst]. fold (arun ro a1 cs).
  unfold anm6_close. cbn [a_rd a_set_rd rd_live]. rewrite I. exact L.
Qed.
Print Assumptions C55_failed_start_refuted.
