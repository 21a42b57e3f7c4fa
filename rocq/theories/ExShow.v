(** C86 beside a binary64 run: the picture of ANM6Easy after a harmless step, and after a step that overloads a line. *)
From Coq Require Import Floats Uint63.
From Verif Require Import Base Num NumFloat Devices BusBranch CheckNetwork LoadFlow Simulator EnvArgs Env Anm6 Message SvgLabels Page Exec SpecSim SpecEnv SpecAnm6 SpecPage LibBase ExFloat.
From Coq Require Import List. Import ListNotations.
Local Open Scope string_scope.
Local Open Scope list_scope.

Definition strokes (d : @dom float) : list (option (@aval float)) := map (fun i => look d i AStroke) (flat_map bl_cross svg_buses ++ flat_map ll_cross svg_lines).
Definition is_red (v : option (@aval float)) : bool := match v with Some (VColor s) => String.eqb s "#ff0000" | _ => false end.
Definition all_ok (l : list (res unit)) : bool := forallb (fun r => match r with Ok tt => true | Err _ => false end) l.
(** [reset] and the step [act] of a task, both rendered: the updates sent, what the page answered after the first message and these updates, and the page *)
Definition show_run (T : anm6 float nat -> task float nat) (act : list float) : option (list (frame float) * list (res unit) * @dom float) :=
  match easy_make (N := Fnum tlibm) 30%nat with
  | Err _ => None
  | Ok a0 =>
      let a := arun (N := Fnum tlibm) trng a0 [AReset tor (T a0) None None; ARender true 0 true true; AStep tor (T a0) act; ARender true 0 true true] in
      match first_message (N := Fnum tlibm) (a_env a0) with
      | Err _ => None
      | Ok m => let fs := rd_frames (a_rd a) in let '(p, rs) := page_run (N := Fnum tlibm) blank (GInit m "ANM6Easy" :: map GUpdate fs) in Some (fs, rs, pg_dom p)
      end
  end.
Definition day_task (a0 : anm6 float nat) : task float nat := easy_task (N := Fnum tlibm) trng tsf (e_sim (a_env a0)).
(** nobody consumes or produces anything *)
Definition rest_task (a0 : anm6 float nat) : task float nat := mkTask (F := float) tsf (fun g => (Ok (repeat 0%float 18), g)) (fun st g => (Ok (repeat 0%float 6), g)).
Definition zero_pen (f : frame float) : bool := match fr_costs f with [_; p] => PrimFloat.eqb p 0 | _ => false end.
Definition pos_pen (f : frame float) : bool := match fr_costs f with [_; p] => PrimFloat.ltb 0 p | _ => false end.
Definition show_test (T : anm6 float nat -> task float nat) (act : list float) (P : frame float -> bool) (red : bool) : bool :=
  match show_run T act with
  | Some ([f1; f2], rs, d) => P f2 && negb (fr_collapsed f2) && all_ok rs && Bool.eqb (existsb is_red (strokes d)) red
  | _ => false
  end.
(** the storage unit is charged with 50 MW: a penalty and red crosses; at rest: no penalty and no cross *)
Example C86_ex : show_test day_task [0; 0; 0; 0; -50; 0]%float pos_pen true = true /\ show_test rest_task (repeat 0 6)%float zero_pen false = true.
Proof. split; vm_compute; reflexivity. Qed.

(** Right after a reset this is not so: [reset] announces no cost (anm_env.py 262-263), although the first state may already be outside the limits.  Here a line is
    overloaded: the page draws its red cross and shows a penalty of 0. *)
Definition reset_test (a0 : anm6 float nat) : bool :=
  match first_message (N := Fnum tlibm) (a_env a0), easy_reset (N := Fnum tlibm) tor trng tsf None None a0 with
  | Ok m, (a1, Ok ob) =>
      match rd_frames (a_rd (fst (anm6_render true 0 true true a1))) with
      | [f] => zero_pen f && existsb is_red (strokes (pg_dom (fst (page_run (N := Fnum tlibm) blank [GInit m "ANM6Easy"; GUpdate f]))))
      | _ => false
      end
  | _, _ => false
  end.
Lemma reset_test_ok : match easy_make (N := Fnum tlibm) 30%nat with Ok a0 => reset_test a0 | Err _ => false end = true.
Proof. vm_compute. reflexivity. Qed.
Theorem C86_after_reset_refuted : exists (a0 a1 : anm6 float nat) ob m f x p i,
  easy_make (N := Fnum tlibm) 30%nat = Ok a0 /\ easy_reset (N := Fnum tlibm) tor trng tsf None None a0 = (a1, Ok ob) /\ first_message (N := Fnum tlibm) (a_env a0) = Ok m /\
  rd_frames (a_rd (fst (anm6_render true 0 true true a1))) = [f] /\ fr_costs f = [x; p] /\ PrimFloat.eqb p 0 = true /\
  In i (flat_map bl_cross svg_buses ++ flat_map ll_cross svg_lines) /\
  look (pg_dom (fst (page_run (N := Fnum tlibm) blank [GInit m "ANM6Easy"; GUpdate f]))) i AStroke = Some (VColor "#ff0000").
Proof.
  pose proof reset_test_ok as H. destruct (easy_make 30%nat) as [a0|]; [|discriminate H]. unfold reset_test in H. destruct (first_message (a_env a0)) as [m|] eqn:Em; [|discriminate H].
  destruct (easy_reset tor trng tsf None None a0) as (a1, [ob|]) eqn:E1; [|discriminate H]. destruct (rd_frames _) as [|f [|]] eqn:Ef; try discriminate H. apply andb_true_iff in H as [H1 H2].
  unfold zero_pen in H1. destruct (fr_costs f) as [|x [|p [|]]] eqn:Ec; try discriminate H1. apply existsb_exists in H2 as (v & I & R). unfold strokes in I. apply in_map_iff in I as (i & Ei & I).
  exists a0, a1, ob, m, f, x, p, i. split; [reflexivity|]. split; [exact E1|]. split; [exact Em|]. split; [exact Ef|]. split; [exact Ec|]. split; [exact H1|]. split; [exact I|].
  rewrite Ei. unfold is_red in R. destruct v as [[| c | |]|]; try discriminate R. apply String.eqb_eq in R. subst c. reflexivity.
Qed.
Print Assumptions C86_after_reset_refuted.
