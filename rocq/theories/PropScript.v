(** C90: the example scripts that run an agent run to the end. *)
From Coq Require Import Reals Lra.
From Verif Require Import Base Num NumXR Devices BusBranch CheckNetwork LoadFlow Simulator EnvArgs Env Anm6 Mpc Scripts LibBase LibNum LibSim LibXR SpecNet LibInit SpecSim ProofSim ProofObs ProofHist
  SpecQp SpecPf SpecTotal ProofTotal PropSet PropTotal SpecEnv ProofEnv ProofStep ProofState ProofDraw ProofEnvOk PropEnv SpecEpisode ProofEpisode SpecAnm6 ProofEasy PropEasy PropEasy2 PropEasy3 ProofAnm6 PropEasy4
  SpecRender PropRender SpecScript SpecMpc SpecOpf PropAct.
Local Open Scope string_scope.
Local Open Scope list_scope.
Local Open Scope R_scope.
Set Bullet Behavior "Strict Subproofs".

Section Script.
  Context {G : Type} (ro : rng_ops XR G) (sf : Z -> G) (g : G) (a0 : anm6 XR G) (Rs : rng_sound ro) (B : easy_make g = Ok a0).

  (** ---- the MPC scripts ---- *)
  Section Loop.
    Context (cs : list (call6 XR)) (Or0 : oracles XR) (Go : good_oracles Or0) (seed date : option Z) (a1 : anm6 XR G) (ob : list XR) (H : easy_reset Or0 ro sf seed date (run6 ro sf a0 cs) = (a1, Ok ob)).
    Lemma step_reward Or act a : during ro sf g a0 a1 a -> (exists n, stepping ro sf any n a1 a) -> good_oracles Or -> Forall fin act -> valid_action (a_env a0) act ->
      exists a' out, easy_step Or ro sf act a = (a', Ok out) /\ during ro sf g a0 a1 a' /\ (exists n, stepping ro sf any n a1 a') /\ e_term (a_env a') = Some (so_terminated out) /\
        ((e_term (a_env a) = Some true /\ so_terminated out = true /\ so_reward out = Fin 0) \/
         (e_term (a_env a) = Some false /\ so_terminated out = true /\ so_reward out = Fin (- 20000)) \/
         (e_term (a_env a) = Some false /\ so_terminated out = false /\ usual (so_reward out))).
    Proof.
      intros D (n & St) Go' Fa Va. destruct D as (K & Al & D1 & D2 & D3). destruct (easy_step_returns ro sf g a0 Rs B Or act a K Go' Fa Va Al D1 D2) as (_ & (out & E) & _).
      pose proof (during_call ro sf g a0 Rs B cs Or0 seed date a1 ob H a (E6Step Or act) (conj K (conj Al (conj D1 (conj D2 D3)))) (conj Go' (conj Fa Va)) I) as D'. cbn [run_call6] in D'.
      destruct (easy_step Or ro sf act a) as (a', r) eqn:Es. cbn [fst snd] in *. subst r. exists a', out. split; [reflexivity|]. split; [exact D'|].
      split; [exists (S n); eapply SStep; eauto; exact I|].
      split; [|exact (C74_easy_rewards G ro sf g a0 cs Or0 seed date a1 ob Rs B H n a Or act a' out St Es)].
      unfold easy_step, anm6_step in Es. destruct (env_step Or _ act (a_env a)) as (e', [o|x]) eqn:Ev; [|discriminate].
      assert (Ea : a_env a' = e' /\ o = out) by (destruct (a_date a); [destruct (a_date_init a)|]; injection Es as <- E'; try discriminate; split; auto; congruence). destruct Ea as (-> & ->).
      destruct K as ((Hg & _) & _). destruct (gd_step_inv _ _ _ _ _ _ Hg Ev) as [(Tt & _ & -> & sp & _ & ->)|(st & vars & el & pen & conv & L)]; [exact Tt|].
      rewrite (lv_term' _ _ _ _ _ _ _ _ _ _ _ L). destruct conv.
      - destruct (lv_conv _ _ _ _ _ _ _ _ _ _ _ L eq_refl) as (_ & _ & st2 & ov & sp & _ & _ & _ & _ & -> & _). reflexivity.
      - destruct (lv_coll _ _ _ _ _ _ _ _ _ _ _ L eq_refl) as (_ & _ & _ & rw & sp & _ & _ & ->). reflexivity.
    Qed.

    Context (cs' : list (call6 XR)) (gam mg : R) (Hm : 0 < mg) (k : nat) (Hk : (1 <= k)%nat) (m : mpc XR).
    Context (M : mpc_init (e_sim (a_env (run6 ro sf a0 cs'))) (e_aspace (a_env (run6 ro sf a0 cs'))) (Fin gam) (Fin mg) k = Ok m).
    Context (solve : opf_solver (F := XR)) (So : opf_optimal solve) (Sc : opf_complete solve) (perfect : bool).
    Lemma loop_runs ors : Forall good_oracles ors -> forall a, during ro sf g a0 a1 a -> (exists n, stepping ro sf any n a1 a) ->
      exists rs, mpc_loop ro sf perfect solve m ors a = Ok rs /\ List.length rs = List.length ors /\
        (e_term (a_env a) = Some true -> rs = repeat (Fin 0) (List.length ors)) /\ (e_term (a_env a) = Some false -> one_episode rs).
    Proof.
      induction 1 as [|Or ors Go' Fo IH]; intros a D St; cbn [mpc_loop].
      { exists []. split; [reflexivity|]. split; [reflexivity|]. split; [reflexivity|]. intros _. exists []. split; [constructor|left; reflexivity]. }
      destruct (never_fails ro sf g a0 Rs B cs Or0 seed date a1 ob H cs' gam mg Hm k Hk m M solve So Sc perfect a D) as (act & E & Fa & Va & _). rewrite E. cbn [bind].
      destruct (step_reward Or act a D St Go' Fa Va) as (a' & out & Es & D' & St' & T' & R). rewrite Es. destruct (IH a' D' St') as (rs & El & Ln & Q1 & Q2). rewrite El. cbn [bind].
      exists (so_reward out :: rs). split; [reflexivity|]. split; [cbn; congruence|].
      destruct R as [(R1 & R2 & R3)|[(R1 & R2 & R3)|(R1 & R2 & R3)]]; rewrite R1; rewrite R2 in T'; rewrite ?R3; (split; [intros X; try discriminate X|intros X; try discriminate X]).
      - rewrite (Q1 T'). reflexivity.
      - rewrite (Q1 T'). exists []. split; [constructor|]. right. exists (List.length ors). reflexivity.
      - destruct (Q2 T') as (live & Fl & [->|(q & ->)]); exists (so_reward out :: live); (split; [constructor; auto|]); [left; reflexivity|right; exists q; reflexivity].
    Qed.
  End Loop.

  (** ---- the random agent ---- *)
  (** what the rendering attributes look like in the script, [n] frames after the start *)
  Definition drawn (n : nat) (r : rstate XR) : Prop := rd_skipped r = 0%Z /\ List.length (rd_frames r) = n /\
    ((rd_mode r = false /\ rd_live r = []) \/ (rd_mode r = true /\ rd_isr r = true /\ exists c, rd_cur r = Some c /\ rd_live r = [c])).
  Lemma send_fresh (a : anm6 XR G) c d : fresh (e_sim (a_env a)) -> rd_cur (a_rd a) = Some c -> rd_live (a_rd a) = [c] -> a_date a = Some d -> exists f, send_frame true a = Ok f.
  Proof.
    intros (Es & _) Ec El Ed. unfold send_frame. rewrite Es, Ec, El, Ed. cbn [existsb]. rewrite Nat.eqb_refl. cbn. eauto.
  Qed.
  Lemma update_drawn n (a : anm6 XR G) c d : fresh (e_sim (a_env a)) -> a_date a = Some d -> rd_skipped (a_rd a) = 0%Z -> List.length (rd_frames (a_rd a)) = n -> rd_cur (a_rd a) = Some c -> rd_live (a_rd a) = [c] ->
    exists a', render_update 0 true a = (a', Ok tt) /\ rd_skipped (a_rd a') = 0%Z /\ List.length (rd_frames (a_rd a')) = S n /\ rd_mode (a_rd a') = rd_mode (a_rd a) /\ rd_isr (a_rd a') = rd_isr (a_rd a) /\
      rd_cur (a_rd a') = Some c /\ rd_live (a_rd a') = [c].
  Proof.
    intros Fr Ed Sk Ln Ec El. unfold render_update. rewrite Sk. change (Z.eqb (0 + 1) 0) with false. change ((0 + 1) mod (0 + 1))%Z with 0%Z. cbn [Z.eqb negb].
    destruct (send_fresh (a_set_rd a (rd_set_skipped (a_rd a) 0)) c d) as (f & Ef); auto. rewrite Ef. eexists. split; [reflexivity|]. cbn. rewrite app_length, Ln. cbn. repeat split; auto; lia.
  Qed.
  Lemma render_drawn n (a : anm6 XR G) : fresh (e_sim (a_env a)) -> a_date a <> None -> drawn n (a_rd a) -> exists a', anm6_render true 0 true true a = (a', Ok tt) /\ drawn (S n) (a_rd a').
  Proof.
    intros Fr Ed (Sk & Ln & [(M & L)|(M & Is & c & Ec & L)]); destruct (a_date a) as [d|] eqn:Dd; try congruence; unfold anm6_render; rewrite M.
    - cbn [negb]. set (a1 := a_set_rd a _). destruct (update_drawn n a1 (rd_next (a_rd a)) d) as (a' & E & E1 & E2 & E3 & E4 & E5 & E6); auto; [cbn; rewrite L; reflexivity|].
      rewrite E. eexists. split; [reflexivity|]. split; [exact E1|]. split; [exact E2|]. right. split; [cbn; rewrite E3; reflexivity|]. split; [reflexivity|]. exists (rd_next (a_rd a)). split; [exact E5|exact E6].
    - destruct (update_drawn n a c d) as (a' & E & E1 & E2 & E3 & E4 & E5 & E6); auto. rewrite E. exists a'. split; [reflexivity|]. split; [exact E1|]. split; [exact E2|]. right. rewrite E3, E4. split; [exact M|]. split; [exact Is|]. exists c. auto.
  Qed.
  Lemma step_rd Or act (a a' : anm6 XR G) out : easy_step Or ro sf act a = (a', Ok out) -> a_rd a' = a_rd a.
  Proof.
    unfold easy_step, anm6_step. destruct (env_step _ _ _ _) as (e', [o|x]); [|discriminate]. destruct (a_date a); [destruct (a_date_init a)|]; intros [= <- _]; reflexivity.
  Qed.
  Lemma reset_rd Or seed date (a a' : anm6 XR G) ob : easy_reset Or ro sf seed date a = (a', Ok ob) -> a_rd a' = a_rd a.
  Proof.
    unfold easy_reset, anm6_reset. destruct (env_reset _ _ _ _) as (e', [o|x]); [|discriminate]. destruct date as [d|]; [|destruct (random_date ro 0 (e_rng e')) as (d, gr)]; cbn;
      (destruct (e_state e') as [st|]; [|discriminate]); (destruct (xtrunc _); [|discriminate]); intros [= <- _]; reflexivity.
  Qed.

  Lemma run_snoc cs c : run6 ro sf a0 (cs ++ [c]) = run_call6 ro sf (run6 ro sf a0 cs) c.
  Proof. unfold run6. rewrite fold_left_app. reflexivity. Qed.

  Lemma random_runs its : Forall (sampled_entry a0) its -> forall n cs Or0 a1 ob a cs2, good_oracles Or0 -> easy_reset Or0 ro sf None None (run6 ro sf a0 cs) = (a1, Ok ob) ->
    during ro sf g a0 a1 a -> (exists q, stepping ro sf any q a1 a) -> e_term (a_env a) = Some false -> a = run6 ro sf a0 cs2 -> drawn n (a_rd a) ->
    (snd (random_loop ro sf its a) = Err AttributeError /\ exists Or cs, In Or (map snd its) /\ no_start ro sf (e_sim (a_env a0)) Or (run6 ro sf a0 cs)) \/
    (exists a' rs, random_loop ro sf its a = (a', Ok rs) /\ List.length rs = List.length its /\ Forall reward_ok rs /\ drawn (n + List.length its) (a_rd a')).
  Proof.
    induction 1 as [|((act, Or), Or') its (Fa & Va & Go1 & Go2) Fi IH]; intros n cs Or0 a1 ob a cs2 Go H D St Te Ea Dr; cbn [random_loop].
    { right. exists a, []. rewrite Nat.add_0_r. repeat split; auto; apply Dr. }
    destruct (step_reward cs Or0 None None a1 ob H Or act a D St Go1 Fa Va) as (b & out & Es & D' & (q & St') & T' & R). rewrite Es.
    assert (Eb : b = run6 ro sf a0 (cs2 ++ [E6Step Or act])) by (rewrite run_snoc, <- Ea; cbn [run_call6]; rewrite Es; reflexivity).
    assert (Rw : reward_ok (so_reward out)) by (destruct R as [(R1 & _)|[(_ & _ & R3)|(_ & _ & R3)]]; [congruence|right; exact R3|left; exact R3]).
    pose proof (during_call ro sf g a0 Rs B cs Or0 None None a1 ob H b (E6Render true 0 true true) D' I I) as D2. pose proof (SRender ro sf any q a1 b true 0%Z true true St') as St2.
    destruct (render_drawn n b) as (b2 & Er & Dr2); [apply D'|apply D'|rewrite (step_rd _ _ _ _ _ Es); exact Dr|].
    destruct (render_keeps true 0%Z true true b) as (K1 & _). cbn [run_call6] in D2. rewrite Er in *. cbn [fst] in *.
    assert (Eb2 : b2 = run6 ro sf a0 ((cs2 ++ [E6Step Or act]) ++ [E6Render true 0 true true])) by (rewrite run_snoc, <- Eb; cbn [run_call6]; rewrite Er; reflexivity).
    assert (Last : forall p (c : anm6 XR G), (snd (random_loop ro sf its c) = Err AttributeError /\ exists O cs, In O (map snd its) /\ no_start ro sf (e_sim (a_env a0)) O (run6 ro sf a0 cs)) \/
        (exists a' rs, random_loop ro sf its c = (a', Ok rs) /\ List.length rs = List.length its /\ Forall reward_ok rs /\ drawn (p + List.length its) (a_rd a')) ->
      let r := match random_loop ro sf its c with (a4, Ok rs) => (a4, Ok (so_reward out :: rs)) | r => r end in
      (snd r = Err AttributeError /\ exists O cs, In O (map snd ((act, Or, Or') :: its)) /\ no_start ro sf (e_sim (a_env a0)) O (run6 ro sf a0 cs)) \/
        (exists a' rs, r = (a', Ok rs) /\ List.length rs = S (List.length its) /\ Forall reward_ok rs /\ drawn (p + List.length its) (a_rd a'))).
    { intros p c [(E & O & cs3 & I & Ns)|(a' & rs & E & Ln & Fr & Dr3)] r; unfold r.
      - destruct (random_loop ro sf its c) as (a', [rs|x]); [discriminate E|]. left. split; [exact E|]. exists O, cs3. split; [right; exact I|exact Ns].
      - rewrite E. right. exists a', (so_reward out :: rs). split; [reflexivity|]. split; [cbn; congruence|]. split; [constructor; auto|exact Dr3]. }
    cbn [List.length]. rewrite Nat.add_succ_r, <- Nat.add_succ_l. destruct (so_terminated out).
    - destruct (C74_easy_resets G ro sf g a0 _ Or' None None Rs B Go2 : answers6 ro sf (e_sim (a_env a0)) (run6 ro sf a0 ((cs2 ++ [E6Step Or act]) ++ [E6Render true 0 true true])) _) as [(ob' & E)|(E & Ns)]; rewrite <- Eb2 in *.
      + destruct (easy_reset Or' ro sf None None b2) as (b3, r) eqn:Ers. cbn [snd] in E. subst r. apply (Last (S n)). rewrite Eb2 in Ers.
        apply (IH (S n) _ Or' b3 ob' b3 (((cs2 ++ [E6Step Or act]) ++ [E6Render true 0 true true]) ++ [E6Reset Or' None None]) Go2 Ers).
        * exact (during_start ro sf g a0 Rs B _ Or' Go2 None None b3 ob' Ers).
        * exists 0%nat. constructor.
        * assert (X := Ers). unfold easy_reset, anm6_reset in X. destruct (env_reset Or' _ None _) as (e', [o|x]) eqn:Ee; [|discriminate X]. apply env_reset_const in Ee.
          assert (Et : e_term (a_env b3) = e_term e'). { clear -X. destruct (random_date ro 0 (e_rng e')) as (d, gr); cbn in X; (destruct (e_state e') as [st|]; [|discriminate]); (destruct (xtrunc _); [|discriminate]); injection X as <- _; reflexivity. }
          rewrite Et. tauto.
        * rewrite run_snoc, <- Eb2. cbn [run_call6]. rewrite Eb2, Ers. reflexivity.
        * rewrite (reset_rd _ _ _ _ _ _ Ers). rewrite <- Eb2. exact Dr2.
      + destruct (easy_reset Or' ro sf None None b2) as (b3, r) eqn:Ers. cbn [snd] in E. subst r. left. split; [reflexivity|]. exists Or', ((cs2 ++ [E6Step Or act]) ++ [E6Render true 0 true true]). split; [left; reflexivity|]. rewrite <- Eb2. exact Ns.
    - apply (Last (S n)). apply (IH (S n) cs Or0 a1 ob b2 ((cs2 ++ [E6Step Or act]) ++ [E6Render true 0 true true]) Go H D2); [exists q; exact St2|rewrite K1; exact T'|exact Eb2|exact Dr2].
  Qed.
End Script.

(** The MPC scripts, with either forecast, any positive safety margin, any horizon and any number of iterations (0.96, 10 and 100 in the files).  If the solvers
    behave as documented and the optimiser returns a least plan when there is one, the script either stops at once because [reset] finds no initial state, or returns:
    one reward per iteration, all between - 101 and 1 up to the end of the episode if it ends, then - 20000, then zeros. *)
Theorem C90_mpc_script : forall (G : Type) (ro : rng_ops XR G) sf g perfect solve mg k Or0 ors, rng_sound ro -> 0 < mg -> (1 <= k)%nat -> opf_optimal solve -> opf_complete solve ->
  good_oracles Or0 -> Forall good_oracles ors -> let r := mpc_script ro sf g perfect solve (Fin mg) k Or0 ors in
  (r = Err AttributeError /\ exists a0, easy_make g = Ok a0 /\ no_start ro sf (e_sim (a_env a0)) Or0 a0) \/
  (exists rs, r = Ok rs /\ List.length rs = List.length ors /\ one_episode rs).
Proof.
  intros G ro sf g perfect solve mg k Or0 ors Rs Hm Hk So Sc Go Fo r. unfold r, mpc_script. destruct (C74_constructed G g) as (a0 & B). rewrite B. cbn [bind].
  destruct (C74_easy_resets G ro sf g a0 [] Or0 None None Rs B Go) as [(ob & E)|(E & Ns)]; change (run6 ro sf a0 []) with a0 in *; destruct (easy_reset Or0 ro sf None None a0) as (a1, x) eqn:Er; cbn [snd] in E; subst x.
  2:{ left. split; [reflexivity|]. exists a0. split; [reflexivity|exact Ns]. }
  assert (E1 : a1 = run6 ro sf a0 [E6Reset Or0 None None]) by (cbn [run6 fold_left run_call6]; rewrite Er; reflexivity).
  assert (Eg : e_gamma (a_env a1) = Fin (995/1000)).
  { destruct (start_facts clock_XR g a0 B) as (e0 & R0 & E0 & _). rewrite E1. destruct (run6_reach g _ ro sf [E6Reset Or0 None None] a0 R0) as (Hg & _). rewrite (gd_gamma _ Hg). unfold easy_gamma. apply nrat_XR. lia. }
  rewrite Eg. destruct (C83_agent_built G ro sf g a0 [E6Reset Or0 None None] (995/1000) mg k B) as (m & M). rewrite <- E1 in M. rewrite M. cbn [bind]. rewrite E1 in M.
  pose proof (during_start ro sf g a0 Rs B [] Or0 Go None None a1 ob Er) as D.
  destruct (loop_runs ro sf g a0 Rs B [] Or0 None None a1 ob Er [E6Reset Or0 None None] (995/1000) mg Hm k Hk m M solve So Sc perfect ors Fo a1 D) as (rs & El & Ln & _ & Q); [exists 0%nat; constructor|].
  right. exists rs. split; [exact El|]. split; [exact Ln|]. apply Q. assert (X := Er). unfold easy_reset, anm6_reset in X. destruct (env_reset Or0 _ None _) as (e', [o|x]) eqn:Ee; [|discriminate X]. apply env_reset_const in Ee.
  assert (Et : e_term (a_env a1) = e_term e'). { clear -X. destruct (random_date ro 0 (e_rng e')) as (d, gr); cbn in X; (destruct (e_state e') as [st|]; [|discriminate]); (destruct (xtrunc _); [|discriminate]); injection X as <- _; reflexivity. }
  rewrite Et. tauto.
Qed.

(** The random agent, for any number of iterations (10 in the file) and any actions of the action space, if the servers of the rendering start.  The script either stops
    because a reset finds no initial state, or returns; then each iteration had a reward between - 101 and 1, or - 20000, and sent one frame, and no server is
    left running. *)
Theorem C90_random_agent : forall (G : Type) (ro : rng_ops XR G) sf g a0 Or0 its, rng_sound ro -> easy_make g = Ok a0 -> good_oracles Or0 -> Forall (sampled_entry a0) its ->
  stuck ro sf a0 Or0 its (snd (random_script ro sf Or0 its a0)) \/
  exists a' rs, random_script ro sf Or0 its a0 = (a', Ok rs) /\ List.length rs = List.length its /\ Forall reward_ok rs /\
    List.length (rd_frames (a_rd a')) = List.length its /\ rd_live (a_rd a') = [].
Proof.
  intros G ro sf g a0 Or0 its Rs B Go Fi. unfold random_script, stuck.
  destruct (C74_easy_resets G ro sf g a0 [] Or0 None None Rs B Go) as [(ob & E)|(E & Ns)]; change (run6 ro sf a0 []) with a0 in *; destruct (easy_reset Or0 ro sf None None a0) as (a1, x) eqn:Er; cbn [snd] in E; subst x.
  2:{ left. split; [reflexivity|]. exists Or0, []. split; [left; reflexivity|exact Ns]. }
  assert (E1 : a1 = run6 ro sf a0 [E6Reset Or0 None None]) by (cbn [run6 fold_left run_call6]; rewrite Er; reflexivity).
  pose proof (during_start ro sf g a0 Rs B [] Or0 Go None None a1 ob Er) as D.
  assert (Te : e_term (a_env a1) = Some false).
  { assert (X := Er). unfold easy_reset, anm6_reset in X. destruct (env_reset Or0 _ None _) as (e', [o|x]) eqn:Ee; [|discriminate X]. apply env_reset_const in Ee.
    assert (Et : e_term (a_env a1) = e_term e'). { clear -X. destruct (random_date ro 0 (e_rng e')) as (d, gr); cbn in X; (destruct (e_state e') as [st|]; [|discriminate]); (destruct (xtrunc _); [|discriminate]); injection X as <- _; reflexivity. }
    rewrite Et. tauto. }
  assert (Dr : drawn 0 (a_rd a1)).
  { rewrite (reset_rd ro sf _ _ _ _ _ _ Er). destruct (easy_make_inv g a0 clock_XR B) as (e0 & _ & _ & _ & _ & _ & ->). split; [reflexivity|]. split; [reflexivity|]. left. split; reflexivity. }
  destruct (random_runs ro sf g a0 Rs B its Fi 0 [] Or0 a1 ob a1 [E6Reset Or0 None None] Go Er D ltac:(exists 0%nat; constructor) Te E1 Dr) as [(E & O & cs & I & Ns)|(a' & rs & E & Ln & Fr & (Sk & Lf & Rd))].
  - left. destruct (random_loop ro sf its a1) as (a', [rs|x]); [discriminate E|]. split; [exact E|]. exists O, cs. split; [right; exact I|exact Ns].
  - rewrite E. right. exists (anm6_close a'), rs. split; [reflexivity|]. split; [exact Ln|]. split; [exact Fr|]. split; [exact Lf|].
    unfold anm6_close. cbn [a_rd a_set_rd rd_live]. destruct Rd as [(_ & L)|(_ & Is & c & Ec & L)].
    + rewrite L. destruct (rd_isr _); [|reflexivity]. destruct (rd_cur _); reflexivity.
    + rewrite Is, Ec, L. cbn. rewrite Nat.eqb_refl. reflexivity.
Qed.

(** The hypotheses are met: solvers, an optimiser and a generator exist; with them the two MPC scripts of the repository run, and the idle action may be sampled. *)
Example C90_ex : exists Or solve, good_oracles Or /\ opf_optimal solve /\ opf_complete solve /\ rng_sound low_rng /\
  (forall perfect sf, let r := mpc_script low_rng sf 0%nat perfect solve (Fin (96/100)) 10 Or (repeat Or 100) in
    r = Err AttributeError \/ exists rs, r = Ok rs /\ List.length rs = 100%nat /\ one_episode rs) /\
  exists a0 : anm6 XR nat, easy_make 0%nat = Ok a0 /\ Forall (sampled_entry a0) (repeat (idle6, Or, Or) 10).
Proof.
  destruct C06_solver_exists as (qp & _ & Qe & Qc). destruct C83_solver as (solve & So & Sc).
  assert (Go : good_oracles (mkOr qp gauss_solve)) by (split; [exact Qe|split; [exact Qc|apply C68_linear_solver_exists]]).
  exists (mkOr qp gauss_solve), solve. do 3 (split; [assumption|]). split; [exact low_sound|].
  assert (Fo : forall n, Forall good_oracles (repeat (mkOr qp gauss_solve) n)) by (intros n; apply Forall_forall; intros x I; apply repeat_spec in I; subst; exact Go).
  split.
  - intros perfect sf. destruct (C90_mpc_script nat low_rng sf 0%nat perfect solve (96/100) 10 (mkOr qp gauss_solve) (repeat (mkOr qp gauss_solve) 100) low_sound ltac:(lra) ltac:(lia) So Sc Go (Fo _)) as [(E & _)|(rs & E & Ln & Q)]; [left; exact E|right].
    exists rs. rewrite repeat_length in Ln. auto.
  - destruct C74_ex as (a0 & _ & _ & B & _ & Fi & Vi & _). exists a0. split; [exact B|]. apply Forall_forall. intros x I. apply repeat_spec in I. subst x. split; [exact Fi|]. split; [exact Vi|auto].
Qed.

Print Assumptions C90_mpc_script.
Print Assumptions C90_random_agent.
