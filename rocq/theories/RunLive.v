(** Programs are started as soon as possible, cinit is never stuck, and it ends. *)
From stdpp Require Import gmap strings.
From Coq Require Import Ascii ZArith List Bool Lia Permutation Relations.
From Verif Require Import Base RStr CronModel ConfigModel ProcessModel EnvModel DepModel NotifyModel ManagerModel SysModel
  MainModel SpecDep SpecTimer SpecRun SpecLive DepProofs CronTimerProofs RunStep RunInv RunFlow RunHist RunAlive RunStream RunClaims RunLife RunThms RunFinal RunSteps RunSteps2.
Import ListNotations.
Local Open Scope string_scope.
Local Open Scope list_scope.
Local Open Scope Z_scope.

(** * Nothing that can run waits *)
Definition idle (s : sys) : Prop :=
  s_pc s = AtSpawnCron \/ (s_pc s = AtPoll /\ s_shut s = false) -> dm_runnable (g_dep (s_g s)) = [].

Lemma idle_step e s s' : idle s -> trans e s s' -> idle s'.
Proof.
  intros I T. unfold idle in *. step_cases T; cbn [with_kernel mk_s s_pc s_shut s_g set_dep set_cron set_keep set_fds mk_g g_dep] in *; auto;
    try (intros [X|[X _]]; discriminate).
  - inversion Q; subst; try (intros [X|[X Y]]; discriminate).
    + intros _. unfold pop_dep in H0. destruct (rev (dm_runnable (g_dep (s_g s)))) eqn:E; [|discriminate].
      apply (f_equal (@rev nat)) in E. rewrite rev_involutive in E. exact E.
    + intros _. auto.
  - destruct O; cbn in *; [|auto]. rewrite H. intros [X|[X _]]; discriminate.
  - destruct O; cbn in *; [|auto]. rewrite H. intros [X|[X _]]; discriminate.
  - destruct O; cbn in *; [|auto]. rewrite H. intros [X|[X _]]; discriminate.
Qed.

Lemma reachable_idle k e configs s : reachable k e configs s -> idle s.
Proof.
  intros R. assert (OK := kn_order _ _ _ (reachable_known _ _ _ _ R)). destruct R as (s0 & ops & L & X).
  eapply (execute_ind e idle OK); [intros ? ?; apply idle_step| |exact X].
  apply launched_start in L. unfold idle. rewrite (ss_pc _ _ L). intros [K|[K _]]; discriminate.
Qed.

Lemma completed_finished configs e s u : whole configs e s -> ~ cronjob configs u -> completed (s_hist s) u -> finished configs (s_hist s) u.
Proof. intros W N [[pid K]|K]; [left; eauto|right; auto]. Qed.

Lemma prompt k e configs s id : reachable k e configs s -> s_pc s = AtPoll -> (forall ev, In ev (s_hist s) -> ~ shutdown_trigger ev) ->
  startable configs (s_hist s) id -> attempted (s_hist s) id.
Proof.
  intros R P NT (Lt & NC & D).
  assert (W : whole configs e s) by (apply (whole_of R); unfold panicked; rewrite P; auto).
  assert (G := so_good _ _ _ (wh_sound _ _ _ W)).
  assert (Sh : s_shut s = false).
  { destruct (s_shut s) eqn:E; [|auto]. exfalso. destruct (lo_shut _ (go_loop _ _ _ G) E) as [K|(_ & _ & [K|[c K]])]; try congruence.
    destruct (lf_keep _ _ (wh_life _ _ _ W) K) as (ev & X & Y). eapply NT; eauto. }
  assert (Q : dm_runnable (g_dep (s_g s)) = []) by (apply (reachable_idle _ _ _ _ R); auto).
  destruct (fl_dep _ _ (go_flow _ _ _ G)) as (handed & A1 & _ & A3 & _).
  assert (K : In id (handed ++ dm_runnable (g_dep (s_g s)))).
  { apply (dep_inv_released _ _ _ _ _ A1). split; [auto|]. intros u Hu. apply (completed_finished _ _ _ _ W); auto.
    eapply (kn_cron _ _ _ (reachable_known _ _ _ _ R)); eauto. }
  rewrite Q, app_nil_r in K. exact (A3 _ K NC).
Qed.

(** One round of starting what can run *)
Lemma dep_round k e configs s r s' : reachable k e configs s -> s_pc s = AtSpawnDep -> sstep e s (CSpawnDep r) = Some s' ->
  (s' = with_pc s AtSpawnCron /\ forall id, startable configs (s_hist s) id -> attempted (s_hist s) id) \/
  (s_pc s' = AtSpawnDep /\ exists id, (id < length configs)%nat /\ deps_met configs (s_hist s) id /\
     ((cronjob configs id /\ s_hist s' = s_hist s) \/
      (~ cronjob configs id /\ (forall pid, ~ In (EStart id pid) (s_hist s)) /\
       s_hist s' = s_hist s ++ match r with ForkFailed => [EStartFail id] | Forked pid out err _ _ => [EStart id pid; EOpen out id true; EOpen err id false] end))).
Proof.
  intros R P H. assert (W : whole configs e s) by (apply (whole_of R); unfold panicked; rewrite P; auto).
  assert (G := so_good _ _ _ (wh_sound _ _ _ W)). assert (M := go_maps _ _ _ G).
  assert (Kp : g_keep (s_g s) = true) by (apply (lo_spawn _ (go_loop _ _ _ G)); auto).
  destruct (fl_dep _ _ (go_flow _ _ _ G)) as (handed & A1 & A2 & A3 & A4).
  cbn in H. rewrite P in H. unfold spawn_dep in H. destruct (pop_dep (g_dep (s_g s))) as [[id d]|] eqn:D.
  - right. assert (I : In id (dm_runnable (g_dep (s_g s)))).
    { unfold pop_dep in D. destruct (rev (dm_runnable (g_dep (s_g s)))) as [|i l] eqn:E; [discriminate|]. inversion D; subst.
      apply in_rev. rewrite E. left. reflexivity. }
    assert (Rel : released configs (finished configs (s_hist s)) id) by (apply (dep_inv_released _ _ _ _ _ A1); apply in_or_app; auto).
    assert (Lt : (id < length configs)%nat) by (apply Rel).
    assert (Dm : deps_met configs (s_hist s) id) by (apply (deps_met_iff R id Lt W Kp); apply (dep_inv_runnable _ _ _ _ _ A1); exact Rel).
    assert (Nh : ~ In id handed).
    { intros K. pose proof (di_once _ _ _ _ A1) as N. clear - N K I. induction handed as [|a l IH]; [destruct K|]. cbn in N. inversion N; subst.
      destruct K as [->|K]; [apply H1; apply in_or_app; auto|auto]. }
    assert (Hp : is_Some (g_procs (s_g s) !! id)) by (apply lookup_lt_is_Some; rewrite (ma_len _ _ _ M); auto). destruct Hp as [p Hp].
    destruct (ma_proc _ _ _ M _ _ Hp) as (c & Hc & Nm & Ty).
    cbn [set_dep g_procs] in H. rewrite Hp in H.
    assert (Cj : cronjob configs id <-> p_type p = RCronjob).
    { unfold cronjob. rewrite Ty. split.
      - intros (c' & t & Hc' & K). rewrite Hc in Hc'. inversion Hc'; subst. rewrite K. reflexivity.
      - destruct (pc_type c) eqn:K; try discriminate. eauto. }
    destruct (p_type p) eqn:T.
    3:{ cbn in H. inversion H; subst. split; [reflexivity|]. exists id. split; [auto|]. split; [auto|]. left. split; [apply Cj; auto|]. cbn. rewrite app_nil_r. reflexivity. }
    all: assert (NC : ~ cronjob configs id) by (rewrite Cj; discriminate);
      assert (B : p_state p = Blocked) by (eapply A4; eauto);
      assert (NS : forall pid, ~ In (EStart id pid) (s_hist s)) by (intros pid K; apply Nh; eapply A2; eauto);
      unfold spawn_child in H; cbn [set_dep g_procs] in H; rewrite Hp, B in H; cbn [pstate_eqb negb andb] in H;
      (destruct r as [|pid out err wo we]; [|cbn [forks existsb app orb] in H; destruct (fork_fits _ _ _); [|discriminate]]);
      inversion H; subst; (split; [reflexivity|]); exists id; (split; [auto|]); (split; [auto|]); right; (split; [auto|]); (split; [auto|]); reflexivity.
  - left. inversion H; subst. split; [reflexivity|]. intros id (Lt & NC & Dp).
    assert (K : In id (handed ++ dm_runnable (g_dep (s_g s)))).
    { apply (dep_inv_released _ _ _ _ _ A1). split; [auto|]. intros u Hu. apply (completed_finished _ _ _ _ W); auto.
      eapply (kn_cron _ _ _ (reachable_known _ _ _ _ R)); eauto. }
    unfold pop_dep in D. destruct (rev (dm_runnable (g_dep (s_g s)))) eqn:E; [|discriminate]. apply (f_equal (@rev nat)) in E. rewrite rev_involutive in E. cbn in E.
    rewrite E, app_nil_r in K. exact (A3 _ K NC).
Qed.

(** * cinit is never stuck *)
Lemma zombie_or_not (k : kernel) : (exists pid st, k_procs k !! pid = Some (KZombie st)) \/
  forallb (fun x => match snd x with KZombie _ => false | _ => true end) (map_to_list (k_procs k)) = true.
Proof.
  destruct (forallb _ _) eqn:E; [auto|]. left.
  apply not_true_iff_false in E. rewrite forallb_forall in E.
  destruct (existsb (fun x => match snd x with KZombie _ => true | _ => false end) (map_to_list (k_procs k))) eqn:X.
  - apply existsb_exists in X. destruct X as ([pid kp] & I & K). cbn in K. destruct kp; try discriminate.
    exists pid, st. apply elem_of_map_to_list, elem_of_list_In. exact I.
  - exfalso. apply E. intros [pid kp] I. cbn. destruct kp; auto.
    apply not_true_iff_false in X. exfalso. apply X. apply existsb_exists. exists (pid, KZombie st). auto.
Qed.

Lemma not_stuck e s : terminated s \/ exists o s', inner_step o /\ sstep e s o = Some s'.
Proof.
  destruct (s_pc s) eqn:P; unfold terminated; rewrite P; auto; right.
  - exists CHead. eexists. split; [intros []|]. cbn. rewrite P. reflexivity.
  - exists (CSpawnDep ForkFailed). cbn. rewrite P. destruct (spawn_dep (s_g s) ForkFailed) as [a|]; [|eexists; split; [intros []|reflexivity]].
    destruct (forks a); eexists; (split; [intros []|reflexivity]).
  - exists (CSpawnCron 0 ForkFailed). cbn. rewrite P. destruct (spawn_cron (e_zone e) (s_g s) 0 ForkFailed) as [a|]; [|eexists; split; [intros []|reflexivity]].
    destruct (forks a); eexists; (split; [intros []|reflexivity]).
  - exists (CPoll None). eexists. split; [intros []|]. cbn. rewrite P. reflexivity.
  - destruct evs as [|ev rest]; [exists (CEvent (ARead None)); eexists; split; [intros []|]; cbn; rewrite P; reflexivity|].
    assert (X : exists a s', step_event e s ev a rest = Some s').
    { destruct ev as [fd|fd|fd]; cbn.
      - destruct (fd =? e_signal e); [exists (ASignal None); eauto|]. destruct (fd =? e_status e); [exists (AAccept false); eauto|].
        destruct (fd =? e_notify e); [exists (AMessage None); eauto|]. exists (ARead None). eauto.
      - exists (ARead None). eauto.
      - exists (ARead None). eauto. }
    destruct X as (a & s' & X). exists (CEvent a), s'. split; [intros []|]. cbn. rewrite P. exact X.
  - destruct (zombie_or_not (s_k s)) as [(pid & st & Z)|N].
    + exists (CWait (Some pid)). cbn. rewrite P, Z. destruct (child_ended _ _ _ _) as [a more]. eexists. split; [intros []|reflexivity].
    + exists (CWait None). cbn. rewrite P, N. eexists. split; [intros []|reflexivity].
Qed.
