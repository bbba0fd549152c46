(** What single steps from reachable states do: timers, panics, notifications. *)
From stdpp Require Import gmap strings.
From Coq Require Import Ascii ZArith List Bool Lia Permutation Relations.
From Verif Require Import Base RStr CronModel ConfigModel ProcessModel EnvModel DepModel NotifyModel ManagerModel SysModel
  MainModel SpecDep SpecTimer SpecRun DepProofs CronTimerProofs RunStep RunInv RunFlow RunHist RunAlive RunStream RunClaims RunLife RunThms RunFinal RunSteps.
Import ListNotations.
Local Open Scope string_scope.
Local Open Scope list_scope.
Local Open Scope Z_scope.

(** ** Timers *)
Lemma cron_next_in c id t : cron_inv c -> cron_next c id = Ret t <-> In (t, id) (timer c).
Proof.
  intros I. split.
  - unfold cron_next. destruct (find _ _) as [[u j]|] eqn:E; [|discriminate]. intros [= ->]. apply find_some in E. destruct E as [E1 E2].
    apply Nat.eqb_eq in E2. cbn in E2. subst. auto.
  - intros H. assert (K : In id (map fst (timers c))).
    { destruct I as (_ & _ & Hp). eapply Permutation_in; [exact Hp|]. apply in_map_iff. exists (t, id). auto. }
    destruct (cron_next_ok c id I K) as (t' & E & H' & U). rewrite E. f_equal. symmetry. auto.
Qed.
Lemma outcome_ext {A} (a b : outcome A) : (forall x, a = Ret x <-> b = Ret x) -> (exists x, a = Ret x) -> a = b.
Proof. intros H [x E]. rewrite E. symmetry. apply H. auto. Qed.

Section reachable.
Context {k : machine} {e : env} {configs : list proc_config} {s : sys} (Re : reachable k e configs s).
Let OK : forall l, Permutation (e_order e l) l := kn_order _ _ _ (reachable_known _ _ _ _ Re).

Lemma deps_met_iff id : (id < length configs)%nat -> whole configs e s -> g_keep (s_g s) = true ->
  is_runnable (g_dep (s_g s)) id = true <-> deps_met configs (s_hist s) id.
Proof.
  intros L W Kp. assert (G := so_good _ _ _ (wh_sound _ _ _ W)). destruct (fl_dep _ _ (go_flow _ _ _ G)) as (handed & A1 & _).
  rewrite (dep_inv_runnable _ _ _ _ _ A1). unfold released, deps_met.
  assert (Q : forall u, depends configs u id -> finished configs (s_hist s) u <-> succeeded (s_hist s) u \/ (notifier configs u /\ notified (s_hist s) u "READY" "1")).
  { intros u D. unfold finished, succeeded. split.
    - intros [(_ & pid & rc & K)|K].
      + left. assert (rc = 0) as -> ; [|eauto]. destruct (Z.eq_dec rc 0) as [?|N]; [auto|]. exfalso. eapply (fl_keep _ _ (go_flow _ _ _ G) Kp); eauto.
      + right. split; [|auto]. destruct K as (pid & vars & K & _). eapply notify_type; eauto.
    - intros [(pid & K)|(_ & K)]; [|auto]. left. split; [|eauto]. eapply (kn_cron _ _ _ (reachable_known _ _ _ _ Re)); eauto. }
  split.
  - intros [_ K] u D. apply Q; auto.
  - intros K. split; [auto|]. intros u D. apply Q; auto.
Qed.

Lemma cron_step now r s' : s_pc s = AtSpawnCron -> sstep e s (CSpawnCron now r) = Some s' -> ~ panicked s' ->
  (s' = with_pc s AtPoll /\ forall id t, cron_next (g_cron (s_g s)) id = Ret t -> now < t) \/
  exists id c text d t u j evs, nth_error configs id = Some c /\ pc_type c = CronJob text /\ parse_timer text = Ret (Ok d) /\
    cron_next (g_cron (s_g s)) id = Ret t /\ t <= now /\
    (forall id' t', cron_next (g_cron (s_g s)) id' = Ret t' -> t <= t') /\
    next_execution (e_zone e) d now = Ret u /\ 0 <= j < Z.of_nat (length (timers (g_cron (s_g s)))) /\
    cron_next (g_cron (s_g s')) id = Ret (u + j) /\
    (forall id', id' <> id -> cron_next (g_cron (s_g s')) id' = cron_next (g_cron (s_g s)) id') /\
    s_hist s' = s_hist s ++ EDue id now :: evs /\ s_pc s' = AtSpawnCron /\
    ((~ deps_met configs (s_hist s) id /\ evs = [ESkipped id]) \/
     (deps_met configs (s_hist s) id /\ exists p, g_procs (s_g s) !! id = Some p /\
       ((p_state p <> Blocked /\ p_state p <> Sleeping /\ evs = [ERefused id]) \/
        ((p_state p = Blocked \/ p_state p = Sleeping) /\
         evs = match r with ForkFailed => [EStartFail id] | Forked pid out err _ _ => [EStart id pid; EOpen out id true; EOpen err id false] end)))).
Proof.
  intros P H NP. assert (W : whole configs e s) by (apply (whole_of Re); unfold panicked; rewrite P; auto).
  assert (G := so_good _ _ _ (wh_sound _ _ _ W)). assert (Ci := fl_cron _ _ (go_flow _ _ _ G)). assert (M := go_maps _ _ _ G).
  assert (Kp : g_keep (s_g s) = true) by (apply (lo_spawn _ (go_loop _ _ _ G)); auto).
  cbn in H. rewrite P in H. unfold spawn_cron in H.
  destruct (cron_pop (e_zone e) (g_cron (s_g s)) now) as [[c' [id|]]|m] eqn:C.
  3:{ exfalso. inversion H; subst. apply NP. exact Logic.I. }
  2:{ left. inversion H; subst. split; [auto|]. intros id t K. apply cron_pop_spec in C; [|auto]. destruct C as (_ & _ & _ & C).
      apply cron_next_in in K; auto. eapply C; eauto. }
  right. pose proof (due_cronjob _ _ _ _ _ _ (go_flow _ _ _ G) C) as J.
  apply cron_pop_spec in C; [|auto]. destruct C as (Et & Ci' & t & d & u & j & C1 & C2 & C3 & C4 & C5 & C6 & C7 & C8).
  apply timer_of_In in C4 as C4'. destruct (wh_desc _ _ _ W _ _ C4') as (c & text & D1 & D2 & D3).
  assert (Lt : (id < length configs)%nat) by (apply nth_error_Some; congruence).
  assert (Dm := deps_met_iff id Lt W Kp).
  assert (Ex : exists evs, s_hist s' = s_hist s ++ EDue id now :: evs /\ g_cron (s_g s') = c' /\ s_pc s' = AtSpawnCron /\
    ((is_runnable (g_dep (s_g s)) id = false /\ evs = [ESkipped id]) \/
     (is_runnable (g_dep (s_g s)) id = true /\ exists p, g_procs (s_g s) !! id = Some p /\
       ((p_state p <> Blocked /\ p_state p <> Sleeping /\ evs = [ERefused id]) \/
        ((p_state p = Blocked \/ p_state p = Sleeping) /\
         evs = match r with ForkFailed => [EStartFail id] | Forked pid out err _ _ => [EStart id pid; EOpen out id true; EOpen err id false] end))))).
  { assert (Hp : is_Some (g_procs (s_g s) !! id)) by (apply lookup_lt_is_Some; rewrite (ma_len _ _ _ M); auto). destruct Hp as [p Hp].
    cbn [then_ set_cron g_dep] in H. destruct (is_runnable (g_dep (s_g s)) id) eqn:Ru.
    - unfold spawn_child in H. cbn [set_cron g_procs] in H. rewrite Hp in H.
      destruct (negb _ && negb _) eqn:Bs.
      + assert (N1 : p_state p <> Blocked) by (intros K; rewrite K in Bs; discriminate).
        assert (N2 : p_state p <> Sleeping) by (intros K; rewrite K in Bs; discriminate).
        inversion H; subst; cbn. eexists. split; [reflexivity|]. split; [auto|]. split; [auto|]. right. eauto 10.
      + assert (St : p_state p = Blocked \/ p_state p = Sleeping) by (destruct (p_state p); cbn in Bs; try discriminate; auto).
        destruct r as [|pid out err wo we].
        * inversion H; subst; cbn. eexists. split; [reflexivity|]. split; [auto|]. split; [auto|]. right. eauto 10.
        * cbn [forks existsb app orb] in H. destruct (fork_fits _ _ _); [|discriminate]. inversion H; subst; cbn.
          eexists. split; [reflexivity|]. split; [auto|]. split; [auto|]. right. eauto 10.
    - cbn [set_cron g_procs] in H. rewrite Hp in H. inversion H; subst; cbn.
      eexists. split; [reflexivity|]. split; [auto|]. split; [auto|]. left. auto. }
  destruct Ex as (evs & E1 & E2 & E3 & E4).
  exists id, c, text, d, t, u, j, evs.
  assert (Em : forall x i, cron_next (g_cron (s_g s')) i = Ret x <-> (i = id /\ x = u + j) \/ (i <> id /\ cron_next (g_cron (s_g s)) i = Ret x)).
  { intros x i. rewrite E2, cron_next_in, C8, cron_next_in; tauto. }
  split; [auto|]. split; [auto|]. split; [auto|]. split; [apply cron_next_in; auto|]. split; [auto|].
  split; [intros id' t' K; apply cron_next_in in K; eauto|]. split; [auto|]. split; [auto|].
  split; [apply Em; auto|].
  split.
  { intros id' N. destruct (cron_next (g_cron (s_g s)) id') as [x|m] eqn:E.
    - apply Em. right. auto.
    - pose proof E as E0. unfold cron_next in E |- *. destruct (find (fun e0 => Nat.eqb (snd e0) id') (timer (g_cron (s_g s)))) as [[? ?]|]; [discriminate|].
      destruct (find (fun e0 => Nat.eqb (snd e0) id') (timer (g_cron (s_g s')))) as [[x y]|] eqn:F; [|congruence].
      exfalso. assert (K : cron_next (g_cron (s_g s')) id' = Ret x) by (unfold cron_next; rewrite F; auto). apply Em in K.
      destruct K as [[K _]|[_ K]]; [auto|]. rewrite K in E0. discriminate. }
  split; [auto|]. split; [exact E3|]. destruct E4 as [[E4 E5]|[E4 E5]].
  - left. split; [|exact E5]. intros K. apply Dm in K. congruence.
  - right. split; [apply Dm; exact E4|exact E5].
Qed.
End reachable.
