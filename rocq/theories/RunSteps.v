(** What single steps from reachable states do. *)
From stdpp Require Import gmap strings.
From Coq Require Import Ascii ZArith List Bool Lia Permutation Relations.
From Verif Require Import Base RStr CronModel ConfigModel ProcessModel EnvModel DepModel NotifyModel ManagerModel SysModel
  MainModel SpecDep SpecTimer SpecRun DepProofs CronTimerProofs RunStep RunInv RunFlow RunHist RunAlive RunStream RunClaims RunLife RunThms RunFinal.
Import ListNotations.
Local Open Scope string_scope.
Local Open Scope list_scope.
Local Open Scope Z_scope.

Lemma pids_nodup (pids : gmap Z nat) procs :
  (forall i p, procs !! i = Some p -> p_state p = Running -> pids !! p_pid p = Some i) ->
  List.NoDup (map p_pid (List.filter (fun p => pstate_eqb (p_state p) Running) procs)).
Proof.
  assert (G : forall l off, (forall i p, l !! i = Some p -> p_state p = Running -> pids !! p_pid p = Some (off + i)%nat) ->
    List.NoDup (map p_pid (List.filter (fun p => pstate_eqb (p_state p) Running) l))).
  { induction l as [|p l IH]; intros off H; cbn; [constructor|].
    assert (H' : forall i q, l !! i = Some q -> p_state q = Running -> pids !! p_pid q = Some (S off + i)%nat).
    { intros i q K1 K2. replace (S off + i)%nat with (off + S i)%nat by lia. apply H; auto. }
    destruct (pstate_eqb (p_state p) Running) eqn:E; cbn; [|eapply IH; eauto]. constructor; [|eapply IH; eauto].
    intros K. apply in_map_iff in K. destruct K as (q & Eq & K). apply filter_In in K. destruct K as [K1 K2].
    apply elem_of_list_In, elem_of_list_lookup in K1. destruct K1 as [i K1]. apply pstate_eqb_spec in E, K2.
    pose proof (H' _ _ K1 K2) as X. pose proof (H 0%nat p eq_refl E) as Y. rewrite Eq in X. rewrite X in Y. inversion Y. lia. }
  intros H. apply (G _ 0%nat). auto.
Qed.

Lemma panics_dying e s s' : trans e s s' -> ~ panicked s -> panicked s' ->
  exists m evs k', dying e s m evs k' /\ s' = mk_s (s_g s) k' (Panicked m) (s_shut s) (s_hist s ++ evs).
Proof.
  intros T NP Pn. step_cases T; try (eexists _, _, _; split; [eassumption|reflexivity]); exfalso; unfold panicked in Pn, NP; cbn in Pn; auto;
    try congruence; try (rewrite P in Pn; auto; fail).
  - destruct Q; cbn in Pn; auto; congruence.
Qed.

Section reachable.
Context {k : machine} {e : env} {configs : list proc_config} {s : sys} (R : reachable k e configs s).

Let OK : forall l, Permutation (e_order e l) l := kn_order _ _ _ (reachable_known _ _ _ _ R).

(** ** Reaping *)
Lemma dep_told (W : whole configs e s) id : is_Some (g_procs (s_g s) !! id) -> exists d, notify_process_finished (g_dep (s_g s)) id = Ret d.
Proof.
  intros K. assert (G := so_good _ _ _ (wh_sound _ _ _ W)). destruct (fl_dep _ _ (go_flow _ _ _ G)) as (handed & A1 & _).
  destruct (notify_inv _ _ _ _ id A1) as (d' & Hd & _); [apply (ma_lt _ _ _ _ (go_maps _ _ _ G)); auto|]. eauto.
Qed.

Lemma crash_forwarded s' pid st id : calm (s_hist s) -> s_pc s = AtWait -> k_procs (s_k s) !! pid = Some (KZombie st) ->
  alive (s_hist s) id pid -> st <> XExit 0 -> (forall n, st <> XRealtime n) ->
  sstep e s (CWait (Some pid)) = Some s' ->
  exists l, s_hist s' = s_hist s ++ EReap pid st :: EEnd id pid (code_of st) :: map (fun x => EKill x SIGINT) l /\ List.NoDup l /\
    (forall x, In x l <-> x <> pid /\ exists j, alive (s_hist s) j x /\ responsive configs (s_hist s) j) /\ s_pc s' = AtWait.
Proof.
  intros Cm P Z Al NZ NR H. assert (W : whole configs e s) by (apply (whole_of R); unfold panicked; rewrite P; auto).
  assert (A := so_alive _ _ _ (wh_sound _ _ _ W) Cm). assert (M := go_maps _ _ _ (so_good _ _ _ (wh_sound _ _ _ W))).
  assert (V : valid_status st = true) by (apply (wh_procs _ _ _ W) in Z; destruct Z as [_ Z]; auto).
  assert (NZ' : (code_of st =? 0) = false) by (apply Z.eqb_neq; rewrite code_zero; auto).
  pose proof Al as Hid. apply (al_pids _ A) in Hid. destruct (ma_pid _ _ _ M _ _ Hid) as (p & Hp & Pid & Ac).
  set (p' := with_state p (Crashed (code_of st))) in *. exists (running_pids (update (s_g s) id p')).
  assert (Ka : kill_all (reach (set_kprocs (s_k s) (delete pid (k_procs (s_k s))))) SIGINT (running_pids (update (s_g s) id p')) =
    (kills SIGINT (running_pids (update (s_g s) id p')), true)).
  { apply kill_all_total. intros x Hx. apply (running_reach_ended _ _ _ pid _ _ _ M A Hid Hp) in Hx. tauto. }
  assert (E : s_hist s' = s_hist s ++ EReap pid st :: EEnd id pid (code_of st) :: kills SIGINT (running_pids (update (s_g s) id p')) /\ s_pc s' = AtWait).
  { cbn in H. rewrite P, Z in H.
    assert (C : child_ended (reach (set_kprocs (s_k s) (delete pid (k_procs (s_k s))))) (s_g s) pid st =
      (then_ (Go (s_g s) [EReap pid st]) (fun g => handle_finished_child (reach (set_kprocs (s_k s) (delete pid (k_procs (s_k s))))) g pid (code_of st)), true)).
    { destruct st; cbn; try reflexivity. exfalso. eapply NR; eauto. }
    rewrite C in H. inversion H; subst s'. clear H C. destruct (dep_told W id) as [d Hd]; [eauto|].
    cbn [then_]. unfold handle_finished_child. rewrite Hid, Hp, NZ'. cbn [then_]. fold p'.
    unfold initiate_shutdown. change (running_pids (set_exit (update (s_g s) id p') CHILD_CRASH_EXIT_CODE)) with (running_pids (update (s_g s) id p')).
    rewrite Ka. cbn [then_]. destruct (p_type p); unfold finished_dep; cbn; rewrite ?Hd; cbn; rewrite ?app_nil_r; auto. }
  destruct E as [E1 E2]. split; [auto|]. split; [|split; [|auto]].
  - unfold running_pids. cbn. apply (pids_nodup (g_pids (s_g s))). intros i q Hq Rq. apply lookup_update_Some in Hq.
    destruct Hq as [(-> & -> & _)|(X & Hq)]; [discriminate|]. apply (al_active _ A _ _ Hq). rewrite Rq. unfold active. auto.
  - intros x. rewrite <- (running_are W A), !running_in. cbn. split.
    + intros (i & q & Hq & Rq & <-). apply lookup_update_Some in Hq. destruct Hq as [(-> & -> & _)|(X & Hq)]; [discriminate|].
      split; [|eauto 10]. intros E. pose proof (al_active _ A _ _ Hq ltac:(rewrite Rq; unfold active; auto)) as K. rewrite E in K. congruence.
    + intros (X & i & q & Hq & Rq & <-). exists i, q. split; [|auto]. rewrite list_lookup_insert_ne; [auto|]. intros ->. congruence.
Qed.

Lemma wait_safe s' r : calm (s_hist s) -> ~ panicked s -> sstep e s (CWait r) = Some s' -> ~ panicked s'.
Proof.
  intros Cm NP H Pn. assert (W := whole_of R NP). assert (Pw : s_pc s = AtWait).
  { destruct r; cbn in H; destruct (s_pc s); try discriminate; auto. }
  pose proof (sstep_trans e s _ s' OK H) as T.
  destruct (panics_dying _ _ _ T NP Pn) as (m & evs & k' & D & _).
apply (dying_causes _ _ _ _ _ _ (wh_sound _ _ _ W)) in D.
  destruct D as [(now & id & d & K & _)|[(fd & rest & dg & K & _)|K]]; [congruence|congruence|auto].
Qed.

(** Reaping an unknown process changes nothing. *)
Lemma unknown_nothing s' pid : calm (s_hist s) -> s_pc s = AtWait -> (forall id, ~ alive (s_hist s) id pid) ->
  sstep e s (CWait (Some pid)) = Some s' ->
  s_g s' = s_g s /\ exists st ev, s_hist s' = s_hist s ++ [EReap pid st; ev] /\ (ev = EUnknown pid (code_of st) \/ ev = ELost pid).
Proof.
  intros Cm P Na H. assert (W : whole configs e s) by (apply (whole_of R); unfold panicked; rewrite P; auto).
  assert (A := so_alive _ _ _ (wh_sound _ _ _ W) Cm).
  assert (Un : g_pids (s_g s) !! pid = None).
  { destruct (g_pids (s_g s) !! pid) as [id|] eqn:E; [|auto]. apply (al_pids _ A) in E. exfalso. eapply Na; eauto. }
  cbn in H. rewrite P in H. destruct (k_procs (s_k s) !! pid) as [[| | |st]|]; try discriminate.
  destruct st as [rc|n|n]; cbn in H; unfold handle_finished_child in H; rewrite ?Un in H; inversion H; subst s'; cbn; split; auto.
  - exists (XExit rc). cbn. eauto.
  - exists (XSignal n). cbn. eauto.
  - exists (XRealtime n). cbn. eauto.
Qed.
End reachable.

(** A round of reaping goes on while any child has ended. *)
Lemma round_continues e s pid st : s_pc s = AtWait -> k_procs (s_k s) !! pid = Some (KZombie st) ->
  sstep e s (CWait None) = None /\ exists s', sstep e s (CWait (Some pid)) = Some s'.
Proof.
  intros P Z. split.
  - cbn. rewrite P. destruct (forallb _ _) eqn:F; [|auto]. exfalso. rewrite forallb_forall in F.
    specialize (F (pid, KZombie st)). cbn in F. discriminate F. apply elem_of_list_In, elem_of_map_to_list. auto.
  - cbn. rewrite P, Z. destruct (child_ended _ _ _ _). eauto.
Qed.

Lemma outside_step e s s' o : outside o -> sstep e s o = Some s' -> s_pc s' = s_pc s /\ s_g s' = s_g s /\
  (exists evs, s_hist s' = s_hist s ++ evs) /\
  forall pid st, k_procs (s_k s) !! pid = Some (KZombie st) -> k_procs (s_k s') !! pid = Some (KZombie st).
Proof.
  intros Os H. destruct o; try contradiction; cbn in H.
  - destruct (0 <? pid) eqn:L; [|discriminate]. destruct (k_procs (s_k s) !! pid) as [x|] eqn:E; [discriminate|]. inversion H; subst; cbn.
    repeat split; auto; [exists []; rewrite app_nil_r; auto|]. intros p st K. rewrite lookup_insert_ne; [auto|congruence].
  - destruct (k_procs (s_k s) !! pid) as [[| | |]|] eqn:E; try discriminate. inversion H; subst; cbn.
    repeat split; auto; [exists []; rewrite app_nil_r; auto|]. intros p st K. rewrite lookup_delete_ne; [auto|congruence].
  - destruct (k_procs (s_k s) !! pid) as [[| | |]|] eqn:E; try discriminate. inversion H; subst; cbn.
    repeat split; auto; [exists []; rewrite app_nil_r; auto|]. intros p st K. rewrite lookup_insert_ne; [auto|congruence].
  - destruct (k_procs (s_k s) !! pid) as [[| | |]|] eqn:E; try discriminate. destruct (valid_status st); [|discriminate]. inversion H; subst; cbn.
    repeat split; auto; [exists []; rewrite app_nil_r; auto|]. intros p st' K. rewrite lookup_insert_ne; [auto|congruence].
  - destruct (k_pipes (s_k s) !! fd) as [q|]; [|discriminate]. destruct (pp_open q); [|discriminate]. inversion H; subst; cbn.
    repeat split; eauto.
  - destruct (k_pipes (s_k s) !! fd) as [q|]; [|discriminate]. inversion H; subst; cbn.
    repeat split; auto. exists []; rewrite app_nil_r; auto.
Qed.

Lemma execute_hist e ops : (forall l, Permutation (e_order e l) l) -> forall s s', execute e s ops = Some s' -> exists evs, s_hist s' = s_hist s ++ evs.
Proof.
  intros OK. induction ops as [|o ops IH]; intros s s' H; cbn in H; [inversion H; exists []; rewrite app_nil_r; auto|].
  destruct (sstep e s o) as [s1|] eqn:E; [|discriminate]. apply (sstep_trans e s _ s1 OK) in E. apply trans_hist in E. destruct E as [e1 E].
  destruct (IH _ _ H) as [e2 E2]. exists (e1 ++ e2). rewrite E2, E, app_assoc. auto.
Qed.
Lemma panicked_stays e ops : (forall l, Permutation (e_order e l) l) -> forall s s', panicked s -> execute e s ops = Some s' -> panicked s'.
Proof.
  intros OK. induction ops as [|o ops IH]; intros s s' P H; cbn in H; [inversion H; subst; auto|].
  destruct (sstep e s o) as [s1|] eqn:E; [|discriminate]. apply (sstep_trans e s _ s1 OK) in E. apply panicked_step in E; [|auto].
  eapply IH; [apply E|exact H].
Qed.

(** A fork leaves other processes alone. *)
Lemma forked_keeps e k r pid x : fork_fits e k r = true -> k_procs k !! pid = Some x -> k_procs (kernel_forked k r) !! pid = Some x.
Proof.
  destruct r as [|p out err a b]; cbn; [auto|]. intros F K. rewrite !andb_true_iff in F. destruct F as [[[[[[_ F] _] _] _] _] _].
  rewrite lookup_insert_ne; [exact K|]. intros ->. rewrite K in F. discriminate F.
Qed.
(** A step of cinit away from the head of the loop keeps a child that has ended, unless
    it collects it or one killed by a real-time signal. *)
Lemma zombie_kept e s o s1 pid st : sstep e s o = Some s1 -> s_pc s <> AtHead -> k_procs (s_k s) !! pid = Some (KZombie st) ->
  exists evs, s_hist s1 = s_hist s ++ evs /\
    (In (EReap pid st) evs \/ (exists x, In (ELost x) evs) \/ panicked s1 \/
     (s_pc s1 <> AtHead /\ k_procs (s_k s1) !! pid = Some (KZombie st))).
Proof.
  intros H P Z.
  assert (Out : outside o -> exists evs, s_hist s1 = s_hist s ++ evs /\ (In (EReap pid st) evs \/ (exists x, In (ELost x) evs) \/ panicked s1 \/
     (s_pc s1 <> AtHead /\ k_procs (s_k s1) !! pid = Some (KZombie st)))).
  { intros Os. destruct (outside_step _ _ _ _ Os H) as (E1 & _ & (e1 & E2) & E3). exists e1. split; [exact E2|]. right. right. right. rewrite E1. auto. }
  destruct o; try (apply Out; exact Logic.I); clear Out; cbn in H.
  - destruct (s_pc s); discriminate || contradiction.
  - destruct (s_pc s) eqn:Q; try discriminate. destruct (spawn_dep (s_g s) r) as [a|] eqn:A.
    2:{ inversion H; subst; cbn. exists []. rewrite app_nil_r. split; [reflexivity|]. right. right. right. split; [discriminate|exact Z]. }
    destruct (forks a); [destruct (fork_fits e (s_k s) r) eqn:F; [|discriminate]|]; inversion H; subst; clear H.
    + exists (match a with Go _ evs | Die _ evs => evs end). destruct a; cbn; (split; [reflexivity|]); right; right; [right|left; exact Logic.I].
      split; [discriminate|]. apply (forked_keeps e); assumption.
    + exists (match a with Go _ evs | Die _ evs => evs end). destruct a; cbn; (split; [reflexivity|]); right; right; [right|left; exact Logic.I].
      split; [discriminate|exact Z].
  - destruct (s_pc s) eqn:Q; try discriminate. destruct (spawn_cron (e_zone e) (s_g s) now r) as [a|] eqn:A.
    2:{ inversion H; subst; cbn. exists []. rewrite app_nil_r. split; [reflexivity|]. right. right. right. split; [discriminate|exact Z]. }
    destruct (forks a); [destruct (fork_fits e (s_k s) r) eqn:F; [|discriminate]|]; inversion H; subst; clear H.
    + exists (match a with Go _ evs | Die _ evs => evs end). destruct a; cbn; (split; [reflexivity|]); right; right; [right|left; exact Logic.I].
      split; [discriminate|]. apply (forked_keeps e); assumption.
    + exists (match a with Go _ evs | Die _ evs => evs end). destruct a; cbn; (split; [reflexivity|]); right; right; [right|left; exact Logic.I].
      split; [discriminate|exact Z].
  - destruct (s_pc s) eqn:Q; try discriminate. exists []. rewrite app_nil_r.
    destruct evs as [l|]; [destruct (_ && _); [|discriminate]|]; inversion H; subst; cbn; (split; [reflexivity|]); right; right; right; (split; [discriminate|exact Z]).
  - destruct (s_pc s) as [| | | |[|ev rest]| | |] eqn:Q; try discriminate.
    { inversion H; subst; cbn. exists []. rewrite app_nil_r. split; [reflexivity|]. right. right. right. split; [discriminate|exact Z]. }
    assert (G : forall act k, k_procs k = k_procs (s_k s) -> s1 = goes s act k (AtEvents rest) -> exists evs, s_hist s1 = s_hist s ++ evs /\ (In (EReap pid st) evs \/ (exists x, In (ELost x) evs) \/ panicked s1 \/
      (s_pc s1 <> AtHead /\ k_procs (s_k s1) !! pid = Some (KZombie st)))).
    { intros act k K ->. destruct act as [g evs|m evs]; cbn; exists evs; (split; [reflexivity|]); right; right; [right|left; exact Logic.I].
      split; [discriminate|]. rewrite K. exact Z. }
    assert (W : s1 = with_pc s (AtEvents rest) -> exists evs, s_hist s1 = s_hist s ++ evs /\ (In (EReap pid st) evs \/ (exists x, In (ELost x) evs) \/ panicked s1 \/
      (s_pc s1 <> AtHead /\ k_procs (s_k s1) !! pid = Some (KZombie st)))).
    { intros ->. exists []. rewrite app_nil_r. split; [reflexivity|]. right. right. right. split; [discriminate|exact Z]. }
    destruct ev as [fd|fd|fd]; cbn in H.
    + destruct (fd =? e_signal e); [destruct a; try discriminate; injection H as <-; (eapply G; [|reflexivity]; reflexivity)|].
      destruct (fd =? e_status e); [destruct a as [|[|]| |]; try discriminate; injection H as <-; [(eapply G; [|reflexivity]; reflexivity)|apply W; reflexivity]|].
      destruct (fd =? e_notify e); [destruct a as [| |[[d p]|]|]; try discriminate; injection H as <-; [(eapply G; [|reflexivity]; reflexivity)|apply W; reflexivity]|].
      destruct a as [| | |[n|]]; try discriminate; [|injection H as <-; apply W; reflexivity].
      destruct (k_pipes (s_k s) !! fd); [|discriminate]. destruct (_ && _ && _)%bool; [|discriminate]. injection H as <-. (eapply G; [|reflexivity]; reflexivity).
    + injection H as <-. apply (G (hang_up (s_g s) fd) (set_kpipes (s_k s) (delete fd (k_pipes (s_k s))))); reflexivity.
    + injection H as <-. apply W; reflexivity.
  - destruct pid0 as [x|].
    2:{ destruct (s_pc s) eqn:Q; try discriminate. destruct (round_continues e s pid st Q Z) as [K _]. cbn in K. rewrite Q in K. congruence. }
    destruct (s_pc s) eqn:Q; try discriminate. destruct (k_procs (s_k s) !! x) as [[| | |st']|] eqn:Zx; try discriminate.
    destruct (child_ended (reach (set_kprocs (s_k s) (delete x (k_procs (s_k s))))) (s_g s) x st') as [a more] eqn:C. injection H as <-.
    exists (match a with Go _ evs | Die _ evs => evs end). split; [destruct a; reflexivity|].
    destruct (Z.eq_dec x pid) as [->|X].
    { left. rewrite Zx in Z. inversion Z; subst st'. destruct st; cbn in C; inversion C; subst; try (destruct (handle_finished_child _ _ _ _)); cbn; auto. }
    assert (D : more = true \/ a = Go (s_g s) [EReap x st'; ELost x]).
    { destruct st'; cbn [child_ended] in C; inversion C; subst; [left; reflexivity..|right; reflexivity]. }
    destruct D as [->| ->]; [|right; left; exists x; cbn; auto].
    destruct a as [g evs|m evs]; [|right; right; left; exact Logic.I].
    right. right. right. cbn. split; [discriminate|]. rewrite lookup_delete_ne; auto.
Qed.

Lemma round_collects e : (forall l, Permutation (e_order e l) l) -> forall ops s s', s_pc s <> AtHead ->
  execute e s ops = Some s' -> s_pc s' = AtHead -> forall pid st, k_procs (s_k s) !! pid = Some (KZombie st) ->
  exists evs, s_hist s' = s_hist s ++ evs /\ (In (EReap pid st) evs \/ exists x, In (ELost x) evs).
Proof.
  intros OK. induction ops as [|o ops IH]; intros s s' P H P' pid st Z; cbn in H; [inversion H; subst; congruence|].
  destruct (sstep e s o) as [s1|] eqn:E; [|discriminate].
  destruct (zombie_kept e s o s1 pid st E P Z) as (e1 & E1 & Cases). destruct (execute_hist e ops OK _ _ H) as [e2 E2].
  destruct Cases as [K|[[x K]|[K|[P1 Z1]]]].
  - exists (e1 ++ e2). rewrite E2, E1, app_assoc. split; [auto|]. left. apply in_or_app. auto.
  - exists (e1 ++ e2). rewrite E2, E1, app_assoc. split; [auto|]. right. exists x. apply in_or_app. auto.
  - exfalso. apply (panicked_stays e ops OK _ _ K) in H. unfold panicked in H. rewrite P' in H. auto.
  - destruct (IH s1 s' P1 H P' pid st Z1) as (e3 & H1 & H2). exists (e1 ++ e3). rewrite H1, E1, app_assoc. split; [auto|].
    destruct H2 as [H2|[y H2]]; [left|right; exists y]; apply in_or_app; auto.
Qed.
