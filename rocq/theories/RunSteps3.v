(** Panics, notifications, reaping and reports in reachable states. *)
From stdpp Require Import gmap strings.
From Coq Require Import Ascii ZArith List Bool Lia Permutation Relations.
From Verif Require Import Base RStr CronModel ConfigModel ProcessModel EnvModel DepModel NotifyModel ManagerModel SysModel
  MainModel SpecDep SpecTimer SpecRun SpecText NotifyProofs DepProofs CronTimerProofs RunStep RunInv RunFlow RunHist RunAlive RunStream RunClaims RunLife RunThms
  RunFinal RunSteps RunSteps2 RunView.
Import ListNotations.
Local Open Scope string_scope.
Local Open Scope list_scope.
Local Open Scope Z_scope.

Lemma cron_pop_panics tz c now m : cron_inv c -> cron_pop tz c now = Panic m ->
  exists id d, In (id, d) (timers c) /\ next_execution tz d now = Panic m.
Proof. intros I H. destruct (cron_pop_panic _ _ _ _ I H) as (id & d & ?). eauto. Qed.

Section reachable.
Context {k : machine} {e : env} {configs : list proc_config} {s : sys} (Re : reachable k e configs s).
Let OK : forall l, Permutation (e_order e l) l := kn_order _ _ _ (reachable_known _ _ _ _ Re).

(** ** Notifications *)
Lemma receive_spec text sender : ~ panicked s ->
  (exists id p, g_pids (s_g s) !! sender = Some id /\ g_procs (s_g s) !! id = Some p /\ p_type p = RNotify /\
    exists g', process_message (e_order e) (s_g s) text sender = Go g' [ENotify id sender (e_order e (parse text))] /\
      g_procs g' = <[id := notified_process p (e_order e (parse text))]> (g_procs (s_g s)) /\
      g_pids g' = notified_pids id (p_pid p) (g_pids (s_g s)) (e_order e (parse text)) /\
      g_out g' = g_out (s_g s) /\ g_err g' = g_err (s_g s) /\ g_keep g' = g_keep (s_g s) /\ g_cron g' = g_cron (s_g s) /\
      g_exit g' = g_exit (s_g s) /\ g_epoll g' = g_epoll (s_g s) /\
      (is_one (var (e_order e (parse text)) "READY") = false -> g_dep g' = g_dep (s_g s))) \/
  ((forall id p, g_pids (s_g s) !! sender = Some id -> g_procs (s_g s) !! id = Some p -> p_type p <> RNotify) /\
    process_message (e_order e) (s_g s) text sender = Go (s_g s) [EIgnored sender]).
Proof.
  intros NP. assert (W := whole_of Re NP). assert (M := go_maps _ _ _ (so_good _ _ _ (wh_sound _ _ _ W))).
  unfold process_message. destruct (g_pids (s_g s) !! sender) as [id|] eqn:D; [|right; split; [discriminate|reflexivity]].
  destruct (ma_pid _ _ _ M _ _ D) as (p & Hp & Pid & Ac). rewrite Hp.
  destruct (p_type p) eqn:Ty; try (right; split; [intros i q [= <-] Hq; rewrite Hp in Hq; inversion Hq; subst; congruence|reflexivity]).
  left. exists id, p. split; [auto|]. split; [auto|]. split; [auto|].
  set (vars := e_order e (parse text)). assert (N : List.NoDup (map fst vars)) by (unfold vars; apply (vars_nodup e text); apply OK).
  rewrite (fold_notified vars p N). cbn [then_].
  pose proof (manager_notified id (p_pid p) vars (update (s_g s) id (notified_process p vars)) N) as Mn. cbn [update set_procs g_dep] in Mn.
  destruct (is_one (var vars "READY")) eqn:Rd.
  - destruct (dep_told W id) as [d Hd]; [eauto|]. rewrite Hd in Mn. unfold update in Mn |- *. rewrite Mn. eexists. split; [reflexivity|]. cbn. repeat (split; [reflexivity|]). discriminate.
  - unfold update in Mn |- *. rewrite Mn. eexists. split; [reflexivity|]. cbn. repeat (split; [reflexivity|]). auto.
Qed.

(** ** Panics *)
Lemma panic_cause o s' : ~ panicked s -> calm (s_hist s) -> sstep e s o = Some s' -> panicked s' ->
  (exists now r id c text d m, o = CSpawnCron now r /\ nth_error configs id = Some c /\ pc_type c = CronJob text /\
     parse_timer text = Ret (Ok d) /\ next_execution (e_zone e) d now = Panic m) \/
  (exists dg sender rest, o = CEvent (AMessage (Some (dg, sender))) /\ s_pc s = AtEvents (EvIn (e_notify e) :: rest) /\
     forall text, ~ readable dg text).
Proof.
  intros NP Cm H Pn. assert (W := whole_of Re NP). assert (So := wh_sound _ _ _ W). assert (G := so_good _ _ _ So). assert (M := go_maps _ _ _ G).
  pose proof (sstep_trans _ _ _ _ OK H) as T. destruct (panics_dying _ _ _ T NP Pn) as (m & evs & k' & D & Es).
  assert (X := dying_causes _ _ _ _ _ _ So D). clear Es D T.
  assert (Out : outside o -> False).
  { intros Ou. apply NP. unfold panicked in *. destruct (outside_step e s s' o Ou H) as (<- & _). exact Pn. }
  destruct o as [pid|pid|pid|pid st|fd data|fd| |r|now r|evs'|a|r].
  1-6: exfalso; apply Out; exact Logic.I.
  - exfalso. cbn in H. destruct (s_pc s) eqn:P; try discriminate. destruct X as [(? & ? & ? & X & _)|[(? & ? & ? & X & _)|X]]; try congruence; auto.
  - exfalso. cbn in H. destruct (s_pc s) eqn:P; try discriminate. destruct X as [(? & ? & ? & X & _)|[(? & ? & ? & X & _)|X]]; try congruence; auto.
  - left. cbn in H. destruct (s_pc s) eqn:P; try discriminate. unfold spawn_cron in H.
    destruct (cron_pop (e_zone e) (g_cron (s_g s)) now) as [[c' [id|]]|m'] eqn:C.
    + exfalso. apply (due_cronjob _ _ _ _ _ _ (go_flow _ _ _ G)) in C. destruct C as (c & t & Hc & _).
      assert (Hp : is_Some (g_procs (s_g s) !! id)) by (apply lookup_lt_is_Some; rewrite (ma_len _ _ _ M); apply nth_error_Some; congruence).
      destruct Hp as [p Hp]. cbn [then_ set_cron g_dep] in H. unfold panicked in Pn.
      destruct (is_runnable (g_dep (s_g s)) id).
      * unfold spawn_child in H. cbn [set_cron g_procs] in H. rewrite Hp in H. destruct (negb _ && negb _); [inversion H; subst; exact Pn|].
        destruct r as [|pid out err wo we]; [inversion H; subst; exact Pn|].
        cbn [forks existsb app orb] in H. destruct (fork_fits _ _ _); [|discriminate]. inversion H; subst; exact Pn.
      * cbn [set_cron g_procs] in H. rewrite Hp in H. inversion H; subst; exact Pn.
    + exfalso. inversion H; subst. exact Pn.
    + destruct (cron_pop_panics _ _ _ _ (fl_cron _ _ (go_flow _ _ _ G)) C) as (id & d & K1 & K2).
      destruct (wh_desc _ _ _ W _ _ K1) as (c & text & D1 & D2 & D3). exists now, r, id, c, text, d, m'. auto 10.
  - exfalso. cbn in H. destruct (s_pc s) eqn:P; try discriminate. destruct X as [(? & ? & ? & X & _)|[(? & ? & ? & X & _)|X]]; try congruence; auto.
  - right. cbn in H. destruct (s_pc s) as [| | | |l| | |] eqn:P; try discriminate. destruct l as [|ev rest]; [exfalso; inversion H; subst; exact Pn|].
    assert (A := so_alive _ _ _ So Cm).
    destruct ev as [fd|fd|fd]; cbn [step_event] in H.
    2: exfalso; inversion H; subst; exact Pn. 2: exfalso; inversion H; subst; exact Pn.
    destruct (Z.eqb_spec fd (e_signal e)) as [->|N1].
    { exfalso. destruct a as [sg| | |]; try discriminate. inversion H; subst s'. unfold panicked in Pn.
      assert (Ka : forall x, kill_all (reach (s_k s)) x (running_pids (s_g s)) = (kills x (running_pids (s_g s)), true)).
      { intros x. apply kill_all_total. intros y Hy. apply (running_reach _ A) in Hy. tauto. }
      destruct sg as [[]|]; cbn [handle_signal then_] in Pn; unfold initiate_shutdown in Pn; rewrite ?Ka in Pn; exact Pn. }
    destruct (Z.eqb_spec fd (e_status e)) as [->|N2].
    { exfalso. destruct a as [|ok| |]; try discriminate. destruct ok; inversion H; subst s'; [|exact Pn].
      unfold report_status in Pn. destruct (report_total _ _ _ (e_rfc3339 e) G) as [text E]. rewrite E in Pn. exact Pn. }
    destruct (Z.eqb_spec fd (e_notify e)) as [->|N3].
    { destruct a as [| |[[dg sender]|]|]; try discriminate; [|exfalso; inversion H; subst s'; exact Pn].
      exists dg, sender, rest. split; [auto|]. split; [auto|]. intros text Rd. apply read_text_spec in Rd. inversion H; subst s'. unfold receive in Pn.
      rewrite Rd in Pn. destruct (receive_spec text sender NP) as [(id & p & _ & _ & _ & g' & E & _)|(_ & E)]; rewrite E in Pn; exact Pn. }
    exfalso. destruct a as [| | |[n|]]; try discriminate; [|inversion H; subst s'; exact Pn].
    destruct (k_pipes (s_k s) !! fd) as [q|]; [|discriminate]. destruct (_ && _); [|discriminate]. inversion H; subst s'.
    assert (Fx : is_fixed e fd = false). { unfold is_fixed. rewrite !orb_false_iff, !Z.eqb_neq. auto. }
    destruct (batch_owner _ _ _ _ _ G P Fx) as (id & p & E & _). unfold print_child_output in Pn. rewrite E in Pn. exact Pn.
  - exfalso. revert Pn. eapply (wait_safe Re); eauto.
Qed.

Lemma message_step dg text sender rest s' : s_pc s = AtEvents (EvIn (e_notify e) :: rest) -> e_notify e <> e_signal e -> e_notify e <> e_status e ->
  readable dg text -> sstep e s (CEvent (AMessage (Some (dg, sender)))) = Some s' ->
  s_k s' = s_k s /\ s_pc s' = AtEvents rest /\ s_shut s' = s_shut s /\
  match main_of configs (s_hist s) sender with
  | Some id =>
      if match kind configs id with Notify => true | _ => false end then
        exists vars, Permutation vars (parse text) /\ s_hist s' = s_hist s ++ [ENotify id sender vars] /\
          (forall j, j <> id -> g_procs (s_g s') !! j = g_procs (s_g s) !! j) /\
          g_out (s_g s') = g_out (s_g s) /\ g_err (s_g s') = g_err (s_g s) /\ g_keep (s_g s') = g_keep (s_g s) /\
          g_cron (s_g s') = g_cron (s_g s) /\ g_exit (s_g s') = g_exit (s_g s) /\ g_epoll (s_g s') = g_epoll (s_g s) /\
          (~ In ("READY", "1") vars -> g_dep (s_g s') = g_dep (s_g s))
      else s_hist s' = s_hist s ++ [EIgnored sender] /\ s_g s' = s_g s
  | None => s_hist s' = s_hist s ++ [EIgnored sender] /\ s_g s' = s_g s
  end.
Proof.
  intros P N1 N2 Rd H. assert (NP : ~ panicked s) by (unfold panicked; rewrite P; auto). assert (W := whole_of Re NP).
  assert (M := go_maps _ _ _ (so_good _ _ _ (wh_sound _ _ _ W))). assert (B := reachable_book _ _ _ _ Re NP).
  cbn in H. rewrite P in H. cbn [step_event] in H. rewrite (proj2 (Z.eqb_neq _ _) N1), (proj2 (Z.eqb_neq _ _) N2), Z.eqb_refl in H.
  apply read_text_spec in Rd. inversion H; subst s'. clear H. unfold receive. rewrite Rd.
  rewrite (bk_main _ _ _ B). destruct (receive_spec text sender NP) as [(id & p & D & Hp & Ty & g' & E & E1 & E2 & E3)|(Ig & E)]; rewrite E; cbn.
  - split; [auto|]. split; [auto|]. split; [auto|]. rewrite D. pose proof (kind_of _ _ _ _ _ M Hp) as Kd. rewrite Ty in Kd.
    destruct (kind configs id); try discriminate. destruct E3 as (F1 & F2 & F3 & F4 & F5 & F6 & F7).
    exists (e_order e (parse text)). split; [apply OK|]. split; [auto|]. split; [intros j Hj; rewrite E1; apply list_lookup_insert_ne; auto|].
    do 6 (split; [auto|]). intros X. apply F7. destruct (is_one (var (e_order e (parse text)) "READY")) eqn:Y; [|auto]. exfalso. apply X. apply ready_in; [|auto]. apply vars_nodup. apply OK.
  - split; [auto|]. split; [auto|]. split; [auto|]. destruct (g_pids (s_g s) !! sender) as [id|] eqn:D; [|auto].
    destruct (ma_pid _ _ _ M _ _ D) as (p & Hp & _). pose proof (kind_of _ _ _ _ _ M Hp) as Kd. specialize (Ig id p eq_refl Hp).
    destruct (kind configs id); cbn in Kd; try congruence; auto.
Qed.

(** ** Whose end it is *)
Lemma reap_owner pid st s' : s_pc s = AtWait -> k_procs (s_k s) !! pid = Some (KZombie st) ->
  sstep e s (CWait (Some pid)) = Some s' ->
  match st with
  | XRealtime _ => s_hist s' = s_hist s ++ [EReap pid st; ELost pid] /\ s_g s' = s_g s
  | _ =>
      match main_of configs (s_hist s) pid with
      | Some id => exists more, s_hist s' = s_hist s ++ EReap pid st :: EEnd id pid (code_of st) :: more /\
          (forall ev, In ev more -> exists x, ev = EKill x SIGINT) /\
          forall j, j <> id -> g_procs (s_g s') !! j = g_procs (s_g s) !! j
      | None => s_hist s' = s_hist s ++ [EReap pid st; EUnknown pid (code_of st)] /\ s_g s' = s_g s
      end
  end.
Proof.
  intros P Z H. assert (NP : ~ panicked s) by (unfold panicked; rewrite P; auto). assert (W := whole_of Re NP).
  assert (M := go_maps _ _ _ (so_good _ _ _ (wh_sound _ _ _ W))). assert (B := reachable_book _ _ _ _ Re NP).
  rewrite (bk_main _ _ _ B). cbn in H. rewrite P, Z in H.
  set (k' := set_kprocs (s_k s) (delete pid (k_procs (s_k s)))) in *.
  assert (Fin : forall rc, s' = goes s (then_ (Go (s_g s) [EReap pid st]) (fun g => handle_finished_child (reach k') g pid rc)) k' AtWait ->
    match g_pids (s_g s) !! pid with
    | Some id => exists more, s_hist s' = s_hist s ++ EReap pid st :: EEnd id pid rc :: more /\
        (forall ev, In ev more -> exists x, ev = EKill x SIGINT) /\ forall j, j <> id -> g_procs (s_g s') !! j = g_procs (s_g s) !! j
    | None => s_hist s' = s_hist s ++ [EReap pid st; EUnknown pid rc] /\ s_g s' = s_g s
    end).
  { intros rc ->. cbn [then_]. unfold handle_finished_child. destruct (g_pids (s_g s) !! pid) as [id|] eqn:D; [|cbn; auto].
    destruct (ma_pid _ _ _ M _ _ D) as (p & Hp & _). rewrite Hp. destruct (dep_told W id) as [d Hd]; [eauto|].
    destruct (rc =? 0); cbn [then_].
    - exists []. destruct (p_type p); unfold finished_dep; cbn [update set_procs set_pids g_dep]; rewrite ?Hd; cbn; (split; [auto|]); (split; [intros ? []|]);
        intros j Hj; apply list_lookup_insert_ne; auto.
    - unfold initiate_shutdown. destruct (kill_all _ SIGINT _) as [kevs ok] eqn:Ka. exists kevs.
      assert (Kv : forall ev, In ev kevs -> exists x, ev = EKill x SIGINT).
      { destruct ok; [apply kill_all_ok in Ka; destruct Ka as [-> _]|apply kill_all_fail in Ka; destruct Ka as (pre & x & post & _ & -> & _)];
          intros ev K; apply in_map_iff in K; destruct K as (y & <- & _); eauto. }
      destruct ok; cbn [then_].
      + destruct (p_type p); unfold finished_dep; cbn [update set_procs set_pids set_keep set_exit g_dep]; rewrite ?Hd; cbn; rewrite ?app_nil_r; (split; [auto|]); (split; [auto|]);
          intros j Hj; apply list_lookup_insert_ne; auto.
      + cbn. auto. }
  destruct st as [rc|n|n]; cbn [child_ended] in H; inversion H; subst s'; [apply (Fin rc); auto|apply (Fin n); auto|cbn; auto].
Qed.
End reachable.
