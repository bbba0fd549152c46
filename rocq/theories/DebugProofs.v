(** Proofs about the whole log. *)
From stdpp Require Import gmap strings.
From Coq Require Import Ascii ZArith List Bool Lia Permutation.
From Verif Require RunForge TickProofs.
From Coq Require DecimalString DecimalPos DecimalZ.
From Verif Require Import Base RStr CronModel ConfigModel ProcessModel DepModel NotifyModel ManagerModel SysModel MainModel LogModel TraceModel DebugModel
  SpecStr SpecText SpecLog SpecRun SpecTick SpecTrace SpecWarn SpecEnd SpecDebug NotifyProofs EnvProofs DepProofs CronTimerProofs
  RunStep RunInv RunFlow RunHist RunAlive RunStream RunClaims RunLife RunThms RunFinal RunView RunSteps RunSteps4 EndProofs LogProofs TraceProofs WarnProofs.
Import ListNotations.
Local Open Scope string_scope.
Local Open Scope list_scope.
Local Open Scope Z_scope.

(** * Without the messages at DEBUG level it is the log of TraceModel.v *)
Lemma above_app a b : above_debug (a ++ b) = above_debug a ++ above_debug b.
Proof. apply List.filter_app. Qed.
Lemma above_none l : (forall x, In x l -> is_debug x = true) -> above_debug l = [].
Proof.
  induction l as [|x l IH]; intros H; [reflexivity|]. unfold above_debug. cbn [List.filter]. rewrite (H x) by (left; reflexivity). cbn [negb]. apply IH.
  intros y K. apply H. right. exact K.
Qed.
Lemma above_all l : (forall x, In x l -> is_debug x = false) -> above_debug l = l.
Proof.
  induction l as [|x l IH]; intros H; [reflexivity|]. unfold above_debug. cbn [List.filter]. rewrite (H x) by (left; reflexivity). cbn [negb].
  f_equal. apply IH. intros y K. apply H. right. exact K.
Qed.
Lemma starting_above d p b : above_debug (starting_logs d p b) = starting_says p b.
Proof. unfold starting_logs, starting_says. destruct (p_pty p), (d_flags d), (d_size d), b; reflexivity. Qed.
Lemma register_above fd w : above_debug (register_logs fd w) = register_says w.
Proof. destruct w; reflexivity. Qed.
Lemma spawn_above d g id r : above_debug (spawn_logs d g id r) = spawn_says d g id r.
Proof.
  unfold spawn_logs, spawn_says. destruct (g_procs g !! id) as [p|]; [|reflexivity]. destruct (_ && _); [reflexivity|].
  destruct r as [|pid out err wo we]; rewrite !above_app, starting_above.
  - destruct (d_stage d); reflexivity.
  - rewrite !register_above. reflexivity.
Qed.
Lemma finished_dep_above m id : above_debug (finished_dep_logs m id) = [].
Proof. unfold finished_dep_logs. destruct (dm_nodes m !! id) as [n|]; [destruct (n_finished n)|]; reflexivity. Qed.
Lemma finished_says_above g pid rc : above_debug (finished_says g pid rc) = finished_says g pid rc.
Proof.
  unfold finished_says. destruct (g_pids g !! pid) as [id|]; [|reflexivity]. destruct (g_procs g !! id) as [p|]; [|reflexivity].
  destruct (rc =? 0); [destruct (p_type p)|]; reflexivity.
Qed.
Lemma finished_above r g pid rc : above_debug (finished_logs r g pid rc) = finished_says g pid rc.
Proof.
  unfold finished_logs. rewrite above_app, finished_says_above.
  match goal with |- _ ++ above_debug ?x = _ => assert (N : above_debug x = []) end; [|rewrite N; apply app_nil_r].
  destruct (g_pids g !! pid) as [id|]; [|reflexivity]. destruct (g_procs g !! id) as [p|]; [|reflexivity].
  destruct (p_type p); try reflexivity; (destruct (rc =? 0); [apply finished_dep_above|]); destruct (initiate_shutdown _ _ _); auto using finished_dep_above.
Qed.
Lemma notification_says_above d p key value : above_debug (notification_says d p key value) = notification_says d p key value.
Proof.
  unfold notification_says. destruct (String.eqb key "READY"); [destruct (negb _); [|destruct (pstate_eqb _ _)]; reflexivity|].
  destruct (String.eqb key "STOPPING"); [destruct (negb _); reflexivity|]. destruct (String.eqb key "STATUS"); [reflexivity|].
  destruct (String.eqb key "MAINPID"); [|reflexivity]. destruct (parse_i32 value) as [n|]; [destruct (n =? p_pid p)|]; reflexivity.
Qed.
Lemma notification_above d p key value : above_debug (notification_logs d p key value) = notification_says d p key value.
Proof.
  unfold notification_logs. destruct (String.eqb key "READY" && String.eqb value "1" && negb (pstate_eqb (p_state p) Starting)) eqn:E;
    [|apply notification_says_above].
  apply andb_prop in E as [E S]. apply andb_prop in E as [E1 E2]. apply negb_true_iff in S. unfold notification_says. rewrite E1, E2, S. reflexivity.
Qed.
Lemma notifications_above d vars : forall p, above_debug (notifications_log d p vars) = notifications_say d p vars.
Proof.
  induction vars as [|[key value] vars IH]; intros p; [reflexivity|]. cbn [notifications_log notifications_say]. rewrite above_app, notification_above, IH. reflexivity.
Qed.
Lemma manager_above id pid vars : forall g, above_debug (manager_logs id pid g vars) = [].
Proof.
  induction vars as [|[key value] vars IH]; intros g; [reflexivity|]. cbn [manager_logs]. rewrite above_app.
  assert (A : above_debug (if String.eqb key "READY" && String.eqb value "1" then finished_dep_logs (g_dep g) id else []) = []).
  { destruct (_ && _); [apply finished_dep_above|reflexivity]. }
  rewrite A. cbn [app]. destruct (manager_notification _ _ _ _); [apply IH|reflexivity].
Qed.
Lemma parse_line_above l : above_debug (parse_line_says l) = parse_line_says l.
Proof. apply above_all. intros x K. apply parse_line_junk in K. destruct K; reflexivity. Qed.
Lemma parse_lines_above ts : above_debug (flat_map parse_line_says ts) = flat_map parse_line_says ts.
Proof. induction ts as [|t ts IH]; [reflexivity|]. cbn [flat_map]. rewrite above_app, parse_line_above, IH. reflexivity. Qed.
Lemma message_above d order g text sender : above_debug (message_logs d order g text sender) = message_says d order g text sender.
Proof.
  unfold message_logs, message_says. destruct (g_pids g !! sender) as [id|]; [|reflexivity]. destruct (g_procs g !! id) as [p|]; [|reflexivity].
  destruct (p_type p); try reflexivity. cbn zeta. rewrite !above_app, parse_lines_above, notifications_above, manager_above, app_nil_r. reflexivity.
Qed.
Lemma output_above g fd data : above_debug (output_says g fd data) = output_says g fd data.
Proof.
  apply above_all. unfold output_says. destruct (process_for_fd g fd) as [p|m]; [|intros x []]. intros x K. apply in_map_iff in K. destruct K as (t & <- & _). reflexivity.
Qed.
Lemma event_above d e s ev a : above_debug (event_logs d e s ev a) = event_says d e s ev a.
Proof.
  unfold event_logs, event_says. destruct ev as [fd|fd|fd]; try reflexivity.
  destruct (fd =? e_signal e); [destruct a as [[[]|]| | |]; reflexivity|].
  destruct (fd =? e_status e); [destruct a as [|ok| |]; try reflexivity; unfold report_says; destruct (_ && _); reflexivity|].
  destruct (fd =? e_notify e).
  - destruct a as [| |[[dg sender]|]|]; try reflexivity. unfold receive_logs, receive_says. destruct (read_text dg) as [[text|m]|]; try reflexivity.
    unfold above_debug. cbn [List.filter is_debug debug negb]. apply message_above.
  - destruct a as [| | |[n|]]; try reflexivity. destruct (k_pipes (s_k s) !! fd); [apply output_above|reflexivity].
Qed.
Lemma cron_pop_above e c now : above_debug (cron_pop_logs e c now) = [].
Proof.
  unfold cron_pop_logs. destruct (timer c) as [|[t id] l]; [reflexivity|]. destruct (t <=? now); [|reflexivity]. destruct (timer_of c id); [|reflexivity].
  destruct (next_execution _ _ _); reflexivity.
Qed.
Lemma step_above e s o d : above_debug (step_logs e s o d) = step_says e s o d.
Proof.
  destruct o as [pid|pid|pid|pid st|fd data|fd| |r|now r|evs|a|[pid|]]; cbn [step_logs step_says]; try reflexivity.
  - unfold head_says. destruct (s_shut s); [destruct (has_running_processes _)|destruct (_ && _)]; reflexivity.
  - unfold spawn_dep_logs, spawn_dep_says. destruct (pop_dep _) as [[id dm]|]; [|reflexivity]. cbn zeta. destruct (_ !! id) as [p|]; [|reflexivity].
    destruct (p_type p); auto using spawn_above.
  - unfold spawn_cron_logs, spawn_cron_says. rewrite above_app, cron_pop_above. cbn [app]. destruct (cron_pop _ _ _) as [[c [id|]]|m]; try reflexivity.
    cbn zeta. destruct (is_runnable _ _); [apply spawn_above|]. destruct (_ !! id); reflexivity.
  - destruct evs; reflexivity.
  - destruct (s_pc s) as [| | | |[|ev rest]| | |]; try reflexivity. apply event_above.
  - destruct (k_procs (s_k s) !! pid) as [[| | |st]|]; try reflexivity. destruct st; cbn [ended_logs ended_says]; try reflexivity;
      unfold above_debug; cbn [List.filter is_debug debug negb]; apply finished_above.
Qed.
Lemma narrate_above e ops : forall s s' ls, narrate_all e s ops = Some (s', ls) -> narrate e s ops = Some (s', above_debug ls).
Proof.
  induction ops as [|[o d] ops IH]; intros s s' ls H; cbn in H |- *; [inversion H; reflexivity|].
  destruct (sstep e s o) as [s1|]; [|discriminate]. destruct (narrate_all e s1 ops) as [[s2 l2]|] eqn:E; [|discriminate]. inversion H; subst.
  rewrite (IH _ _ _ E), above_app, step_above. reflexivity.
Qed.
Lemma narrate_all_total e ops : forall s s' ls, narrate e s ops = Some (s', ls) -> exists all, narrate_all e s ops = Some (s', all).
Proof.
  induction ops as [|[o d] ops IH]; intros s s' ls H; cbn in H |- *; [inversion H; eauto|].
  destruct (sstep e s o) as [s1|]; [|discriminate]. destruct (narrate e s1 ops) as [[s2 l2]|] eqn:E; [|discriminate]. inversion H; subst.
  destruct (IH _ _ _ E) as (all & ->). eauto.
Qed.

(** * Parts of a step *)
Lemma manager_silent id pid vars : ~ In ("READY", "1") vars -> forall g, manager_logs id pid g vars = [].
Proof.
  induction vars as [|[key value] vars IH]; intros N g; [reflexivity|]. cbn [manager_logs].
  assert (E : String.eqb key "READY" && String.eqb value "1" = false).
  { destruct (String.eqb key "READY") eqn:E1, (String.eqb value "1") eqn:E2; try reflexivity. apply String.eqb_eq in E1, E2. subst. exfalso. apply N. left. reflexivity. }
  rewrite E. cbn [app]. destruct (manager_notification _ _ _ _); [|reflexivity]. apply IH. intros K. apply N. right. exact K.
Qed.
Lemma manager_speaks id pid vars : List.NoDup (map fst vars) -> In ("READY", "1") vars -> forall g, manager_logs id pid g vars = finished_dep_logs (g_dep g) id.
Proof.
  induction vars as [|[key value] vars IH]; intros N I g; [destruct I|]. cbn [map fst] in N. apply NoDup_cons_iff in N as [N1 N2].
  destruct I as [I|I].
  - inversion I; subst. cbn [manager_logs String.eqb Ascii.eqb Bool.eqb andb].
    assert (X : ~ In ("READY", "1") vars) by (intros K; apply N1; apply in_map_iff; exists ("READY", "1"); auto).
    match goal with |- _ ++ ?y = _ => assert (Y : y = []) end; [|rewrite Y; apply app_nil_r].
    destruct (manager_notification _ _ _ _); [apply manager_silent; exact X|reflexivity].
  - assert (K : String.eqb key "READY" = false).
    { apply String.eqb_neq. intros ->. apply N1. apply in_map_iff. exists ("READY", "1"). auto. }
    cbn [manager_logs]. rewrite K. cbn [andb app]. unfold manager_notification. rewrite K.
    destruct (String.eqb key "MAINPID"); [|apply IH; assumption]. destruct (parse_i32 value) as [n|]; rewrite (IH N2 I); reflexivity.
Qed.

Lemma variable_logs d p key value : variable_all (d_error d) (p_name p) (seen p) (key, value) (notification_logs d p key value).
Proof.
  unfold notification_logs. destruct (String.eqb key "READY" && String.eqb value "1" && negb (pstate_eqb (p_state p) Starting)) eqn:E.
  - apply andb_prop in E as [E S]. apply andb_prop in E as [E1 E2]. apply String.eqb_eq in E1, E2. subst. apply negb_true_iff in S.
    assert (W : show_pstate (p_state p) = state_word (v_state (seen p))) by (unfold seen; cbn; destruct (p_state p); reflexivity). rewrite W.
    apply va_early. cbn. intros K. rewrite K in S. discriminate S.
  - apply va_other; [|apply variable_says]. destruct (pstate_eqb (p_state p) Starting) eqn:S; [right; apply pstate_eqb_spec; exact S|].
    left. intros K. inversion K; subst. discriminate E.
Qed.
Lemma variables_log d vars : forall p, variables_all (d_error d) (p_name p) (seen p) vars (notifications_log d p vars).
Proof.
  induction vars as [|[key value] vars IH]; intros p; cbn [notifications_log]; [constructor|]. apply vl_cons; [apply variable_logs|].
  rewrite <- seen_one, <- (name_one p key value). apply IH.
Qed.

Lemma signal_named n : 1 <= n <= 31 -> exists i, n = Z.of_nat i + 1 /\ nth_error signal_names i = Some (signal_name n).
Proof.
  intros H. exists (Z.to_nat (n - 1)). split; [lia|].
  assert (N : exists i, (i < 31)%nat /\ n = Z.of_nat i + 1) by (exists (Z.to_nat (n - 1)); lia). destruct N as (i & Hi & ->).
  replace (Z.to_nat (Z.of_nat i + 1 - 1)) with i by lia. clear H.
  do 31 (destruct i as [|i]; [reflexivity|]). lia.
Qed.
Lemma kill_events r sg l ev : In ev (fst (kill_all r sg l)) -> exists x, ev = EKill x sg.
Proof.
  induction l as [|x l IH]; cbn; [intros []|]. destruct (r x); [|intros []]. destruct (kill_all r sg l) as [evs ok]. cbn. intros [<-|K]; eauto.
Qed.
Lemma shutdown_effects r g sg ev : In ev (effects (initiate_shutdown r g sg)) -> exists x, ev = EKill x sg.
Proof.
  unfold initiate_shutdown. pose proof (kill_events r sg (running_pids g) ev) as K. destruct (kill_all r sg (running_pids g)) as [evs ok].
  destruct ok; exact K.
Qed.

Section Step.
  Context {k : machine} {e : env} {configs : list proc_config} {s : sys} (R : reachable k e configs s) (NP : ~ panicked s).
  Let W : whole configs e s := whole_of R NP.
  Let G : good configs e s := so_good _ _ _ (wh_sound _ _ _ W).

  Lemma reminded_as id : ~ cronjob configs id -> reminded (s_hist s) id (finished_dep_logs (g_dep (s_g s)) id).
  Proof using R NP.
    intros NC. destruct (fl_dep _ _ (go_flow _ _ _ G)) as (handed & D & _). pose proof (di_fin _ _ _ _ D id) as F.
    assert (O : over (s_hist s) id <-> finished configs (s_hist s) id) by (unfold over, finished; tauto).
    unfold finished_dep_logs, fins in *. destruct (dm_nodes (g_dep (s_g s)) !! id) as [n|].
    - destruct (n_finished n); constructor; rewrite O, <- F; [reflexivity|discriminate].
    - constructor. rewrite O, <- F. discriminate.
  Qed.

  Lemma prepares_as d id p b c : g_procs (s_g s) !! id = Some p -> nth_error configs id = Some c -> starting_logs d p b = prepares_all d c b.
  Proof using R.
    intros Hp Hc. destruct (known_as R _ _ Hp) as (c' & Hc' & Nm & Pt & _). rewrite Hc in Hc'. apply Some_inj in Hc'. subst c'.
    unfold starting_logs, prepares_all. rewrite Nm, Pt. reflexivity.
  Qed.

  Lemma spawn_spoken q f o d g id r pre due : g_procs g = g_procs (s_g s) -> (forall ev, In ev pre -> unseen ev) -> tries o r id pre -> scheduled e configs pre due ->
    is_Some (g_procs (s_g s) !! id) ->
    spoken e configs (s_hist s) q f o d (pre ++ effects (spawn_child g id r)) (due ++ spawn_logs d g id r).
  Proof using R NP.
    intros Gp U T Sc [p Hp]. unfold spawn_child, spawn_logs. rewrite Gp, Hp.
    destruct (known_as R _ _ Hp) as (c & Hc & Nm & _).
    destruct (negb (pstate_eqb (p_state p) Blocked) && negb (pstate_eqb (p_state p) Sleeping)).
    - eapply sp_refused; [exact T|exact Sc|]. cbn. rewrite (called_as R _ _ Hp), (seen_as R NP _ _ _ Hp U).
      assert (X : state_word (v_state (seen p)) = show_pstate (p_state p)) by (unfold seen; cbn; destruct (p_state p); reflexivity). rewrite X. reflexivity.
    - destruct r as [|pid out err wo we]; cbn [effects]; rewrite (prepares_as d id p _ c Hp Hc).
      + destruct (d_stage d) eqn:St; cbn [app]; [eapply sp_no_pipes|eapply sp_no_flags|eapply sp_no_fork]; eauto.
      + rewrite Nm. eapply sp_started; eauto.
  Qed.

  Lemma scheduled_as now c id : cron_pop (e_zone e) (g_cron (s_g s)) now = Ret (c, Some id) ->
    scheduled e configs [EDue id now] (cron_pop_logs e (g_cron (s_g s)) now).
  Proof using R NP.
    intros C. unfold cron_pop in C. unfold cron_pop_logs. destruct (timer (g_cron (s_g s))) as [|[t i] l]; [discriminate|]. destruct (t <=? now); [|discriminate].
    destruct (timer_of (g_cron (s_g s)) i) as [d|] eqn:T; [|discriminate]. destruct (next_execution (e_zone e) d now) as [u|m] eqn:N; [|discriminate].
    cbn [obind] in C. destruct (insert_job _ u i); [|discriminate]. cbn [obind] in C. inversion C; subst. eapply sc_due; [|exact N].
    apply timer_of_In in T. apply TickProofs.timer_is_parse. exact (wh_desc _ _ _ W _ _ T).
  Qed.
  Lemma not_scheduled now : (forall c id, cron_pop (e_zone e) (g_cron (s_g s)) now <> Ret (c, Some id)) -> cron_pop_logs e (g_cron (s_g s)) now = [].
  Proof using R NP.
    intros N. destruct (cron_pop (e_zone e) (g_cron (s_g s)) now) as [[c [id|]]|m] eqn:C; [destruct (N _ _ eq_refl)| |].
    - unfold cron_pop in C. unfold cron_pop_logs. destruct (timer (g_cron (s_g s))) as [|[t i] l]; [reflexivity|]. destruct (t <=? now); [|reflexivity].
      destruct (timer_of (g_cron (s_g s)) i) as [d|]; [|reflexivity]. destruct (next_execution (e_zone e) d now) as [u|m]; [|reflexivity].
      cbn [obind] in C. destruct (insert_job _ u i); discriminate C.
    - destruct (fl_cron _ _ (go_flow _ _ _ G)) as (Hk & Hn & Hp). unfold cron_pop in C. unfold cron_pop_logs.
      destruct (timer (g_cron (s_g s))) as [|[t i] l] eqn:Et; [reflexivity|]. destruct (t <=? now); [|reflexivity]. rewrite tm_remove_head in C by assumption.
      destruct (timer_of (g_cron (s_g s)) i) as [d|]; [|reflexivity]. destruct (next_execution (e_zone e) d now) as [u|m']; [|reflexivity].
      exfalso. apply Sorted.StronglySorted_inv in Hk as [Hk _]. destruct (insert_job_ok l u i Hk) as (v & m' & E & _). cbn [obind] in C. rewrite E in C. discriminate.
  Qed.

  Lemma ended_tells pid id p rc b : g_pids (s_g s) !! pid = Some id -> g_procs (s_g s) !! id = Some p ->
    tells configs b (EEnd id pid rc) (finished_says (s_g s) pid rc).
  Proof using R.
    intros Hi Hp. unfold finished_says. rewrite Hi, Hp. destruct (known_as R _ _ Hp) as (c & Hc & Nm & _ & Ty).
    assert (Kd : kind configs id = pc_type c) by (unfold kind; rewrite Hc; reflexivity).
    destruct (rc =? 0) eqn:Z.
    - apply Z.eqb_eq in Z. subst rc.
      replace (match p_type p with
        | RCronjob => both LInfo ("Child " +:+ p_name p +:+ " has finished and is going to sleep")
        | _ => both LInfo ("Child " +:+ p_name p +:+ " exited successfully")
        end) with (both LInfo (match kind configs id with CronJob _ => "Child " +:+ called configs id +:+ " has finished and is going to sleep"
          | _ => "Child " +:+ called configs id +:+ " exited successfully" end)).
      + apply te_end. cbn. destruct (kind configs id); reflexivity.
      + rewrite Kd, Ty, (called_as R _ _ Hp). destruct (pc_type c); reflexivity.
    - apply (te_crash _ _ id pid rc); [apply Z.eqb_neq; exact Z|]. cbn. rewrite Z, (called_as R _ _ Hp). reflexivity.
  Qed.
  Lemma cronjob_as id p : g_procs (s_g s) !! id = Some p -> cronjob configs id <-> p_type p = RCronjob.
  Proof using R.
    intros Hp. destruct (known_as R _ _ Hp) as (c & Hc & _ & _ & Ty). unfold cronjob. split.
    - intros (c' & t & Hc' & T). rewrite Hc in Hc'. apply Some_inj in Hc'. subst c'. rewrite Ty, T. reflexivity.
    - intros T. destruct (pc_type c) as [| |t] eqn:Y; rewrite Ty in T; try discriminate T. exists c, t. auto.
  Qed.

  Definition dies (a : act) : bool := match a with Go _ _ => false | Die _ _ => true end.
  Lemma finished_spoken q d r pid st t rc : ended_as (d_core d) pid st t -> code_of st = rc ->
    spoken e configs (s_hist s) q (dies (handle_finished_child r (s_g s) pid rc)) (CWait (Some pid)) d
      (EReap pid st :: effects (handle_finished_child r (s_g s) pid rc)) (dbg t :: finished_logs r (s_g s) pid rc).
  Proof using R NP.
    intros E C. pose proof (bk_main _ _ _ (reachable_book _ _ _ _ R NP) pid) as B. pose proof (go_maps _ _ _ G) as M.
    destruct (g_pids (s_g s) !! pid) as [id|] eqn:Hi.
    2:{ unfold handle_finished_child, finished_logs, finished_says. rewrite Hi. cbn [effects]. rewrite app_nil_r, <- C. apply sp_stranger; [exact E|exact B|].
        apply te_unknown. reflexivity. }
    destruct (ma_pid _ _ _ M _ _ Hi) as (p & Hp & _). pose proof (cronjob_as _ _ Hp) as Cj.
    assert (Pr : is_Some (g_procs (s_g s) !! id)) by eauto. destruct (dep_told W id Pr) as [dm Hd].
    assert (Sh : exists ks ok, effects (handle_finished_child r (s_g s) pid rc) = EEnd id pid rc :: ks /\ (forall ev, In ev ks -> exists x, ev = EKill x SIGINT) /\
      dies (handle_finished_child r (s_g s) pid rc) = negb ok /\
      finished_logs r (s_g s) pid rc = finished_says (s_g s) pid rc ++ match p_type p with RCronjob => [] | _ => if ok then finished_dep_logs (g_dep (s_g s)) id else [] end).
    { unfold finished_logs, handle_finished_child. rewrite Hi, Hp. destruct (rc =? 0) eqn:Z.
      - exists [], true. cbn [then_ effects app negb].
        destruct (p_type p); cbn [then_ effects app dies]; unfold finished_dep; cbn; rewrite ?Hd; cbn; repeat split; try reflexivity; intros ev [].
      - set (g1 := set_exit (update (s_g s) id (with_state p (Crashed rc))) CHILD_CRASH_EXIT_CODE).
        pose proof (shutdown_effects r g1 SIGINT) as Ks.
        assert (Eq : match initiate_shutdown r (update (s_g s) id (with_state p (Crashed rc))) SIGINT with Go _ _ => finished_dep_logs (g_dep (s_g s)) id | Die _ _ => [] end =
                     match initiate_shutdown r g1 SIGINT with Go _ _ => finished_dep_logs (g_dep (s_g s)) id | Die _ _ => [] end).
        { unfold initiate_shutdown, g1. change (running_pids (set_exit (update (s_g s) id (with_state p (Crashed rc))) CHILD_CRASH_EXIT_CODE))
            with (running_pids (update (s_g s) id (with_state p (Crashed rc)))). destruct (kill_all _ _ _) as [evs []]; reflexivity. }
        rewrite Eq. clear Eq. cbn [then_].
        assert (Gs : forall g2 ks, initiate_shutdown r g1 SIGINT = Go g2 ks -> g_dep g2 = g_dep (s_g s)).
        { intros g2 ks H. unfold initiate_shutdown in H. destruct (kill_all _ _ _) as [evs []]; inversion H; subst; reflexivity. }
        destruct (initiate_shutdown r g1 SIGINT) as [g2 ks|m ks] eqn:I; cbn [then_ effects] in *.
        + exists ks, true. specialize (Gs _ _ eq_refl). destruct (p_type p); unfold finished_dep; cbn; rewrite ?Gs, ?Hd; cbn; rewrite ?app_nil_r; repeat split; auto.
        + exists ks, false. destruct (p_type p); cbn; repeat split; auto. }
    destruct Sh as (ks & ok & -> & Ks & -> & ->). rewrite <- C. apply sp_ended; [exact E|exact B| |exact Ks| |].
    - rewrite C. eapply ended_tells; eassumption.
    - intros [K|K]; [apply Cj in K; rewrite K; reflexivity|]. destruct ok; [discriminate K|]. destruct (p_type p); reflexivity.
    - intros NC K. destruct ok; [|discriminate K]. destruct (p_type p) eqn:Ty; [apply reminded_as; exact NC..|]. exfalso. apply NC, Cj. reflexivity.
  Qed.

  Lemma message_spoken q d dg text sender r : (forall l, Permutation (e_order e l) l) -> q = EvIn (e_notify e) :: r -> read_text dg = Some (Ret text) ->
    spoken e configs (s_hist s) q (dies (process_message (e_order e) (s_g s) text sender)) (CEvent (AMessage (Some (dg, sender)))) d
      (effects (process_message (e_order e) (s_g s) text sender)) (received text sender :: message_logs d (e_order e) (s_g s) text sender).
  Proof using R NP.
    intros OK Hq Rd. unfold process_message, message_logs. pose proof (bk_main _ _ _ (reachable_book _ _ _ _ R NP) sender) as B.
    assert (Rb : readable dg text) by (apply read_text_spec; exact Rd).
    destruct (g_pids (s_g s) !! sender) as [id|] eqn:Hi.
    2:{ eapply sp_ignored; [exact Hq|exact Rb|]. apply te_stranger. exact B. }
    destruct (ma_pid _ _ _ (go_maps _ _ _ G) _ _ Hi) as (p & Hp & _). rewrite Hp. destruct (known_as R _ _ Hp) as (c & Hc & Nm & _ & Ty).
    destruct (p_type p) eqn:Tp.
    1,3: cbn [effects]; eapply sp_ignored; [exact Hq|exact Rb|]; rewrite Nm; eapply te_not_notify; [exact B|exact Hc|]; intros X; rewrite X in Ty; discriminate Ty.
    rewrite effects_then. cbn [effects app]. rewrite notifications_effects. cbn zeta.
    assert (ND : List.NoDup (map fst (e_order e (parse text)))) by (apply vars_nodup; exact OK).
    apply (sp_datagram e configs (s_hist s) q _ dg text (lines text) sender id c (e_order e (parse text)) d r); auto.
    - apply lines_spec. reflexivity.
    - apply lines_told.
    - destruct (pc_type c); cbn in Ty; congruence.
    - intros key value. rewrite <- parse_spec. split; intros K; (eapply Permutation_in; [|exact K]); [apply OK|apply Permutation_sym, OK].
    - pose proof (seen_as R NP _ _ [] Hp (fun _ F => match F with end)) as V. rewrite app_nil_r in V. rewrite V, (called_as R _ _ Hp). apply variables_log.
    - intros K. rewrite (manager_speaks _ _ _ ND K). apply reminded_as. intros Cj. apply (cronjob_as _ _ Hp) in Cj. congruence.
    - intros K. apply manager_silent. exact K.
  Qed.
End Step.

(** * One step *)
Lemma other_step k e configs s q f o d s' evs : reachable k e configs s -> (forall l, Permutation (e_order e l) l) -> at_hand s q -> sstep e s o = Some s' ->
  step_logs e s o d = step_says e s o d -> ~ loud_op q o -> s_hist s' = s_hist s ++ evs -> (forall ev, In ev evs -> ~ loud ev) ->
  exists evs, s_hist s' = s_hist s ++ evs /\ spoken e configs (s_hist s) q f o d evs (step_logs e s o d).
Proof.
  intros R OK Q H S N E L. destruct (step_explained _ _ _ _ _ _ d _ R OK Q H) as (evs' & E' & X).
  rewrite E in E'. apply app_inv_head in E'. subst evs'. exists evs. split; [exact E|]. rewrite S. apply sp_other; assumption.
Qed.
Lemma silent_step e configs s s' q f o d l : s_hist s' = s_hist s -> spoken e configs (s_hist s) q f o d [] l ->
  exists evs, s_hist s' = s_hist s ++ evs /\ spoken e configs (s_hist s) q f o d evs l.
Proof. intros E X. exists []. rewrite E, app_nil_r. auto. Qed.
Lemma act_spoken e configs s q f o d a k p s' l : goes s a k p = s' -> spoken e configs (s_hist s) q f o d (effects a) l ->
  exists evs, s_hist s' = s_hist s ++ evs /\ spoken e configs (s_hist s) q f o d evs l.
Proof. intros <- X. exists (effects a). rewrite goes_hist. auto. Qed.
Lemma goes_dead s a k p : dead p = false -> dead (s_pc (goes s a k p)) = dies a.
Proof. intros D. destruct a; [exact D|reflexivity]. Qed.

Lemma step_spoken k e configs s q o d s' : reachable k e configs s -> (forall l, Permutation (e_order e l) l) -> at_hand s q -> sstep e s o = Some s' ->
  exists evs, s_hist s' = s_hist s ++ evs /\ spoken e configs (s_hist s) q (dead (s_pc s') && negb (dead (s_pc s))) o d evs (step_logs e s o d).
Proof.
  intros R OK Q H. set (f := dead (s_pc s') && negb (dead (s_pc s))).
  assert (NP : match o with KFork _ | KGone _ | KAdopt _ | KExit _ _ | KWrite _ _ | KHangup _ => True | _ => ~ panicked s end).
  { unfold panicked. destruct o as [| | | | | | | | | | |[x|]]; try exact Logic.I; cbn in H; destruct (s_pc s); try discriminate H; intros []. }
  pose proof (fun evs => other_step k e configs s q f o d s' evs R OK Q H) as Other.
  assert (Quiet : step_logs e s o d = step_says e s o d -> ~ loud_op q o -> s_hist s' = s_hist s ->
    exists evs, s_hist s' = s_hist s ++ evs /\ spoken e configs (s_hist s) q f o d evs (step_logs e s o d)).
  { intros S N E. apply (Other [] S N); [rewrite app_nil_r; exact E|intros ev []]. }
  destruct o as [pid|pid|pid|pid st|fd data|fd| |r|now r|evs|a|[pid|]]; cbn in H.
  - destruct (_ && _); [|discriminate]. inversion H; subst. apply Quiet; [reflexivity|intros []|reflexivity].
  - destruct (k_procs (s_k s) !! pid) as [[]|]; inversion H; subst; (apply Quiet; [reflexivity|intros []|reflexivity]).
  - destruct (k_procs (s_k s) !! pid) as [[]|]; inversion H; subst; (apply Quiet; [reflexivity|intros []|reflexivity]).
  - destruct (k_procs (s_k s) !! pid) as [[]|]; try discriminate. destruct (valid_status st); inversion H; subst; (apply Quiet; [reflexivity|intros []|reflexivity]).
  - destruct (k_pipes (s_k s) !! fd) as [p|]; [|discriminate]. destruct (pp_open p); [|discriminate]. apply Some_inj in H.
    apply (Other [EWrote fd data]); [reflexivity|intros []|subst s'; reflexivity|intros ev [<-|[]]; exact (fun F => F)].
  - destruct (k_pipes (s_k s) !! fd) as [p|]; inversion H; subst; (apply Quiet; [reflexivity|intros []|reflexivity]).
  - destruct (s_pc s); try discriminate. apply Some_inj in H. unfold step_head in H.
    destruct (s_shut s); [destruct (has_running_processes (s_g s))|destruct (g_keep (s_g s) && (has_running_processes (s_g s) || has_runnables (g_dep (s_g s))))];
      try (apply Quiet; [reflexivity|intros []|subst s'; reflexivity]).
    apply (Other [EExit (g_exit (s_g s))]); [reflexivity|intros []|subst s'; reflexivity|intros ev [<-|[]]; exact (fun F => F)].
  - destruct (s_pc s); try discriminate H.
    cbn [step_logs step_says] in *. unfold spawn_dep, spawn_dep_logs, spawn_dep_says in *. destruct (pop_dep (g_dep (s_g s))) as [[id dm]|].
    2:{ apply Some_inj in H. apply Quiet; [reflexivity|intros []|subst s'; reflexivity]. }
    change (g_procs (set_dep (s_g s) dm)) with (g_procs (s_g s)) in *.
    assert (Nil : spoken e configs (s_hist s) q f (CSpawnDep r) d [] []) by
      (apply sp_other; [intros []|intros ev []|apply ex_other; [intros []|intros ev []|constructor]]).
    match type of H with context [forks ?x] => set (a := x) in * end.
    match goal with |- context [spoken _ _ _ _ _ _ _ _ ?ls] => assert (N : spoken e configs (s_hist s) q f (CSpawnDep r) d (effects a) ls) end.
    { subst a. destruct (g_procs (s_g s) !! id) as [p|] eqn:Hp; [|exact Nil]. destruct (p_type p); [|  |exact Nil];
        exact (spawn_spoken R NP q f (CSpawnDep r) d (set_dep (s_g s) dm) id r [] [] eq_refl (fun _ F => match F with end) (tr_dep r id) (sc_none _ _) (ex_intro _ _ Hp)). }
    destruct (forks a); [destruct (fork_fits e (s_k s) r); [|discriminate]|]; apply Some_inj in H; exact (act_spoken _ _ _ _ _ _ _ _ _ _ _ _ H N).
  - destruct (s_pc s); try discriminate H.
    pose proof (so_good _ _ _ (wh_sound _ _ _ (whole_of R NP))) as G.
    cbn [step_logs step_says] in *. unfold spawn_cron, spawn_cron_logs, spawn_cron_says in *. destruct (cron_pop (e_zone e) (g_cron (s_g s)) now) as [[c [id|]]|m] eqn:C.
    2,3: rewrite (not_scheduled R NP) in * by (intros c' id'; rewrite C; discriminate); cbn [app] in *; cbn [forks] in H; apply Some_inj in H;
         (apply Quiet; [reflexivity|intros []|subst s'; try reflexivity]).
    2: rewrite goes_hist; apply app_nil_r.
    pose proof (scheduled_as R NP _ _ _ C) as Sc. pose proof (due_cronjob _ _ _ _ _ _ (go_flow _ _ _ G) C) as Cj.
    assert (Pr : is_Some (g_procs (s_g s) !! id)).
    { destruct Cj as (c0 & t & Hc & _). apply lookup_lt_is_Some. rewrite (ma_len _ _ _ (go_maps _ _ _ G)). apply nth_error_Some. congruence. }
    match type of H with context [forks ?x] => set (a := x) in * end.
    match goal with |- context [spoken _ _ _ _ _ _ _ _ ?ls] => assert (N : spoken e configs (s_hist s) q f (CSpawnCron now r) d (effects a) ls) end.
    { subst a. rewrite effects_then. cbn [effects]. destruct (is_runnable (g_dep (set_cron (s_g s) c)) id).
      - apply (spawn_spoken R NP); [reflexivity| |constructor|exact Sc|exact Pr]. intros ev [<-|[]]. exact Logic.I.
      - change (g_procs (set_cron (s_g s) c)) with (g_procs (s_g s)). destruct Pr as [p Hp]. rewrite Hp. cbn [effects app].
        apply sp_skipped; [exact Sc|]. cbn. rewrite (called_as R _ _ Hp). reflexivity. }
    destruct (forks a); [destruct (fork_fits e (s_k s) r); [|discriminate]|]; apply Some_inj in H; exact (act_spoken _ _ _ _ _ _ _ _ _ _ _ _ H N).
  - destruct (s_pc s); try discriminate. destruct evs as [l|].
    + destruct (_ && _); [|discriminate]. apply Some_inj in H. apply silent_step; [subst s'; reflexivity|]. constructor.
    + apply Some_inj in H. apply Quiet; [reflexivity|intros []|subst s'; reflexivity].
  - cbn [step_logs step_says] in *.
    destruct (s_pc s) as [| | | |[|ev rest]| | |] eqn:P; try discriminate;
      [apply Some_inj in H; apply Quiet; [reflexivity|rewrite (Q _ P); destruct a as [[]| | |]; cbn; tauto|subst s'; reflexivity]|]. specialize (Q _ P). subst q.
    unfold step_event in H. unfold event_logs, event_says in *. destruct ev as [fd|fd|fd].
    + destruct (fd =? e_signal e) eqn:Fg.
      { apply Z.eqb_eq in Fg. subst fd. destruct a as [sg|ok|m|n]; try discriminate. apply Some_inj in H.
        assert (Sh : forall sg', sg = Some sg' -> sg' <> SIGCHLD -> (forall evs, Permutation (e_order e evs) evs) ->
          exists evs0, s_hist s' = s_hist s ++ evs0 /\ spoken e configs (s_hist s) (EvIn (e_signal e) :: rest) f (CEvent (ASignal sg)) d evs0 (signal_logs d sg)).
        { intros sg' -> NC _. apply (Other (effects (handle_signal (reach (s_k s)) (s_g s) (Some sg')))).
          - destruct sg'; try reflexivity. congruence.
          - intros [].
          - subst s'. apply goes_hist.
          - unfold handle_signal. intros ev K. destruct sg'; rewrite ?effects_then in K; cbn [effects app] in K; try congruence;
              (destruct K as [<-|K]; [exact (fun F => F)|]); apply shutdown_effects in K as [x ->]; exact (fun F => F). }
        destruct sg as [[]|]; try (apply (Sh _ eq_refl); [discriminate|exact OK]).
        - eapply act_spoken; [exact H|]. unfold handle_signal. cbn [effects]. eapply sp_child_signal. reflexivity.
        - eapply act_spoken; [exact H|]. unfold handle_signal, signal_logs. cbn [effects].
          destruct (d_unread d) as [why|] eqn:U; [eapply sp_bad_signal|eapply sp_no_signal]; try reflexivity; exact U. }
      destruct (fd =? e_status e) eqn:Fs.
      { destruct a as [sg|ok|m|n]; try discriminate. destruct ok; apply Some_inj in H; [|apply Quiet; [reflexivity|intros []|subst s'; reflexivity]].
        destruct (report_status (e_rfc3339 e) (s_g s)) as [g' evs|m evs] eqn:Rp; (apply (Other evs); [reflexivity|intros []|subst s'; rewrite goes_hist; reflexivity|]);
          unfold report_status in Rp; destruct (format_report _ _); inversion Rp; subst; [intros ev [<-|[]]; exact (fun F => F)|intros ev []]. }
      destruct (fd =? e_notify e) eqn:Fn.
      { apply Z.eqb_eq in Fn. subst fd. destruct a as [sg|ok|[[dg sender]|]|n]; try discriminate; apply Some_inj in H; [|apply Quiet; [reflexivity|intros []|subst s'; reflexivity]].
        eapply act_spoken; [exact H|]. unfold receive, receive_logs in *.
        assert (Nil : spoken e configs (s_hist s) (EvIn (e_notify e) :: rest) f (CEvent (AMessage (Some (dg, sender)))) d [] []) by
          (apply sp_other; [intros []|intros ev []|apply ex_other; [intros []|intros ev []|constructor]]).
        destruct (read_text dg) as [[text|m]|] eqn:Rd; [|exact Nil..].
        pose proof (message_spoken R NP (EvIn (e_notify e) :: rest) d dg text sender rest OK eq_refl Rd) as M.
        replace f with (dies (process_message (e_order e) (s_g s) text sender)); [exact M|]. subst f s'. rewrite (goes_dead _ _ _ (AtEvents rest)) by reflexivity. cbn. rewrite andb_true_r. reflexivity. }
      destruct a as [sg|ok|m|[n|]]; try discriminate; [|apply Some_inj in H; apply Quiet; [reflexivity|intros []|subst s'; reflexivity]].
      destruct (k_pipes (s_k s) !! fd) as [p|]; [|discriminate]. destruct (_ && _); [|discriminate]. apply Some_inj in H.
      eapply Other; [reflexivity|intros []|subst s'; apply goes_hist|].
      unfold print_child_output. destruct (process_for_fd (s_g s) fd) as [x|m]; cbn [effects]; intros ev [<-|K]; try exact (fun F => F); [|destruct K].
      apply in_map_iff in K. destruct K as (t & <- & _). exact (fun F => F).
    + apply Some_inj in H. eapply Other; [reflexivity| |subst s'; apply goes_hist|intros ev [<-|[]]; exact (fun F => F)]. destruct a as [[]| | |]; cbn; tauto.
    + apply Some_inj in H. apply Quiet; [reflexivity| |subst s'; reflexivity]. destruct a as [[]| | |]; cbn; tauto.
  - cbn [step_logs step_says] in *. assert (Ps : dead (s_pc s) = false) by (destruct (s_pc s); try discriminate H; reflexivity).
    destruct (s_pc s); try discriminate. destruct (k_procs (s_k s) !! pid) as [[| | |st]|] eqn:Z; try discriminate.
    assert (V : valid_status st = true) by (apply (wh_procs _ _ _ (whole_of R NP)) in Z; destruct Z as [_ Z]; auto).
    set (r := reach (set_kprocs (s_k s) (delete pid (k_procs (s_k s))))) in *.
    destruct (child_ended r (s_g s) pid st) as [a more] eqn:E. apply Some_inj in H.
    assert (F : f = dies a) by (subst f s'; rewrite goes_dead, andb_true_r; [reflexivity|destruct more; reflexivity]).
    unfold child_ended in E. unfold ended_logs, ended_says in *.
    destruct st as [rc|n|n]; apply (f_equal fst) in E; cbn [fst] in E; subst a.
    + eapply act_spoken; [exact H|]. rewrite F, effects_then. cbn [effects app].
      replace (dies _) with (dies (handle_finished_child r (s_g s) pid rc)) by (cbn; destruct (handle_finished_child r (s_g s) pid rc); reflexivity).
      apply (finished_spoken R NP); [constructor|reflexivity].
    + eapply act_spoken; [exact H|]. rewrite F, effects_then. cbn [effects app].
      replace (dies _) with (dies (handle_finished_child r (s_g s) pid n)) by (cbn; destruct (handle_finished_child r (s_g s) pid n); reflexivity).
      apply (finished_spoken R NP); [|reflexivity]. cbn in V. apply andb_prop in V as [V1 V2].
      destruct (signal_named n) as (i & -> & Hn); [lia|]. constructor. exact Hn.
    + eapply Other; [reflexivity|intros []|subst s'; apply goes_hist|]. intros ev [<-|[<-|[]]]; exact (fun F => F).
  - destruct (s_pc s); try discriminate. destruct (forallb _ _); [|discriminate]. apply Some_inj in H. apply Quiet; [reflexivity|intros []|subst s'; reflexivity].
Qed.

(** * Executions *)
Lemma speaks_snoc e configs ops : forall b q h ls f o d evs l f', speaks e configs b q ops h ls f ->
  spoken e configs (b ++ h) (left_over q ops) f' o d evs l -> speaks e configs b q (ops ++ [(o, d)]) (h ++ evs) (ls ++ l) (f || f').
Proof.
  induction ops as [|[o' d'] ops IH]; intros b q h ls f o d evs l f' A X; inversion A; subst.
  - rewrite app_nil_r in X. cbn [app]. rewrite <- (app_nil_r evs), <- (app_nil_r l). replace (false || f') with (f' || false) by (destruct f'; reflexivity).
    apply sk_step; [exact X|constructor].
  - cbn [app]. rewrite <- !app_assoc, <- orb_assoc. apply sk_step; [assumption|]. apply IH; [assumption|]. rewrite <- app_assoc. exact X.
Qed.
Lemma narrate_all_snoc e ops : forall s0 o d s ls, narrate_all e s0 (ops ++ [(o, d)]) = Some (s, ls) ->
  exists s1 ls1, narrate_all e s0 ops = Some (s1, ls1) /\ sstep e s1 o = Some s /\ ls = ls1 ++ step_logs e s1 o d.
Proof.
  induction ops as [|[o' d'] ops IH]; intros s0 o d s ls H; cbn in H.
  - destruct (sstep e s0 o) as [s'|] eqn:E; [|discriminate]. inversion H; subst. exists s0, []. rewrite app_nil_r. auto.
  - destruct (sstep e s0 o') as [s'|] eqn:E; [|discriminate]. destruct (narrate_all e s' (ops ++ [(o, d)])) as [[s2 l2]|] eqn:N; [|discriminate].
    apply Some_inj in H. inversion H; subst. destruct (IH _ _ _ _ _ N) as (s1 & ls1 & N1 & E1 & ->).
    exists s1, (step_logs e s0 o' d' ++ ls1). cbn. rewrite E, N1, app_assoc. auto.
Qed.
Lemma dead_stays e s o s' : sstep e s o = Some s' -> dead (s_pc s) = true -> dead (s_pc s') = true.
Proof.
  intros H D. destruct (s_pc s) eqn:P; try discriminate D. destruct o as [| | | | | | | | | | |[x|]]; cbn in H; rewrite ?P in H; try discriminate H.
  - destruct (_ && _); [|discriminate]. apply Some_inj in H; subst s'; change (dead (s_pc s) = true); rewrite P; reflexivity.
  - destruct (k_procs (s_k s) !! pid) as [[]|]; try discriminate; apply Some_inj in H; subst s'; change (dead (s_pc s) = true); rewrite P; reflexivity.
  - destruct (k_procs (s_k s) !! pid) as [[]|]; try discriminate; apply Some_inj in H; subst s'; change (dead (s_pc s) = true); rewrite P; reflexivity.
  - destruct (k_procs (s_k s) !! pid) as [[]|]; try discriminate. destruct (valid_status st); try discriminate; apply Some_inj in H; subst s'; change (dead (s_pc s) = true); rewrite P; reflexivity.
  - destruct (k_pipes (s_k s) !! fd) as [p|]; [|discriminate]. destruct (pp_open p); [|discriminate]. apply Some_inj in H; subst s'; reflexivity.
  - destruct (k_pipes (s_k s) !! fd) as [p|]; [|discriminate]. apply Some_inj in H; subst s'; change (dead (s_pc s) = true); rewrite P; reflexivity.
Qed.
Lemma log_speaks k e configs s0 ops s ls : launched k e configs s0 -> narrate_all e s0 ops = Some (s, ls) ->
  speaks e configs [] [] ops (s_hist s) ls (dead (s_pc s)).
Proof.
  intros L. pose proof (launched_start _ _ _ _ L) as St. pose proof L as (_ & _ & OK & a & others & _ & _ & Es0).
  enough (G : narrate_all e s0 ops = Some (s, ls) -> speaks e configs [] [] ops (s_hist s) ls (dead (s_pc s)) /\ at_hand s (left_over [] ops)) by (intros H; apply G; exact H).
  revert s ls. induction ops as [|[o d] ops IH] using rev_ind; intros s ls H.
  - cbn in H. inversion H; subst. split; [rewrite (ss_hist _ _ St); constructor|]. intros l P. discriminate P.
  - destruct (narrate_all_snoc _ _ _ _ _ _ _ H) as (s1 & ls1 & H1 & E & ->). destruct (IH _ _ H1) as [A Q].
    pose proof (narrate_above _ _ _ _ _ H1) as H2. pose proof (narrate_reachable _ _ _ _ _ _ _ L H2) as R.
    destruct (step_spoken _ _ _ _ _ _ d _ R OK Q E) as (evs & Eh & X). split.
    + rewrite Eh. replace (dead (s_pc s)) with (dead (s_pc s1) || dead (s_pc s) && negb (dead (s_pc s1))).
      * apply speaks_snoc; [exact A|exact X].
      * destruct (dead (s_pc s1)) eqn:D; [symmetry; eapply dead_stays; eassumption|]. cbn. apply andb_true_r.
    + rewrite left_over_snoc. eapply hand_step; [exact Q|exact E].
Qed.
Lemma records_above ls rs : recorded_all ls rs -> recorded (above_debug ls) rs.
Proof.
  intros R. induction R as [|l t r ls rs O Lv T R IH|time out name t ls rs St R IH].
  - constructor.
  - unfold above_debug. cbn [List.filter]. destruct l; cbn [is_debug negb]; try (apply re_own; assumption). apply re_debug; assumption.
  - apply re_child; assumption.
Qed.

(** * What can be read at DEBUG level *)
Lemma level_app l a b : at_level l (a ++ b) = at_level l a ++ at_level l b.
Proof. induction a as [|[l' t|out name t] a IH]; cbn; rewrite ?IH; [reflexivity| |reflexivity]. destruct (level_eqb l' l); reflexivity. Qed.
Lemma texts_app p a b : debug_texts p (a ++ b) = debug_texts p a ++ debug_texts p b.
Proof. unfold debug_texts. rewrite level_app. apply List.filter_app. Qed.
Lemma tells_no_debug configs b ev l : tells configs b ev l -> at_level LDebug l = [].
Proof.
  assert (V : forall why name v x l, variable_tells why name v x l -> at_level LDebug l = []) by (intros ? ? ? ? ? []; reflexivity).
  assert (Vs : forall why name v x l, variables_tell why name v x l -> at_level LDebug l = []).
  { induction 1; [reflexivity|]. rewrite level_app, IHvariables_tell. erewrite V by eassumption. reflexivity. }
  assert (Pr : forall c b, at_level LDebug (prepares c b) = []) by (intros c b'; unfold prepares; destruct (pc_pty c && b'); reflexivity).
  intros T. destruct T; try reflexivity; rewrite ?level_app, ?Pr; try reflexivity.
  - destruct n as [|[|[|n]]]; [reflexivity..|lia].
  - match goal with X : variables_tell _ _ _ _ _ |- _ => rewrite (Vs _ _ _ _ _ X) end. rewrite app_nil_r. clear -H0. induction l as [|x l IH]; [reflexivity|].
    destruct (H0 x (or_introl eq_refl)); cbn; apply IH; intros y K; apply H0; right; exact K.
Qed.
Lemma plainly_no_debug configs b h l : plainly configs b h l -> at_level LDebug l = [].
Proof. induction 1; [reflexivity|]. rewrite level_app, IHplainly. erewrite tells_no_debug by eassumption. reflexivity. Qed.
Lemma lines_no_debug ts l : lines_tell ts l -> at_level LDebug l = [].
Proof. induction 1 as [|t ts a b H H2 IH]; [reflexivity|]. rewrite level_app, IH, app_nil_r. destruct H; reflexivity. Qed.
Lemma explained_no_debug e configs b q o d evs l : explained e configs b q o d evs l -> (forall ev, In ev evs -> ~ loud ev) -> at_level LDebug l = [].
Proof.
  intros X N. destruct X; try reflexivity.
  1-4: exfalso; match goal with H : tries _ _ _ _ |- _ => destruct H end; eapply N; try (left; reflexivity); try (right; left; reflexivity); exact Logic.I.
  - destruct (d_unwritten d); reflexivity.
  - exfalso. eapply N; [left; reflexivity|exact Logic.I].
  - eapply plainly_no_debug. eassumption.
Qed.

(** The other messages at DEBUG level. *)
Inductive ordinary : string -> Prop :=
| or_flags : ordinary "Could not get terminal flags"
| or_size : ordinary "Not running inside tty, using sane defaults"
| or_fd x : ordinary ("Registering fd " +:+ x)
| or_child x : ordinary ("child " +:+ x)
| or_process x : ordinary ("Process " +:+ x).
Definition special (p : string) : Prop := forall t, ordinary t -> begins p t = false.
Lemma specials : special "Got signal from child: " /\ special "Received notification '" /\ special "Scheduled next execution at " /\ special "Refusing to start cronjob child '".
Proof. repeat apply conj; intros t []; reflexivity. Qed.
Lemma no_texts p ls : special p -> (forall t, In t (at_level LDebug ls) -> ordinary t) -> debug_texts p ls = [].
Proof.
  intros S H. unfold debug_texts. induction (at_level LDebug ls) as [|t l IH]; [reflexivity|]. cbn.
  rewrite (S t) by (apply H; left; reflexivity). apply IH. intros x K. apply H. right. exact K.
Qed.
Lemma none_texts p ls : at_level LDebug ls = [] -> debug_texts p ls = [].
Proof. intros H. unfold debug_texts. rewrite H. reflexivity. Qed.
Lemma prepares_texts p d c b : special p -> debug_texts p (prepares_all d c b) = [].
Proof.
  intros S. apply no_texts; [exact S|]. unfold prepares_all. intros t K.
  destruct (pc_pty c), (d_flags d), (d_size d), b; cbn in K; repeat destruct K as [<-|K]; try constructor; destruct K.
Qed.
Lemma registers_texts p fd w : special p -> debug_texts p (registers fd w) = [].
Proof. intros S. apply no_texts; [exact S|]. intros t K. destruct w; cbn in K; destruct K as [<-|[]]; constructor. Qed.
Lemma reminded_texts p h id m : special p -> reminded h id m -> debug_texts p m = [].
Proof. intros S R. apply no_texts; [exact S|]. intros t K. destruct R; cbn in K; [destruct K as [<-|[]]|destruct K]. constructor. Qed.
Lemma variables_texts p why name v vars l : special p -> variables_all why name v vars l -> debug_texts p l = [].
Proof.
  intros S V. induction V as [|v x r a b A V IH]; [reflexivity|]. rewrite texts_app, IH, app_nil_r. destruct A as [A|x a A B].
  - apply no_texts; [exact S|]. intros t [<-|[]]. constructor.
  - apply none_texts. destruct B; reflexivity.
Qed.

Definition shown (e : env) (configs : list proc_config) (h : list event) (ls : list line) : Prop :=
  Forall2 shows_end (reaped h) (debug_texts "Got signal from child: " ls) /\
  Forall2 shows_datagram (heard h) (debug_texts "Received notification '" ls) /\
  Forall2 (shows_next e configs) (dues h) (debug_texts "Scheduled next execution at " ls) /\
  debug_texts "Refusing to start cronjob child '" ls =
    map (fun id => "Refusing to start cronjob child '" +:+ called configs id +:+ "' because of uncompleted dependencies") (skips h).
Lemma reaped_app a b : reaped (a ++ b) = reaped a ++ reaped b.
Proof. induction a as [|[] a IH]; cbn; rewrite ?IH; try reflexivity. destruct st; reflexivity. Qed.
Lemma dues_app a b : dues (a ++ b) = dues a ++ dues b.
Proof. induction a as [|[] a IH]; cbn; rewrite ?IH; reflexivity. Qed.
Lemma skips_app a b : skips (a ++ b) = skips a ++ skips b.
Proof. induction a as [|[] a IH]; cbn; rewrite ?IH; reflexivity. Qed.
Lemma shown_app e configs h h' a b : shown e configs h a -> shown e configs h' b -> shown e configs (h ++ h') (a ++ b).
Proof.
  intros (A1 & A2 & A3 & A4) (B1 & B2 & B3 & B4). unfold shown. rewrite !texts_app, reaped_app, dues_app, skips_app, map_app, A4, B4.
  unfold heard in *. rewrite List.filter_app. repeat apply conj; try reflexivity; apply Forall2_app; assumption.
Qed.
Definition quiet_event (ev : event) : Prop :=
  match ev with EReap _ (XRealtime _) => True | EReap _ _ | ENotify _ _ _ | EIgnored _ | EDue _ _ | ESkipped _ => False | _ => True end.
Lemma shown_quiet e configs h ls : (forall ev, In ev h -> quiet_event ev) -> (forall p, special p -> debug_texts p ls = []) -> shown e configs h ls.
Proof.
  intros Q T. destruct specials as (S1 & S2 & S3 & S4).
  assert (H : reaped h = [] /\ heard h = [] /\ dues h = [] /\ skips h = []).
  { induction h as [|ev h IH]; [auto|]. assert (X := Q ev (or_introl eq_refl)). destruct IH as (A & B & C & D); [intros x K; apply Q; right; exact K|].
    destruct ev; cbn in *; try contradiction X; auto. destruct st; try contradiction X; auto. }
  destruct H as (A & B & C & D). unfold shown. rewrite A, B, C, D, !T by assumption. repeat apply conj; constructor.
Qed.
Lemma shown_due e configs pre due : scheduled e configs pre due -> shown e configs pre due.
Proof.
  intros [|id now d u T N]; [apply shown_quiet; [intros ev []|reflexivity]|]. exact (conj (List.Forall2_nil _) (conj (List.Forall2_nil _) (conj
    (List.Forall2_cons (id, now) ("Scheduled next execution at " +:+ e_rfc3339 e u) (ex_intro _ d (ex_intro _ u (conj T (conj N eq_refl)))) (List.Forall2_nil _)) eq_refl))).
Qed.
Lemma shown_none e configs ls : (forall p, special p -> debug_texts p ls = []) -> shown e configs [] ls.
Proof. apply shown_quiet. intros ev []. Qed.
Lemma number_first z t : begins "signal from child: " (show_Z z +:+ t) = false.
Proof.
  unfold show_Z. destruct (Z.to_int z) as [u|u]; cbn [DecimalString.NilZero.string_of_int]; [|reflexivity]. destruct u; reflexivity.
Qed.
Lemma shown_batch e configs n : shown e configs [] [dbg ("Got " +:+ show_Z n +:+ " events")].
Proof.
  assert (E : debug_texts "Got signal from child: " [dbg ("Got " +:+ show_Z n +:+ " events")] = []).
  { change (List.filter (begins "Got signal from child: ") ["Got " +:+ show_Z n +:+ " events"] = []). cbn [List.filter].
    replace (begins _ _) with (begins "signal from child: " (show_Z n +:+ " events")) by reflexivity. rewrite number_first. reflexivity. }
  split; [rewrite E; constructor|]. exact (conj (List.Forall2_nil _) (conj (List.Forall2_nil _) eq_refl)).
Qed.
Lemma shown_end e configs core pid st t : ended_as core pid st t -> shown e configs [EReap pid st] [dbg t].
Proof.
  intros [rc|i name H].
  - exact (conj (List.Forall2_cons (pid, XExit rc) _ (ex_intro _ core (en_exit core pid rc)) (List.Forall2_nil _)) (conj (List.Forall2_nil _) (conj (List.Forall2_nil _) eq_refl))).
  - exact (conj (List.Forall2_cons (pid, XSignal (Z.of_nat i + 1)) _ (ex_intro _ core (en_signal core pid i name H)) (List.Forall2_nil _)) (conj (List.Forall2_nil _) (conj (List.Forall2_nil _) eq_refl))).
Qed.
Lemma spoken_shown e configs b q f o d evs l : spoken e configs b q f o d evs l -> shown e configs evs l.
Proof.
  intros X. destruct X.
  - apply shown_app; [apply shown_due; assumption|]. apply shown_quiet; [intros ev [<-|[<-|[<-|[]]]]; exact Logic.I|].
    intros p S. rewrite !texts_app, prepares_texts, !registers_texts by assumption. reflexivity.
  - apply shown_app; [apply shown_due; assumption|]. apply shown_quiet; [intros ev [<-|[]]; exact Logic.I|].
    intros p S. rewrite !texts_app, prepares_texts by assumption. reflexivity.
  - apply shown_app; [apply shown_due; assumption|]. apply shown_quiet; [intros ev [<-|[]]; exact Logic.I|].
    intros p S. rewrite !texts_app, prepares_texts by assumption. reflexivity.
  - apply shown_app; [apply shown_due; assumption|]. apply shown_quiet; [intros ev [<-|[]]; exact Logic.I|].
    intros p S. rewrite !texts_app, prepares_texts by assumption. reflexivity.
  - apply shown_app; [apply shown_due; assumption|]. apply shown_quiet; [intros ev [<-|[]]; exact Logic.I|reflexivity].
  - change [EDue id now; ESkipped id] with ([EDue id now] ++ [ESkipped id]). apply shown_app; [apply shown_due; assumption|].
    apply (f_equal (hd "")) in H0. cbn [hd told] in H0. subst t. exact (conj (List.Forall2_nil _) (conj (List.Forall2_nil _) (conj (List.Forall2_nil _) eq_refl))).
  - apply shown_batch.
  - exact (conj (List.Forall2_nil _) (conj (List.Forall2_nil _) (conj (List.Forall2_nil _) eq_refl))).
  - exact (conj (List.Forall2_nil _) (conj (List.Forall2_nil _) (conj (List.Forall2_nil _) eq_refl))).
  - exact (conj (List.Forall2_nil _) (conj (List.Forall2_nil _) (conj (List.Forall2_nil _) eq_refl))).
  - change (received text sender :: ls) with ([received text sender] ++ ls). rewrite <- (app_nil_r [EIgnored sender]). apply shown_app.
    + exact (conj (List.Forall2_nil _) (conj (List.Forall2_cons _ _ (sd_ignored sender text) (List.Forall2_nil _)) (conj (List.Forall2_nil _) eq_refl))).
    + apply shown_none. intros p S. apply none_texts. eapply tells_no_debug. eassumption.
  - change (received text sender :: js ++ vs ++ m) with ([received text sender] ++ js ++ vs ++ m). rewrite <- (app_nil_r [ENotify id sender vars]). apply shown_app.
    + exact (conj (List.Forall2_nil _) (conj (List.Forall2_cons _ _ (sd_accepted id sender vars text H7) (List.Forall2_nil _)) (conj (List.Forall2_nil _) eq_refl))).
    + apply shown_none. intros p S. rewrite !texts_app. rewrite (none_texts p js) by (eapply lines_no_debug; eassumption).
      rewrite (variables_texts p _ _ _ _ _ S H8). cbn [app].
      destruct (in_dec (fun x y => decide (x = y)) ("READY", "1") vars) as [I|I]; [eapply reminded_texts; eauto|rewrite (H10 I); reflexivity].
  - change (dbg t :: ls) with ([dbg t] ++ ls). change [EReap pid st; EUnknown pid (code_of st)] with ([EReap pid st] ++ [EUnknown pid (code_of st)]). apply shown_app.
    + eapply shown_end. eassumption.
    + apply shown_quiet; [intros ev [<-|[]]; exact Logic.I|]. intros p S. apply none_texts. eapply tells_no_debug. eassumption.
  - change (dbg t :: ls ++ m) with ([dbg t] ++ ls ++ m). change (EReap pid st :: EEnd id pid (code_of st) :: ks) with ([EReap pid st] ++ EEnd id pid (code_of st) :: ks). apply shown_app.
    + eapply shown_end. eassumption.
    + apply shown_quiet; [intros ev [<-|K]; [exact Logic.I|destruct (H2 _ K) as [x ->]; exact Logic.I]|].
      intros p S. rewrite texts_app, (none_texts p ls) by (eapply tells_no_debug; eassumption). cbn [app].
      destruct f; [rewrite H3 by (right; reflexivity); reflexivity|]. destruct (cronjob_dec configs id) as [C|C]; [rewrite H3 by (left; exact C); reflexivity|].
      eapply reminded_texts; [exact S|]. apply H4; [exact C|reflexivity].
  - apply shown_quiet.
    + intros ev K. pose proof (H0 ev K) as N. destruct ev; try exact Logic.I; try (exfalso; apply N; exact Logic.I).
      destruct st; try exact Logic.I; exfalso; apply N; exact Logic.I.
    + intros p S. apply none_texts. eapply explained_no_debug; eassumption.
Qed.
Lemma speaks_shown e configs b q ops h ls f : speaks e configs b q ops h ls f -> shown e configs h ls.
Proof.
  induction 1; [apply shown_none; reflexivity|]. apply shown_app; [eapply spoken_shown; eassumption|assumption].
Qed.

(** From such a line one can tell what happened. *)
Lemma show_Z_inj a b : show_Z a = show_Z b -> a = b.
Proof.
  unfold show_Z. intros H. apply (f_equal DecimalString.NilZero.int_of_string) in H.
  assert (N : forall z, DecimalString.NilZero.int_of_string (DecimalString.NilZero.string_of_int (Z.to_int z)) = Some (Z.to_int z)).
  { intros z. apply DecimalString.NilZero.isi; destruct z; cbn; try discriminate; intros K; inversion K as [K'];
      apply (f_equal Pos.of_uint) in K'; rewrite DecimalPos.Unsigned.of_to in K'; discriminate K'. }
  rewrite !N in H. apply Some_inj in H. apply (f_equal Z.of_int) in H. rewrite !DecimalZ.of_to in H. exact H.
Qed.
Lemma number_free c z : c = ","%char \/ c = ")"%char -> free_of c (show_Z z).
Proof.
  intros C. assert (U : forall u, free_of c (DecimalString.NilEmpty.string_of_uint u)).
  { unfold free_of. induction u; cbn in *; destruct C as [-> | ->]; intuition discriminate. }
  assert (V : forall u, free_of c (DecimalString.NilZero.string_of_uint u))
    by (intros []; [unfold free_of; cbn; destruct C as [-> | ->]; intuition discriminate|apply U..]).
  unfold show_Z. destruct (Z.to_int z) as [u|u]; cbn [DecimalString.NilZero.string_of_int]; [apply V|].
  specialize (V u). unfold free_of in *. cbn. destruct C as [-> | ->]; intuition discriminate.
Qed.
Lemma string_app_inv_head (a b c : string) : a +:+ b = a +:+ c -> b = c.
Proof. induction a as [|x a IH]; cbn; intros H; [exact H|]. inversion H. auto. Qed.
Lemma ended_as_inj core core' pid pid' st st' t : ended_as core pid st t -> ended_as core' pid' st' t -> pid = pid' /\ st = st'.
Proof.
  assert (P : forall c x y, free_of c (show_Z x) -> free_of c (show_Z y) -> forall a b, show_Z x +:+ String c a = show_Z y +:+ String c b -> x = y /\ a = b).
  { intros c x y A B a b E. apply RunForge.app_char_same in E; [|assumption..]. destruct E as (E & _ & F). split; [apply show_Z_inj; exact E|exact F]. }
  assert (Q : forall x y a b, show_Z x +:+ String ")" a = show_Z y +:+ String ")" b -> x = y /\ a = b) by (intros x y a b; apply P; apply number_free; auto).
  intros A B. destruct A as [rc|i name Hi]; inversion B as [rc' E1 E2|i' name' Hi' E1 E2]; subst.
  - apply Q in E2 as [-> E2]. split; [reflexivity|].
    apply (string_app_inv_head ", ") in E2. apply Q in E2 as [-> _]. reflexivity.
  - apply Q in E2 as [-> E2]. split; [reflexivity|].
    apply (string_app_inv_head ", ") in E2.
    assert (N : forall j n, nth_error signal_names j = Some n -> free_of ","%char n).
    { intros j n K. apply nth_error_In in K. unfold free_of. cbn in K. intuition (subst n; cbn in *; intuition discriminate). }
    apply RunForge.app_char_same in E2; [|eauto..]. destruct E2 as (E & _ & _). subst name'.
    assert (ND : List.NoDup signal_names) by (repeat constructor; cbn; intuition discriminate).
    assert (i' = i); [|subst; reflexivity]. apply (proj1 (NoDup_nth_error signal_names) ND); [apply nth_error_Some; congruence|congruence].
Qed.

(** With -v all of it is shown. *)
Lemma debug_shown v ls rs es : 1 <= v -> recorded_all ls rs -> stdout_entries v rs es ->
  forall t, In t (at_level LDebug ls) -> exists time, stamp time /\ In (log_entry time LDebug "cinit" t) es.
Proof.
  intros V R. revert es. induction R as [|l t r ls rs O Lv T R IH|time out name t ls rs St R IH]; intros es E u K.
  - destruct K.
  - assert (NC : forall x out name y, r <> child_record x out name y).
    { intros x out name y ->. destruct O as [_ O]. destruct out; [destruct (O "") as [O1 _]; apply O1; reflexivity|destruct (O "") as [_ O1]; apply O1; reflexivity]. }
    cbn [at_level] in K. inversion E; subst; try (exfalso; eapply NC; reflexivity).
    + destruct (level_eqb (r_level r) LDebug) eqn:D.
      * destruct K as [<-|K].
        -- exists (r_time r). split; [apply O|]. left. destruct (r_level r); try discriminate D. reflexivity.
        -- edestruct IH as (x & S & I); [eassumption|exact K|]. exists x. split; [exact S|right; exact I].
      * edestruct IH as (x & S & I); [eassumption|exact K|]. exists x. split; [exact S|right; exact I].
    + destruct (level_eqb (r_level r) LDebug) eqn:D.
      * exfalso. match goal with H : ~ documented _ _ |- _ => apply H end. right. right. right. left. destruct (r_level r); try discriminate D. auto.
      * eapply IH; eassumption.
  - cbn [at_level] in K. inversion E; subst; try (edestruct IH as (x & S & I); [eassumption|exact K|]; exists x; split; [exact S|]; try right; exact I).
Qed.
Lemma shows_end_inj x x' t : shows_end x t -> shows_end x' t -> x = x'.
Proof. destruct x as [pid st], x' as [pid' st']. intros [c A] [c' B]. cbn in A, B. destruct (ended_as_inj _ _ _ _ _ _ _ A B) as [-> ->]. reflexivity. Qed.
Lemma whole_log_shown k e configs s0 ops s ls rs v : launched k e configs s0 -> narrate_all e s0 ops = Some (s, ls) -> recorded_all ls rs -> 1 <= v <= 2 ->
  exists es, stdout_entries v rs es /\ console_text v rs Stdout = Ret (each_ended es) /\
    forall t, In t (at_level LDebug ls) -> exists time, stamp time /\ In (log_entry time LDebug "cinit" t) es.
Proof.
  intros L H R V. pose proof (narrate_above _ _ _ _ _ H) as N. pose proof (narrated_said _ _ _ _ (log_narrated _ _ _ _ _ _ _ L N) _ (records_above _ _ R)) as S.
  destruct (stdout_exact _ _ v S) as (es & E & C); [lia|]. exists es. split; [exact E|]. split; [exact C|]. eapply debug_shown; [|exact R|exact E]. lia.
Qed.
Lemma execution_logged e s0 ops s : execute e s0 (map fst ops) = Some s <-> exists ls, narrate_all e s0 ops = Some (s, ls).
Proof.
  rewrite narrate_total. split; intros [ls H]; [eapply narrate_all_total; exact H|]. eexists. eapply narrate_above. exact H.
Qed.
