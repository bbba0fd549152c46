(** Lemmas about the messages of the event loop. *)
From stdpp Require Import gmap strings.
From Coq Require Import Ascii ZArith List Bool Lia Permutation.
From Verif Require Import Base RStr CronModel ConfigModel ProcessModel EnvModel DepModel NotifyModel ManagerModel SysModel MainModel LogModel TraceModel
  SpecRun SpecLog SpecEnd SpecTrace EnvProofs RunStep RunInv RunFlow RunHist RunAlive RunStream RunClaims RunLife RunThms RunFinal RunView RunSteps RunSteps4 EndProofs.
Import ListNotations.
Local Open Scope string_scope.
Local Open Scope list_scope.
Local Open Scope Z_scope.

(** * The shape of [narrated] *)
Lemma narrated_app configs b h1 l1 h2 l2 : narrated configs b h1 l1 -> narrated configs (b ++ h1) h2 l2 -> narrated configs b (h1 ++ h2) (l1 ++ l2).
Proof.
  intros N. revert h2 l2. induction N as [b|b ev h a ls T N IH|b h x ls A N IH]; intros h2 l2 M.
  - rewrite app_nil_r in M. exact M.
  - rewrite <- app_assoc. cbn [app]. apply na_effect; [exact T|]. apply IH. rewrite <- app_assoc. exact M.
  - cbn [app]. apply na_aside; [exact A|]. auto.
Qed.
Lemma plainly_app configs b h1 l1 h2 l2 : plainly configs b h1 l1 -> plainly configs (b ++ h1) h2 l2 -> plainly configs b (h1 ++ h2) (l1 ++ l2).
Proof.
  intros N. revert h2 l2. induction N as [b|b ev h a ls T N IH]; intros h2 l2 M.
  - rewrite app_nil_r in M. exact M.
  - rewrite <- app_assoc. cbn [app]. apply pl_effect; [exact T|]. apply IH. rewrite <- app_assoc. exact M.
Qed.
Lemma plainly_one configs b ev a : tells configs b ev a -> plainly configs b [ev] a.
Proof. intros T. rewrite <- (app_nil_r a). apply pl_effect; [exact T|constructor]. Qed.
Lemma plainly_cons configs b ev a h l : tells configs b ev a -> plainly configs (b ++ [ev]) h l -> plainly configs b (ev :: h) (a ++ l).
Proof. apply pl_effect. Qed.

Definition silent (ev : event) : Prop :=
  match ev with EDue _ _ | EOpen _ _ _ | EClosed _ | EReap _ _ | ELost _ | EKill _ _ | EWrote _ _ | EChunk _ _ => True | _ => False end.
Lemma plainly_silent configs h : forall b, (forall ev, In ev h -> silent ev) -> plainly configs b h [].
Proof.
  induction h as [|ev h IH]; intros b H; [constructor|]. change (plainly configs b (ev :: h) ([] ++ [])). apply pl_effect.
  - apply te_silent. apply (H ev). left. reflexivity.
  - apply IH. intros x K. apply H. right. exact K.
Qed.
Lemma plainly_then configs b ev a h : tells configs b ev a -> (forall x, In x h -> silent x) -> plainly configs b (ev :: h) a.
Proof. intros T S. rewrite <- (app_nil_r a). apply pl_effect; [exact T|]. apply plainly_silent. exact S. Qed.

Lemma plainly_skip configs b ev h l : silent ev -> plainly configs (b ++ [ev]) h l -> plainly configs b ([ev] ++ h) l.
Proof. intros S N. apply (pl_effect _ _ _ _ []); [apply te_silent; exact S|exact N]. Qed.

Lemma plainly_narrated configs b h l : plainly configs b h l -> narrated configs b h l.
Proof. intros P. induction P; constructor; auto. Qed.

(** * Effects of handlers *)
Definition effects (a : act) : list event := match a with Go _ evs => evs | Die _ evs => evs end.
Lemma goes_hist s a k p : s_hist (goes s a k p) = s_hist s ++ effects a.
Proof. destruct a; reflexivity. Qed.
Lemma effects_then a f : effects (then_ a f) = effects a ++ match a with Go g _ => effects (f g) | Die _ _ => [] end.
Proof. destruct a as [g e1|m e1]; cbn; [destruct (f g); reflexivity|rewrite app_nil_r; reflexivity]. Qed.
Lemma kill_all_silent r sg l : forall ev, In ev (fst (kill_all r sg l)) -> silent ev.
Proof.
  induction l as [|x l IH]; cbn; [tauto|]. destruct (r x); [|cbn; tauto]. destruct (kill_all r sg l) as [evs ok]. cbn in *. intros ev [<-|H]; [exact Logic.I|auto].
Qed.
Lemma shutdown_silent r g sg ev : In ev (effects (initiate_shutdown r g sg)) -> silent ev.
Proof.
  unfold initiate_shutdown. pose proof (kill_all_silent r sg (running_pids g)) as K. destruct (kill_all r sg (running_pids g)) as [evs ok]. destruct ok; cbn in *; auto.
Qed.
Lemma finished_dep_effects g id : effects (finished_dep g id) = [].
Proof. unfold finished_dep. destruct (notify_process_finished (g_dep g) id); reflexivity. Qed.
Lemma notifications_effects id pid vars : forall g, effects (manager_notifications id pid g vars) = [].
Proof.
  induction vars as [|[key value] vars IH]; intros g; cbn [manager_notifications]; [reflexivity|]. rewrite effects_then.
  assert (E : effects (manager_notification id pid g (key, value)) = []).
  { cbn. destruct (String.eqb key "READY"); [destruct (String.eqb value "1"); [apply finished_dep_effects|reflexivity]|].
    destruct (String.eqb key "MAINPID"); [|reflexivity]. destruct (parse_i32 value); reflexivity. }
  rewrite E. destruct (manager_notification id pid g (key, value)); [apply IH|reflexivity].
Qed.

(** * Notifications *)
Lemma state_starting (s : pstate) : pstate_eqb s Starting = match s with Starting => true | _ => false end.
Proof. destruct s; reflexivity. Qed.
Lemma variable_says d p key value : variable_tells (d_error d) (p_name p) (seen p) (key, value) (notification_says d p key value).
Proof.
  unfold notification_says.
  destruct (String.eqb key "READY") eqn:E1.
  { apply String.eqb_eq in E1. subst key. destruct (String.eqb value "1") eqn:V; cbn [negb].
    - rewrite state_starting. destruct (p_state p) eqn:St;
        try (apply vt_silent; [cbn; rewrite St; reflexivity|cbn; intros _; apply String.eqb_eq; exact V|cbn; discriminate]).
      apply vt_told; [cbn; discriminate|]. cbn. rewrite St, V. reflexivity.
    - apply (vt_not_one _ _ _ "READY"); [auto|]. intros ->. rewrite String.eqb_refl in V. discriminate. }
  destruct (String.eqb key "STOPPING") eqn:E2.
  { apply String.eqb_eq in E2. subst key. destruct (String.eqb value "1") eqn:V; cbn [negb].
    - apply vt_told; [cbn; discriminate|]. cbn. rewrite V. reflexivity.
    - apply (vt_not_one _ _ _ "STOPPING"); [auto|]. intros ->. rewrite String.eqb_refl in V. discriminate. }
  destruct (String.eqb key "STATUS") eqn:E3.
  { apply String.eqb_eq in E3. subst key. apply vt_status; reflexivity. }
  destruct (String.eqb key "MAINPID") eqn:E4.
  { apply String.eqb_eq in E4. subst key. destruct (parse_i32 value) as [n|] eqn:V; [|apply vt_no_number; exact V].
    destruct (n =? p_pid p) eqn:Q.
    - apply vt_silent; cbn; [rewrite V, Q; reflexivity|intros [K|K]; discriminate K|intros _; congruence].
    - apply vt_told; cbn; [discriminate|]. rewrite V, Q. reflexivity. }
  apply vt_silent; cbn; rewrite ?E1, ?E2, ?E3, ?E4; [reflexivity| |]; intros K.
  - destruct K as [->| ->]; [discriminate E1|discriminate E2].
  - subst key. discriminate E4.
Qed.
Lemma seen_one p key value : seen (proc_notification p key value) = notified_view [(key, value)] (seen p).
Proof.
  unfold proc_notification, notified_view, says, new_pid. cbn [var seen v_state v_status v_pid].
  destruct (String.eqb key "READY") eqn:E1.
  { apply String.eqb_eq in E1. subst key. cbn. destruct (String.eqb value "1"); cbn; destruct p as [? ? ? ? ? ? ? ? ? []]; reflexivity. }
  destruct (String.eqb key "STOPPING") eqn:E2.
  { apply String.eqb_eq in E2. subst key. cbn. destruct (String.eqb value "1"); reflexivity. }
  destruct (String.eqb key "STATUS") eqn:E3.
  { apply String.eqb_eq in E3. subst key. cbn. reflexivity. }
  destruct (String.eqb key "MAINPID") eqn:E4; [|reflexivity]. destruct (parse_i32 value); reflexivity.
Qed.
Lemma name_one p key value : p_name (proc_notification p key value) = p_name p.
Proof.
  unfold proc_notification. destruct (String.eqb key "READY"); [destruct (negb _); [|destruct (pstate_eqb _ _)]; reflexivity|].
  destruct (String.eqb key "STOPPING"); [destruct (negb _); reflexivity|]. destruct (String.eqb key "STATUS"); [reflexivity|].
  destruct (String.eqb key "MAINPID"); [|reflexivity]. destruct (parse_i32 value); reflexivity.
Qed.
Lemma variables_say d vars : forall p, variables_tell (d_error d) (p_name p) (seen p) vars (notifications_say d p vars).
Proof.
  induction vars as [|[key value] vars IH]; intros p; cbn [notifications_say]; [constructor|]. apply vs_cons; [apply variable_says|].
  rewrite <- seen_one, <- (name_one p key value). apply IH.
Qed.
Lemma parse_line_junk l x : In x (parse_line_says l) -> junk x.
Proof.
  unfold parse_line_says. destruct (splitn2 _ l) as [key [value|]].
  - destruct (existsb _ _); cbn; [tauto|]. intros [<-|[]]. constructor.
  - cbn. intros [<-|[]]. constructor.
Qed.

(** * One step *)
Section Step.
  Context {k : machine} {e : env} {configs : list proc_config} {s : sys} (R : reachable k e configs s) (NP : ~ panicked s).

  Lemma known_as id p : g_procs (s_g s) !! id = Some p ->
    exists c, nth_error configs id = Some c /\ p_name p = pc_name c /\ p_pty p = pc_pty c /\ p_type p = runs_as (pc_type c).
  Proof.
    intros H. destruct (settings_kept _ _ _ _ _ _ R H) as (c & q & Hc & P & (N & _ & _ & _ & _ & _ & T & _ & _ & Y)).
    exists c. destruct (process_from_ok _ _ _ P) as (? & ? & ? & _ & _ & _ & _ & _ & _ & _ & _ & N' & _ & T' & _ & _ & _ & Y' & _).
    repeat split; [exact Hc|congruence|congruence|]. rewrite <- Y, Y'. destruct (pc_type c); reflexivity.
  Qed.
  Lemma called_as id p : g_procs (s_g s) !! id = Some p -> called configs id = p_name p.
  Proof. intros H. destruct (known_as _ _ H) as (c & Hc & N & _). unfold called. rewrite Hc. auto. Qed.
  Lemma seen_as id p h : g_procs (s_g s) !! id = Some p -> (forall ev, In ev h -> unseen ev) -> view_of configs (s_hist s ++ h) id = seen p.
  Proof.
    intros H U. unfold view_of. rewrite book_app, book_unseen by exact U. exact (bk_view _ _ _ (reachable_book _ _ _ _ R NP) _ _ H).
  Qed.

  Lemma spawn_tells d g id r h : g_procs g = g_procs (s_g s) -> (forall ev, In ev h -> unseen ev) ->
    plainly configs (s_hist s ++ h) (effects (spawn_child g id r)) (spawn_says d g id r).
  Proof.
    intros G U. unfold spawn_child, spawn_says. rewrite G. destruct (g_procs (s_g s) !! id) as [p|] eqn:Hp; [|constructor].
    destruct (known_as _ _ Hp) as (c & Hc & Nm & Pt & _).
    destruct (negb (pstate_eqb (p_state p) Blocked) && negb (pstate_eqb (p_state p) Sleeping)).
    - apply plainly_one. apply te_refused. cbn. rewrite (called_as _ _ Hp), (seen_as _ _ _ Hp U).
      assert (W : state_word (v_state (seen p)) = show_pstate (p_state p)) by (unfold seen; cbn; destruct (p_state p); reflexivity). rewrite W. reflexivity.
    - assert (S : forall b, starting_says p b = prepares c b) by (intros b; unfold starting_says, prepares; rewrite Nm, Pt; reflexivity).
      destruct r as [|pid out err wo we].
      + apply plainly_one. rewrite S. destruct (d_stage d); [apply te_no_pipes; exact Hc|apply te_no_pipes; exact Hc|apply te_no_fork; exact Hc].
      + cbn [effects]. apply plainly_then; [|intros x [<-|[<-|[]]]; exact Logic.I]. rewrite S, Nm.
        assert (W : exists n, (n <= 2)%nat /\ register_says wo ++ register_says we = repeat unwatched n).
        { destruct wo, we; [exists 0%nat|exists 1%nat|exists 1%nat|exists 2%nat]; split; auto. }
        destruct W as (n & Ln & ->). apply te_start; auto.
  Qed.

  Lemma finished_tells r pid rc : forall b, plainly configs b (effects (handle_finished_child r (s_g s) pid rc)) (finished_says (s_g s) pid rc).
  Proof.
    intros b. unfold handle_finished_child, finished_says. destruct (g_pids (s_g s) !! pid) as [id|]; [|apply plainly_one; apply te_unknown; reflexivity].
    destruct (g_procs (s_g s) !! id) as [p|] eqn:Hp; [|constructor]. destruct (known_as _ _ Hp) as (c & Hc & Nm & _ & Ty).
    assert (Kd : kind configs id = pc_type c) by (unfold kind; rewrite Hc; reflexivity).
    assert (Tail : forall a (f : manager -> act), (forall g ev, In ev (effects (f g)) -> silent ev) -> forall ev,
      In ev (match a with Go g _ => effects (f g) | Die _ _ => [] end) -> silent ev).
    { intros [g evs|m evs] f H ev K; [eauto|destruct K]. }
    assert (Last : forall g ev, In ev (effects (let g := set_pids g (delete pid (g_pids g)) in
      if match p_type p with RCronjob => true | _ => false end then Go g [] else finished_dep g id)) -> silent ev).
    { intros g ev K. cbn zeta in K. destruct (match p_type p with RCronjob => true | _ => false end); [destruct K|rewrite finished_dep_effects in K; destruct K]. }
    destruct (rc =? 0) eqn:Z.
    - apply Z.eqb_eq in Z. subst rc. rewrite effects_then. cbn [then_ effects app]. 
      apply plainly_then; [|intros ev K; eapply Last; exact K].
      replace (match p_type p with
        | RCronjob => both LInfo ("Child " +:+ p_name p +:+ " has finished and is going to sleep")
        | _ => both LInfo ("Child " +:+ p_name p +:+ " exited successfully")
        end) with (both LInfo (match kind configs id with CronJob _ => "Child " +:+ called configs id +:+ " has finished and is going to sleep"
          | _ => "Child " +:+ called configs id +:+ " exited successfully" end)).
      + apply te_end. cbn. destruct (kind configs id); reflexivity.
      + rewrite Kd, Ty, (called_as _ _ Hp). destruct (pc_type c); reflexivity.
    - rewrite !effects_then. cbn [effects app]. rewrite <- ?app_assoc. cbn [app].
      apply plainly_then.
      + apply (te_crash _ _ id pid rc); [apply Z.eqb_neq; exact Z|]. cbn. rewrite Z, (called_as _ _ Hp). reflexivity.
      + intros ev K. apply in_app_or in K. destruct K as [K|K]; [eapply shutdown_silent; exact K|revert K; apply Tail; exact Last].
  Qed.

  Lemma message_tells d text sender :
    plainly configs (s_hist s) (effects (process_message (e_order e) (s_g s) text sender)) (message_says d (e_order e) (s_g s) text sender).
  Proof.
    unfold process_message, message_says. pose proof (bk_main _ _ _ (reachable_book _ _ _ _ R NP) sender) as B.
    destruct (g_pids (s_g s) !! sender) as [id|]; [|apply plainly_one; apply te_stranger; exact B].
    destruct (g_procs (s_g s) !! id) as [p|] eqn:Hp; [|constructor]. destruct (known_as _ _ Hp) as (c & Hc & Nm & _ & Ty).
    destruct (p_type p) eqn:Tp.
    - apply plainly_one. rewrite Nm. eapply te_not_notify; [exact B|exact Hc|]. intros E. rewrite E in Ty. discriminate Ty.
    - rewrite effects_then. cbn [effects app]. rewrite notifications_effects. apply plainly_one. eapply te_notify; [exact Hc| |].
      + intros x K. apply in_flat_map in K. destruct K as (l & _ & K). eapply parse_line_junk. exact K.
      + pose proof (seen_as _ _ [] Hp (fun _ F => match F with end)) as V. rewrite app_nil_r in V. rewrite V, (called_as _ _ Hp). apply variables_say.
    - apply plainly_one. rewrite Nm. eapply te_not_notify; [exact B|exact Hc|]. intros E. rewrite E in Ty. discriminate Ty.
  Qed.

  Lemma output_tells fd data : plainly configs (s_hist s) (effects (print_child_output (s_g s) fd data)) (output_says (s_g s) fd data).
  Proof.
    unfold print_child_output, output_says. destruct (process_for_fd (s_g s) fd) as [p|m]; cbn [effects]; [|apply plainly_then; [apply te_silent; exact Logic.I|intros x []]].
    change (plainly configs (s_hist s) ([EChunk fd data] ++ map (ELog (is_stdout (s_g s) fd) (p_name p)) (List.filter nonempty (lines (utf8_lossy data))))
      ([] ++ map (Child (is_stdout (s_g s) fd) (p_name p)) (List.filter nonempty (lines (utf8_lossy data))))).
    apply plainly_app; [apply plainly_one, te_silent; exact Logic.I|].
    generalize (s_hist s ++ [EChunk fd data]). induction (List.filter nonempty (lines (utf8_lossy data))) as [|t ts IH]; intros b; cbn [map]; [constructor|].
    apply (plainly_cons _ _ _ [Child (is_stdout (s_g s) fd) (p_name p) t]); [apply te_output|apply IH].
  Qed.
End Step.

Lemma tells_nothing configs h : exists evs, h = h ++ evs /\ narrated configs h evs [].
Proof. exists []. rewrite app_nil_r. split; [reflexivity|constructor]. Qed.
Lemma tells_aside configs h x : remark x -> exists evs, h = h ++ evs /\ narrated configs h evs [x].
Proof. intros A. exists []. rewrite app_nil_r. split; [reflexivity|]. apply na_aside; [exact A|constructor]. Qed.
Lemma tells_act configs s a k p s' ls : goes s a k p = s' -> plainly configs (s_hist s) (effects a) ls ->
  exists evs, s_hist s' = s_hist s ++ evs /\ narrated configs (s_hist s) evs ls.
Proof. intros <- N. exists (effects a). rewrite goes_hist. split; [reflexivity|apply plainly_narrated; exact N]. Qed.

Lemma step_tells k e configs s o d s' : reachable k e configs s -> sstep e s o = Some s' ->
  exists evs, s_hist s' = s_hist s ++ evs /\ narrated configs (s_hist s) evs (step_says e s o d).
Proof.
  intros R H.
  assert (NP : match o with KFork _ | KGone _ | KAdopt _ | KExit _ _ | KWrite _ _ | KHangup _ => True | _ => ~ panicked s end).
  { unfold panicked. destruct o as [| | | | | | | | | | |[x|]]; try exact Logic.I; cbn in H; destruct (s_pc s); try discriminate H; intros []. }
  destruct o as [pid|pid|pid|pid st|fd data|fd| |r|now r|evs|a|[pid|]]; cbn in H.
  - destruct (_ && _); [|discriminate]. inversion H; subst. apply tells_nothing.
  - destruct (k_procs (s_k s) !! pid) as [[]|]; inversion H; subst; apply tells_nothing.
  - destruct (k_procs (s_k s) !! pid) as [[]|]; inversion H; subst; apply tells_nothing.
  - destruct (k_procs (s_k s) !! pid) as [[]|]; try discriminate. destruct (valid_status st); inversion H; subst; apply tells_nothing.
  - destruct (k_pipes (s_k s) !! fd) as [q|]; [|discriminate]. destruct (pp_open q); [|discriminate]. inversion H; subst. exists [EWrote fd data].
    split; [reflexivity|]. apply plainly_narrated, plainly_one, te_silent. exact Logic.I.
  - destruct (k_pipes (s_k s) !! fd) as [q|]; inversion H; subst; apply tells_nothing.
  - destruct (s_pc s); try discriminate. apply Some_inj in H. subst s'. cbn [step_says]. unfold head_says, step_head in *.
    destruct (s_shut s) eqn:Sh.
    + destruct (has_running_processes (s_g s)); [apply tells_nothing|]. exists [EExit (g_exit (s_g s))]. split; [reflexivity|]. apply plainly_narrated, plainly_one, te_exit.
    + destruct (g_keep (s_g s) && (has_running_processes (s_g s) || has_runnables (g_dep (s_g s)))); [apply tells_nothing|].
      apply tells_aside; constructor.
  - destruct (s_pc s); try discriminate. cbn [step_says] in *. unfold spawn_dep, spawn_dep_says in *. destruct (pop_dep (g_dep (s_g s))) as [[id dm]|];
      [|apply Some_inj in H; subst s'; apply tells_nothing].
    change (g_procs (set_dep (s_g s) dm)) with (g_procs (s_g s)) in *.
    set (a := match g_procs (s_g s) !! id with Some p => match p_type p with RCronjob => Go (set_dep (s_g s) dm) [] | _ => spawn_child (set_dep (s_g s) dm) id r end | None => Die BOUNDS [] end) in *.
    assert (N : plainly configs (s_hist s) (effects a) (match g_procs (s_g s) !! id with Some p => match p_type p with RCronjob => [] | _ => spawn_says d (set_dep (s_g s) dm) id r end | None => [] end)).
    { subst a. destruct (g_procs (s_g s) !! id) as [p|]; [|constructor]. destruct (p_type p); [|  |constructor];
        rewrite <- (app_nil_r (s_hist s)); (apply (spawn_tells R NP); [reflexivity|intros ? []]). }
    destruct (forks a); [destruct (fork_fits e (s_k s) r); [|discriminate]|]; apply Some_inj in H; exact (tells_act _ _ _ _ _ _ _ H N).
  - destruct (s_pc s); try discriminate. cbn [step_says] in *. unfold spawn_cron, spawn_cron_says in *. destruct (cron_pop (e_zone e) (g_cron (s_g s)) now) as [[c [id|]]|m].
    + set (a := then_ _ _) in *.
      assert (N : plainly configs (s_hist s) (effects a) (if is_runnable (g_dep (set_cron (s_g s) c)) id then spawn_says d (set_cron (s_g s) c) id r
        else match g_procs (set_cron (s_g s) c) !! id with None => [] | Some p => [Own LTrace ("Refusing to start cronjob child '" +:+ p_name p +:+ "' because of uncompleted dependencies")] end)).
      { subst a. rewrite effects_then. cbn [effects]. apply plainly_skip; [exact Logic.I|].
        destruct (is_runnable (g_dep (set_cron (s_g s) c)) id).
        - apply (spawn_tells R NP); [reflexivity|]. intros ev [<-|[]]. exact Logic.I.
        - change (g_procs (set_cron (s_g s) c)) with (g_procs (s_g s)). destruct (g_procs (s_g s) !! id) as [p|] eqn:Hp; [|constructor].
          destruct (known_as R _ _ Hp) as (c' & Hc & _). apply plainly_one. eapply te_skipped; [exact Hc|]. cbn. rewrite (called_as R _ _ Hp). reflexivity. }
      destruct (forks a); [destruct (fork_fits e (s_k s) r); [|discriminate]|]; apply Some_inj in H; exact (tells_act _ _ _ _ _ _ _ H N).
    + apply Some_inj in H; subst s'; apply tells_nothing.
    + cbn [forks] in H. apply Some_inj in H. eapply tells_act; [exact H|constructor].
  - destruct (s_pc s); try discriminate. destruct evs as [l|].
    + destruct (_ && _); [|discriminate]. apply Some_inj in H; subst s'; apply tells_nothing.
    + apply Some_inj in H; subst s'. apply tells_aside; constructor.
  - cbn [step_says]. destruct (s_pc s) as [| | | |[|ev rest]| | |]; try discriminate; [apply Some_inj in H; subst s'; apply tells_nothing|].
    unfold step_event in H. unfold event_says. destruct ev as [fd|fd|fd].
    + destruct (fd =? e_signal e).
      { destruct a as [sg|ok|m|n]; try discriminate. apply Some_inj in H. eapply tells_act; [exact H|]. unfold handle_signal, signal_says.
        destruct sg as [[]|]; rewrite ?effects_then; cbn [effects app]; try (apply plainly_then; [apply te_signal; discriminate|intros x K; eapply shutdown_silent; exact K]);
          [apply plainly_one, te_child_ended|constructor]. }
      destruct (fd =? e_status e).
      { destruct a as [sg|ok|m|n]; try discriminate. destruct ok; apply Some_inj in H.
        - exists (effects (report_status (e_rfc3339 e) (s_g s))). rewrite <- H, goes_hist. split; [reflexivity|]. unfold report_status, report_says.
          destruct (format_report (e_rfc3339 e) (s_g s)) as [text|m]; cbn [effects].
          + destruct (d_unwritten d); cbn; apply plainly_narrated, plainly_one; constructor.
          + destruct (d_unwritten d); cbn; [apply na_aside; [constructor|]|]; constructor.
        - subst s'. apply tells_aside; constructor. }
      destruct (fd =? e_notify e).
      { destruct a as [sg|ok|[[dg sender]|]|n]; try discriminate; apply Some_inj in H.
        - eapply tells_act; [exact H|]. unfold receive, receive_says. destruct (read_text dg) as [[text|m]|]; [apply (message_tells R NP)|constructor|constructor].
        - subst s'. apply tells_aside; constructor. }
      destruct a as [sg|ok|m|[n|]]; try discriminate; [|apply Some_inj in H; subst s'; apply tells_nothing].
      destruct (k_pipes (s_k s) !! fd) as [q|]; [|discriminate]. destruct (_ && _); [|discriminate]. apply Some_inj in H. eapply tells_act; [exact H|]. apply output_tells.
    + apply Some_inj in H. eapply tells_act; [exact H|]. apply plainly_one, te_silent. exact Logic.I.
    + apply Some_inj in H. subst s'. apply tells_aside; constructor.
  - cbn [step_says]. destruct (s_pc s); try discriminate. destruct (k_procs (s_k s) !! pid) as [[| | |st]|]; try discriminate.
    destruct (child_ended (reach (set_kprocs (s_k s) (delete pid (k_procs (s_k s))))) (s_g s) pid st) as [a more] eqn:E. apply Some_inj in H.
    eapply tells_act; [exact H|]. unfold child_ended in E. unfold ended_says. clear H.
    destruct st as [rc|n|n]; apply (f_equal fst) in E; cbn [fst] in E; subst a; clear more.
    + rewrite effects_then. cbn [effects]. apply plainly_skip; [exact Logic.I|apply (finished_tells R)].
    + rewrite effects_then. cbn [effects]. apply plainly_skip; [exact Logic.I|apply (finished_tells R)].
    + apply plainly_silent. intros x [<-|[<-|[]]]; exact Logic.I.
  - destruct (s_pc s); try discriminate. destruct (forallb _ _); [|discriminate]. apply Some_inj in H; subst s'; apply tells_nothing.
Qed.

(** * Executions *)
Lemma narrate_snoc e s0 ops : forall o d s2 ls2, narrate e s0 (ops ++ [(o, d)]) = Some (s2, ls2) ->
  exists s1 ls1, narrate e s0 ops = Some (s1, ls1) /\ sstep e s1 o = Some s2 /\ ls2 = ls1 ++ step_says e s1 o d.
Proof.
  revert s0. induction ops as [|[o' d'] ops IH]; intros s0 o d s2 ls2 H; cbn in H.
  - destruct (sstep e s0 o) as [s1|] eqn:E; [|discriminate]. apply Some_inj in H. apply pair_equal_spec in H. destruct H as [<- <-].
    exists s0, []. rewrite app_nil_r. auto.
  - destruct (sstep e s0 o') as [s1|] eqn:E; [|discriminate]. destruct (narrate e s1 (ops ++ [(o, d)])) as [[s3 ls3]|] eqn:N; [|discriminate].
    apply Some_inj in H. apply pair_equal_spec in H. destruct H as [<- <-]. destruct (IH _ _ _ _ _ N) as (s4 & ls4 & N4 & E4 & ->).
    exists s4, (step_says e s0 o' d' ++ ls4). cbn. rewrite E, N4, app_assoc. auto.
Qed.
Lemma narrate_ind k e configs s0 (I : sys -> list line -> Prop) : launched k e configs s0 -> I s0 [] ->
  (forall s ls o d s', reachable k e configs s -> I s ls -> sstep e s o = Some s' -> I s' (ls ++ step_says e s o d)) ->
  forall ops s ls, narrate e s0 ops = Some (s, ls) -> reachable k e configs s /\ I s ls.
Proof.
  intros L I0 Step. induction ops as [|[o d] ops IH] using rev_ind; intros s ls H.
  - cbn in H. apply Some_inj in H. apply pair_equal_spec in H. destruct H as [<- <-]. split; [exists s0, []; auto|auto].
  - destruct (narrate_snoc _ _ _ _ _ _ _ H) as (s1 & ls1 & N & E & ->). destruct (IH _ _ N) as (R & J). split; [eapply reachable_snoc; eauto|eauto].
Qed.
(** Every execution has a log. *)
Lemma narrate_total e ops : forall s0 s, execute e s0 (map fst ops) = Some s <-> exists ls, narrate e s0 ops = Some (s, ls).
Proof.
  induction ops as [|[o d] ops IH]; intros s0 s; cbn.
  - split; [intros H; apply Some_inj in H; subst; eauto|]. intros (ls & H). apply Some_inj in H. apply pair_equal_spec in H. destruct H as [<- _]. reflexivity.
  - destruct (sstep e s0 o) as [s1|]; [|split; [discriminate|intros (ls & H); discriminate]]. rewrite IH. split.
    + intros (ls & ->). eauto.
    + intros (ls & H). destruct (narrate e s1 ops) as [[s2 ls2]|]; [|discriminate]. apply Some_inj in H. apply pair_equal_spec in H. destruct H as [<- _]. eauto.
Qed.

Lemma log_narrated k e configs s0 ops s ls : launched k e configs s0 -> narrate e s0 ops = Some (s, ls) -> narrated configs [] (s_hist s) ls.
Proof.
  intros L H. eapply (narrate_ind k e configs s0 (fun s ls => narrated configs [] (s_hist s) ls)); [exact L| | |exact H].
  - rewrite (ss_hist _ _ (launched_start _ _ _ _ L)). constructor.
  - intros s1 ls1 o d s2 R N E. destruct (step_tells _ _ _ _ _ d _ R E) as (evs & -> & M). apply narrated_app; [exact N|exact M].
Qed.

(** * Levels *)
Lemma at_level_app l a b : at_level l (a ++ b) = at_level l a ++ at_level l b.
Proof. induction a as [|[l' t|out name t] a IH]; cbn; [reflexivity| |exact IH]. destruct (level_eqb l' l); rewrite IH; reflexivity. Qed.
Lemma junk_traces l : (forall x, In x l -> junk x) -> at_level LTrace l = [] /\ at_level LError l = [].
Proof.
  induction l as [|x l IH]; intros H; [auto|]. destruct IH as [A B]; [intros y K; apply H; right; exact K|].
  destruct (H x (or_introl eq_refl)); cbn; auto.
Qed.
Lemma variable_traces why name v x a : variable_tells why name v x a -> at_level LTrace a = told_variable name v x /\ at_level LError a = [].
Proof.
  intros H. destruct H as [x t _ E|x t _ E|x E _ _|key value K1 K2|value E]; cbn; rewrite ?E; auto.
  split; [|reflexivity]. apply String.eqb_neq in K2. destruct K1 as [->| ->]; cbn; rewrite K2; [destruct (v_state v)|]; reflexivity.
Qed.
Lemma variables_traces why name v l a : variables_tell why name v l a -> at_level LTrace a = told_variables name v l /\ at_level LError a = [].
Proof.
  intros H. induction H as [v|v x r a b A B [IH1 IH2]]; [auto|]. destruct (variable_traces _ _ _ _ _ A) as [E1 E2].
  rewrite !at_level_app, E1, E2, IH1, IH2. auto.
Qed.
Lemma prepares_level c b : at_level LTrace (prepares c b) = [] /\ at_level LError (prepares c b) = [].
Proof. unfold prepares. destruct (pc_pty c && b); auto. Qed.
Lemma unwatched_level n : at_level LTrace (repeat unwatched n) = [] /\ at_level LError (repeat unwatched n) = [].
Proof. induction n as [|n [A B]]; cbn; auto. Qed.
Lemma tells_traces configs b ev a : tells configs b ev a -> at_level LTrace a = told configs b ev.
Proof.
  intros H. destruct H as [id pid c n Hc Ln|id c Hc|id c b' why Hc|id t E|id c t Hc E|id pid t E|id pid rc t N E|pid rc t E
    |id pid c vars l ls why Hc J V|pid M|pid id c M Hc N|sg N| | | | | |ev S]; rewrite ?at_level_app; cbn [at_level]; try exact (eq_sym E); try reflexivity.
  - rewrite (proj1 (prepares_level c true)), (proj1 (unwatched_level n)). cbn. unfold called. rewrite Hc. reflexivity.
  - rewrite (proj1 (prepares_level c true)). reflexivity.
  - rewrite (proj1 (prepares_level c b')). reflexivity.
  - rewrite (proj1 (junk_traces _ J)), (proj1 (variables_traces _ _ _ _ _ V)). reflexivity.
  - destruct ev; try destruct S; reflexivity.
Qed.
Lemma aside_traces x : remark x -> at_level LTrace [x] = [].
Proof. intros []; reflexivity. Qed.
Lemma narrated_traces configs b h ls : narrated configs b h ls -> at_level LTrace ls = traced configs b h.
Proof.
  intros N. induction N as [b|b ev h a ls T N IH|b h x ls A N IH]; cbn [traced]; [reflexivity| |].
  - rewrite at_level_app, (tells_traces _ _ _ _ T), IH. reflexivity.
  - change (x :: ls) with ([x] ++ ls). rewrite at_level_app, (aside_traces _ A), IH. reflexivity.
Qed.

Lemma alarms_app configs h1 e1 h2 e2 : alarms configs h1 e1 -> alarms configs h2 e2 -> alarms configs (h1 ++ h2) (e1 ++ e2).
Proof. intros A B. induction A; cbn [app]; [exact B|constructor; auto..]. Qed.
Lemma tells_alarms configs b ev a : tells configs b ev a -> alarms configs [ev] (at_level LError a).
Proof.
  intros H. destruct H as [id pid c n Hc Ln|id c Hc|id c b' why Hc|id t E|id c t Hc E|id pid t E|id pid rc t N E|pid rc t E
    |id pid c vars l ls why Hc J V|pid M|pid id c M Hc N|sg N| | | | | |ev S]; rewrite ?at_level_app; cbn [at_level level_eqb rank]; try (apply al_other; [reflexivity || exact Logic.I|constructor]).
  - rewrite (proj2 (prepares_level c true)), (proj2 (unwatched_level n)). apply al_other; [exact Logic.I|constructor].
  - rewrite (proj2 (prepares_level c true)). apply al_no_fork. constructor.
  - rewrite (proj2 (prepares_level c b')). apply al_no_pipes. constructor.
  - cbn in E. destruct (rc =? 0) eqn:Z; [apply Z.eqb_eq in Z; contradiction|]. injection E as <-. cbn. apply al_crash; [exact N|constructor].
  - rewrite (proj2 (junk_traces _ J)), (proj2 (variables_traces _ _ _ _ _ V)). apply al_other; [exact Logic.I|constructor].
  - apply al_other; [destruct ev; try destruct S; exact Logic.I|constructor].
Qed.
Lemma aside_alarms configs x : remark x -> alarms configs [] (at_level LError [x]).
Proof. intros []; cbn; try constructor. constructor. Qed.
Lemma narrated_alarms configs b h ls : narrated configs b h ls -> alarms configs h (at_level LError ls).
Proof.
  intros N. induction N as [b|b ev h a ls T N IH|b h x ls A N IH]; [constructor| |].
  - rewrite at_level_app. apply (alarms_app configs [ev]); [eapply tells_alarms; exact T|exact IH].
  - change (x :: ls) with ([x] ++ ls). rewrite at_level_app. apply (alarms_app configs []); [apply aside_alarms; exact A|exact IH].
Qed.

(** Who is blamed for a crash crashed. *)
Lemma alarms_crash configs h es : alarms configs h es ->
  ((exists id pid rc, In (EEnd id pid rc) h /\ rc <> 0) <-> exists id rc, rc <> 0 /\ In (crash_message configs id rc) es).
Proof.
  intros A. induction A as [|id pid rc h es N A IH|id h es A IH|id why h es A IH|why h es A IH|ev h es N A IH].
  - split; [intros (? & ? & ? & [] & _)|intros (? & ? & _ & [])].
  - split; intros _; [exists id, rc|exists id, pid, rc]; split; cbn; auto.
  - split.
    + intros (i & p & r & [K|K] & N); [discriminate K|]. destruct (proj1 IH) as (j & q & N' & J); [eauto|]. exists j, q. cbn. auto.
    + intros (j & q & N' & [K|[K|K]]); [vm_compute in K; discriminate K|vm_compute in K; discriminate K|].
      destruct (proj2 IH) as (i & p & r & I & N); [eauto|]. exists i, p, r. cbn. auto.
  - split.
    + intros (i & p & r & [K|K] & N); [discriminate K|]. destruct (proj1 IH) as (j & q & N' & J); [eauto|]. exists j, q. cbn. auto.
    + intros (j & q & N' & [K|K]); [vm_compute in K; discriminate K|].
      destruct (proj2 IH) as (i & p & r & I & N); [eauto|]. exists i, p, r. cbn. auto.
  - rewrite IH. split; intros (j & q & N & J); exists j, q; (split; [exact N|]); [right; exact J|].
    destruct J as [K|J]; [vm_compute in K; discriminate K|exact J].
  - rewrite <- IH. split; intros (i & p & r & I & N'); [|exists i, p, r; cbn; auto]. destruct I as [->|I]; [contradiction|eauto].
Qed.
Lemma narrate_reachable k e configs s0 ops s ls : launched k e configs s0 -> narrate e s0 ops = Some (s, ls) -> reachable k e configs s.
Proof. intros L H. exists s0, (map fst ops). split; [exact L|]. apply narrate_total. eauto. Qed.
Lemma exit_blames k e configs s0 ops s ls code : launched k e configs s0 -> narrate e s0 ops = Some (s, ls) -> s_pc s = Finished code ->
  (code = 0 \/ code = 6) /\ (code = 6 <-> exists id rc, rc <> 0 /\ In (crash_message configs id rc) (at_level LError ls)).
Proof.
  intros L H P. pose proof (narrate_reachable _ _ _ _ _ _ _ L H) as R. assert (NP : ~ panicked s) by (unfold panicked; rewrite P; auto).
  pose proof (so_good _ _ _ (wh_sound _ _ _ (whole_of R NP))) as G. destruct (lo_finished _ (go_loop _ _ _ G) _ P) as (_ & _ & ->).
  pose proof (fl_exit _ _ (go_flow _ _ _ G)) as X. unfold exit_ok in X.
  rewrite <- (alarms_crash _ _ _ (narrated_alarms _ _ _ _ (log_narrated _ _ _ _ _ _ _ L H))). destruct X as [[-> X]|[-> X]].
  - split; [auto|]. split; [intros _; exact X|auto].
  - split; [auto|]. split; [discriminate|]. intros (id & pid & rc & I & N). destruct (N (X _ _ _ I)).
Qed.

(** * The same text at another level *)
Lemma echoed_nil configs : echoed configs [].
Proof. intros [|] t l2 E; discriminate E. Qed.
Lemma echoed_app configs a b : echoed configs a -> echoed configs b -> echoed configs (a ++ b).
Proof.
  intros A B l1 t l2 E. apply app_eq_app in E. destruct E as (m & [[-> E]|[-> E]]).
  - destruct m as [|x m]; cbn in E.
    + destruct (B [] t l2) as [(l0 & lv & K & _)|K]; [auto|destruct l0; discriminate K|auto].
    + injection E as <- E. exact (A l1 t m eq_refl).
  - destruct (B m t l2 E) as [(l0 & lv & -> & S)|K]; [|auto]. left. exists (a ++ l0), lv. rewrite app_assoc. auto.
Qed.
Lemma echoed_one configs x : (forall t, x = Own LTrace t -> trace_only configs t) -> echoed configs [x].
Proof. intros H [|y [|z l1]] t l2 E; cbn in E; try discriminate E. injection E as E _. right. apply H. exact E. Qed.
Lemma echoed_two configs lv t : shown_always lv -> echoed configs [Own lv t; Own LTrace t].
Proof.
  intros S [|x [|y [|z l1]]] u l2 E; cbn in E; try discriminate E.
  - injection E as E _ _. subst lv. destruct S as [S|[S|S]]; discriminate S.
  - injection E as <- <- _. left. exists [], lv. auto.
Qed.
Lemma echoed_other configs l : (forall x, In x l -> forall t, x <> Own LTrace t) -> echoed configs l.
Proof.
  induction l as [|x l IH]; intros H; [apply echoed_nil|]. change (x :: l) with ([x] ++ l). apply echoed_app.
  - apply echoed_one. intros t E. destruct (H x (or_introl eq_refl) t E).
  - apply IH. intros y K. apply H. right. exact K.
Qed.
Lemma variables_echoed configs id c why v vars a : nth_error configs id = Some c -> variables_tell why (called configs id) v vars a -> echoed configs a.
Proof.
  intros Hc H. assert (Nm : called configs id = pc_name c) by (unfold called; rewrite Hc; reflexivity). rewrite Nm in H.
  induction H as [v|v x r a b A _ IH]; [apply echoed_nil|]. apply echoed_app; [|exact IH].
  destruct A as [x t _ E|x t F E|x _ _ _|key value _ _|value _].
  - apply echoed_two. right. right. reflexivity.
  - apply echoed_one. intros u K. injection K as <-. destruct x as [key y]. cbn in F. subst key. cbn in E. injection E as <-. apply (to_status _ id). exact Hc.
  - apply echoed_nil.
  - apply echoed_one. discriminate.
  - apply echoed_one. discriminate.
Qed.
Lemma tells_echoed configs b ev a : tells configs b ev a -> echoed configs a.
Proof.
  assert (St : echoed configs stops) by (apply echoed_other; intros x [<-|[<-|[]]]; discriminate).
  assert (Pr : forall c x, echoed configs (prepares c x)).
  { intros c x. apply echoed_other. unfold prepares. intros y [<-|K]; [discriminate|]. destruct (pc_pty c && x); [destruct K as [<-|[]]; discriminate|destruct K]. }
  assert (In3 : shown_always LInfo) by (right; right; reflexivity).
  intros H. destruct H as [id pid c n Hc Ln|id c Hc|id c b' why Hc|id t E|id c t Hc E|id pid t E|id pid rc t N E|pid rc t E
    |id pid c vars l ls why Hc J V|pid M|pid id c M Hc N|sg N| | | | | |ev S]; try apply echoed_nil; try exact St; try (apply echoed_two; exact In3).
  - apply echoed_app; [apply Pr|]. match goal with |- echoed _ (?x ++ ?y) => apply echoed_app end.
    + change (echoed configs ([Own LTrace ("Started child " +:+ pc_name c)] ++ [Own LInfo ("Started child " +:+ show_Z pid)])). apply echoed_app.
      * apply echoed_one. intros t K. injection K as <-. apply (to_started _ id). exact Hc.
      * apply echoed_one. discriminate.
    + apply echoed_other. intros x K. apply repeat_spec in K. subst x. discriminate.
  - apply echoed_app; [apply Pr|]. apply echoed_other. intros x [<-|[<-|[]]]; discriminate.
  - apply echoed_app; [apply Pr|]. apply echoed_one. discriminate.
  - apply echoed_two. right. left. reflexivity.
  - apply echoed_one. intros u K. injection K as <-. cbn in E. injection E as <-. unfold called. rewrite Hc. apply (to_skipped _ id). exact Hc.
  - apply echoed_app; [apply echoed_two; left; reflexivity|exact St].
  - apply echoed_app; [|eapply variables_echoed; [exact Hc|exact V]]. apply echoed_other. intros x K. destruct (J x K); discriminate.
  - apply echoed_one. discriminate.
  - apply echoed_other. intros x [<-|[<-|[]]]; discriminate.
  - apply echoed_one. discriminate.
  - apply echoed_one. discriminate.
Qed.
Lemma narrated_echoed configs b h ls : narrated configs b h ls -> echoed configs ls.
Proof.
  intros N. induction N as [b|b ev h a ls T N IH|b h x ls A N IH]; [apply echoed_nil| |].
  - apply echoed_app; [eapply tells_echoed; exact T|exact IH].
  - change (x :: ls) with ([x] ++ ls). apply echoed_app; [|exact IH]. apply echoed_one. destruct A; discriminate.
Qed.

(** * Records *)
Lemma recorded_app a : forall b rs, recorded (a ++ b) rs -> exists r1 r2, rs = r1 ++ r2 /\ recorded a r1 /\ recorded b r2.
Proof.
  intros b rs H. remember (a ++ b) as l eqn:E. revert a E. induction H as [|r ls rs O D H IH|l t r ls rs O L T H IH|time out name t ls rs O H IH]; intros a E.
  - destruct a; [|discriminate E]. destruct b; [|discriminate E]. exists [], []. repeat constructor.
  - destruct (IH a E) as (r1 & r2 & -> & A & B). exists (r :: r1), r2. repeat split; auto. apply re_debug; auto.
  - destruct a as [|x a]; cbn in E.
    + exists [], (r :: rs). repeat split; [constructor|]. rewrite <- E. apply re_own; auto.
    + injection E as <- E. destruct (IH a E) as (r1 & r2 & -> & A & B). exists (r :: r1), r2. repeat split; auto. apply re_own; auto.
  - destruct a as [|x a]; cbn in E.
    + exists [], (child_record time out name t :: rs). repeat split; [constructor|]. rewrite <- E. apply re_child; auto.
    + injection E as <- E. destruct (IH a E) as (r1 & r2 & -> & A & B). exists (child_record time out name t :: r1), r2. repeat split; auto. apply re_child; auto.
Qed.
Definition is_own (x : line) : Prop := match x with Own _ _ => True | Child _ _ _ => False end.
Lemma said_app h1 : forall r1 h2 r2, said h1 r1 -> said h2 r2 -> said (h1 ++ h2) (r1 ++ r2).
Proof. intros r1 h2 r2 A B. induction A; cbn [app]; [exact B|constructor; auto..]. Qed.
Lemma own_said ls rs : recorded ls rs -> (forall x, In x ls -> is_own x) -> said [] rs.
Proof.
  intros H. induction H as [|r ls rs O D H IH|l t r ls rs O L T H IH|time out name t ls rs O H IH]; intros Ow; [constructor| | |].
  - apply sd_own; auto.
  - apply sd_own; [exact O|]. apply IH. intros x K. apply Ow. right. exact K.
  - destruct (Ow _ (or_introl eq_refl)).
Qed.
Lemma variables_own why name v l a : variables_tell why name v l a -> forall x, In x a -> is_own x.
Proof.
  intros H. induction H as [v|v y r a b A _ IH]; [intros x []|]. intros x K. apply in_app_or in K. destruct K as [K|K]; [|auto].
  destruct A; cbn in K; intuition (subst; exact Logic.I).
Qed.
Lemma tells_said configs b ev a rs : tells configs b ev a -> recorded a rs -> said [ev] rs.
Proof.
  assert (Go : forall ev a rs, (forall out name t, ev <> ELog out name t) -> recorded a rs -> (forall x, In x a -> is_own x) -> said [ev] rs).
  { intros ev' a' rs' N R O. apply sd_other; [exact N|]. eapply own_said; eauto. }
  assert (Pr : forall c z x, In x (prepares c z) -> is_own x).
  { intros c z x [<-|K]; [exact Logic.I|]. destruct (pc_pty c && z); [destruct K as [<-|[]]; exact Logic.I|destruct K]. }
  intros H R.
  destruct H as [id pid c n Hc Ln|id c Hc|id c b' why Hc|id t E|id c t Hc E|id pid t E|id pid rc t N E|pid rc t E
    |id pid c vars l ls why Hc J V|pid M|pid id c M Hc N|sg N| |out name t| | | |ev S];
    try (eapply Go; [discriminate|exact R|]; cbn; intros x K; intuition (subst; exact Logic.I)).
  - eapply Go; [discriminate|exact R|]. intros x K. apply in_app_or in K. destruct K as [K|K]; [eapply Pr; exact K|].
    destruct K as [<-|[<-|K]]; [exact Logic.I|exact Logic.I|]. apply repeat_spec in K. subst x. exact Logic.I.
  - eapply Go; [discriminate|exact R|]. intros x K. apply in_app_or in K. destruct K as [K|K]; [eapply Pr; exact K|].
    destruct K as [<-|[<-|[]]]; exact Logic.I.
  - eapply Go; [discriminate|exact R|]. intros x K. apply in_app_or in K. destruct K as [K|K]; [eapply Pr; exact K|].
    destruct K as [<-|[]]; exact Logic.I.
  - eapply Go; [discriminate|exact R|]. intros x K. apply in_app_or in K. destruct K as [K|K]; [destruct (J x K); exact Logic.I|]. eapply variables_own; [exact V|exact K].
  - clear -R. remember [Child out name t] as l eqn:E. revert E. induction R as [|r ls rs O D H IH|l t' r ls rs O L T H IH|time out' name' t' ls rs O H IH]; intros E; try discriminate E.
    + apply sd_own; auto.
    + injection E as -> -> -> ->. apply sd_program; [exact O|]. eapply own_said; [exact H|intros x []].
  - eapply Go; [|exact R|intros x []]. destruct ev; try destruct S; discriminate.
Qed.
Lemma narrated_said configs b h ls : narrated configs b h ls -> forall rs, recorded ls rs -> said h rs.
Proof.
  intros N. induction N as [b|b ev h a ls T N IH|b h x ls A N IH]; intros rs R.
  - eapply own_said; [exact R|intros x []].
  - destruct (recorded_app _ _ _ R) as (r1 & r2 & -> & R1 & R2). apply (said_app [ev]); [eapply tells_said; eauto|auto].
  - change (x :: ls) with ([x] ++ ls) in R. destruct (recorded_app _ _ _ R) as (r1 & r2 & -> & R1 & R2). apply (said_app []); [|auto].
    eapply own_said; [exact R1|]. intros y [<-|[]]. destruct A; exact Logic.I.
Qed.
Lemma recorded_texts l ls rs : recorded ls rs -> l <> LDebug -> l <> LInfo -> texts_at l rs = at_level l ls.
Proof.
  intros H N1 N2. unfold texts_at. induction H as [|r ls rs O D H IH|l' t r ls rs O L T H IH|time out name t ls rs O H IH]; cbn; [reflexivity| | |].
  - rewrite D. destruct l; cbn; auto; contradiction.
  - rewrite L. destruct (level_eqb l' l); cbn; rewrite IH, ?T; reflexivity.
  - destruct l; cbn; auto; contradiction.
Qed.

(** * The end *)
Definition closing : line := Own LInfo "Shutting down".
Definition special (x : line) : bool :=
  match x with Own LInfo t => String.prefix "Starting " t || String.eqb t "Shutting down" | _ => false end.
Definition tame (l : list line) : Prop := forall x, In x l -> special x = false.
Lemma tame_app a b : tame a -> tame b -> tame (a ++ b).
Proof. intros A B x K. apply in_app_or in K. destruct K; auto. Qed.
Lemma tame_cons x l : special x = false -> tame l -> tame (x :: l).
Proof. intros A B y [<-|K]; auto. Qed.
Lemma tame_nil : tame [].
Proof. intros x []. Qed.
Ltac tame_all := repeat first [apply tame_nil | apply tame_cons; [reflexivity|]].
Lemma tame_finished g pid rc : tame (finished_says g pid rc).
Proof.
  unfold finished_says. destruct (g_pids g !! pid) as [id|]; [|unfold both; tame_all]. destruct (g_procs g !! id) as [p|]; [|tame_all].
  destruct (rc =? 0); [destruct (p_type p)|]; unfold both, shutdown_says; cbn [app]; tame_all.
Qed.
Lemma tame_notification d p key value : tame (notification_says d p key value).
Proof.
  unfold notification_says. destruct (String.eqb key "READY"); [destruct (negb _); [tame_all|]; destruct (pstate_eqb _ _); unfold both; tame_all|].
  destruct (String.eqb key "STOPPING"); [destruct (negb _); unfold both; tame_all|]. destruct (String.eqb key "STATUS"); [tame_all|].
  destruct (String.eqb key "MAINPID"); [|tame_all]. destruct (parse_i32 value) as [n|]; [|tame_all]. destruct (n =? p_pid p); unfold both; tame_all.
Qed.
Lemma tame_notifications d vars : forall p, tame (notifications_say d p vars).
Proof. induction vars as [|[key value] vars IH]; intros p; cbn [notifications_say]; [tame_all|]. apply tame_app; [apply tame_notification|apply IH]. Qed.
Lemma tame_message d order g text sender : tame (message_says d order g text sender).
Proof.
  unfold message_says. destruct (g_pids g !! sender) as [id|]; [|tame_all]. destruct (g_procs g !! id) as [p|]; [|tame_all].
  destruct (p_type p); [tame_all| |tame_all]. apply tame_app; [|apply tame_notifications]. intros x K. apply in_flat_map in K. destruct K as (l & _ & K).
  destruct (parse_line_junk _ _ K); reflexivity.
Qed.
Lemma tame_step e s o d : match o with CHead | CSpawnDep _ | CSpawnCron _ _ => True | _ => tame (step_says e s o d) end.
Proof.
  destruct o as [pid|pid|pid|pid st|fd data|fd| |r|now r|[evs|]|a|[pid|]]; cbn [step_says]; try exact Logic.I; tame_all.
  - destruct (s_pc s) as [| | | |[|ev rest]| | |]; tame_all. unfold event_says. destruct ev as [fd|fd|fd]; tame_all.
    destruct (fd =? e_signal e); [destruct a as [sg|ok|m|n]; tame_all; unfold signal_says, shutdown_says; destruct sg as [[]|]; tame_all|].
    destruct (fd =? e_status e); [destruct a as [sg|ok|m|n]; tame_all; unfold report_says; destruct (ok && _); tame_all|].
    destruct (fd =? e_notify e).
    { destruct a as [sg|ok|[[dg sender]|]|n]; tame_all. unfold receive_says. destruct (read_text dg) as [[text|m]|]; tame_all. apply tame_message. }
    destruct a as [sg|ok|m|[n|]]; tame_all. destruct (k_pipes (s_k s) !! fd) as [q|]; tame_all. unfold output_says. destruct (process_for_fd (s_g s) fd) as [p|m]; tame_all.
    intros x K. apply in_map_iff in K. destruct K as (t & <- & _). reflexivity.
  - destruct (k_procs (s_k s) !! pid) as [[| | |st]|]; tame_all. unfold ended_says. destruct st; [apply tame_finished|apply tame_finished|tame_all].
Qed.
Lemma spawn_not_closing d g id r : ~ In closing (spawn_says d g id r).
Proof.
  assert (P : forall p b, ~ In closing (starting_says p b)).
  { intros p b K. unfold starting_says in K. apply in_app_or in K. destruct K as [[K|[]]|K]; [vm_compute in K; discriminate K|].
    destruct (p_pty p && b); [destruct K as [K|[]]; discriminate K|destruct K]. }
  assert (W : forall b, ~ In closing (register_says b)) by (intros [] K; [destruct K|destruct K as [K|[]]; discriminate K]).
  unfold spawn_says. destruct (g_procs g !! id) as [p|]; [|intros []]. destruct (_ && _); [intros [K|[K|[]]]; discriminate K|].
  destruct r as [|pid out err wo we]; intros K; apply in_app_or in K; destruct K as [K|K]; try (eapply P; exact K).
  - apply in_app_or in K. destruct K as [K|[K|[]]]; [|discriminate K]. destruct (d_stage d); cbn in K; intuition discriminate.
  - destruct K as [K|[K|K]]; [discriminate K|vm_compute in K; discriminate K|]. cbn [app] in K. apply in_app_or in K. destruct K as [K|K]; eapply W; exact K.
Qed.
Lemma closing_step e s o d : o <> CHead -> ~ In closing (step_says e s o d).
Proof.
  intros N K. pose proof (tame_step e s o d) as T. destruct o as [pid|pid|pid|pid st|fd data|fd| |r|now r|evs|a|pid]; try (discriminate (T _ K)); [contradiction| |]; clear T; cbn [step_says] in K.
  - unfold spawn_dep_says in K. destruct (pop_dep (g_dep (s_g s))) as [[id dm]|]; [|destruct K]. destruct (g_procs (set_dep (s_g s) dm) !! id) as [p|]; [|destruct K].
    destruct (p_type p); try destruct K; eapply spawn_not_closing; exact K.
  - unfold spawn_cron_says in K. destruct (cron_pop (e_zone e) (g_cron (s_g s)) now) as [[c [id|]]|m]; try destruct K.
    destruct (is_runnable (g_dep (set_cron (s_g s) c)) id); [eapply spawn_not_closing; exact K|].
    destruct (g_procs (set_cron (s_g s) c) !! id); [destruct K as [K|[]]; discriminate K|destruct K].
Qed.

Lemma goes_shut s a k p : s_shut (goes s a k p) = s_shut s.
Proof. destruct a; reflexivity. Qed.
Lemma goes_finished s a k p c : s_pc (goes s a k p) = Finished c -> p = Finished c.
Proof. destruct a; cbn; [auto|discriminate]. Qed.
Lemma event_step e s ev a rest s' : step_event e s ev a rest = Some s' -> s_shut s' = s_shut s /\ forall c, s_pc s' <> Finished c.
Proof.
  assert (W : s_shut (with_pc s (AtEvents rest)) = s_shut s /\ forall c, s_pc (with_pc s (AtEvents rest)) <> Finished c) by (split; [reflexivity|discriminate]).
  assert (Go : forall a k, s_shut (goes s a k (AtEvents rest)) = s_shut s /\ forall c, s_pc (goes s a k (AtEvents rest)) <> Finished c).
  { intros x k. split; [apply goes_shut|]. intros c K. apply goes_finished in K. discriminate K. }
  unfold step_event. destruct ev as [fd|fd|fd]; [|intros H; apply Some_inj in H; subst s'; auto..].
  destruct (fd =? e_signal e); [destruct a; intros H; try discriminate H; apply Some_inj in H; subst s'; auto|].
  destruct (fd =? e_status e); [destruct a as [|[]| |]; intros H; try discriminate H; apply Some_inj in H; subst s'; auto|].
  destruct (fd =? e_notify e); [destruct a as [| |[[]|]|]; intros H; try discriminate H; apply Some_inj in H; subst s'; auto|].
  destruct a as [| | |[n|]]; intros H; try discriminate H; [|apply Some_inj in H; subst s'; auto].
  destruct (k_pipes (s_k s) !! fd); [|discriminate H]. destruct (_ && _); [|discriminate H]. apply Some_inj in H. subst s'. auto.
Qed.
Lemma other_step e s o s' d : sstep e s o = Some s' -> o <> CHead ->
  s_shut s' = s_shut s /\ forall c, s_pc s' = Finished c -> s_pc s = Finished c /\ step_says e s o d = [].
Proof.
  intros H N. destruct o as [pid|pid|pid|pid st|fd data|fd| |r|now r|evs|a|[pid|]]; cbn in H; [| | | | | |contradiction| | | | | |].
  - destruct (_ && _); [|discriminate]. apply Some_inj in H; subst s'; auto.
  - destruct (k_procs (s_k s) !! pid) as [[]|]; try discriminate; apply Some_inj in H; subst s'; auto.
  - destruct (k_procs (s_k s) !! pid) as [[]|]; try discriminate; apply Some_inj in H; subst s'; auto.
  - destruct (k_procs (s_k s) !! pid) as [[]|]; try discriminate. destruct (valid_status st); try discriminate; apply Some_inj in H; subst s'; auto.
  - destruct (k_pipes (s_k s) !! fd) as [q|]; [|discriminate]. destruct (pp_open q); [|discriminate]. apply Some_inj in H; subst s'; auto.
  - destruct (k_pipes (s_k s) !! fd) as [q|]; [|discriminate]. apply Some_inj in H; subst s'; auto.
  - destruct (s_pc s); try discriminate. destruct (spawn_dep (s_g s) r) as [a|]; [|apply Some_inj in H; subst s'; split; [reflexivity|intros c K; discriminate K]].
    destruct (forks a); [destruct (fork_fits e (s_k s) r); [|discriminate]|]; apply Some_inj in H; subst s';
      (split; [apply goes_shut|intros c K; apply goes_finished in K; discriminate K]).
  - destruct (s_pc s); try discriminate. destruct (spawn_cron (e_zone e) (s_g s) now r) as [a|]; [|apply Some_inj in H; subst s'; split; [reflexivity|intros c K; discriminate K]].
    destruct (forks a); [destruct (fork_fits e (s_k s) r); [|discriminate]|]; apply Some_inj in H; subst s';
      (split; [apply goes_shut|intros c K; apply goes_finished in K; discriminate K]).
  - destruct (s_pc s); try discriminate. destruct evs; [destruct (_ && _); [|discriminate]|]; apply Some_inj in H; subst s'; (split; [reflexivity|intros c K; discriminate K]).
  - destruct (s_pc s) as [| | | |[|ev rest]| | |]; try discriminate; [apply Some_inj in H; subst s'; split; [reflexivity|intros c K; discriminate K]|].
    destruct (event_step _ _ _ _ _ _ H) as [A B]. split; [exact A|]. intros c K. destruct (B c K).
  - destruct (s_pc s); try discriminate. destruct (k_procs (s_k s) !! pid) as [[| | |st]|]; try discriminate.
    destruct (child_ended _ _ _ _) as [a more]. apply Some_inj in H. subst s'. split; [apply goes_shut|]. intros c K. apply goes_finished in K. destruct more; discriminate K.
  - destruct (s_pc s); try discriminate. destruct (forallb _ _); [|discriminate]. apply Some_inj in H; subst s'. split; [reflexivity|intros c K; discriminate K].
Qed.

Definition ending (s : sys) (ls : list line) : Prop :=
  (s_shut s = false -> ~ In closing ls /\ forall c, s_pc s <> Finished c) /\
  (s_shut s = true -> exists l1 l2 l3, ls = l1 ++ closing :: l2 ++ l3 /\ ~ In closing l1 /\ tame l2 /\
     ((l3 = [] /\ forall c, s_pc s <> Finished c) \/ (l3 = [Own LInfo "Exiting"; Own LTrace "Exiting"] /\ exists c, s_pc s = Finished c))).
Lemma ending_step k e configs s ls o d s' : reachable k e configs s -> ending s ls -> sstep e s o = Some s' -> ending s' (ls ++ step_says e s o d).
Proof.
  intros R [I1 I2] H. destruct (match o with CHead => true | _ => false end) eqn:Ho.
  - destruct o; try discriminate Ho. cbn [sstep step_says] in *. destruct (s_pc s) eqn:P; try discriminate. apply Some_inj in H. subst s'. unfold step_head, head_says.
    destruct (s_shut s) eqn:Sh.
    + destruct (I2 eq_refl) as (l1 & l2 & l3 & -> & N1 & T & [[-> _]|[_ [c K]]]); [|discriminate K].
      destruct (has_running_processes (s_g s)); unfold ending; cbn [s_shut with_pc]; rewrite ?Sh; (split; [discriminate|]); intros _; exists l1, l2.
      * exists []. rewrite !app_nil_r. split; [reflexivity|]. split; [exact N1|]. split; [exact T|]. left. split; [reflexivity|discriminate].
      * exists (both LInfo "Exiting"). rewrite app_nil_r, <- app_assoc. split; [reflexivity|]. split; [exact N1|]. split; [exact T|]. right. split; [reflexivity|]. eauto.
    + destruct (I1 eq_refl) as (N & _). destruct (_ && _); unfold ending; cbn [s_shut with_pc s_pc]; rewrite ?Sh.
      * split; [|discriminate]. intros _. rewrite app_nil_r. split; [exact N|discriminate].
      * split; [discriminate|]. intros _. exists ls, [], []. repeat split; [exact N|intros x []|]. left. split; [reflexivity|discriminate].
  - assert (No : o <> CHead) by (intros ->; discriminate Ho). destruct (other_step _ _ _ _ d H No) as [A B]. unfold ending. rewrite A.
    assert (NC := closing_step e s o d No). split.
    + intros Sh. destruct (I1 Sh) as (N & F). split.
      * intros K. apply in_app_or in K. destruct K as [K|K]; [exact (N K)|exact (NC K)].
      * intros c K. destruct (B c K) as [K' _]. exact (F c K').
    + intros Sh. destruct (I2 Sh) as (l1 & l2 & l3 & -> & N1 & T & L). destruct L as [[-> F]|[-> [c P]]].
      * exists l1, (l2 ++ step_says e s o d), []. rewrite !app_nil_r, <- app_assoc. split; [reflexivity|]. split; [exact N1|]. split.
        -- apply tame_app; [exact T|]. pose proof (tame_step e s o d) as Q.
           assert (NP : ~ panicked s -> s_pc s <> AtSpawnDep /\ s_pc s <> AtSpawnCron).
           { intros NP. pose proof (go_loop _ _ _ (so_good _ _ _ (wh_sound _ _ _ (whole_of R NP)))) as L.
             split; intros K; destruct (lo_spawn _ L) as [_ X]; rewrite ?K; auto; congruence. }
           destruct o; try exact Q; [contradiction| |]; cbn in H; destruct (s_pc s) eqn:P; try discriminate H; exfalso;
             destruct NP as [X Y]; try (unfold panicked; rewrite P; auto); congruence.
        -- left. split; [reflexivity|]. intros c K. destruct (B c K) as [K' _]. exact (F c K').
      * assert (E : step_says e s o d = [] /\ s_pc s' = Finished c).
        { destruct o; cbn in H; try rewrite P in H; try discriminate H; try contradiction; split; try reflexivity.
          - destruct (_ && _); [|discriminate]. apply Some_inj in H; subst s'; auto.
          - destruct (k_procs (s_k s) !! pid) as [[]|]; try discriminate; apply Some_inj in H; subst s'; auto.
          - destruct (k_procs (s_k s) !! pid) as [[]|]; try discriminate; apply Some_inj in H; subst s'; auto.
          - destruct (k_procs (s_k s) !! pid) as [[]|]; try discriminate. destruct (valid_status st); try discriminate; apply Some_inj in H; subst s'; auto.
          - destruct (k_pipes (s_k s) !! fd) as [q|]; [|discriminate]. destruct (pp_open q); [|discriminate]. apply Some_inj in H; subst s'; auto.
          - destruct (k_pipes (s_k s) !! fd) as [q|]; [|discriminate]. apply Some_inj in H; subst s'; auto.
          - destruct pid; discriminate H.
          - destruct pid; discriminate H. }
        destruct E as [-> P']. rewrite app_nil_r. exists l1, l2, (both LInfo "Exiting"). split; [reflexivity|]. split; [exact N1|]. split; [exact T|]. right. split; [reflexivity|eauto].
Qed.
Lemma tame_starts l : tame l -> forall name, ~ In (Own LInfo ("Starting " +:+ name)) l.
Proof. intros T name K. specialize (T _ K). destruct name; vm_compute in T; discriminate T. Qed.
Lemma the_end k e configs s0 ops s ls code : launched k e configs s0 -> narrate e s0 ops = Some (s, ls) -> s_pc s = Finished code ->
  exists l1 l2, ls = l1 ++ Own LInfo "Shutting down" :: l2 ++ [Own LInfo "Exiting"; Own LTrace "Exiting"] /\
    ~ In (Own LInfo "Shutting down") l1 /\ ~ In (Own LInfo "Shutting down") l2 /\ forall name, ~ In (Own LInfo ("Starting " +:+ name)) l2.
Proof.
  intros L H P. destruct (narrate_ind k e configs s0 ending L) with (ops := ops) (s := s) (ls := ls) as [_ [I1 I2]]; [| |exact H|].
  - pose proof L as (_ & _ & _ & a & others & _ & _ & ->). split; [intros _; split; [intros []|discriminate]|discriminate].
  - intros s1 ls1 o d s2 R I E. eapply ending_step; eauto.
  - destruct (s_shut s) eqn:Sh; [|destruct (I1 eq_refl) as [_ F]; destruct (F _ P)].
    destruct (I2 eq_refl) as (l1 & l2 & l3 & -> & N1 & T & [[_ F]|[-> _]]); [destruct (F _ P)|]. exists l1, l2. split; [reflexivity|]. split; [exact N1|].
    split; [intros K; discriminate (T _ K)|apply tame_starts; exact T].
Qed.

Notation stop_text := "Received termination signal".
Definition counts (l : list line) : nat := times_in stop_text (at_level LInfo l).
Lemma counts_app a b : counts (a ++ b) = (counts a + counts b)%nat.
Proof. unfold counts, times_in. rewrite at_level_app, List.filter_app, app_length. reflexivity. Qed.
Lemma counts_none l : (forall x, In x l -> x <> Own LInfo stop_text) -> counts l = 0%nat.
Proof.
  induction l as [|x l IH]; intros H; [reflexivity|]. change (x :: l) with ([x] ++ l). rewrite counts_app, IH by (intros y K; apply H; right; exact K).
  destruct x as [lv t|]; [|reflexivity]. unfold counts, times_in. cbn [at_level]. destruct (level_eqb lv LInfo) eqn:E; [|reflexivity]. cbn [List.filter].
  destruct (String.eqb stop_text t) eqn:F; [|reflexivity]. apply String.eqb_eq in F. subst t. destruct lv; try discriminate E.
  destruct (H _ (or_introl eq_refl) eq_refl).
Qed.
Ltac no_stop := let K := fresh "K" in intros K; first [discriminate K | vm_compute in K; discriminate K].
Lemma told_variable_not name v x t : In t (told_variable name v x) -> t <> stop_text.
Proof.
  destruct x as [key value]. unfold told_variable. destruct (String.eqb key "READY"); [destruct (v_state v), (String.eqb value "1"); intros []; try contradiction; subst; no_stop|].
  destruct (String.eqb key "STOPPING"); [destruct (String.eqb value "1"); intros []; try contradiction; subst; no_stop|].
  destruct (String.eqb key "STATUS"); [intros []; try contradiction; subst; no_stop|].
  destruct (String.eqb key "MAINPID"); [|intros []]. destruct (parse_i32 value) as [n|]; [|intros []]. destruct (n =? v_pid v); intros []; try contradiction; subst; no_stop.
Qed.
Lemma variables_counts why name v vars a : variables_tell why name v vars a -> counts a = 0%nat.
Proof.
  intros H. induction H as [v|v x r a b A _ IH]; [reflexivity|]. rewrite counts_app, IH, Nat.add_0_r. apply counts_none. intros y K.
  destruct A as [x t _ E|x t F E|x _ _ _|key value _ _|value _].
  - destruct K as [<-|[<-|[]]]; [|discriminate]. intros Q. injection Q as ->. eapply told_variable_not; [rewrite E; left; reflexivity|reflexivity].
  - destruct K as [<-|[]]. discriminate.
  - destruct K.
  - destruct K as [<-|[]]. discriminate.
  - destruct K as [<-|[]]. discriminate.
Qed.
Lemma prepares_counts c b : counts (prepares c b) = 0%nat.
Proof.
  apply counts_none. unfold prepares. intros x [<-|K]; [no_stop|]. destruct (pc_pty c && b); [destruct K as [<-|[]]; discriminate|destruct K].
Qed.
Lemma tells_counts configs b ev a : tells configs b ev a -> counts a = if must_stop ev then 1%nat else 0%nat.
Proof.
  assert (One : forall lv t u, [u] = [t] -> u <> stop_text -> counts [Own lv t; Own LTrace t] = 0%nat).
  { intros lv t u E N. injection E as ->. apply counts_none. intros x [<-|[<-|[]]]; intros Q; [injection Q as _ Q; exact (N Q)|discriminate Q]. }
  intros T. destruct T; cbn [must_stop].
  - rewrite !counts_app, prepares_counts. cbn [Nat.add]. rewrite (counts_none (repeat _ _)); [|intros x K; apply repeat_spec in K; subst x; discriminate].
    rewrite counts_none; [reflexivity|]. intros x [<-|[<-|[]]]; [discriminate|no_stop].
  - rewrite counts_app, prepares_counts. reflexivity.
  - rewrite counts_app, prepares_counts. reflexivity.
  - eapply One; [exact H|]. no_stop.
  - apply counts_none. intros x [<-|[]]. discriminate.
  - cbn [told Z.eqb] in H. cbn [negb Z.eqb]. destruct (kind configs id); (eapply One; [exact H|no_stop]).
  - apply Z.eqb_neq in H. cbn [told] in H0. rewrite H in *. rewrite counts_app, (One LError t _ H0) by no_stop. reflexivity.
  - eapply One; [exact H|]. no_stop.
  - rewrite counts_app, (variables_counts _ _ _ _ _ H1), Nat.add_0_r. apply counts_none. intros x K. destruct (H0 x K); no_stop.
  - reflexivity.
  - reflexivity.
  - destruct sg; try reflexivity. contradiction.
  - reflexivity.
  - reflexivity.
  - reflexivity.
  - reflexivity.
  - reflexivity.
  - destruct ev; try contradiction; reflexivity.
Qed.
Lemma narrated_counts configs b h ls : narrated configs b h ls -> times_in stop_text (at_level LInfo ls) = length (List.filter must_stop h).
Proof.
  intros N. induction N as [b|b ev h a ls T N IH|b h x ls A N IH]; [reflexivity| |].
  - pose proof (tells_counts _ _ _ _ T) as C. rewrite at_level_app. unfold times_in in *. rewrite List.filter_app, app_length, IH. unfold counts, times_in in C. rewrite C.
    cbn [List.filter]. destruct (must_stop ev); reflexivity.
  - rewrite <- IH. change (x :: ls) with ([x] ++ ls). rewrite at_level_app. unfold times_in. rewrite List.filter_app, app_length.
    assert (C : counts [x] = 0%nat) by (apply counts_none; intros y [<-|[]]; destruct A; discriminate). unfold counts, times_in in C. rewrite C. reflexivity.
Qed.
