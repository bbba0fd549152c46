(** What holds of the history at each effect, and where a panic can come from. *)
From stdpp Require Import gmap strings.
From Coq Require Import Ascii ZArith List Bool Lia Permutation.
From Verif Require Import Base RStr CronModel ConfigModel ProcessModel EnvModel DepModel NotifyModel ManagerModel SysModel
  MainModel SpecDep SpecTimer SpecRun DepProofs CronTimerProofs RunStep RunInv RunFlow RunHist RunAlive RunStream.
Import ListNotations.
Local Open Scope string_scope.
Local Open Scope list_scope.
Local Open Scope Z_scope.

Record sound (configs : list proc_config) (e : env) (s : sys) : Prop := {
  so_good : good configs e s;
  so_stream : stream_inv s;
  so_alive : calm (s_hist s) -> alive_inv s
}.

Lemma trans_hist e s s' : trans e s s' -> exists evs, s_hist s' = s_hist s ++ evs.
Proof. intros T. step_cases T; cbn; eauto; exists []; rewrite app_nil_r; auto. Qed.

Lemma sound_step configs e s s' : (forall l, Permutation (e_order e l) l) -> sound configs e s -> ~ panicked s' -> trans e s s' -> sound configs e s'.
Proof.
  intros OK [A B C] NP T. split.
  - eapply good_step; eauto.
  - eapply stream_step; eauto. apply (go_maps _ _ _ A).
  - intros Cm. eapply alive_step; eauto; [apply (go_maps _ _ _ A)|]. apply C.
    destruct (trans_hist _ _ _ T) as [evs E]. rewrite E in Cm. apply calm_app in Cm. tauto.
Qed.
Lemma start_sound configs e s : start_state configs s -> sound configs e s.
Proof. intros S. split; [apply start_good|eapply start_stream|intros _; eapply start_alive]; eauto. Qed.

(** ** The kernel *)
Lemma plausible_insert m pid x : plausible m -> 0 < pid -> (forall st, x = KZombie st -> valid_status st = true) -> plausible (<[pid := x]> m).
Proof. intros P L V y z H. apply lookup_insert_Some in H. destruct H as [[<- <-]|[_ H]]; eauto. Qed.
Lemma plausible_delete m pid : plausible m -> plausible (delete pid m).
Proof. intros P y z H. apply lookup_delete_Some in H. apply (P y z). tauto. Qed.

Lemma dying_kernel e s m evs k' : dying e s m evs k' -> (exists fd data, evs = [EChunk fd data]) \/ k_procs k' = k_procs (s_k s) \/ exists pid, k_procs k' = delete pid (k_procs (s_k s)).
Proof. intros D. destruct D; cbn; eauto. Qed.

Lemma plausible_step configs e s s' : sound configs e s \/ panicked s -> plausible (k_procs (s_k s)) -> ~ panicked s' -> trans e s s' -> plausible (k_procs (s_k s')).
Proof.
  intros So Pl NP T. step_cases T; cbn; auto using plausible_delete.
  - inversion KM as [k pid Lp Np E1 E2|k pid Np E1 E2|k pid Np E1 E2|k pid st Np V E1 E2|k fd' q' Hq E1 E2]; subst k; cbn; auto using plausible_delete.
    + apply plausible_insert; auto. discriminate.
    + apply plausible_insert; auto; [apply Pl in Np; tauto|]. discriminate.
    + apply plausible_insert; auto; [apply Pl in Np; tauto|]. intros st' [= <-]. auto.
  - destruct F as (F1 & _). apply plausible_insert; auto. discriminate.
  - exfalso. apply NP. exact Logic.I.
Qed.

(** ** Where a panic comes from *)
Lemma cron_pop_panic tz c now m : cron_inv c -> cron_pop tz c now = Panic m ->
  exists id d, In (id, d) (timers c) /\ next_execution tz d now = Panic m.
Proof.
  intros (Hk & Hn & Hp) H. unfold cron_pop in H. destruct (timer c) as [|[t id] l] eqn:Et; [discriminate|].
  destruct (t <=? now); [|discriminate]. rewrite tm_remove_head in H by assumption.
  destruct (timer_of_some c id) as [d Hd].
  { eapply Permutation_in; [exact Hp|]. now left. }
  rewrite Hd in H. destruct (next_execution tz d now) as [u|m'] eqn:En; cbn [obind] in H.
  - exfalso. apply Sorted.StronglySorted_inv in Hk as [Hk _]. destruct (insert_job_ok l u id Hk) as (v & m' & E & _). rewrite E in H. discriminate.
  - inversion H; subst. exists id, d. split; [apply timer_of_In; auto|auto].
Qed.

(** Producing a report never fails. *)
Lemma report_total configs e s f : good configs e s -> exists text, format_report f (s_g s) = Ret text.
Proof.
  intros G. unfold format_report.
  assert (K : forall l, (forall id p, In (id, p) l -> g_procs (s_g s) !! id = Some p) -> exists b, report_programs f (s_g s) l = Ret b).
  { induction l as [|[id p] l IH]; cbn; intros H; [eauto|].
    assert (R : exists a, report_program f (s_g s) id p = Ret a).
    { unfold report_program. destruct (p_type p) eqn:T; cbn [obind]; eauto.
      destruct (cron_next_ok (g_cron (s_g s)) id) as (t & -> & _); [apply (fl_cron _ _ (go_flow _ _ _ G))| |cbn [obind]; eauto].
      apply (fl_jobs _ _ (go_flow _ _ _ G)). apply (cronjob_type _ _ _ _ p (go_maps _ _ _ G)); auto. }
    destruct R as [a ->]. cbn [obind]. destruct IH as [b ->]; [auto|]. cbn [obind]. eauto. }
  destruct (K (enumerate (g_procs (s_g s)))) as [b ->].
  - intros id p H. apply enumerate_in in H. rewrite <- nth_error_lookup. auto.
  - cbn [obind]. eauto.
Qed.

(** Descriptors in a batch belong to programs. *)
Lemma batch_owner configs e s fd rest : good configs e s -> s_pc s = AtEvents (EvIn fd :: rest) -> is_fixed e fd = false ->
  exists id p, process_for_fd (s_g s) fd = Ret p /\ g_procs (s_g s) !! id = Some p /\
    (if is_stdout (s_g s) fd then g_out (s_g s) !! fd = Some id else g_err (s_g s) !! fd = Some id).
Proof.
  intros G P F. assert (M := go_maps _ _ _ G). assert (B := ma_batch _ _ _ M). rewrite P in B. destruct B as [_ B].
  specialize (B (EvIn fd) (or_introl eq_refl)). cbn in B. destruct B as [B|B]; [congruence|].
  apply (ma_epoll _ _ _ M) in B. unfold process_for_fd, is_stdout.
  destruct (g_out (s_g s) !! fd) as [id|] eqn:E; cbn.
  - destruct (ma_out _ _ _ M _ _ E) as [[p Hp] _]. rewrite Hp. eauto.
  - destruct B as [[x B]|[id B]]; [discriminate|]. rewrite B. destruct (ma_err _ _ _ M _ _ B) as [[p Hp] _]. rewrite Hp. eauto.
Qed.

Definition bad_datagram (dg : string) : Prop := match read_text dg with Some (Ret _) => False | _ => True end.

Lemma dying_causes configs e s m evs k' : sound configs e s -> dying e s m evs k' ->
  (exists now id d, s_pc s = AtSpawnCron /\ In (id, d) (timers (g_cron (s_g s))) /\ next_execution (e_zone e) d now = Panic m) \/
  (exists fd rest dg, s_pc s = AtEvents (EvIn fd :: rest) /\ bad_datagram dg) \/
  ~ calm (s_hist s).
Proof.
  intros [G S A] D. assert (M := go_maps _ _ _ G). assert (F := go_flow _ _ _ G). destruct (fl_dep _ _ F) as (handed & A1 & _).
  assert (Lt : forall id, (id < length configs)%nat -> g_procs (s_g s) !! id <> None).
  { intros id L K. apply lookup_ge_None in K. rewrite (ma_len _ _ _ M) in K. lia. }
  destruct D as [id d P D Hp|now m P C|now c id P C Hp|fd rest sg sent pre x post P NS Es Er Re|fd rest m P Fr|fd rest dg m P Rt
      |fd rest dg P Rt|fd rest sender id P Dp Hp|fd rest sender id p vars m P Dp Hp Nf|fd rest data k' m P Fx Pf|pid st id P Z Dp Hp
      |pid st id p pre x post P Z Dp Hp NZ Er Re|pid st id p sent m P Z Dp Hp Nf Es].
  - exfalso. destruct (pop_dep_inv _ _ _ _ _ _ A1 D) as (_ & _ & [L _]). eapply Lt; eauto.
  - left. apply cron_pop_panic in C; [|apply (fl_cron _ _ F)]. destruct C as (id & d & H1 & H2). eauto 10.
  - exfalso. apply (due_cronjob _ _ _ _ _ _ F) in C. destruct C as (cc & t & Hc & _). eapply Lt; [|exact Hp]. apply nth_error_Some. congruence.
  - right. right. intros Cm. assert (X : In x (running_pids (s_g s))) by (rewrite Er; apply in_or_app; cbn; auto).
    apply (running_reach _ (A Cm)) in X. destruct X as [X _]. congruence.
  - exfalso. destruct (report_total _ _ _ (e_rfc3339 e) G) as [text E]. congruence.
  - right. left. exists fd, rest, dg. split; [auto|]. unfold bad_datagram. rewrite Rt. auto.
  - right. left. exists fd, rest, dg. split; [auto|]. unfold bad_datagram. rewrite Rt. auto.
  - exfalso. destruct (ma_pid _ _ _ M _ _ Dp) as (p' & Hp' & _). congruence.
  - exfalso. destruct (notify_inv _ _ _ _ id A1) as (d' & Hd & _); [apply (ma_lt _ _ _ _ M); eauto|]. congruence.
  - exfalso. destruct (batch_owner _ _ _ _ _ G P Fx) as (id & p & E & _). congruence.
  - exfalso. destruct (ma_pid _ _ _ M _ _ Dp) as (p' & Hp' & _). congruence.
  - right. right. intros Cm. assert (X : In x (running_pids (update (s_g s) id (with_state p (Crashed (code_of st)))))) by (rewrite Er; apply in_or_app; cbn; auto).
    apply (running_reach_ended _ _ _ pid _ _ _ M (A Cm) Dp Hp) in X. destruct X as [X _]. congruence.
  - exfalso. destruct (notify_inv _ _ _ _ id A1) as (d' & Hd & _); [apply (ma_lt _ _ _ _ M); eauto|]. congruence.
Qed.

(** ** Claims about effects *)
Definition run_claim (configs : list proc_config) (before : list event) (ev : event) : Prop :=
  match ev with
  | EClosed fd => exists h1 id o h2, before = h1 ++ EOpen fd id o :: h2 /\ ~ In (EClosed fd) h2 /\ written fd h2 = fetched fd h2
  | EKill x _ => calm before -> exists id, alive before id x
  | EReap _ st => valid_status st = true
  | EEnd id pid rc => exists h st, before = h ++ [EReap pid st] /\ rc = code_of st /\ (calm h -> alive h id pid)
  | EUnknown pid rc => exists h st, before = h ++ [EReap pid st] /\ rc = code_of st /\ (calm h -> forall id, ~ alive h id pid)
  | ELost pid => exists h n, before = h ++ [EReap pid (XRealtime n)]
  | ENotify id pid _ => notifier configs id /\ (calm before -> alive before id pid)
  | EIgnored pid => calm before -> forall id, alive before id pid -> ~ notifier configs id
  | EChunk fd data => exists id o, opened before fd id o /\ (1 <= String.length data <= 4096)%nat
  | EExit code => exit_ok code before /\ (calm before -> forall id x, ~ alive before id x) /\ forall fd id o, ~ opened before fd id o
  | _ => True
  end.

Definition silent (ev : event) : Prop :=
  match ev with
  | EClosed _ | EKill _ _ | EReap _ _ | EEnd _ _ _ | EUnknown _ _ | ELost _ | ENotify _ _ _ | EIgnored _ | EChunk _ _ | EExit _ => False
  | _ => True
  end.
Lemma silent_ok configs h evs : each_time h (run_claim configs) -> (forall ev, In ev evs -> silent ev) ->
  each_time (h ++ evs) (run_claim configs).
Proof. intros H K. apply each_other; [auto|]. intros h' ev X. apply K in X. destruct ev; cbn in *; tauto. Qed.

(** Signals sent in a row. *)
Lemma kills_ok configs sg l : forall h, each_time h (run_claim configs) -> (calm h -> forall x, In x l -> exists id, alive h id x) ->
  each_time (h ++ kills sg l) (run_claim configs).
Proof.
  induction l as [|x l IH]; intros h H K; [cbn; rewrite app_nil_r; auto|].
  replace (h ++ kills sg (x :: l)) with ((h ++ [EKill x sg]) ++ kills sg l) by (rewrite <- app_assoc; reflexivity). apply IH.
  - apply each_last; [auto|]. cbn. intros Cm. apply K; [auto|left; auto].
  - intros Cm y Hy. apply calm_app in Cm. destruct Cm as [Cm _]. destruct (K Cm y (or_intror Hy)) as [id Al]. exists id.
    apply alive_same; [intros i z [E|[]]; discriminate|intros z st [E|[]]; discriminate|auto].
Qed.

Lemma stake_length n : forall s, (n <= String.length s)%nat -> String.length (stake n s) = n.
Proof. induction n as [|n IH]; intros [|a s] H; cbn in *; auto; try lia. rewrite IH; lia. Qed.

Lemma run_claims_step configs e s s' : sound configs e s \/ panicked s -> plausible (k_procs (s_k s)) ->
  (forall l, Permutation (e_order e l) l) ->
  each_time (s_hist s) (run_claim configs) -> trans e s s' -> each_time (s_hist s') (run_claim configs).
Proof.
  intros So Pl OK H T.
  assert (Quiet : forall s' evs, s_hist s' = s_hist s ++ evs -> (forall ev, In ev evs -> silent ev) -> each_time (s_hist s') (run_claim configs)).
  { intros s'' evs -> K. apply silent_ok; auto. }
  assert (Live : (forall m, s_pc s <> Panicked m) -> sound configs e s).
  { intros N. destruct So as [So|So]; [auto|]. unfold panicked in So. destruct (s_pc s) eqn:P; try contradiction. exfalso. eapply N; eauto. }
  step_cases T.
  - apply (Quiet _ []); cbn; rewrite ?app_nil_r; auto. intros ev [].
  - apply (Quiet _ [EWrote fd data]); cbn; auto. intros ev [<-|[]]. exact Logic.I.
  - apply (Quiet _ []); cbn; rewrite ?app_nil_r; auto. intros ev [].
  - (* exit *)
    assert (S := Live ltac:(intros m; congruence)). destruct S as [G St A]. cbn. apply each_last; [auto|]. cbn.
    unfold has_running_processes in R. apply negb_false_iff in R. apply andb_true_iff in R. destruct R as [R R3]. apply andb_true_iff in R. destruct R as [R1 R2].
    apply bool_decide_eq_true in R1, R2, R3. split; [apply (fl_exit _ _ (go_flow _ _ _ G))|]. split.
    + intros Cm id x Al. apply (al_pids _ (A Cm)) in Al. rewrite R3, lookup_empty in Al. discriminate.
    + intros fd id [] Op; [apply (st_out _ St) in Op; rewrite R1, lookup_empty in Op|apply (st_err _ St) in Op; rewrite R2, lookup_empty in Op]; discriminate.
  - apply (Quiet _ []); cbn; rewrite ?app_nil_r; auto. intros ev [].
  - apply (Quiet _ [EDue id now; ESkipped id]); cbn; auto. intros ev [<-|[<-|[]]]; exact Logic.I.
  - apply (Quiet _ (pre ++ [ERefused id])); cbn; auto.
    intros ev K. apply in_app_or in K. destruct K as [K|[<-|[]]]; [|exact Logic.I]. destruct O; [destruct K|destruct K as [<-|[]]; exact Logic.I].
  - apply (Quiet _ (pre ++ [EStartFail id])); cbn; auto.
    intros ev K. apply in_app_or in K. destruct K as [K|[<-|[]]]; [|exact Logic.I]. destruct O; [destruct K|destruct K as [<-|[]]; exact Logic.I].
  - apply (Quiet _ (pre ++ [EStart id pid; EOpen out id true; EOpen err id false])); cbn; auto.
    intros ev K. apply in_app_or in K. destruct K as [K|[<-|[<-|[<-|[]]]]]; try exact Logic.I. destruct O; [destruct K|destruct K as [<-|[]]; exact Logic.I].
  - (* signal *)
    assert (S := Live ltac:(intros m; congruence)). cbn.
    change (ESignal sg :: kills sent (running_pids (s_g s))) with ([ESignal sg] ++ kills sent (running_pids (s_g s))). rewrite app_assoc.
    apply kills_ok; [apply each_last; [auto|exact Logic.I]|]. intros Cm x Hx. apply calm_app in Cm. destruct Cm as [Cm _].
    apply (running_reach _ (so_alive _ _ _ S Cm)) in Hx. destruct Hx as [_ [id Al]]. exists id.
    apply alive_same; [intros i z [E|[]]; discriminate|intros z st [E|[]]; discriminate|auto].
  - apply (Quiet _ [ESignal SIGCHLD]); cbn; auto. intros ev [<-|[]]. exact Logic.I.
  - apply (Quiet _ [EReport text]); cbn; auto. intros ev [<-|[]]. exact Logic.I.
  - (* ignored *)
    assert (S := Live ltac:(intros m; congruence)). cbn. apply each_last; [auto|]. cbn. intros Cm id Al (c & Hc & Ty).
    apply (al_pids _ (so_alive _ _ _ S Cm)) in Al. destruct (ma_pid _ _ _ (go_maps _ _ _ (so_good _ _ _ S)) _ _ Al) as (p & Hp & _).
    apply (Ig _ _ Al Hp). destruct (ma_proc _ _ _ (go_maps _ _ _ (so_good _ _ _ S)) _ _ Hp) as (c' & Hc' & _ & E).
    rewrite Hc in Hc'. inversion Hc'; subst. rewrite E, Ty. reflexivity.
  - (* notified *)
    assert (S := Live ltac:(intros m; congruence)). cbn. apply each_last; [auto|]. cbn. split.
    + destruct (ma_proc _ _ _ (go_maps _ _ _ (so_good _ _ _ S)) _ _ Hp) as (c & Hc & _ & E). exists c. split; [auto|].
      rewrite Ty in E. destruct (pc_type c); try discriminate. auto.
    + intros Cm. apply (al_pids _ (so_alive _ _ _ S Cm)). auto.
  - (* output *)
    assert (S := Live ltac:(intros m; congruence)). cbn.
    match goal with |- each_time (_ ++ ?a :: ?l) _ => change (a :: l) with ([a] ++ l) end. rewrite app_assoc.
    apply silent_ok; [|intros ev X; apply in_map_iff in X; destruct X as (y & <- & _); exact Logic.I].
    apply each_last; [auto|]. cbn. destruct (batch_owner _ _ _ _ _ (so_good _ _ _ S) P FX) as (id & p' & _ & _ & E).
    exists id, (is_stdout (s_g s) fd). rewrite stake_length by auto. split; [|auto].
    destruct (is_stdout (s_g s) fd); [apply (st_out _ (so_stream _ _ _ S))|apply (st_err _ (so_stream _ _ _ S))]; auto.
  - (* closed *)
    assert (S := Live ltac:(intros m; congruence)). cbn. apply each_last; [auto|]. cbn.
    assert (M := go_maps _ _ _ (so_good _ _ _ S)). assert (B := ma_batch _ _ _ M). rewrite P in B. destruct B as [_ B].
    specialize (B (EvHup fd) (or_introl eq_refl)). cbn in B. destruct B as (B & q & Hq & Bu & Op).
    apply (ma_epoll _ _ _ M) in B.
    assert (Od : exists id o, opened (s_hist s) fd id o).
    { destruct B as [[id B]|[id B]]; exists id; [exists true; apply (st_out _ (so_stream _ _ _ S))|exists false; apply (st_err _ (so_stream _ _ _ S))]; auto. }
    destruct Od as (id & o & h1 & h2 & E & N). exists h1, id, o, h2. split; [auto|]. split; [auto|].
    destruct (st_data _ (so_stream _ _ _ S) _ _ _ _ _ E N) as (q' & Hq' & W). rewrite Hq in Hq'. inversion Hq'; subst. rewrite W, Bu. apply append_nil_r.
  - (* unknown *)
    assert (S := Live ltac:(intros m; congruence)). cbn. change [EReap pid st; EUnknown pid (code_of st)] with ([EReap pid st] ++ [EUnknown pid (code_of st)]).
    rewrite app_assoc. apply each_last; [apply each_last; [auto|cbn; eapply Pl; eauto]|]. cbn. exists (s_hist s), st. split; [auto|]. split; [auto|].
    intros Cm id Al. apply (al_pids _ (so_alive _ _ _ S Cm)) in Al. congruence.
  - (* lost *)
    cbn. change [EReap pid (XRealtime n); ELost pid] with ([EReap pid (XRealtime n)] ++ [ELost pid]).
    rewrite app_assoc. apply each_last; [apply each_last; [auto|change (valid_status (XRealtime n) = true); eapply Pl; eauto]|]. cbn. eauto.
  - (* ended *)
    assert (S := Live ltac:(intros m; congruence)). cbn.
    change (EReap pid st :: EEnd id pid (code_of st) :: kills SIGINT sent) with ([EReap pid st] ++ [EEnd id pid (code_of st)] ++ kills SIGINT sent).
    rewrite !app_assoc. apply kills_ok.
    + apply each_last; [apply each_last; [auto|cbn; eapply Pl; eauto]|]. cbn. exists (s_hist s), st. split; [auto|]. split; [auto|].
      intros Cm. apply (al_pids _ (so_alive _ _ _ S Cm)). auto.
    + intros Cm x Hx. apply calm_app in Cm. destruct Cm as [Cm _]. apply calm_app in Cm. destruct Cm as [Cm _].
      rewrite Es in Hx. destruct (code_of st =? 0); [destruct Hx|].
      apply (running_reach_ended _ _ _ pid _ _ _ (go_maps _ _ _ (so_good _ _ _ S)) (so_alive _ _ _ S Cm) D Hp) in Hx.
      destruct Hx as (_ & X & [j Al]). exists j. rewrite <- app_assoc. cbn. apply alive_reap; [intros i z [E|[]]; discriminate|intros z st' [E|[]]; discriminate|auto].
  - (* died *)
    assert (S := Live ltac:(intros m'; destruct D; congruence)). assert (M := go_maps _ _ _ (so_good _ _ _ S)). cbn.
    destruct D as [id d P D Hp|now m P C|now c id P C Hp|fd rest sg sent pre x post P NS Es Er Re|fd rest m P Fr|fd rest dg m P Rt
      |fd rest dg P Rt|fd rest sender id P Dp Hp|fd rest sender id p vars m P Dp Hp Nf|fd rest data k' m P Fx Pf|pid st id P Z Dp Hp
      |pid st id p pre x post P Z Dp Hp NZ Er Re|pid st id p sent m P Z Dp Hp Nf Es]; try (rewrite app_nil_r; auto; fail).
    + apply each_last; [auto|exact Logic.I].
    + change (ESignal sg :: kills sent pre) with ([ESignal sg] ++ kills sent pre). rewrite app_assoc.
      apply kills_ok; [apply each_last; [auto|exact Logic.I]|]. intros Cm y Hy. apply calm_app in Cm. destruct Cm as [Cm _].
      assert (Hy' : In y (running_pids (s_g s))) by (rewrite Er; apply in_or_app; auto).
      apply (running_reach _ (so_alive _ _ _ S Cm)) in Hy'. destruct Hy' as [_ [id Al]]. exists id.
      apply alive_same; [intros i z [E|[]]; discriminate|intros z st [E|[]]; discriminate|auto].
    + exfalso. destruct (fl_dep _ _ (go_flow _ _ _ (so_good _ _ _ S))) as (handed & A1 & _).
      destruct (notify_inv _ _ _ _ id A1) as (d' & Hd & _); [apply (ma_lt _ _ _ _ M); eauto|]. congruence.
    + exfalso. destruct (batch_owner _ _ _ _ _ (so_good _ _ _ S) P Fx) as (id & p & E & _). congruence.
    + exfalso. destruct (ma_pid _ _ _ M _ _ Dp) as (p' & Hp' & _). congruence.
    + change (EReap pid st :: EEnd id pid (code_of st) :: kills SIGINT pre) with ([EReap pid st] ++ [EEnd id pid (code_of st)] ++ kills SIGINT pre).
      rewrite !app_assoc. apply kills_ok.
      * apply each_last; [apply each_last; [auto|cbn; eapply Pl; eauto]|]. cbn. exists (s_hist s), st. split; [auto|]. split; [auto|].
        intros Cm. apply (al_pids _ (so_alive _ _ _ S Cm)). auto.
      * intros Cm y Hy. apply calm_app in Cm. destruct Cm as [Cm _]. apply calm_app in Cm. destruct Cm as [Cm _].
        assert (Hy' : In y (running_pids (update (s_g s) id (with_state p (Crashed (code_of st)))))) by (rewrite Er; apply in_or_app; auto).
        apply (running_reach_ended _ _ _ pid _ _ _ M (so_alive _ _ _ S Cm) Dp Hp) in Hy'.
        destruct Hy' as (_ & X & [j Al]). exists j. rewrite <- app_assoc. cbn. apply alive_reap; [intros i z [E|[]]; discriminate|intros z st' [E|[]]; discriminate|auto].
    + exfalso. destruct (fl_dep _ _ (go_flow _ _ _ (so_good _ _ _ S))) as (handed & A1 & _).
      destruct (notify_inv _ _ _ _ id A1) as (d' & Hd & _); [apply (ma_lt _ _ _ _ M); eauto|]. congruence.
Qed.
