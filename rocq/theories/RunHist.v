(** What holds of the history at each start. *)
From stdpp Require Import gmap strings.
From Coq Require Import Ascii ZArith List Bool Lia Permutation.
From Verif Require Import Base RStr CronModel ConfigModel ProcessModel EnvModel DepModel NotifyModel ManagerModel SysModel
  MainModel SpecDep SpecTimer SpecRun DepProofs CronTimerProofs RunStep RunInv RunFlow.
Import ListNotations.
Local Open Scope string_scope.
Local Open Scope list_scope.
Local Open Scope Z_scope.

(** Splitting a history at a start. *)
Lemma split_app {A} (h evs h1 h2 : list A) x : h ++ evs = h1 ++ x :: h2 ->
  (exists h3, h2 = h3 ++ evs /\ h = h1 ++ x :: h3) \/ (exists e1 e2, h1 = h ++ e1 /\ evs = e1 ++ x :: e2 /\ h2 = e2).
Proof.
  intros E. apply app_eq_app in E. destruct E as (l & [[E1 E2]|[E1 E2]]).
  - destruct l as [|y l].
    + rewrite app_nil_r in E1. subst h. right. exists [], h2. rewrite app_nil_r. auto.
    + inversion E2; subst. left. exists l. auto.
  - subst. right. exists l, h2. auto.
Qed.
Lemma split_in {A} (l e1 e2 : list A) x : l = e1 ++ x :: e2 -> In x l.
Proof. intros ->. apply in_or_app. cbn. auto. Qed.

Lemma each_app h evs P : each_time h P ->
  (forall e1 ev e2, evs = e1 ++ ev :: e2 -> P (h ++ e1) ev) -> each_time (h ++ evs) P.
Proof.
  intros H K before ev after E. apply split_app in E. destruct E as [(h3 & _ & E)|(e1 & e2 & -> & E & _)]; eauto.
Qed.
Lemma each_nil P : each_time [] P.
Proof. intros [|x l] ev after E; discriminate. Qed.
Lemma each_last h ev P : each_time h P -> P h ev -> each_time (h ++ [ev]) P.
Proof.
  intros H K. apply each_app; [auto|]. intros [|x e1] ev' e2 E; inversion E; subst; [rewrite app_nil_r; auto|].
  destruct e1; discriminate.
Qed.
Lemma each_other h evs P : each_time h P -> (forall h ev, In ev evs -> P h ev) -> each_time (h ++ evs) P.
Proof. intros H K. apply each_app; [auto|]. intros e1 ev e2 ->. apply K. apply in_or_app. cbn. auto. Qed.

(** * Cronjobs *)
Definition open_or_reaped (h : list event) (id : nat) (p : process) : Prop :=
  forall h1 x h2, h = h1 ++ EStart id x :: h2 ->
    ((exists st, In (EReap x st) h2) /\ In (EEnd id x 0) h2) \/
    (p_state p <> Sleeping /\ p_state p <> Blocked /\ p_pid p = x).
Definition cron_hist (configs : list proc_config) (s : sys) : Prop :=
  forall id p, cronjob configs id -> g_procs (s_g s) !! id = Some p -> open_or_reaped (s_hist s) id p.

Lemma open_app h evs id p : (forall x, ~ In (EStart id x) evs) -> open_or_reaped h id p -> open_or_reaped (h ++ evs) id p.
Proof.
  intros N O h1 x h2 E. apply split_app in E. destruct E as [(h3 & -> & E)|(e1 & e2 & -> & E & ->)].
  - apply O in E. destruct E as [[[st K1] K2]|K]; [left|right; auto]. split; [exists st|]; apply in_or_app; auto.
  - exfalso. apply (N x). eapply split_in; eauto.
Qed.
Lemma cron_hist_app configs s s' evs : cron_hist configs s -> s_hist s' = s_hist s ++ evs ->
  (forall id x, ~ In (EStart id x) evs) -> g_procs (s_g s') = g_procs (s_g s) -> cron_hist configs s'.
Proof. intros H E N E2 id p C Hp. rewrite E. rewrite E2 in Hp. apply open_app; auto. Qed.

Lemma cron_hist_step configs e s s' : maps_inv configs e s -> cron_hist configs s -> ~ panicked s' -> trans e s s' -> cron_hist configs s'.
Proof.
  intros M I NP T.
  assert (Quiet : forall s' evs, s_hist s' = s_hist s ++ evs -> (forall id x, ~ In (EStart id x) evs) ->
    g_procs (s_g s') = g_procs (s_g s) -> cron_hist configs s').
  { intros. eapply cron_hist_app; eauto. }
  step_cases T.
  - apply (Quiet _ []); cbn; rewrite ?app_nil_r; auto.
  - apply (Quiet _ [EWrote fd data]); cbn; auto. intros i x [K|[]]. discriminate.
  - apply (Quiet _ []); cbn; rewrite ?app_nil_r; auto.
  - apply (Quiet _ [EExit (g_exit (s_g s))]); cbn; auto. intros i x [K|[]]. discriminate.
  - apply (Quiet _ []); cbn; rewrite ?app_nil_r; auto.
  - apply (Quiet _ [EDue id now; ESkipped id]); cbn; auto. intros i x [K|[K|[]]]; discriminate.
  - destruct (origin_frame _ _ _ _ _ O) as (E1 & _). apply (Quiet _ (pre ++ [ERefused id])); cbn; auto.
    intros i x K. apply in_app_or in K. destruct K as [K|[K|[]]]; [|discriminate]. destruct O; [destruct K|destruct K as [K|[]]; discriminate].
  - destruct (origin_frame _ _ _ _ _ O) as (E1 & _). apply (Quiet _ (pre ++ [EStartFail id])); cbn; auto.
    intros i x K. apply in_app_or in K. destruct K as [K|[K|[]]]; [|discriminate]. destruct O; [destruct K|destruct K as [K|[]]; discriminate].
  - assert (Np : forall i x, ~ In (EStart i x) pre).
    { intros i x K. destruct O; [destruct K|destruct K as [K|[]]; discriminate]. }
    intros i q C Hq. cbn in Hq |- *. apply lookup_update_Some in Hq. destruct Hq as [(-> & -> & _)|(X & Hq)].
    + intros h1 x h2 E. apply split_app in E. destruct E as [(h3 & -> & E)|(e1 & e2 & -> & E & ->)].
      * apply (I id p C Hp) in E. destruct E as [[[st' K1] K2]|(K1 & K2 & _)]; [|destruct St; congruence].
        left. split; [exists st'|]; apply in_or_app; auto.
      * right. apply split_in in E. apply in_app_or in E. destruct E as [E|[E|[E|[E|[]]]]]; try discriminate; [exfalso; eapply Np; eauto|].
        inversion E; subst. unfold started. cbn. destruct (p_type p); repeat split; discriminate.
    + apply open_app; [|eauto]. intros x K. apply in_app_or in K. destruct K as [K|[K|[K|[K|[]]]]]; try discriminate; [eapply Np; eauto|]. inversion K. congruence.
  - apply (Quiet _ (ESignal sg :: kills sent (running_pids (s_g s)))); cbn; auto.
    intros i x [K|K]; [discriminate|]. apply in_kills in K. destruct K as (y & K & _). discriminate.
  - apply (Quiet _ [ESignal SIGCHLD]); cbn; auto. intros i x [K|[]]. discriminate.
  - apply (Quiet _ [EReport text]); cbn; auto. intros i x [K|[]]. discriminate.
  - apply (Quiet _ [EIgnored sender]); cbn; auto. intros i x [K|[]]. discriminate.
  - intros i q C Hq. cbn in Hq |- *. apply open_app; [intros x [K|[]]; discriminate|].
    apply lookup_update_Some in Hq. destruct Hq as [(-> & -> & _)|(X & Hq)]; [|eauto].
    exfalso. apply (cronjob_type _ _ _ _ _ M Hp) in C. congruence.
  - apply (Quiet _ (EChunk fd (stake n (pp_buf q)) ::
                     map (ELog (is_stdout (s_g s) fd) (p_name p))
                         (List.filter nonempty (lines (utf8_lossy (stake n (pp_buf q))))))); cbn; auto.
    intros i x [K1|K1]; [discriminate|]. apply in_map_iff in K1. destruct K1 as (y & K1 & _). discriminate.
  - apply (Quiet _ [EClosed fd]); cbn; auto. intros i x [K|[]]. discriminate.
  - apply (Quiet _ [EReap pid st; EUnknown pid (code_of st)]); cbn; auto. intros i x [K|[K|[]]]; discriminate.
  - apply (Quiet _ [EReap pid (XRealtime n); ELost pid]); cbn; auto. intros i x [K|[K|[]]]; discriminate.
  - assert (Ns : forall i x, ~ In (EStart i x) (EReap pid st :: EEnd id pid (code_of st) :: kills SIGINT sent)).
    { intros i x [K|[K|K]]; try discriminate. apply in_kills in K. destruct K as (y & K & _). discriminate. }
    intros i q C Hq. cbn in Hq |- *. apply lookup_update_Some in Hq. destruct Hq as [(-> & -> & _)|(X & Hq)]; [|apply open_app; eauto].
    destruct (ma_pid _ _ _ M _ _ D) as (p' & Hp' & Pid & Act). rewrite Hp in Hp'. inversion Hp'; subst p'. clear Hp'.
    intros h1 x h2 E. apply split_app in E. destruct E as [(h3 & -> & E)|(e1 & e2 & -> & E & ->)];
      [|exfalso; eapply Ns; eapply split_in; eauto].
    apply (I id p C Hp) in E. destruct E as [[[st' K1] K2]|(K1 & K2 & K3)].
    { left. split; [exists st'|]; apply in_or_app; auto. }
    rewrite Pid in K3. subst x. unfold end_state. destruct (code_of st =? 0) eqn:Z0.
    + apply Z.eqb_eq in Z0. left. split; [exists st|]; apply in_or_app; right; cbn; auto. rewrite Z0. auto.
    + right. cbn. repeat split; auto; discriminate.
  - exfalso. apply NP. exact Logic.I.
Qed.

(** * Starts *)
Definition start_claim (configs : list proc_config) (before : list event) (ev : event) : Prop :=
  match ev with
  | EStart v _ =>
      (forall u, depends configs u v -> completed before u) /\
      (forall ev, In ev before -> ~ shutdown_trigger ev) /\
      (~ cronjob configs v -> forall x, ~ In (EStart v x) before) /\
      (cronjob configs v -> (exists h now, before = h ++ [EDue v now]) /\ all_reaped before v)
  | ESkipped v =>
      cronjob configs v /\ (exists h now, before = h ++ [EDue v now]) /\ ~ (forall u, depends configs u v -> completed before u)
  | EDue v _ => cronjob configs v /\ forall ev, In ev before -> ~ shutdown_trigger ev
  | EStartFail v | ERefused v => cronjob configs v -> exists h now, before = h ++ [EDue v now]
  | _ => True
  end.

(** Effects without a claim. *)
Definition unclaimed (ev : event) : Prop :=
  match ev with EStart _ _ | ESkipped _ | EDue _ _ | EStartFail _ | ERefused _ => False | _ => True end.
Lemma unclaimed_ok configs h evs : each_time h (start_claim configs) -> (forall ev, In ev evs -> unclaimed ev) ->
  each_time (h ++ evs) (start_claim configs).
Proof. intros H K. apply each_other; [auto|]. intros h' ev X. apply K in X. destruct ev; cbn in *; tauto. Qed.
Lemma unclaimed_kills sg l ev : In ev (kills sg l) -> unclaimed ev.
Proof. intros H. apply in_kills in H. destruct H as (x & -> & _). exact Logic.I. Qed.

Lemma completed_finished configs h u : (forall ev, In ev h -> ~ shutdown_trigger ev) -> ~ cronjob configs u ->
  finished configs h u <-> completed h u.
Proof.
  intros N C. unfold finished, completed, succeeded. split.
  - intros [(_ & pid & rc & H)|H]; [left|auto]. exists pid. specialize (N _ H). cbn in N.
    destruct (Z.eq_dec rc 0) as [->|X]; [auto|tauto].
  - intros [(pid & H)|H]; [left; eauto|auto].
Qed.
Lemma completed_more h evs u : completed h u -> completed (h ++ evs) u.
Proof.
  intros [(pid & H)|(pid & vars & H & K)]; [left; exists pid; apply in_or_app; auto|].
  right. exists pid, vars. split; [apply in_or_app; auto|auto].
Qed.

Lemma due_cronjob configs e s c now id : flow_inv configs s -> cron_pop (e_zone e) (g_cron (s_g s)) now = Ret (c, Some id) -> cronjob configs id.
Proof.
  intros I C. apply cron_pop_spec in C; [|apply (fl_cron _ _ I)]. destruct C as (_ & _ & t & d & u & k & _ & _ & _ & C4 & _).
  apply (fl_jobs _ _ I). apply timer_of_In in C4. apply in_map_iff. exists (id, d). auto.
Qed.

(** Everything about a state that is not the result of a panic. *)
Record good (configs : list proc_config) (e : env) (s : sys) : Prop := {
  go_maps : maps_inv configs e s;
  go_loop : loop_inv s;
  go_flow : flow_inv configs s;
  go_cron : cron_hist configs s
}.

Lemma good_step configs e s s' : (forall l, Permutation (e_order e l) l) -> good configs e s -> ~ panicked s' -> trans e s s' -> good configs e s'.
Proof.
  intros OK [A B C D] NP T. split.
  - eapply maps_step; eauto.
  - eapply loop_step; eauto.
  - eapply flow_step; eauto.
  - eapply cron_hist_step; eauto.
Qed.
Lemma start_good configs e s : start_state configs s -> good configs e s.
Proof.
  intros S. split; [apply start_maps|apply start_loop with (configs := configs)|apply start_flow|]; auto.
  intros id p C Hp h1 x h2 E. rewrite (ss_hist _ _ S) in E. destruct h1; discriminate.
Qed.

Lemma claims_step configs e s s' : (forall u v, depends configs u v -> ~ cronjob configs u) -> good configs e s \/ panicked s ->
  each_time (s_hist s) (start_claim configs) -> trans e s s' -> each_time (s_hist s') (start_claim configs).
Proof.
  intros NC G H T.
  assert (Quiet : forall s' evs, s_hist s' = s_hist s ++ evs -> (forall ev, In ev evs -> unclaimed ev) -> each_time (s_hist s') (start_claim configs)).
  { intros s'' evs -> K. apply unclaimed_ok; auto. }
  assert (Calm : s_pc s = AtSpawnDep \/ s_pc s = AtSpawnCron -> good configs e s /\ forall ev, In ev (s_hist s) -> ~ shutdown_trigger ev).
  { intros P. destruct G as [G|G]; [|unfold panicked in G; destruct P as [P|P]; rewrite P in G; contradiction].
    split; [auto|]. apply (fl_keep _ _ (go_flow _ _ _ G)). apply (lo_spawn _ (go_loop _ _ _ G)). auto. }
  assert (Rel : forall v, good configs e s -> (forall ev, In ev (s_hist s) -> ~ shutdown_trigger ev) ->
     (is_runnable (g_dep (s_g s)) v = true -> forall u, depends configs u v -> completed (s_hist s) u) /\
     (cronjob configs v -> is_runnable (g_dep (s_g s)) v = false -> ~ (forall u, depends configs u v -> completed (s_hist s) u))).
  { intros v Gs N. destruct (fl_dep _ _ (go_flow _ _ _ Gs)) as (handed & A1 & _). pose proof (dep_inv_runnable _ _ _ _ v A1) as R. split.
    - intros X u Du. apply R in X. destruct X as [_ X]. apply completed_finished with (configs := configs); eauto.
    - intros Cv X Y. assert (Z : released configs (finished configs (s_hist s)) v).
      { split; [destruct Cv as (c & t & Hc & _); apply nth_error_Some; congruence|].
        intros u Du. apply completed_finished; eauto. }
      apply R in Z. congruence. }
  step_cases T.
  - apply (Quiet _ []); cbn; rewrite ?app_nil_r; auto. intros ev [].
  - apply (Quiet _ [EWrote fd data]); cbn; auto. intros ev [<-|[]]. exact Logic.I.
  - apply (Quiet _ []); cbn; rewrite ?app_nil_r; auto. intros ev [].
  - apply (Quiet _ [EExit (g_exit (s_g s))]); cbn; auto. intros ev [<-|[]]. exact Logic.I.
  - apply (Quiet _ []); cbn; rewrite ?app_nil_r; auto. intros ev [].
  - (* skipped *)
    destruct (Calm (or_intror P)) as [Gs N]. destruct (Rel id Gs N) as [_ R2]. pose proof (due_cronjob _ _ _ _ _ _ (go_flow _ _ _ Gs) C) as Cj.
    cbn. change [EDue id now; ESkipped id] with ([EDue id now] ++ [ESkipped id]). rewrite app_assoc.
    apply each_last; [apply each_last; [auto|cbn; auto]|]. cbn. split; [auto|]. split; [eauto|].
    intros X. apply (R2 Cj R). intros u Du. specialize (X u Du). unfold completed, succeeded, notified in X.
    destruct X as [(x & X)|(x & vars & X & Y)]; apply in_app_or in X; destruct X as [X|[X|[]]]; try discriminate; [left|right]; red; eauto.
  - destruct O as [d p' P D Hp' Ty|now c P C R]; cbn.
    + apply each_last; [auto|]. cbn. destruct (Calm (or_introl P)) as [Gs N]. intros X. exfalso. rewrite Hp in Hp'. inversion Hp'; subst.
      apply (cronjob_type _ _ _ _ _ (go_maps _ _ _ Gs) Hp) in X. congruence.
    + destruct (Calm (or_intror P)) as [Gs N]. pose proof (due_cronjob _ _ _ _ _ _ (go_flow _ _ _ Gs) C) as Cj.
      change [EDue id now; ERefused id] with ([EDue id now] ++ [ERefused id]). rewrite app_assoc.
      apply each_last; [apply each_last; [auto|cbn; auto]|]. cbn. eauto.
  - destruct O as [d p' P D Hp' Ty|now c P C R]; cbn.
    + apply each_last; [auto|]. cbn. destruct (Calm (or_introl P)) as [Gs N]. intros X. exfalso. rewrite Hp in Hp'. inversion Hp'; subst.
      apply (cronjob_type _ _ _ _ _ (go_maps _ _ _ Gs) Hp) in X. congruence.
    + destruct (Calm (or_intror P)) as [Gs N]. pose proof (due_cronjob _ _ _ _ _ _ (go_flow _ _ _ Gs) C) as Cj.
      change [EDue id now; EStartFail id] with ([EDue id now] ++ [EStartFail id]). rewrite app_assoc.
      apply each_last; [apply each_last; [auto|cbn; auto]|]. cbn. eauto.
  - (* started *)
    cbn. change [EStart id pid; EOpen out id true; EOpen err id false] with ([EStart id pid] ++ [EOpen out id true; EOpen err id false]).
    rewrite !app_assoc. apply unclaimed_ok; [|intros ev [<-|[<-|[]]]; exact Logic.I].
    destruct O as [d p' P D Hp' Ty|now c P C R].
    + rewrite app_nil_r. destruct (Calm (or_introl P)) as [Gs N]. rewrite Hp in Hp'. inversion Hp'; subst p'.
      assert (Cj : ~ cronjob configs id).
      { intros X. apply (cronjob_type _ _ _ _ _ (go_maps _ _ _ Gs) Hp) in X. congruence. }
      destruct (fl_dep _ _ (go_flow _ _ _ Gs)) as (handed & A1 & A2 & _). destruct (pop_dep_inv _ _ _ _ _ _ A1 D) as (J1 & J2 & [J3 J4]).
      apply each_last; [auto|]. cbn. split; [|split; [auto|split; [|tauto]]].
      * intros u Du. apply completed_finished with (configs := configs); eauto.
      * intros _ x X. apply J2. eauto.
    + destruct (Calm (or_intror P)) as [Gs N]. pose proof (due_cronjob _ _ _ _ _ _ (go_flow _ _ _ Gs) C) as Cj.
      destruct (Rel id Gs N) as [R1 _].
      apply each_last; [apply each_last; [auto|cbn; auto]|]. cbn. split; [|split; [|split; [tauto|]]].
      * intros u Du. apply completed_more. auto.
      * intros ev X. apply in_app_or in X. destruct X as [X|[<-|[]]]; [auto|]. cbn. tauto.
      * intros _. split; [eauto|]. intros h1 x h2 E. apply split_app in E. destruct E as [(h3 & -> & E)|(e1 & e2 & -> & E & ->)].
        -- apply (go_cron _ _ _ Gs id p Cj Hp) in E. destruct E as [[[st' K1] K2]|(K1 & K2 & _)]; [|destruct St; congruence].
           split; [exists st'|]; apply in_or_app; auto.
        -- apply split_in in E. destruct E as [E|[]]. discriminate.
  - apply (Quiet _ (ESignal sg :: kills sent (running_pids (s_g s)))); cbn; auto. intros ev [<-|K]; [exact Logic.I|]. eapply unclaimed_kills; eauto.
  - apply (Quiet _ [ESignal SIGCHLD]); cbn; auto. intros ev [<-|[]]. exact Logic.I.
  - apply (Quiet _ [EReport text]); cbn; auto. intros ev [<-|[]]. exact Logic.I.
  - apply (Quiet _ [EIgnored sender]); cbn; auto. intros ev [<-|[]]. exact Logic.I.
  - apply (Quiet _ [ENotify id sender vars]); cbn; auto. intros ev [<-|[]]. exact Logic.I.
  - apply (Quiet _ (EChunk fd (stake n (pp_buf q)) ::
                     map (ELog (is_stdout (s_g s) fd) (p_name p))
                         (List.filter nonempty (lines (utf8_lossy (stake n (pp_buf q))))))); cbn; auto.
    intros ev [<-|K1]; [exact Logic.I|]. apply in_map_iff in K1. destruct K1 as (y & <- & _). exact Logic.I.
  - apply (Quiet _ [EClosed fd]); cbn; auto. intros ev [<-|[]]. exact Logic.I.
  - apply (Quiet _ [EReap pid st; EUnknown pid (code_of st)]); cbn; auto. intros ev [<-|[<-|[]]]; exact Logic.I.
  - apply (Quiet _ [EReap pid (XRealtime n); ELost pid]); cbn; auto. intros ev [<-|[<-|[]]]; exact Logic.I.
  - apply (Quiet _ (EReap pid st :: EEnd id pid (code_of st) :: kills SIGINT sent)); cbn; auto.
    intros ev [<-|[<-|K]]; try exact Logic.I. eapply unclaimed_kills; eauto.
  - assert (Cr : forall c now id, s_pc s = AtSpawnCron -> cron_pop (e_zone e) (g_cron (s_g s)) now = Ret (c, Some id) ->
       start_claim configs (s_hist s) (EDue id now)).
    { intros c now id P C. destruct (Calm (or_intror P)) as [Gs N]. cbn. split; [|auto]. eapply due_cronjob; eauto. apply (go_flow _ _ _ Gs). }
    cbn. destruct D as [id d P D Hp|now m P C|now c id P C Hp|fd rest sg sent pre x post P NS Es Er Re|fd rest m P Fr|fd rest dg m P Rt
      |fd rest dg P Rt|fd rest sender id P Dp Hp|fd rest sender id p vars m P Dp Hp Nf|fd rest data k' m P Fx Pf|pid st id P Z Dp Hp
      |pid st id p pre x post P Z Dp Hp NZ Er Re|pid st id p sent m P Z Dp Hp Nf Es];
    try (apply unclaimed_ok; [auto|]; cbn;
         repeat match goal with |- forall ev, _ \/ _ -> _ => intros ev [<-|X]; [exact Logic.I|revert ev X] | |- forall ev, False -> _ => intros ev [] end;
         intros ev X; eapply unclaimed_kills; eauto; fail).
    apply each_last; eauto.
Qed.
