(** Life cycle, completion and the end of the loop. *)
From stdpp Require Import gmap strings.
From Coq Require Import Ascii ZArith List Bool Lia Permutation Relations.
From Verif Require Import Base RStr CronModel ConfigModel ProcessModel EnvModel DepModel NotifyModel ManagerModel SysModel
  MainModel SpecDep SpecTimer SpecRun DepProofs CronTimerProofs RunStep RunInv RunFlow RunHist RunAlive RunStream RunClaims.
Import ListNotations.
Local Open Scope string_scope.
Local Open Scope list_scope.
Local Open Scope Z_scope.

(** ** States per type, and what a start leads to *)
Record life_inv (configs : list proc_config) (s : sys) : Prop := {
  lf_type : forall id p, g_procs (s_g s) !! id = Some p ->
    match p_type p with
    | ROneshot => p_state p <> Starting /\ p_state p <> Stopping /\ p_state p <> Sleeping
    | RNotify => p_state p <> Sleeping
    | RCronjob => p_state p <> Starting /\ p_state p <> Stopping /\ p_state p <> Blocked /\ p_state p <> Done
    end;
  lf_started : forall id p x, g_procs (s_g s) !! id = Some p -> In (EStart id x) (s_hist s) ->
    active (p_state p) \/ exists pid rc, In (EEnd id pid rc) (s_hist s);
  lf_keep : g_keep (s_g s) = false -> exists ev, In ev (s_hist s) /\ shutdown_trigger ev;
  lf_exit : forall c, In (EExit c) (s_hist s) -> s_pc s = Finished c
}.

Lemma life_frame configs s s' evs : life_inv configs s -> s_hist s' = s_hist s ++ evs ->
  (forall id x, ~ In (EStart id x) evs) -> (forall c, ~ In (EExit c) evs) -> (forall c, s_pc s = Finished c -> s_pc s' = Finished c) ->
  g_procs (s_g s') = g_procs (s_g s) -> g_keep (s_g s') = g_keep (s_g s) -> life_inv configs s'.
Proof.
  intros [A B C D] E N X F E1 E2. split; rewrite ?E, ?E1, ?E2; auto.
  - intros id p x Hp K. apply in_app_or in K. destruct K as [K|K]; [|exfalso; eapply N; eauto].
    destruct (B _ _ _ Hp K) as [?|(pid & rc & ?)]; [auto|]. right. exists pid, rc. apply in_or_app. auto.
  - intros K. destruct (C K) as (ev & ? & ?). exists ev. split; [apply in_or_app; auto|auto].
  - intros c K. apply in_app_or in K. destruct K as [K|K]; [auto|exfalso; eapply X; eauto].
Qed.

Ltac not_in K := cbn [In] in K;
  repeat match type of K with
  | _ \/ _ => destruct K as [K|K]; [discriminate|]
  | False => destruct K
  | In _ (kills _ _) => apply in_kills in K; destruct K as (? & K & _); discriminate
  | In _ (map _ _) => apply in_map_iff in K; destruct K as (? & K & _); discriminate
  end.

Lemma life_step configs e s s' : (forall l, Permutation (e_order e l) l) -> maps_inv configs e s -> life_inv configs s -> ~ panicked s' -> trans e s s' -> life_inv configs s'.
Proof.
  intros OK M I NP T.
  assert (Quiet : forall s' evs, s_hist s' = s_hist s ++ evs ->
    (forall id x, ~ In (EStart id x) evs) -> (forall c, ~ In (EExit c) evs) -> (forall c, s_pc s = Finished c -> s_pc s' = Finished c) ->
    g_procs (s_g s') = g_procs (s_g s) -> g_keep (s_g s') = g_keep (s_g s) -> life_inv configs s').
  { intros. eapply life_frame; eauto. }
  assert (Nx : (forall c, s_pc s <> Finished c) -> forall c, ~ In (EExit c) (s_hist s)).
  { intros N c K. apply (lf_exit _ _ I) in K. eapply N; eauto. }
  step_cases T.
  - apply (Quiet _ []); cbn; rewrite ?app_nil_r; auto.
  - apply (Quiet _ [EWrote fd data]); cbn; auto; intros; intros K; not_in K.
  - apply (Quiet _ []); cbn; rewrite ?app_nil_r; auto. intros c K. destruct Q; congruence.
  - (* exit *)
    destruct I as [A B C D]. split; cbn; auto.
    + intros id p x Hp K. apply in_app_or in K. destruct K as [K|K]; [|not_in K].
      destruct (B _ _ _ Hp K) as [?|(pid & rc & ?)]; [auto|]. right. exists pid, rc. apply in_or_app. auto.
    + intros K. destruct (C K) as (ev & ? & ?). exists ev. split; [apply in_or_app; auto|auto].
    + intros c K. apply in_app_or in K. destruct K as [K|[K|[]]]; [|congruence]. apply D in K. congruence.
  - apply (Quiet _ []); cbn; rewrite ?app_nil_r; auto. intros c K. congruence.
  - apply (Quiet _ [EDue id now; ESkipped id]); cbn; auto; try (intros; intros K; not_in K). intros x K. congruence.
  - destruct (origin_frame _ _ _ _ _ O) as (E1 & E2 & E3 & E4 & E5 & E6 & E7 & E8).
    apply (Quiet _ (pre ++ [ERefused id])); cbn; auto; (intros; intros K; apply in_app_or in K; destruct K as [K|K]; [destruct O|]; not_in K).
  - destruct (origin_frame _ _ _ _ _ O) as (E1 & E2 & E3 & E4 & E5 & E6 & E7 & E8).
    apply (Quiet _ (pre ++ [EStartFail id])); cbn; auto; (intros; intros K; apply in_app_or in K; destruct K as [K|K]; [destruct O|]; not_in K).
  - (* started *)
    assert (Np : forall i x, ~ In (EStart i x) pre) by (intros i x K; destruct O; not_in K).
    assert (Ne : forall c, ~ In (EExit c) pre) by (intros c K; destruct O; not_in K).
    assert (Pn : forall c, s_pc s <> Finished c) by (intros c K; destruct O; congruence).
    split; cbn.
    + intros i q Hq. apply lookup_update_Some in Hq. destruct Hq as [(-> & -> & _)|(X & Hq)]; [|apply (lf_type _ _ I) in Hq; auto].
      unfold started. cbn. destruct (p_type p); repeat split; discriminate.
    + intros i q x Hq K. apply lookup_update_Some in Hq. destruct Hq as [(-> & -> & _)|(X & Hq)]; [left; apply started_active|].
      apply in_app_or in K. destruct K as [K|K].
      * destruct (lf_started _ _ I _ _ _ Hq K) as [?|(y & rc & ?)]; [auto|]. right. exists y, rc. apply in_or_app. auto.
      * apply in_app_or in K. destruct K as [K|[K|K]]; [exfalso; eapply Np; eauto|congruence|not_in K].
    + intros K. destruct (lf_keep _ _ I K) as (ev & ? & ?). exists ev. split; [apply in_or_app; auto|auto].
    + intros c K. exfalso. apply in_app_or in K. destruct K as [K|K]; [eapply Nx; eauto|].
      apply in_app_or in K. destruct K as [K|K]; [eapply Ne; eauto|not_in K].
  - (* signal *)
    split; cbn.
    + apply (lf_type _ _ I).
    + intros id p x Hp K. apply in_app_or in K. destruct K as [K|K]; [|not_in K].
      destruct (lf_started _ _ I _ _ _ Hp K) as [?|(pid & rc & ?)]; [auto|]. right. exists pid, rc. apply in_or_app. auto.
    + intros _. exists (ESignal sg). split; [apply in_or_app; cbn; auto|]. destruct sg; cbn; auto.
    + intros c K. exfalso. apply in_app_or in K. destruct K as [K|K]; [|not_in K]. eapply Nx; eauto. congruence.
  - apply (Quiet _ [ESignal SIGCHLD]); cbn; auto; try (intros; intros K; not_in K). intros x K. congruence.
  - apply (Quiet _ [EReport text]); cbn; auto; try (intros; intros K; not_in K). intros x K. congruence.
  - apply (Quiet _ [EIgnored sender]); cbn; auto; try (intros; intros K; not_in K). intros x K. congruence.
  - (* notified *)
    destruct (ma_pid _ _ _ M _ _ D) as (p' & Hp' & Pid & Act). rewrite Hp in Hp'. inversion Hp'; subst p'. clear Hp'.
    split; cbn.
    + intros i q Hq. apply lookup_update_Some in Hq. destruct Hq as [(-> & -> & _)|(X & Hq)]; [|apply (lf_type _ _ I) in Hq; auto].
      rewrite notified_type, Ty. pose proof (notified_active p vars Act) as Ac. intros E. rewrite E in Ac. destruct Ac as [K|[K|K]]; discriminate.
    + intros i q x Hq K. apply in_app_or in K. destruct K as [K|K]; [|not_in K].
      apply lookup_update_Some in Hq. destruct Hq as [(-> & -> & _)|(X & Hq)]; [left; apply notified_active; auto|].
      destruct (lf_started _ _ I _ _ _ Hq K) as [?|(y & rc & ?)]; [auto|]. right. exists y, rc. apply in_or_app. auto.
    + intros K. destruct (lf_keep _ _ I K) as (ev & ? & ?). exists ev. split; [apply in_or_app; auto|auto].
    + intros c K. exfalso. apply in_app_or in K. destruct K as [K|K]; [|not_in K]. eapply Nx; eauto. congruence.
  - apply (Quiet _ (EChunk fd (stake n (pp_buf q)) ::
                     map (ELog (is_stdout (s_g s) fd) (p_name p))
                         (List.filter nonempty (lines (utf8_lossy (stake n (pp_buf q))))))); cbn; auto; try (intros; intros X; not_in X). intros x X. congruence.
  - apply (Quiet _ [EClosed fd]); cbn; auto; try (intros; intros K; not_in K). intros x K. congruence.
  - apply (Quiet _ [EReap pid st; EUnknown pid (code_of st)]); cbn; auto; try (intros; intros K; not_in K). intros x K. congruence.
  - apply (Quiet _ [EReap pid (XRealtime n); ELost pid]); cbn; auto; try (intros; intros K; not_in K). intros x K. congruence.
  - (* ended *)
    assert (Here : In (EEnd id pid (code_of st)) (s_hist s ++ EReap pid st :: EEnd id pid (code_of st) :: kills SIGINT sent)).
    { apply in_or_app. cbn. auto. }
    split; cbn.
    + intros i q Hq. apply lookup_update_Some in Hq. destruct Hq as [(-> & -> & _)|(X & Hq)]; [|apply (lf_type _ _ I) in Hq; auto].
      cbn. unfold end_state. destruct (p_type p), (code_of st =? 0); repeat split; discriminate.
    + intros i q x Hq K. apply in_app_or in K. destruct K as [K|K]; [|not_in K].
      apply lookup_update_Some in Hq. destruct Hq as [(-> & -> & _)|(X & Hq)]; [right; eauto|].
      destruct (lf_started _ _ I _ _ _ Hq K) as [?|(y & rc & ?)]; [auto|]. right. exists y, rc. apply in_or_app. auto.
    + destruct (code_of st =? 0) eqn:Z0; intros K.
      * destruct (lf_keep _ _ I K) as (ev & ? & ?). exists ev. split; [apply in_or_app; auto|auto].
      * apply Z.eqb_neq in Z0. exists (EEnd id pid (code_of st)). auto.
    + intros c K. exfalso. apply in_app_or in K. destruct K as [K|K]; [|not_in K]. eapply Nx; eauto. congruence.
  - exfalso. apply NP. exact Logic.I.
Qed.

Lemma start_life configs s : start_state configs s -> life_inv configs s.
Proof.
  intros S. split; rewrite ?(ss_hist _ _ S).
  - intros id p H. destruct (ss_proc _ _ S _ _ H) as (c & _ & _ & T & E). rewrite T, E. destruct (pc_type c); cbn; repeat split; discriminate.
  - intros id p x _ [].
  - rewrite (ss_keep _ _ S). discriminate.
  - intros c [].
Qed.

(** ** Life cycle *)
Lemma life_cycle configs e s s' : (forall l, Permutation (e_order e l) l) -> maps_inv configs e s -> life_inv configs s -> trans e s s' ->
  exists evs, s_hist s' = s_hist s ++ evs /\ length (g_procs (s_g s')) = length (g_procs (s_g s)) /\
    forall id p p' c, g_procs (s_g s) !! id = Some p -> g_procs (s_g s') !! id = Some p' -> nth_error configs id = Some c ->
      p_state p' = p_state p \/ life id evs (pc_type c) (p_state p) (p_state p').
Proof.
  intros OK M I T.
  assert (Same : forall s' evs, s_hist s' = s_hist s ++ evs -> g_procs (s_g s') = g_procs (s_g s) ->
    exists evs, s_hist s' = s_hist s ++ evs /\ length (g_procs (s_g s')) = length (g_procs (s_g s)) /\
    forall id p p' c, g_procs (s_g s) !! id = Some p -> g_procs (s_g s') !! id = Some p' -> nth_error configs id = Some c ->
      p_state p' = p_state p \/ life id evs (pc_type c) (p_state p) (p_state p')).
  { intros s'' evs E1 E2. exists evs. rewrite E2. split; [auto|]. split; [auto|]. intros id p p' c H1 H2 _. rewrite H1 in H2. inversion H2. auto. }
  assert (Kind : forall id p c, g_procs (s_g s) !! id = Some p -> nth_error configs id = Some c -> p_type p = runs_as (pc_type c)).
  { intros id p c H Hc. destruct (ma_proc _ _ _ M _ _ H) as (c' & Hc' & _ & E). congruence. }
  step_cases T; try (eapply Same; cbn; [reflexivity|reflexivity]; fail);
    try (eapply Same with (evs := []); cbn; [rewrite app_nil_r; reflexivity|reflexivity]; fail).
  - destruct (origin_frame _ _ _ _ _ O) as (E1 & _). eapply Same; cbn; [reflexivity|auto].
  - destruct (origin_frame _ _ _ _ _ O) as (E1 & _). eapply Same; cbn; [reflexivity|auto].
  - (* started *)
    cbn. eexists. split; [reflexivity|]. split; [apply insert_length|]. intros i q q' c H1 H2 Hc.
    apply lookup_update_Some in H2. destruct H2 as [(-> & -> & _)|(X & H2)]; [|left; congruence].
    rewrite Hp in H1. inversion H1; subst q. right. pose proof (Kind _ _ _ Hp Hc) as K. pose proof (lf_type _ _ I _ _ Hp) as L.
    assert (Here : In (EStart id pid) (pre ++ [EStart id pid; EOpen out id true; EOpen err id false])) by (apply in_or_app; cbn; auto).
    unfold started. cbn. rewrite K. destruct (pc_type c) eqn:T; cbn in *; rewrite K in L.
    + destruct St as [->|St]; [econstructor; eauto|tauto].
    + destruct St as [->|St]; [econstructor; eauto|tauto].
    + destruct St as [St| ->]; [tauto|econstructor; eauto].
  - (* notified *)
    assert (N : List.NoDup (map fst vars)) by (rewrite Vs; apply vars_nodup; auto).
    destruct (ma_pid _ _ _ M _ _ D) as (p' & Hp' & Pid & Act). rewrite Hp in Hp'. inversion Hp'; subst p'. clear Hp'.
    cbn. eexists. split; [reflexivity|]. split; [apply insert_length|]. intros i q q' c H1 H2 Hc.
    apply lookup_update_Some in H2. destruct H2 as [(-> & -> & _)|(X & H2)]; [|left; congruence].
    rewrite Hp in H1. inversion H1; subst q. pose proof (Kind _ _ _ Hp Hc) as K. rewrite Ty in K.
    rewrite notified_state. destruct (is_one (var vars "STOPPING")) eqn:E1.
    + right. apply (ready_in _ N) in E1. destruct (pc_type c); try discriminate. eapply li_stopping; [left; reflexivity|auto|auto].
    + destruct (is_one (var vars "READY")) eqn:E2; cbn; [|auto]. destruct (pstate_eqb (p_state p) Starting) eqn:E3; [|auto].
      right. apply pstate_eqb_spec in E3. rewrite E3. apply (ready_in _ N) in E2. destruct (pc_type c); try discriminate.
      eapply li_ready; [left; reflexivity|auto].
  - (* ended *)
    destruct (ma_pid _ _ _ M _ _ D) as (p' & Hp' & Pid & Act). rewrite Hp in Hp'. inversion Hp'; subst p'. clear Hp'.
    cbn. eexists. split; [reflexivity|]. split; [apply insert_length|]. intros i q q' c H1 H2 Hc.
    apply lookup_update_Some in H2. destruct H2 as [(-> & -> & _)|(X & H2)]; [|left; congruence].
    rewrite Hp in H1. inversion H1; subst q. pose proof (Kind _ _ _ Hp Hc) as K. right. cbn. unfold end_state.
    destruct (Z.eqb_spec (code_of st) 0) as [E|E].
    + rewrite E. pose proof (lf_type _ _ I _ _ Hp) as L. rewrite K in *. destruct (pc_type c) eqn:T; cbn in *.
      * eapply li_done; [right; left; reflexivity|auto|discriminate].
      * eapply li_done; [right; left; reflexivity|auto|discriminate].
      * destruct Act as [A|[A|A]]; [tauto| |tauto]. rewrite A. eapply li_sleep. right. left. reflexivity.
    + eapply li_crash; [right; left; reflexivity|auto|auto].
Qed.

(** ** A finite acyclic relation is well founded *)
Lemma acyclic_wf (R : nat -> nat -> Prop) n : (forall u v, R u v -> (u < n)%nat /\ (v < n)%nat) -> (forall v, ~ clos_trans nat R v v) -> well_founded R.
Proof.
  intros B A.
  assert (G : forall k v l, List.NoDup (v :: l) -> (forall x, In x (v :: l) -> (x < n)%nat) -> (forall x, In x l -> clos_trans nat R v x) ->
    (length l + k = n)%nat -> Acc R v).
  { induction k as [|k IH]; intros v l N L C E; constructor; intros u Hu.
    - exfalso. assert (K : (length (v :: l) <= length (seq 0 n))%nat).
      { apply NoDup_incl_length; [auto|]. intros x Hx. apply in_seq. specialize (L x Hx). lia. }
      rewrite seq_length in K. cbn in K. lia.
    - apply (IH u (v :: l)).
      + constructor; [|auto]. intros [->|K]; [apply (A u); apply t_step; auto|]. apply (A u). eapply t_trans; [apply t_step; exact Hu|auto].
      + intros x [<-|K]; [apply B in Hu; tauto|auto].
      + intros x [<-|K]; [apply t_step; auto|]. eapply t_trans; [apply t_step; exact Hu|auto].
      + cbn. lia. }
  intros v. constructor. intros u Hu. apply (G n u []).
  - constructor; [tauto|constructor].
  - intros x [<-|[]]. apply B in Hu. tauto.
  - intros x [].
  - reflexivity.
Qed.
