(** Processes of programs, as long as nobody hands over its identity and no child
    is killed by a real-time signal. *)
From stdpp Require Import gmap strings.
From Coq Require Import Ascii ZArith List Bool Lia Permutation.
From Verif Require Import Base RStr CronModel ConfigModel ProcessModel EnvModel DepModel NotifyModel ManagerModel SysModel
  MainModel SpecDep SpecRun DepProofs CronTimerProofs RunStep RunInv RunFlow RunHist.
Import ListNotations.
Local Open Scope string_scope.
Local Open Scope list_scope.
Local Open Scope Z_scope.

Lemma alive_app h evs id x : alive (h ++ evs) id x <-> (alive h id x /\ forall st, ~ In (EReap x st) evs) \/ alive evs id x.
Proof.
  unfold alive. split.
  - intros (h1 & h2 & E & N). apply split_app in E. destruct E as [(h3 & -> & E)|(e1 & e2 & -> & E & ->)].
    + left. split.
      * exists h1, h3. split; [auto|]. intros st K. apply (N st). apply in_or_app. auto.
      * intros st K. apply (N st). apply in_or_app. auto.
    + right. eauto.
  - intros [[(h1 & h2 & -> & N) K]|(h1 & h2 & -> & N)].
    + exists h1, (h2 ++ evs). split; [rewrite <- app_assoc; reflexivity|]. intros st X. apply in_app_or in X. destruct X; [eapply N|eapply K]; eauto.
    + exists (h ++ h1), h2. split; [rewrite <- app_assoc; reflexivity|auto].
Qed.
Lemma alive_nostart evs id x : (forall i y, ~ In (EStart i y) evs) -> ~ alive evs id x.
Proof. intros N (h1 & h2 & E & _). eapply N. eapply split_in. eauto. Qed.
Lemma alive_same h evs id x : (forall i y, ~ In (EStart i y) evs) -> (forall y st, ~ In (EReap y st) evs) ->
  alive (h ++ evs) id x <-> alive h id x.
Proof.
  intros N R. rewrite alive_app. pose proof (alive_nostart evs id x N). split; [tauto|]. intros K. left. split; [auto|]. intros st. apply R.
Qed.
Lemma alive_reap h pid st evs id x : (forall i y, ~ In (EStart i y) evs) -> (forall y st, ~ In (EReap y st) evs) ->
  alive (h ++ EReap pid st :: evs) id x <-> alive h id x /\ x <> pid.
Proof.
  intros N R. rewrite alive_app. assert (A : ~ alive (EReap pid st :: evs) id x).
  { apply alive_nostart. intros i y [K|K]; [discriminate|eapply N; eauto]. }
  split.
  - intros [[K1 K2]|K]; [|tauto]. split; [auto|]. intros ->. apply (K2 st). left. auto.
  - intros [K1 K2]. left. split; [auto|]. intros st' [K|K]; [inversion K; congruence|eapply R; eauto].
Qed.

Record alive_inv (s : sys) : Prop := {
  al_pids : forall id x, alive (s_hist s) id x <-> g_pids (s_g s) !! x = Some id;
  al_active : forall id p, g_procs (s_g s) !! id = Some p -> active (p_state p) -> g_pids (s_g s) !! p_pid p = Some id;
  al_kernel : forall x id, g_pids (s_g s) !! x = Some id ->
    0 < x /\ (k_procs (s_k s) !! x = Some KChild \/ exists st, k_procs (s_k s) !! x = Some (KZombie st))
}.

Lemma calm_app h evs : calm (h ++ evs) -> calm h /\ forall ev, In ev evs -> ~ handover ev.
Proof.
  intros [A B]. split; [split|].
  - intros ev K. apply A. apply in_or_app. auto.
  - intros h1 pid n h2 -> id. eapply B. rewrite <- app_assoc. reflexivity.
  - intros ev K. apply A. apply in_or_app. auto.
Qed.

(** Effects that neither start nor reap. *)
Definition still (ev : event) : Prop := match ev with EStart _ _ | EReap _ _ => False | _ => True end.
Lemma still_kills sg l ev : In ev (kills sg l) -> still ev.
Proof. intros H. apply in_kills in H. destruct H as (x & -> & _). exact Logic.I. Qed.

Lemma alive_frame s s' evs : alive_inv s -> s_hist s' = s_hist s ++ evs -> (forall ev, In ev evs -> still ev) ->
  g_procs (s_g s') = g_procs (s_g s) -> g_pids (s_g s') = g_pids (s_g s) -> k_procs (s_k s') = k_procs (s_k s) -> alive_inv s'.
Proof.
  intros [A B C] E S E1 E2 E3. split; rewrite ?E1, ?E2, ?E3; auto. intros id x. rewrite E, alive_same; auto.
  - intros i y K. apply S in K. destruct K.
  - intros y st K. apply S in K. destruct K.
Qed.

Lemma calm_mainpid h id sender vars : List.NoDup (map fst vars) -> calm (h ++ [ENotify id sender vars]) -> mainpid vars = None.
Proof.
  intros N C. unfold mainpid. destruct (var vars "MAINPID") as [v|] eqn:E; [|auto]. destruct (parse_i32 v) as [n|] eqn:F; [|auto].
  exfalso. apply (proj1 C (ENotify id sender vars)); [apply in_or_app; cbn; auto|]. cbn. exists v, n.
  split; [apply var_in; auto|auto].
Qed.

Lemma alive_step configs e s s' : (forall l, Permutation (e_order e l) l) -> maps_inv configs e s -> alive_inv s -> calm (s_hist s') ->
  ~ panicked s' -> trans e s s' -> alive_inv s'.
Proof.
  intros OK M I Cm NP T.
  assert (Quiet : forall s' evs, s_hist s' = s_hist s ++ evs -> (forall ev, In ev evs -> still ev) ->
    g_procs (s_g s') = g_procs (s_g s) -> g_pids (s_g s') = g_pids (s_g s) -> k_procs (s_k s') = k_procs (s_k s) -> alive_inv s').
  { intros. eapply alive_frame; eauto. }
  step_cases T.
  - split; cbn; [apply (al_pids _ I)|apply (al_active _ I)|]. intros x id H. destruct (al_kernel _ I _ _ H) as [L K]. split; [auto|].
    inversion KM as [k pid Lp Np E1 E2|k pid Np E1 E2|k pid Np E1 E2|k pid st Np V E1 E2|k fd q Hq E1 E2]; subst k; cbn; auto;
      (destruct (Z.eq_dec x pid) as [->|X]; [|rewrite ?lookup_insert_ne, ?lookup_delete_ne by auto; auto]).
    + destruct K as [K|[st K]]; congruence.
    + destruct K as [K|[st K]]; congruence.
    + rewrite lookup_insert. auto.
    + rewrite lookup_insert. eauto.
  - apply (Quiet _ [EWrote fd data]); cbn; auto. intros ev [<-|[]]. exact Logic.I.
  - apply (Quiet _ []); cbn; rewrite ?app_nil_r; auto. intros ev [].
  - apply (Quiet _ [EExit (g_exit (s_g s))]); cbn; auto. intros ev [<-|[]]. exact Logic.I.
  - apply (Quiet _ []); cbn; rewrite ?app_nil_r; auto. intros ev [].
  - apply (Quiet _ [EDue id now; ESkipped id]); cbn; auto. intros ev [<-|[<-|[]]]; exact Logic.I.
  - destruct (origin_frame _ _ _ _ _ O) as (E1 & E2 & E3 & E4 & E5 & E6 & E7 & E8). apply (Quiet _ (pre ++ [ERefused id])); cbn; auto.
    intros ev K. apply in_app_or in K. destruct K as [K|[<-|[]]]; [|exact Logic.I]. destruct O; [destruct K|destruct K as [<-|[]]; exact Logic.I].
  - destruct (origin_frame _ _ _ _ _ O) as (E1 & E2 & E3 & E4 & E5 & E6 & E7 & E8). apply (Quiet _ (pre ++ [EStartFail id])); cbn; auto.
    intros ev K. apply in_app_or in K. destruct K as [K|[<-|[]]]; [|exact Logic.I]. destruct O; [destruct K|destruct K as [<-|[]]; exact Logic.I].
  - (* started *)
    assert (Np : forall ev, In ev pre -> still ev).
    { intros ev K. destruct O; [destruct K|destruct K as [<-|[]]; exact Logic.I]. }
    destruct F as (F1 & F2 & _).
    assert (Fresh : g_pids (s_g s) !! pid = None).
    { destruct (g_pids (s_g s) !! pid) as [i|] eqn:E; [|auto]. apply (al_kernel _ I) in E. destruct E as [_ [E|[st E]]]; congruence. }
    split; cbn.
    + intros i x. rewrite app_assoc, alive_app, alive_same.
      2:{ intros j y K. apply Np in K. destruct K. }
      2:{ intros j y K. apply Np in K. destruct K. }
      rewrite (al_pids _ I). split.
      * intros [[K _]|(h1 & h2 & E & _)].
        -- rewrite lookup_insert_ne; [auto|]. intros ->. congruence.
        -- apply split_in in E. destruct E as [E|[E|[E|[]]]]; try discriminate. inversion E; subst. apply lookup_insert.
      * intros K. apply lookup_insert_Some in K. destruct K as [[-> ->]|[X K]].
        -- right. exists [], [EOpen out i true; EOpen err i false]. split; [auto|]. intros st [E|[E|[]]]; discriminate.
        -- left. split; [auto|]. intros st [E|[E|[E|[]]]]; discriminate.
    + intros i q Hq Ac. apply lookup_update_Some in Hq. destruct Hq as [(-> & -> & _)|(X & Hq)].
      * unfold started. cbn. apply lookup_insert.
      * apply (al_active _ I) in Hq; [|auto]. rewrite lookup_insert_ne; [auto|]. intros E. congruence.
    + intros x i K. apply lookup_insert_Some in K. destruct K as [[-> ->]|[X K]].
      * rewrite lookup_insert. auto.
      * rewrite lookup_insert_ne by auto. apply (al_kernel _ I) in K. auto.
  - apply (Quiet _ (ESignal sg :: kills sent (running_pids (s_g s)))); cbn; auto. intros ev [<-|K]; [exact Logic.I|]. eapply still_kills; eauto.
  - apply (Quiet _ [ESignal SIGCHLD]); cbn; auto. intros ev [<-|[]]. exact Logic.I.
  - apply (Quiet _ [EReport text]); cbn; auto. intros ev [<-|[]]. exact Logic.I.
  - apply (Quiet _ [EIgnored sender]); cbn; auto. intros ev [<-|[]]. exact Logic.I.
  - (* notified *)
    assert (N : List.NoDup (map fst vars)) by (rewrite Vs; apply vars_nodup; auto).
    assert (Mp : mainpid vars = None) by (eapply calm_mainpid; [exact N|exact Cm]).
    split; cbn; unfold notified_pids; rewrite ?Mp.
    + intros i x. rewrite alive_same; [apply (al_pids _ I)| |].
      * intros j y [K|[]]. discriminate.
      * intros j y [K|[]]. discriminate.
    + intros i q Hq Ac. apply lookup_update_Some in Hq. destruct Hq as [(-> & -> & _)|(X & Hq)]; [|eapply al_active; eauto].
      rewrite notified_pid, Mp. destruct (ma_pid _ _ _ M _ _ D) as (p' & Hp' & Pid & Act). rewrite Hp in Hp'. inversion Hp'; subst p'.
      eapply al_active; eauto.
    + apply (al_kernel _ I).
  - apply (Quiet _ (EChunk fd (stake n (pp_buf q)) ::
                     map (ELog (is_stdout (s_g s) fd) (p_name p))
                         (List.filter nonempty (lines (utf8_lossy (stake n (pp_buf q))))))); cbn; auto.
    intros ev [<-|K1]; [exact Logic.I|]. apply in_map_iff in K1. destruct K1 as (y & <- & _). exact Logic.I.
  - apply (Quiet _ [EClosed fd]); cbn; auto. intros ev [<-|[]]. exact Logic.I.
  - (* unknown *)
    split; cbn.
    + intros i x. rewrite alive_reap.
      2:{ intros j y [K|[]]. discriminate. }
      2:{ intros j y [K|[]]. discriminate. }
      rewrite (al_pids _ I). split; [tauto|]. intros K. split; [auto|]. intros ->. congruence.
    + apply (al_active _ I).
    + intros x i K. rewrite lookup_delete_ne; [apply (al_kernel _ I _ _ K)|]. intros ->. congruence.
  - (* lost *)
    assert (Un : g_pids (s_g s) !! pid = None).
    { destruct (g_pids (s_g s) !! pid) as [i|] eqn:E; [|auto]. exfalso. apply (al_pids _ I) in E. cbn in Cm. eapply (proj2 Cm); [reflexivity|exact E]. }
    split; cbn.
    + intros i x. rewrite alive_reap.
      2:{ intros j y [K|[]]. discriminate. }
      2:{ intros j y [K|[]]. discriminate. }
      rewrite (al_pids _ I). split; [tauto|]. intros K. split; [auto|]. intros ->. congruence.
    + apply (al_active _ I).
    + intros x i K. rewrite lookup_delete_ne; [apply (al_kernel _ I _ _ K)|]. intros ->. congruence.
  - (* ended *)
    destruct (ma_pid _ _ _ M _ _ D) as (p' & Hp' & Pid & Act). rewrite Hp in Hp'. inversion Hp'; subst p'. clear Hp'.
    split; cbn.
    + intros i x. rewrite alive_reap.
      2:{ intros j y [K|K]; [discriminate|]. apply still_kills in K. destruct K. }
      2:{ intros j y [K|K]; [discriminate|]. apply still_kills in K. destruct K. }
      rewrite (al_pids _ I), lookup_delete_Some. split; intros [? ?]; auto.
    + intros i q Hq Ac. apply lookup_update_Some in Hq. destruct Hq as [(-> & -> & _)|(X & Hq)].
      * exfalso. cbn in Ac. unfold end_state in Ac. destruct (code_of st =? 0), (p_type p), Ac as [K|[K|K]]; discriminate.
      * apply (al_active _ I) in Hq; [|auto]. rewrite lookup_delete_ne; [auto|]. intros E. congruence.
    + intros x i K. apply lookup_delete_Some in K. destruct K as [X K]. rewrite lookup_delete_ne by auto. apply (al_kernel _ I _ _ K).
  - exfalso. apply NP. exact Logic.I.
Qed.

Lemma start_alive configs s : start_state configs s -> alive_inv s.
Proof.
  intros S. split; rewrite ?(ss_hist _ _ S), ?(ss_pids _ _ S).
  - intros id x. rewrite lookup_empty. split; [|discriminate]. intros (h1 & h2 & E & _). destruct h1; discriminate.
  - intros id p H [A|[A|A]]; destruct (ss_proc _ _ S _ _ H) as (c & _ & _ & _ & E); rewrite A in E; destruct (pc_type c); discriminate.
  - intros x id H. rewrite lookup_empty in H. discriminate.
Qed.

(** What cinit would send a signal to can be reached. *)
Lemma running_in g x : In x (running_pids g) <-> exists id p, g_procs g !! id = Some p /\ p_state p = Running /\ p_pid p = x.
Proof.
  unfold running_pids. rewrite in_map_iff. split.
  - intros (p & <- & H). apply filter_In in H. destruct H as [H1 H2]. apply elem_of_list_In, elem_of_list_lookup in H1.
    destruct H1 as [id H1]. exists id, p. split; [auto|]. split; [|auto]. apply pstate_eqb_spec. auto.
  - intros (id & p & H & R & <-). exists p. split; [auto|]. apply filter_In. split.
    + apply elem_of_list_In. eapply elem_of_list_lookup_2; eauto.
    + rewrite R. reflexivity.
Qed.
Lemma running_reach s : alive_inv s -> forall x, In x (running_pids (s_g s)) ->
  reach (s_k s) x = true /\ exists id, alive (s_hist s) id x.
Proof.
  intros I x H. apply running_in in H. destruct H as (id & p & Hp & R & <-).
  apply (al_active _ I) in Hp; [|rewrite R; unfold active; auto]. split.
  - apply (al_kernel _ I) in Hp. unfold reach. destruct Hp as [L K]. apply Z.ltb_lt in L. rewrite L. destruct K as [->|[st ->]]; reflexivity.
  - exists id. apply (al_pids _ I). auto.
Qed.
Lemma running_reach_ended configs e s pid id p rc : maps_inv configs e s -> alive_inv s -> g_pids (s_g s) !! pid = Some id -> g_procs (s_g s) !! id = Some p ->
  forall x, In x (running_pids (update (s_g s) id (with_state p (Crashed rc)))) ->
  reach (set_kprocs (s_k s) (delete pid (k_procs (s_k s)))) x = true /\ x <> pid /\ exists id, alive (s_hist s) id x.
Proof.
  intros M I Hid Hp x H. apply running_in in H. destruct H as (j & q & Hq & R & <-). cbn in Hq. apply lookup_update_Some in Hq.
  destruct Hq as [(-> & -> & _)|(X & Hq)]; [discriminate|].
  apply (al_active _ I) in Hq; [|rewrite R; unfold active; auto].
  assert (N : p_pid q <> pid) by (intros E; congruence).
  split; [|split; [auto|exists j; apply (al_pids _ I); auto]].
  apply (al_kernel _ I) in Hq. unfold reach. cbn. destruct Hq as [L K]. apply Z.ltb_lt in L. rewrite L, lookup_delete_ne by auto.
  destruct K as [->|[st ->]]; reflexivity.
Qed.
