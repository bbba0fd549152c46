(** cinit's view of its programs is what its effects tell. *)
From stdpp Require Import gmap strings.
From Coq Require Import Ascii ZArith List Bool Lia Permutation Relations.
From Verif Require Import Base RStr CronModel ConfigModel ProcessModel EnvModel DepModel NotifyModel ManagerModel SysModel
  MainModel SpecDep SpecTimer SpecRun DepProofs CronTimerProofs RunStep RunInv RunFlow RunHist RunAlive RunStream RunClaims RunLife RunThms RunFinal RunSteps.
Import ListNotations.
Local Open Scope string_scope.
Local Open Scope list_scope.
Local Open Scope Z_scope.

Definition seen (p : process) : view := {| v_state := p_state p; v_status := p_status p; v_pid := p_pid p |}.

Record book_inv (configs : list proc_config) (g : manager) (h : list event) : Prop := {
  bk_view : forall id p, g_procs g !! id = Some p -> view_of configs h id = seen p;
  bk_main : forall x, main_of configs h x = g_pids g !! x
}.

Lemma book_app configs h evs : book_of configs (h ++ evs) = fold_left (book_step configs) evs (book_of configs h).
Proof. apply fold_left_app. Qed.

Definition unseen (ev : event) : Prop := match ev with EStart _ _ | ENotify _ _ _ | EEnd _ _ _ => False | _ => True end.
Lemma book_unseen configs evs : forall b, (forall ev, In ev evs -> unseen ev) -> fold_left (book_step configs) evs b = b.
Proof.
  induction evs as [|ev evs IH]; cbn; intros b H; [auto|]. rewrite IH by auto. specialize (H ev (or_introl eq_refl)). destruct ev; cbn in H; tauto || reflexivity.
Qed.
Lemma unseen_kills sg l ev : In ev (kills sg l) -> unseen ev.
Proof. intros H. apply in_kills in H. destruct H as (x & -> & _). exact Logic.I. Qed.

Lemma book_frame configs g h g' evs : book_inv configs g h -> (forall ev, In ev evs -> unseen ev) ->
  g_procs g' = g_procs g -> g_pids g' = g_pids g -> book_inv configs g' (h ++ evs).
Proof.
  intros [A B] U E1 E2. split; unfold view_of, main_of in *; rewrite book_app, book_unseen by auto; rewrite ?E1, ?E2; auto.
Qed.

Lemma kind_of configs e s id p : maps_inv configs e s -> g_procs (s_g s) !! id = Some p -> p_type p = runs_as (kind configs id).
Proof. intros M H. destruct (ma_proc _ _ _ M _ _ H) as (c & Hc & _ & T). unfold kind. rewrite Hc. auto. Qed.

Lemma seen_notified p vars : seen (notified_process p vars) = notified_view vars (seen p).
Proof.
  unfold notified_process, notified_view, seen. change (is_one (var vars "STOPPING")) with (says vars "STOPPING").
  change (is_one (var vars "READY")) with (says vars "READY"). change (mainpid vars) with (new_pid vars). cbn.
  destruct (new_pid vars); destruct (var vars "STATUS"); cbn; f_equal; destruct (says vars "STOPPING"), (says vars "READY"), (p_state p); reflexivity.
Qed.

Ltac quiet_events := intros ?ev ?X; cbn [In app] in *;
  repeat match goal with
  | X : _ \/ _ |- _ => destruct X as [<-|X]; [exact Logic.I|]
  | X : False |- _ => destruct X
  | X : In _ (kills _ _) |- _ => exact (unseen_kills _ _ _ X)
  | X : In _ (map _ _) |- _ => apply in_map_iff in X; destruct X as (? & <- & _); exact Logic.I
  end.

Lemma book_move configs e s s' : (forall l, Permutation (e_order e l) l) -> maps_inv configs e s -> book_inv configs (s_g s) (s_hist s) ->
  ~ panicked s' -> trans e s s' -> book_inv configs (s_g s') (s_hist s').
Proof.
  intros OK M I NP T.
  assert (Same : forall g' evs, (forall ev, In ev evs -> unseen ev) ->
    g_procs g' = g_procs (s_g s) -> g_pids g' = g_pids (s_g s) -> book_inv configs g' (s_hist s ++ evs)) by (intros; eapply book_frame; eauto).
  assert (Same0 : forall g', g_procs g' = g_procs (s_g s) -> g_pids g' = g_pids (s_g s) -> book_inv configs g' (s_hist s)).
  { intros g' E1 E2. rewrite <- (app_nil_r (s_hist s)). apply Same; auto. intros ev []. }
  destruct I as [A B].
  step_cases T; cbn [mk_s s_g s_hist with_kernel]; auto;
    try (apply Same; [quiet_events|reflexivity|reflexivity]; fail).
  - destruct (origin_frame _ _ _ _ _ O) as (E1 & _ & _ & E4 & _). apply Same; auto. destruct O; quiet_events.
  - destruct (origin_frame _ _ _ _ _ O) as (E1 & _ & _ & E4 & _). apply Same; auto. destruct O; quiet_events.
  - assert (Eb : book_of configs (s_hist s ++ pre ++ [EStart id pid; EOpen out id true; EOpen err id false]) = book_step configs (book_of configs (s_hist s)) (EStart id pid)).
    { rewrite book_app, fold_left_app, (book_unseen _ pre) by (destruct O; quiet_events). reflexivity. }
    split; unfold view_of, main_of in *; rewrite Eb; cbn.
    + intros i q Hq. unfold put. apply lookup_update_Some in Hq. destruct Hq as [(-> & -> & _)|(X & Hq)].
      * rewrite Nat.eqb_refl. rewrite (A _ _ Hp). unfold seen, started_view, started. cbn. rewrite (kind_of _ _ _ _ _ M Hp). destruct (kind configs id); reflexivity.
      * destruct (Nat.eqb_spec i id); [congruence|]. auto.
    + intros x. unfold put. destruct (Z.eqb_spec x pid) as [->|N]; [now rewrite lookup_insert|rewrite lookup_insert_ne by auto; auto].
  - split; unfold view_of, main_of in *; rewrite book_app; cbn.
    + intros i q Hq. unfold put. apply lookup_update_Some in Hq. destruct Hq as [(-> & -> & _)|(X & Hq)].
      * rewrite Nat.eqb_refl, (A _ _ Hp). symmetry. apply seen_notified.
      * destruct (Nat.eqb_spec i id); [congruence|]. auto.
    + intros x. unfold notified_pids. change (mainpid vars) with (new_pid vars). destruct (new_pid vars) as [n|]; [|auto].
      unfold put. rewrite (A _ _ Hp). cbn. destruct (Z.eqb_spec x n) as [->|N]; [now rewrite lookup_insert|rewrite lookup_insert_ne by auto].
      destruct (Z.eqb_spec x (p_pid p)) as [->|N']; [now rewrite lookup_delete|rewrite lookup_delete_ne by auto; auto].
  - split; unfold view_of, main_of in *; rewrite book_app; cbn [fold_left book_step]; rewrite book_unseen by quiet_events; cbn.
    + intros i q Hq. unfold put. apply lookup_update_Some in Hq. destruct Hq as [(-> & -> & _)|(X & Hq)].
      * rewrite Nat.eqb_refl, (A _ _ Hp). unfold seen, ended_view, end_state. cbn. rewrite (kind_of _ _ _ _ _ M Hp). destruct (code_of st =? 0), (kind configs id); reflexivity.
      * destruct (Nat.eqb_spec i id); [congruence|]. auto.
    + intros x. unfold put. destruct (Z.eqb_spec x pid) as [->|N]; [now rewrite lookup_delete|rewrite lookup_delete_ne by auto; auto].
  - exfalso. apply NP. exact Logic.I.
Qed.

Lemma start_book configs s : start_state configs s -> book_inv configs (s_g s) (s_hist s).
Proof.
  intros S. rewrite (ss_hist _ _ S). split.
  - intros id p H. destruct (ss_proc _ _ S _ _ H) as (c & Hc & _ & _ & St). destruct (ss_plain _ _ S _ _ H) as [E1 E2].
    unfold view_of, seen. cbn. unfold kind. rewrite Hc, St, E1, E2. reflexivity.
  - intros x. rewrite (ss_pids _ _ S). reflexivity.
Qed.

Lemma reachable_book k e configs s : reachable k e configs s -> ~ panicked s -> book_inv configs (s_g s) (s_hist s).
Proof.
  intros (s0 & ops & L & X). assert (OK : forall l, Permutation (e_order e l) l) by (destruct L as (_ & _ & OK & _); auto).
  assert (R0 : reachable k e configs s0) by (exists s0, []; auto).
  assert (I0 : book_inv configs (s_g s0) (s_hist s0)) by (apply start_book; eapply launched_start; eauto).
  assert (G : forall ops s0 s, reachable k e configs s0 -> (~ panicked s0 -> book_inv configs (s_g s0) (s_hist s0)) -> execute e s0 ops = Some s ->
    ~ panicked s -> book_inv configs (s_g s) (s_hist s)).
  { clear -OK. induction ops as [|o ops IH]; intros s0 s R I X NP; cbn in X; [inversion X; subst; auto|].
    destruct (sstep e s0 o) as [s1|] eqn:E; [|discriminate]. apply (IH s1); auto.
    - destruct R as (z & zs & L & Z). exists z, (zs ++ [o]). split; [auto|]. clear -Z E. revert z Z. induction zs as [|q zs IH]; cbn; intros z Z.
      + inversion Z; subst. rewrite E. reflexivity.
      + destruct (sstep e z q); [auto|discriminate].
    - intros NP1. pose proof (sstep_trans _ _ _ _ OK E) as T. assert (NP0 : ~ panicked s0) by (eapply trans_running; eauto).
      eapply book_move; eauto. apply (go_maps _ _ _ (so_good _ _ _ (wh_sound _ _ _ (whole_of R NP0)))). }
  intros NP. eapply G; eauto.
Qed.
