(** Status reports in reachable states. *)
From stdpp Require Import gmap strings.
From Coq Require Import Ascii ZArith List Bool Lia Permutation Relations.
From Verif Require Import Base RStr CronModel ConfigModel ProcessModel EnvModel DepModel NotifyModel ManagerModel SysModel
  MainModel SpecDep SpecTimer SpecRun DepProofs CronTimerProofs RunStep RunInv RunFlow RunHist RunAlive RunStream RunClaims RunLife RunThms
  RunFinal RunSteps RunSteps2 RunView.
Import ListNotations.
Local Open Scope string_scope.
Local Open Scope list_scope.
Local Open Scope Z_scope.

Lemma unlines_app a b : unlines (a ++ b) = unlines a +:+ unlines b.
Proof. induction a as [|x a IH]; cbn; [auto|]. rewrite IH, append_assoc. reflexivity. Qed.
Lemma unlines_one a : unlines [a] = a +:+ String LF "".
Proof. reflexivity. Qed.
Lemma unlines_two a b : unlines [a; b] = a +:+ String LF "" +:+ b +:+ String LF "".
Proof. reflexivity. Qed.

Lemma entry_text name st status (pid : option Z) next p :
  unlines (entry_lines name {| v_state := st; v_status := status; v_pid := p |} pid next) =
  "  - name: '" +:+ name +:+ "'" +:+ String LF "" +:+
  "    state: '" +:+ show_pstate st +:+ "'" +:+ String LF "" +:+
  (if nonempty status then "    status: " +:+ status +:+ String LF "" else "") +:+
  match st with
  | Done => "    exit_code: 0" +:+ String LF ""
  | Crashed rc => "    exit_code: " +:+ show_Z rc +:+ String LF ""
  | _ => ""
  end +:+
  match pid with Some x => "    pid: " +:+ show_Z x +:+ String LF "" | None => "" end +:+
  match next with Some t => "    scheduled_at: '" +:+ t +:+ "'" +:+ String LF "" | None => "" end.
Proof.
  unfold entry_lines. rewrite !unlines_app. cbn [v_state v_status].
  replace (show_pstate st) with (state_word st) by (destruct st; reflexivity).
  replace (unlines (if String.eqb status "" then [] else ["    status: " +:+ status])) with
    (if nonempty status then "    status: " +:+ status +:+ String LF "" else "") by (destruct status; cbn [String.eqb nonempty]; rewrite ?unlines_one, ?append_assoc; reflexivity).
  replace (unlines (exit_line st)) with (match st with Done => "    exit_code: 0" +:+ String LF "" | Crashed rc => "    exit_code: " +:+ show_Z rc +:+ String LF "" | _ => "" end)
    by (destruct st; cbn [exit_line]; rewrite ?unlines_one, ?append_assoc; reflexivity).
  rewrite unlines_two.
  destruct pid as [x|]; destruct next as [t|]; rewrite ?unlines_one, ?append_assoc; reflexivity.
Qed.

Section reachable.
Context {k : machine} {e : env} {configs : list proc_config} {s : sys} (Re : reachable k e configs s).

Lemma report_text rest s' : s_pc s = AtEvents (EvIn (e_status e) :: rest) -> e_status e <> e_signal e ->
  sstep e s (CEvent (AAccept true)) = Some s' ->
  exists next, (forall id, cronjob configs id -> cron_next (g_cron (s_g s)) id = Ret (next id)) /\
    s_hist s' = s_hist s ++ [EReport (unlines ("programs:" :: flat_map (entry configs (s_hist s) (fun id => e_rfc3339 e (next id))) (seq 0 (length configs))))] /\
    s_g s' = s_g s /\ s_k s' = s_k s /\ s_pc s' = AtEvents rest /\ s_shut s' = s_shut s.
Proof.
  intros P N H. assert (NP : ~ panicked s) by (unfold panicked; rewrite P; auto). assert (W := whole_of Re NP).
  assert (G := so_good _ _ _ (wh_sound _ _ _ W)). assert (M := go_maps _ _ _ G). assert (B := reachable_book _ _ _ _ Re NP).
  exists (fun id => match cron_next (g_cron (s_g s)) id with Ret t => t | Panic _ => 0 end).
  assert (Nx : forall id, cronjob configs id -> exists t, cron_next (g_cron (s_g s)) id = Ret t).
  { intros id J. destruct (cron_next_ok (g_cron (s_g s)) id) as (t & E & _); [apply (fl_cron _ _ (go_flow _ _ _ G))|apply (fl_jobs _ _ (go_flow _ _ _ G)); auto|eauto]. }
  split. { intros id J. destruct (Nx id J) as [t ->]. reflexivity. }
  set (next := fun id => match cron_next (g_cron (s_g s)) id with Ret t => t | Panic _ => 0 end).
  assert (F : format_report (e_rfc3339 e) (s_g s) = Ret (unlines ("programs:" :: flat_map (entry configs (s_hist s) (fun id => e_rfc3339 e (next id))) (seq 0 (length configs))))).
  { unfold format_report. enough (E : report_programs (e_rfc3339 e) (s_g s) (enumerate (g_procs (s_g s))) =
      Ret (unlines (flat_map (entry configs (s_hist s) (fun id => e_rfc3339 e (next id))) (seq 0 (length configs))))).
    { rewrite E. cbn [obind]. reflexivity. }
    rewrite <- (ma_len _ _ _ M), <- (map_fst_enumerate (g_procs (s_g s))).
    assert (Hl : forall id p, In (id, p) (enumerate (g_procs (s_g s))) -> g_procs (s_g s) !! id = Some p).
    { intros id p K. apply enumerate_in in K. rewrite <- nth_error_lookup. auto. }
    revert Hl. generalize (enumerate (g_procs (s_g s))). induction l as [|[id p] l IH]; intros Hl; [reflexivity|].
    cbn [map fst flat_map report_programs]. rewrite unlines_app, IH by (intros; apply Hl; right; auto).
    assert (Hp : g_procs (s_g s) !! id = Some p) by (apply Hl; left; auto).
    assert (E : report_program (e_rfc3339 e) (s_g s) id p = Ret (unlines (entry configs (s_hist s) (fun id => e_rfc3339 e (next id)) id))).
    { destruct (ma_proc _ _ _ M _ _ Hp) as (c & Hc & Nm & Ty). unfold entry, shown. rewrite Hc, (bk_view _ _ _ B _ _ Hp). unfold seen. rewrite entry_text. cbn [v_pid].
      rewrite (bk_main _ _ _ B). unfold report_program. rewrite Nm, Ty.
      destruct (pc_type c) as [ | |tm] eqn:Tc; cbn [runs_as obind]; try (destruct (g_pids (s_g s) !! p_pid p); reflexivity).
      assert (J : cronjob configs id) by (exists c, tm; auto). destruct (Nx id J) as [u Hu]. unfold next. rewrite Hu. cbn [obind].
      destruct (g_pids (s_g s) !! p_pid p); reflexivity. }
    rewrite E. cbn [obind]. reflexivity. }
  cbn in H. rewrite P in H. cbn [step_event] in H. rewrite (proj2 (Z.eqb_neq _ _) N), Z.eqb_refl in H. inversion H; subst s'. unfold report_status.
  rewrite F. cbn. auto 10.
Qed.

(** Which pids are shown. *)
Lemma shown_pid : ~ panicked s -> calm (s_hist s) ->
  (forall id x, alive (s_hist s) id x -> v_pid (view_of configs (s_hist s) id) = x /\ main_of configs (s_hist s) x = Some id) /\
  (forall id x, main_of configs (s_hist s) x = Some id -> alive (s_hist s) id x).
Proof.
  intros NP Cm. assert (W := whole_of Re NP). assert (A := so_alive _ _ _ (wh_sound _ _ _ W) Cm). assert (B := reachable_book _ _ _ _ Re NP).
  assert (M := go_maps _ _ _ (so_good _ _ _ (wh_sound _ _ _ W))). split.
  - intros id x K. apply (al_pids _ A) in K. rewrite (bk_main _ _ _ B). split; [|auto]. destruct (ma_pid _ _ _ M _ _ K) as (p & Hp & Pid & _).
    rewrite (bk_view _ _ _ B _ _ Hp). auto.
  - intros id x K. rewrite (bk_main _ _ _ B) in K. apply (al_pids _ A). auto.
Qed.
End reachable.
