(** Lemmas about what whole runs show at DEBUG level. *)
From stdpp Require Import gmap strings.
From Coq Require Import Ascii ZArith List Bool Lia.
From Verif Require Import Base RStr CronModel ConfigModel ProcessModel ManagerModel SysModel MainModel LogModel TraceModel DebugModel SessionModel
  SpecStr SpecMain SpecText SpecRun SpecLog LogProofs MainProofs SpecTrace TraceProofs SpecSession SessionProofs.
From Verif Require CliModel StartModel SpecConfig SpecStart SpecRefuse StartProofs BeginModel SpecBegin BeginProofs BeginProofs2 SpecDebug DebugProofs.
Import ListNotations.
Local Open Scope string_scope.
Local Open Scope list_scope.
Local Open Scope Z_scope.

Lemma above_lines ms : SpecDebug.above_debug (own_lines ms) = own_lines (SpecBegin.quieter ms).
Proof.
  induction ms as [|[l x] ms IH]; [reflexivity|]. unfold SpecDebug.above_debug, SpecBegin.quieter, own_lines in *. cbn. destruct l; cbn; rewrite IH; reflexivity.
Qed.
Lemma session_above t d found args v ls c : BeginModel.session_all t d found args v ls c -> session t found args v (SpecDebug.above_debug ls) c.
Proof.
  intros [path v' code E R|path v' e configs s0 ops s ls' E L N].
  - rewrite above_lines, (proj2 (BeginProofs.start_lowers _ _ _ _ _)). eapply ss_refused; eassumption.
  - rewrite DebugProofs.above_app, above_lines, (proj2 (BeginProofs.start_lowers _ _ _ _ _)). eapply ss_running; [exact E|exact L|]. apply DebugProofs.narrate_above. exact N.
Qed.
Lemma session_below t d found args v ls c : session t found args v ls c -> exists all, BeginModel.session_all t d found args v all c /\ SpecDebug.above_debug all = ls.
Proof.
  intros [path v' code E R|path v' e configs s0 ops s ls' E L N].
  - eexists. split; [eapply BeginModel.sa_refused; eassumption|]. rewrite above_lines, (proj2 (BeginProofs.start_lowers _ _ _ _ _)). reflexivity.
  - destruct (DebugProofs.narrate_all_total _ _ _ _ _ N) as (all & A). eexists. split; [eapply BeginModel.sa_running; eassumption|].
    rewrite DebugProofs.above_app, above_lines, (proj2 (BeginProofs.start_lowers _ _ _ _ _)). f_equal. apply DebugProofs.narrate_above in A.
    rewrite A in N. injection N as N. exact N.
Qed.
Lemma session_all_shown t d found args v ls c rs : furnished found -> BeginModel.session_all t d found args v ls c -> SpecDebug.recorded_all ls rs ->
  exists es, stdout_entries (effective v) rs es /\ console_text v rs Stdout = Ret (each_ended es) /\
    (1 <= v <= 2 -> forall x, In x (at_level LDebug ls) -> exists time, stamp time /\ In (log_entry time LDebug "cinit" x) es).
Proof.
  intros OK H R. destruct (session_console t found args OK _ _ _ _ (session_above _ _ _ _ _ _ _ H) (DebugProofs.records_above _ _ R)) as (es & E & C).
  exists es. split; [exact E|]. split; [exact C|]. intros V. unfold effective in E. destruct (Z.ltb_spec 2 v) as [G|G]; [lia|].
  eapply DebugProofs.debug_shown; [|exact R|exact E]. lia.
Qed.
(** Without -v records at DEBUG level make no difference. *)
Lemma undebugged rs es : stdout_entries 0 rs es -> stdout_entries 0 (List.filter (fun r => negb (level_eqb (r_level r) LDebug)) rs) es.
Proof.
  intros E. induction E as [|t name line rs es E IH|t name line rs es E IH|r rs es O D E IH|r rs es O D E IH]; cbn [List.filter].
  - constructor.
  - apply se_program. exact IH.
  - apply se_stderr. exact IH.
  - destruct (level_eqb (r_level r) LDebug) eqn:L; cbn [negb]; [|apply se_shown; assumption].
    exfalso. destruct (r_level r); try discriminate L. unfold documented in D. intuition (discriminate || lia).
  - destruct (level_eqb (r_level r) LDebug); cbn [negb]; [exact IH|apply se_hidden; assumption].
Qed.

Lemma hold_in path n p s : SpecStart.at_path path n p s -> forall raw c, s = StartModel.TFile (Some c) -> SpecRefuse.holds n raw -> In c raw.
Proof.
  induction 1 as [path n|path entries name n path' p s Hin J H IH]; intros raw c -> Ho.
  - inversion Ho; subst. left. reflexivity.
  - inversion Ho as [| |? ? Ho']; subst. clear Ho J. revert raw Ho'. induction entries as [|e entries IHe]; [destruct Hin|]. intros raw Ho.
    inversion Ho as [|name' t rest a b H1 H2]; subst. apply in_or_app. destruct Hin as [E|Hin].
    + injection E as -> ->. left. eapply IH; [reflexivity|exact H1].
    + right. apply IHe; assumption.
Qed.
Lemma glued_in raw s : In s raw -> exists a b, SpecBegin.glued raw = a +:+ s +:+ b.
Proof.
  induction raw as [|x raw IH]; intros K; [destruct K|]. destruct K as [->|K].
  - exists "", (SpecBegin.glued raw). reflexivity.
  - destruct (IH K) as (a & b & E). exists (x +:+ a), b. cbn. rewrite E. symmetry. apply sapp_assoc.
Qed.
Lemma starts_complete t d path root k r : honest k -> m_files k = StartModel.nameless root -> run k = Ret r -> ~ precondition_fails k -> ~ SpecConfig.broken (m_files k) ->
  exists raw, SpecRefuse.holds root raw /\ In (SpecBegin.complete raw) (SpecStart.texts_of LDebug (fst (BeginModel.start_logs t d path root k))).
Proof.
  intros Hh Hf Hr P B. pose proof (BeginProofs.start_details t d path root k r Hh Hf Hr) as D.
  set (l := SpecStart.texts_of LDebug _) in *. clearbody l.
  inversion D; subst; try contradiction; exists raw; (split; [assumption|]); rewrite ?in_app_iff; cbn; auto.
Qed.
Theorem configuration_shown t d found args path v ls c rs es p s : furnished found -> CliModel.parse_arguments args = CliModel.Begins path v ->
  BeginModel.session_all t d found args v ls c -> SpecDebug.recorded_all ls rs -> 1 <= v <= 2 -> stdout_entries v rs es ->
  ~ precondition_fails (snd (found path)) -> ~ SpecConfig.broken (m_files (snd (found path))) ->
  SpecStart.at_path path (fst (found path)) p (StartModel.TFile (Some s)) ->
  exists time a b, stamp time /\ In (log_entry time LDebug "cinit" (a +:+ s +:+ b)) es.
Proof.
  intros OK A H R V E P B At. destruct (OK path) as (Hh & Hf).
  assert (K : exists raw, SpecRefuse.holds (fst (found path)) raw /\ In (SpecBegin.complete raw) (at_level LDebug ls)).
  { destruct H as [path' v' code E' R'|path' v' e configs s0 ops s' ls' E' L N]; assert (Ep : path' = path) by congruence; subst path'.
    - rewrite own_lines_level. eapply starts_complete; eassumption.
    - destruct L as (L1 & L2 & L3 & a & others & Ra & L4).
      destruct (starts_complete t d path _ _ _ Hh Hf Ra P B) as (raw & Ho & I). exists raw. split; [exact Ho|].
      rewrite DebugProofs.level_app, own_lines_level. apply in_or_app. left. exact I. }
  destruct K as (raw & Ho & I). destruct (DebugProofs.debug_shown v _ _ _ ltac:(lia) R E _ I) as (time & St & J).
  destruct (glued_in _ _ (hold_in _ _ _ _ At _ _ eq_refl Ho)) as (a & b & G). exists time, ("Complete configuration:" +:+ SpecBegin.newline +:+ a), b.
  split; [exact St|]. unfold SpecBegin.complete in J. rewrite G in J. exact J.
Qed.
