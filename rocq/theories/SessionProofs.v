(** Lemmas about whole runs. *)
From stdpp Require Import gmap strings.
From Coq Require Import Ascii ZArith List Bool Lia.
From Verif Require Import Base RStr CronModel ConfigModel ProcessModel ManagerModel SysModel MainModel LogModel TraceModel
  SpecStr SpecMain SpecText SpecRun SpecLog LogProofs MainProofs SpecTrace TraceProofs SessionModel SpecSession.
From Verif Require CliModel StartModel SpecStart StartProofs CliProofs SpecCli.
Import ListNotations.
Local Open Scope string_scope.
Local Open Scope list_scope.
Local Open Scope Z_scope.

Lemma own_lines_level l ms : at_level l (own_lines ms) = SpecStart.texts_of l ms.
Proof.
  induction ms as [|[lv x] ms IH]; [reflexivity|]. rewrite StartProofs.texts_cons. cbn. fold (at_level l (own_lines ms)). rewrite <- IH.
  destruct lv, l; reflexivity.
Qed.
Lemma own_lines_said ms rs : recorded (own_lines ms) rs -> said [] rs.
Proof. intros R. eapply own_said; [exact R|]. intros x K. apply in_map_iff in K. destruct K as (m & <- & _). exact Logic.I. Qed.

Lemma verbosity_range args path v : CliModel.parse_arguments args = CliModel.Begins path v -> 0 <= v.
Proof.
  intros E. apply CliProofs.runs_iff in E. destruct E as (l & _ & _ & ->).
  assert (0 <= SpecCli.verbosity l); [|lia]. induction l as [|x l IH]; cbn; [lia|]. destruct x; lia.
Qed.

(** Errors are on stdout whatever the verbosity. *)
Lemma shown_errors v rs es : stdout_entries v rs es -> (forall r, In r rs -> r_level r = LError -> own_message r) ->
  forall x, In x (texts_at LError rs) -> exists t, stamp t /\ In (log_entry t LError "cinit" x) es.
Proof.
  intros E. induction E as [|t name line rs es E IH|t name line rs es E IH|r rs es O D E IH|r rs es O D E IH]; intros W x K.
  - destruct K.
  - cbn in K. destruct IH with (x := x) as (t' & T & J); [intros r' R; apply W; right; exact R|exact K|]. exists t'. cbn. auto.
  - cbn in K. destruct IH with (x := x) as (t' & T & J); [intros r' R; apply W; right; exact R|exact K|]. exists t'. cbn. auto.
  - unfold texts_at in K. cbn [List.filter] in K. destruct (level_eqb (r_level r) LError) eqn:L.
    + cbn [map] in K. destruct K as [<-|K].
      * exists (r_time r). split; [exact (proj1 O)|]. left. destruct (r_level r); try discriminate L. reflexivity.
      * destruct IH with (x := x) as (t' & T & J); [intros r' R; apply W; right; exact R|exact K|]. exists t'. cbn. auto.
    + destruct IH with (x := x) as (t' & T & J); [intros r' R; apply W; right; exact R|exact K|]. exists t'. cbn. auto.
  - unfold texts_at in K. cbn [List.filter] in K. destruct (level_eqb (r_level r) LError) eqn:L.
    + destruct D. left. destruct (r_level r); try discriminate L. reflexivity.
    + destruct IH with (x := x) as (t' & T & J); [intros r' R; apply W; right; exact R|exact K|]. exists t'. cbn. auto.
Qed.
Lemma recorded_own ls rs : recorded ls rs -> forall r, In r rs -> r_level r = LError -> own_message r.
Proof.
  intros H. induction H as [|r ls rs O D H IH|l t r ls rs O L T H IH|time out name t ls rs O H IH]; intros r' K E.
  - destruct K.
  - destruct K as [<-|K]; auto.
  - destruct K as [<-|K]; auto.
  - destruct K as [<-|K]; [discriminate E|auto].
Qed.

Lemma alarms_survivable configs h es : alarms configs h es -> (forall id rc, rc <> 0 -> ~ In (crash_message configs id rc) es) -> Forall survivable es.
Proof.
  intros A. induction A as [|id pid rc h es N A IH|id h es A IH|id why h es A IH|why h es A IH|ev h es N A IH]; intros K.
  - constructor.
  - destruct (K id rc N). left. reflexivity.
  - apply List.Forall_cons; [apply su_fork|]. apply List.Forall_cons; [apply (su_start "EINVAL: Invalid argument")|].
    apply IH. intros i r N J. apply (K i r N). right. right. exact J.
  - apply List.Forall_cons; [apply su_start|]. apply IH. intros i r N J. apply (K i r N). right. exact J.
  - apply List.Forall_cons; [apply su_epoll|]. apply IH. intros i r N J. apply (K i r N). right. exact J.
  - apply IH. exact K.
Qed.

Lemma run_codes k code : honest k -> run k = Ret (Exits code) -> code = 1 \/ code = 2 \/ code = 3 \/ code = 5.
Proof.
  intros H E. destruct (run_exact k _ H E) as [[_ K]|[_ [[_ K]|[_ (parsed & _ & [[_ K]|[_ (configs & _ & [[_ K]|[[_ [_ K]]|(_ & _ & a & K & _)]])]])]]]];
    try discriminate K; injection K as ->; auto.
Qed.

Section session.
Context (t : StartModel.texts) (found : string -> StartModel.tree * machine) (args : list string) (OK : furnished found).

Lemma session_said v ls c rs : session t found args v ls c -> recorded ls rs -> (exists h, said h rs) /\ 0 <= v.
Proof using OK.
  intros H R. destruct H as [path v code E _|path v e configs s0 ops s ls E L N].
  - split; [|eapply verbosity_range; exact E]. exists []. eapply own_lines_said. exact R.
  - split; [|eapply verbosity_range; exact E]. destruct (recorded_app _ _ _ R) as (r1 & r2 & -> & R1 & R2). exists ([] ++ s_hist s).
    apply said_app; [eapply own_lines_said; exact R1|]. eapply narrated_said; [|exact R2]. eapply log_narrated; eauto.
Qed.
Lemma session_console v ls c rs : session t found args v ls c -> recorded ls rs ->
  exists es, stdout_entries (effective v) rs es /\ console_text v rs Stdout = Ret (each_ended es).
Proof using OK.
  intros H R. destruct (session_said _ _ _ _ H R) as ((h & S) & V). unfold effective. destruct (Z.ltb_spec 2 v) as [G|G].
  - rewrite very_verbose by lia. eapply stdout_exact; [exact S|lia].
  - eapply stdout_exact; [exact S|lia].
Qed.
Lemma session_codes v ls c : session t found args v ls c -> exists path, CliModel.parse_arguments args = CliModel.Begins path v /\
  (c = Some 0 -> Forall survivable (at_level LError ls)) /\
  (forall code, c = Some code -> code <> 0 -> exists x, In x (at_level LError ls) /\ explains t found path code x).
Proof using OK.
  intros H. destruct H as [path v code E K|path v e configs s0 ops s ls E L N]; exists path; (split; [exact E|]).
  - destruct (OK path) as (Hh & Hf). destruct (StartProofs.start_reasons t path _ _ Hh Hf) as (_ & B & A & _). rewrite own_lines_level. split.
    + intros Z. exfalso. apply Some_inj in Z. subst code. apply run_codes in K; [|exact Hh]. lia.
    + intros c Z _. apply Some_inj in Z. subst c. specialize (A _ K). destruct (SpecStart.texts_of _ _) as [|x l]; [contradiction|].
      exists x. split; [left; reflexivity|]. apply ex_refused; [apply run_codes in K; [exact K|exact Hh]|]. inversion B; assumption.
  - destruct (OK path) as (Hh & Hf). destruct (StartProofs.start_reasons t path _ _ Hh Hf) as (_ & _ & _ & A).
    pose proof (log_narrated _ _ _ _ _ _ _ L N) as W. pose proof (narrated_alarms _ _ _ _ W) as B.
    pose proof L as (L1 & L2 & L3 & a & others & Ra & L4). rewrite at_level_app, own_lines_level, (A _ _ Ra). cbn [app]. split.
    + intros Z. destruct (s_pc s) eqn:P; try discriminate Z. apply Some_inj in Z. subst.
      eapply alarms_survivable; [exact B|]. intros id rc N' J. destruct (exit_blames _ _ _ _ _ _ _ _ L N P) as (_ & X). assert (Y : 0 = 6); [apply X; eauto|discriminate Y].
    + intros code Z N'. destruct (s_pc s) eqn:P; try discriminate Z. apply Some_inj in Z. subst.
      destruct (exit_blames _ _ _ _ _ _ _ _ L N P) as ([X|X] & Y); [contradiction|]. destruct (proj1 Y X) as (id & rc & Nz & J). subst code.
      exists (crash_message configs id rc). split; [exact J|]. apply (ex_crash t found path (called configs id)). exact Nz.
Qed.
Lemma session_shows v ls code rs es : session t found args v ls (Some code) -> code <> 0 -> recorded ls rs ->
  stdout_entries (effective v) rs es ->
  exists path why, CliModel.parse_arguments args = CliModel.Begins path v /\ explains t found path code why /\ shows_error es why.
Proof using OK.
  intros H N R E. destruct (session_codes _ _ _ H) as (path & P & _ & A). destruct (A _ eq_refl N) as (x & I & X).
  rewrite <- (recorded_texts LError ls rs R) in I by discriminate.
  exists path, x. split; [exact P|]. split; [exact X|]. exact (shown_errors _ _ _ E (recorded_own _ _ R) x I).
Qed.
Lemma session_clean v ls rs : session t found args v ls (Some 0) -> recorded ls rs -> Forall survivable (texts_at LError rs).
Proof using OK.
  intros H R. rewrite (recorded_texts LError ls rs R) by discriminate. destruct (session_codes _ _ _ H) as (_ & _ & A & _). exact (A eq_refl).
Qed.
End session.
