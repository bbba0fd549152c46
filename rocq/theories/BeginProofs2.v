(** Lemmas about whole runs with the messages at DEBUG level. *)
From stdpp Require Import gmap strings.
From Coq Require Import Ascii ZArith List Bool Lia Permutation.
From Verif Require Import Base RStr CronModel ConfigModel ProcessModel EnvModel DepModel MainModel LogModel TemplModel StartModel BeginModel
  SpecConfig SpecEnv SpecDep SpecMain SpecStart SpecRefuse SpecBegin ConfigProofs EnvProofs DepProofs MainProofs TemplProofs StartProofs StartProofs2 RefuseProofs
  BeginProofs CronTimerProofs.
From Verif Require SpecTick TickProofs RunSteps2 RunInv.
Import ListNotations.
Local Open Scope string_scope.
Local Open Scope list_scope.

(** * A successful start, line by line *)
Lemma kernel_whole t release : snd (kernel_logs t release) = Ret (Ok tt) ->
  exists note v, version_note t release note /\ kernel_detail release v /\ fst (kernel_logs t release) = note ++ map (pair LDebug) v.
Proof.
  intros H. exists (fst (kernel_says t release)), (low (fst (kernel_logs t release))).
  rewrite (proj1 (kernel_lowers t release)) in H. split; [apply kernel_note; exact H|]. split; [apply kernel_low|].
  revert H. unfold kernel_logs, kernel_says. destruct release as [r|]; [|reflexivity]. destruct (split_on "."%char (utf8_lossy r)) as [|a [|b l]]; try reflexivity.
  destruct (parse_u32 a) as [M|]; [|reflexivity]. destruct (parse_u32 b) as [m|]; [|reflexivity].
  destruct ((M <? 4) || ((M =? 4) && (m <? 3)))%Z; [discriminate|reflexivity].
Qed.
Lemma jobs_low show tz : forall jobs clock, jobs_log show tz jobs clock = map (pair LDebug) (low (jobs_log show tz jobs clock)).
Proof.
  induction jobs as [|[i c] rest IH]; intros clock; [reflexivity|]. cbn [jobs_log]. destruct (timer_text c) as [raw|]; [|reflexivity].
  destruct (parse_timer raw) as [[desc|e]|m]; [|reflexivity|reflexivity]. destruct clock as [|now clock]; [reflexivity|].
  destruct (next_execution tz desc now) as [u|m]; [|reflexivity]. unfold low. rewrite texts_cons. cbn. f_equal. apply IH.
Qed.

Theorem begin_log t d path root k configs a : m_files k = nameless root -> run k = Ret (EntersLoop configs a) ->
  exists note v files raw saids l, version_note t (m_release k) note /\ kernel_detail (m_release k) v /\ ignored path root files /\ holds root raw /\
    List.Forall2 (fun c said => exists p, build (t_tera t) (m_world k) c = (said, Ret (Ok p))) configs saids /\
    announced (a_rfc3339 d) (m_zone k) configs (m_clock k) l /\
    fst (start_logs t d path root k) =
      [(LInfo, "Starting up")] ++ note ++ map (pair LDebug) v ++ [(LInfo, "Config is at " +:+ path); (LInfo, "Parsing config")] ++
      map (fun p => (LWarn, "Ignoring file " +:+ p)) files ++ [(LDebug, complete raw); (LInfo, "Perform analysis on programs")] ++ concat saids ++
      map (pair LDebug) l ++ [(LDebug, first_socket); (LDebug, second_socket); (LInfo, "Spawning processes"); (LDebug, "setup successful"); (LDebug, "Entering poll loop")].
Proof.
  intros Hf Hr. rewrite <- (logs_run t d path root k Hf) in Hr. unfold start_logs in *. unfold tell at 1. cbn [fst]. rewrite snd_tell in Hr.
  destruct (then_ret _ _ _ Hr) as ([[]|e] & X & F & ->); [|discriminate F]. unfold checks_log in *.
  destruct (then_ok _ _ _ X) as ([] & K & U & ->).
  assert (E : fst (user_says (m_uid k)) = []) by (revert U; unfold user_says; destruct (m_uid k =? 0)%Z; [reflexivity|discriminate]).
  rewrite E, app_nil_r. destruct (kernel_whole _ _ K) as (note & v & N & V & ->). rewrite snd_tell in F. unfold tell at 1. cbn [fst].
  destruct (then_ret _ _ _ F) as ([cs|e] & Y & G & ->); [|discriminate G]. rewrite snd_tell in G. unfold tell at 1. cbn [fst].
  destruct (then_ret _ _ _ G) as ([a'|e] & Z & L & ->); [|discriminate L]. rewrite snd_tell in L. unfold tell at 1. cbn [fst].
  destruct (m_setup k); [|discriminate L]. cbn in L. injection L as -> _. cbn [fst].
  unfold config_logs in *. destruct (then_ok _ _ _ Y) as (raw & Y1 & Y2 & ->). rewrite snd_tell in Y2. unfold tell at 1. cbn [fst].
  destruct (then_ok _ _ _ Y2) as (ps & Y3 & Y4 & ->). destruct (then_ok _ _ _ Y4) as (dd & Y5 & _ & ->).
  destruct (reading_note _ _ _ _ Y1) as (files & I & ->). rewrite (parsing_silent _ _ _ _ Y3), (merging_silent _ _ _ Y5).
  destruct (reading_pass _ _ _ _ Y1) as (_ & Ho).
  unfold analysis_logs in *. destruct (then_ok _ _ _ Z) as (pr & Z1 & Z2 & ->). destruct (then_ret _ _ _ Z2) as (dep & Z3 & Z4 & ->).
  destruct (then_ret _ _ _ Z4) as (cron & Z5 & Z6 & ->). destruct (builds_note _ _ _ _ Z1) as (saids & A & ->). rewrite snd_tell in Z6. unfold tell at 1. cbn [fst].
  exists note, v, files, raw, saids, (low (fst (timers_log (a_rfc3339 d) (m_zone k) (m_clock k) configs))).
  split; [exact N|]. split; [exact V|]. split; [exact I|]. split; [exact Ho|]. split; [exact A|]. split; [eapply timers_announced; exact Z5|].
  destruct (m_sockets k) eqn:So; [|discriminate Z6]. cbn [negb] in *. destruct dep as [dep|]; [|discriminate Z6]. destruct cron as [cron|]; [|discriminate Z6].
  destruct (m_epoll k); [|discriminate Z6].
  assert (D : fst (dependencies_say (m_order k) (m_toposort k) configs) = []).
  { revert Z3. unfold dependencies_say. destruct (with_nodes _ _ _) as [[m|e]|x]; [reflexivity|destruct (dependency_text configs e); discriminate|discriminate]. }
  assert (T : fst (timers_log (a_rfc3339 d) (m_zone k) (m_clock k) configs) = map (pair LDebug) (low (fst (timers_log (a_rfc3339 d) (m_zone k) (m_clock k) configs)))).
  { revert Z5. unfold timers_log. rewrite snd_tell. unfold tell. cbn [fst]. unfold timers_say. destruct (with_jobs _ _ _) as [[m|[why id]]|x]; [|destruct (nth_error configs id); discriminate|discriminate].
    intros _. cbn [fst done]. rewrite app_nil_r. apply jobs_low. }
  rewrite D, <- T. unfold sockets_log. rewrite So, glue_concat. cbn [fst done app]. rewrite ?app_nil_r; repeat (rewrite <- app_assoc; cbn [app]); reflexivity.
Qed.

(** * When the announced runs are scheduled *)
Lemma scheduled_said show tz : forall es c clock c', with_jobs_from tz c (map timed es) clock = Ret (Ok c') -> cron_inv c ->
  List.NoDup (map fst es ++ map fst (timers c)) ->
  (forall id p, In (id, p) es -> exists u j, In (first_run show p u) (low (jobs_log show tz es clock)) /\ (0 <= j < Z.of_nat (length (timers c')))%Z /\ In ((u + j)%Z, id) (timer c')) /\
  (forall x, In x (timer c) -> In x (timer c')) /\ length (timers c') = length es + length (timers c).
Proof.
  induction es as [|[i p] es IH]; intros c clock c' H Hinv Hnd.
  - injection H as <-. split; [intros id q []|]. split; [auto|reflexivity].
  - cbn [map timed fst snd with_jobs_from jobs_log] in *. destruct (timer_text p) as [raw|]; [|discriminate].
    destruct (parse_timer raw) as [[desc|]|]; try discriminate. destruct clock as [|now clock]; [discriminate|].
    destruct (next_execution tz desc now) as [t|] eqn:Nx; [cbn [obind] in H|discriminate].
    pose proof Hinv as (Hk & Hn & Hp). destruct (insert_job_ok (timer c) t i Hk) as (u & m' & Em & Pm & Km & Hb & _).
    rewrite Em in H. cbn [obind] in H. cbn [map fst app] in Hnd.
    destruct (IH _ _ _ H) as (A & B & C).
    + split; [assumption|]. cbn [timers timer map fst]. inversion Hnd as [|? ? H1 H2]; subst. split.
      * constructor; [|assumption]. intros Hin. apply H1. apply in_or_app. now right.
      * rewrite (Permutation_map snd Pm). cbn [map snd]. now constructor.
    + cbn [timers map fst]. eapply Permutation_NoDup; [|exact Hnd]. apply Permutation_middle.
    + cbn [timers timer length] in *. split; [|split; [|lia]].
      * intros id q [E|K].
        -- injection E as <- <-. exists t, (u - t)%Z. split; [left; reflexivity|]. split.
           ++ apply Permutation_length in Hp. rewrite !map_length in Hp. lia.
           ++ replace (t + (u - t))%Z with u by lia. apply B. apply (Permutation_in _ (Permutation_sym Pm)). now left.
        -- destruct (A id q K) as (v & j & A1 & A2 & A3). exists v, j. split; [right; exact A1|]. auto.
      * intros x K. apply B. apply (Permutation_in _ (Permutation_sym Pm)). now right.
Qed.
Lemma announced_fun show tz configs clock l : announced show tz configs clock l -> forall l', announced show tz configs clock l' -> l = l'.
Proof.
  induction 1 as [clock|c r clock l J A IH|c s d now u r clock l T P N A IH|c r clock F]; intros l' B;
    [| |apply CronTextProofs.spells_parse in P|apply timer_fault_parse in F; destruct F as (s & why & T & P)].
  - inversion B. reflexivity.
  - inversion B as [|? ? ? ? J' A'|? ? ? ? ? ? ? ? T' P' N' A'|? ? ? (s & why & T & _)]; subst; [auto|exfalso; exact (J _ T')|exfalso; exact (J _ T)].
  - inversion B as [|? ? ? ? J' A'|? ? ? ? ? ? ? ? T' P' N' A'|? ? ? F']; subst.
    + exfalso. exact (J' _ T).
    + rewrite T in T'. injection T' as <-. apply CronTextProofs.spells_parse in P'. rewrite P in P'. injection P' as <-. rewrite N in N'. injection N' as <-. f_equal. auto.
    + apply timer_fault_parse in F'. destruct F' as (s' & why & T' & P'). rewrite T in T'. injection T' as <-. congruence.
  - inversion B as [|? ? ? ? J' A'|? ? ? ? ? ? ? ? T' P' N' A'|]; subst; [exfalso; exact (J' _ T)| |reflexivity].
    apply CronTextProofs.spells_parse in P'. rewrite T in T'. injection T' as <-. congruence.
Qed.
Lemma run_cron k configs a : run k = Ret (EntersLoop configs a) -> build_cron (m_zone k) (m_clock k) configs = Ret (Ok (a_cron a)).
Proof.
  intros R. assert (M : manager_from k configs = Ret (Ok a)).
  { unfold run in R. destruct (do_startup_checks _ _); [|discriminate].
    destruct (parse_config _ _ _) as [[cs|]|]; cbn [obind] in R; try discriminate.
    destruct (manager_from k cs) as [[a'|]|] eqn:E; cbn [obind] in R; try discriminate.
    destruct (m_setup k); [|discriminate]. inversion R; subst. exact E. }
  unfold manager_from in M. destruct (build_processes _ _) as [[ps|]|]; try discriminate. cbn [obind] in M.
  destruct (build_dependency_manager _ _ _) as [dep|]; cbn [obind] in M; [|discriminate].
  destruct (build_cron _ _ _) as [cr|] eqn:B; cbn [obind] in M; [|discriminate].
  destruct (negb _); [discriminate|]. destruct dep; [|discriminate]. destruct cr; [|discriminate].
  destruct (m_epoll k); [|discriminate]. inversion M; subst. reflexivity.
Qed.
Lemma enumerated_jobs configs : length (List.filter job (enumerate configs)) = length (List.filter (fun c => is_cronjob (pc_type c)) configs).
Proof.
  rewrite <- (map_snd_enumerate configs) at 2. induction (enumerate configs) as [|[i c] l IH]; [reflexivity|]. cbn. unfold job at 1. cbn [snd].
  destruct (is_cronjob (pc_type c)); cbn; rewrite IH; reflexivity.
Qed.
Theorem first_runs_scheduled t d path root k configs a : m_files k = nameless root -> run k = Ret (EntersLoop configs a) ->
  forall id c, nth_error configs id = Some c -> is_cronjob (pc_type c) = true ->
  exists u j, In (first_run (a_rfc3339 d) c u) (texts_of LDebug (fst (start_logs t d path root k))) /\
    cron_next (a_cron a) id = Ret (u + j)%Z /\ (0 <= j < SpecTick.cron_count configs)%Z.
Proof.
  intros Hf R id c Hc J. destruct (begin_log t d path root k configs a Hf R) as (note & v & files & raw & saids & l & _ & _ & _ & _ & _ & An & E).
  pose proof (run_cron _ _ _ R) as B. unfold build_cron in B. 
  change (List.filter (fun e => is_cronjob (pc_type (snd e))) (enumerate configs)) with (List.filter job (enumerate configs)) in B.
  change (map (fun e => (fst e, timer_text (snd e))) (List.filter job (enumerate configs))) with (map timed (List.filter job (enumerate configs))) in B.
  destruct (with_jobs _ _ _) as [[cr|[why n]]|] eqn:WJ; cbn [obind] in B; try discriminate.
  2: destruct (nth_error configs n); discriminate.
  injection B as ->. pose proof WJ as WJ'. unfold with_jobs in WJ.
  pose proof (jobs_announced (a_rfc3339 d) _ _ _ _ _ WJ) as An'. rewrite map_snd_enumerate in An'.
  pose proof (announced_fun _ _ _ _ _ An _ An') as ->.
  assert (Nd : List.NoDup (map fst (List.filter job (enumerate configs)))).
  { apply (RunInv.filter_fst_nodup job). rewrite map_fst_enumerate. apply seq_NoDup. }
  destruct (scheduled_said (a_rfc3339 d) _ _ _ _ _ WJ) as (A & _ & C).
  - split; [constructor|]. cbn. split; constructor.
  - cbn. rewrite app_nil_r. exact Nd.
  - destruct (A id c) as (u & j & A1 & A2 & A3); [apply filter_In; split; [apply enumerate_in; exact Hc|exact J]|].
    exists u, j. split; [|split].
    + rewrite E, !texts_app. apply in_or_app. right. apply in_or_app. right. apply in_or_app. right. apply in_or_app. right. apply in_or_app. right.
      apply in_or_app. right. apply in_or_app. right. apply in_or_app. left. rewrite <- jobs_low. exact A1.
    + apply RunSteps2.cron_next_in; [|exact A3]. eapply with_jobs_inv; [|exact WJ']. rewrite map_map. exact Nd.
    + unfold SpecTick.cron_count. rewrite C, enumerated_jobs in A2. cbn in A2. lia.
Qed.
