(** Invariants on dependencies, shutdown, exit code and scheduling. *)
From stdpp Require Import gmap strings.
From Coq Require Import Ascii ZArith List Bool Lia Permutation.
From Verif Require Import Base RStr CronModel ConfigModel ProcessModel EnvModel DepModel NotifyModel ManagerModel SysModel
  MainModel SpecDep SpecRun DepProofs CronTimerProofs RunStep RunInv.
Import ListNotations.
Local Open Scope string_scope.
Local Open Scope list_scope.
Local Open Scope Z_scope.

(** * Position in the loop *)
Record loop_inv (s : sys) : Prop := {
  lo_spawn : s_pc s = AtSpawnDep \/ s_pc s = AtSpawnCron -> g_keep (s_g s) = true /\ s_shut s = false;
  lo_shut : s_shut s = true -> g_keep (s_g s) = false \/
    (has_running_processes (s_g s) = false /\ has_runnables (g_dep (s_g s)) = false /\
     (s_pc s = AtHead \/ exists c, s_pc s = Finished c));
  lo_finished : forall c, s_pc s = Finished c -> has_running_processes (s_g s) = false /\ s_shut s = true /\ c = g_exit (s_g s)
}.

(** Closes a goal about a position that a step has left. *)
Lemma loop_same s s' : loop_inv s -> s_pc s' = s_pc s -> s_shut s' = s_shut s -> g_keep (s_g s') = g_keep (s_g s) ->
  has_running_processes (s_g s') = has_running_processes (s_g s) -> has_runnables (g_dep (s_g s')) = has_runnables (g_dep (s_g s)) ->
  g_exit (s_g s') = g_exit (s_g s) -> loop_inv s'.
Proof. intros [A B C] E1 E2 E3 E4 E5 E6. split; rewrite ?E1, ?E2, ?E3, ?E4, ?E5, ?E6; auto. Qed.

(** A step from a position inside the loop to another one. *)
Definition inside (p : pc) : Prop :=
  match p with AtPoll | AtEvents _ | AtWait => True | _ => False end.
Lemma loop_inside s s' : loop_inv s -> inside (s_pc s) -> (inside (s_pc s') \/ s_pc s' = AtHead) -> s_shut s' = s_shut s ->
  (g_keep (s_g s') = true -> g_keep (s_g s) = true) -> loop_inv s'.
Proof.
  intros [A B C] In1 In2 E K.
  assert (NF : forall c, s_pc s' <> Finished c).
  { intros c H. rewrite H in In2. destruct In2 as [[]|In2]; discriminate. }
  assert (NS : s_pc s' <> AtSpawnDep /\ s_pc s' <> AtSpawnCron).
  { split; intros H; rewrite H in In2; destruct In2 as [[]|In2]; discriminate. }
  split; [tauto| |intros c H; exfalso; eapply NF; eauto].
  rewrite E. intros H. apply B in H. destruct H as [H|(_ & _ & [H|[c H]])].
  - left. destruct (g_keep (s_g s')) eqn:G; [|auto]. rewrite K in H by auto. discriminate.
  - rewrite H in In1. destruct In1.
  - rewrite H in In1. destruct In1.
Qed.
(** A step in the spawning phase. *)
Lemma loop_spawning s s' : loop_inv s -> s_pc s = AtSpawnDep \/ s_pc s = AtSpawnCron ->
  s_pc s' = AtSpawnDep \/ s_pc s' = AtSpawnCron \/ s_pc s' = AtPoll -> s_shut s' = s_shut s -> g_keep (s_g s') = g_keep (s_g s) -> loop_inv s'.
Proof.
  intros [A B C] P P' E K. destruct (A P) as [A1 A2].
  split; rewrite ?E, ?K.
  - auto.
  - congruence.
  - intros c H. destruct P' as [P'|[P'|P']]; congruence.
Qed.

Lemma loop_step e s s' : loop_inv s -> ~ panicked s' -> trans e s s' -> loop_inv s'.
Proof.
  intros I NP T.
  destruct T as [k' KM|fd data q Hq Ho|p sh Q|P Sh R|id d p P D Hp Ht|now c id p P C R Hp|id g1 pre p O Hp N1 N2|id g1 pre p O Hp St
    |id g1 pre p pid out err ep O Hp St F Ep|fd rest sg sent P F1 NS Es Re|fd rest P F1|fd rest text P F1 Rt
    |fd rest dg text sender P F1 Rt Ig|fd rest dg text sender id p vars d P F1 Rt Vs D Hp Ty Nd
    |fd rest n q p P FX K Hn Hl PF|fd rest P|pid st P Z NR D|pid n P Z|pid st id p d sent P Z NR D Hp Nd Es Re|m evs k' D];
  try (eapply loop_inside; [exact I|rewrite P; exact Logic.I|cbn; auto|reflexivity|cbn; auto; fail]).
  - eapply loop_same; eauto.
  - eapply loop_same; eauto.
  - destruct Q as [P Sh Kp R|P Sh Kp|P Sh R|P D|now c P D|P|l P ND Ln Rd|P|ev rest P|P NZ].
    + split; cbn; [auto|discriminate|discriminate].
    + split; cbn; [intros [K|K]; discriminate| |discriminate]. intros _.
      destruct (g_keep (s_g s)) eqn:G; [|auto]. right. cbn in Kp. apply orb_false_iff in Kp. tauto.
    + split; cbn; [intros [K|K]; discriminate| |discriminate]. intros _. left.
      destruct (lo_shut _ I Sh) as [K|(K & _)]; [auto|congruence].
    + eapply loop_spawning; [exact I|auto|cbn; auto|reflexivity|reflexivity].
    + eapply loop_spawning; [exact I|auto|cbn; auto|reflexivity|reflexivity].
    + eapply loop_inside; [exact I|rewrite P; exact Logic.I|cbn; auto|reflexivity|cbn; auto].
    + eapply loop_inside; [exact I|rewrite P; exact Logic.I|cbn; auto|reflexivity|cbn; auto].
    + eapply loop_inside; [exact I|rewrite P; exact Logic.I|cbn; auto|reflexivity|cbn; auto].
    + eapply loop_inside; [exact I|rewrite P; exact Logic.I|cbn; auto|reflexivity|cbn; auto].
    + eapply loop_inside; [exact I|rewrite P; exact Logic.I|cbn; auto|reflexivity|cbn; auto].
  - split; cbn.
    + intros [K|K]; discriminate.
    + intros _. destruct (lo_shut _ I Sh) as [K|(K1 & K2 & _)]; [auto|]. right. split; [auto|]. split; [auto|]. right. eauto.
    + intros c [= <-]. auto.
  - eapply loop_spawning; [exact I|auto|cbn; auto|reflexivity|reflexivity].
  - eapply loop_spawning; [exact I|auto|cbn; auto|reflexivity|reflexivity].
  - destruct (origin_frame _ _ _ _ _ O) as (E1 & E2 & E3 & E4 & E5 & E6 & E7 & E8).
    eapply loop_spawning; [exact I|auto|cbn; tauto|reflexivity|exact E5].
  - destruct (origin_frame _ _ _ _ _ O) as (E1 & E2 & E3 & E4 & E5 & E6 & E7 & E8).
    eapply loop_spawning; [exact I|auto|cbn; tauto|reflexivity|exact E5].
  - destruct (origin_frame _ _ _ _ _ O) as (E1 & E2 & E3 & E4 & E5 & E6 & E7 & E8).
    eapply loop_spawning; [exact I|auto|cbn; tauto|reflexivity|reflexivity].
  - eapply loop_inside; [exact I|rewrite P; exact Logic.I|cbn; auto|reflexivity|cbn; discriminate].
  - eapply loop_inside; [exact I|rewrite P; exact Logic.I|cbn; auto|reflexivity|]. cbn. destruct (code_of st =? 0); auto. discriminate.
  - exfalso. apply NP. exact Logic.I.
Qed.

Lemma start_loop configs s : start_state configs s -> loop_inv s.
Proof.
  intros SS. split; rewrite ?(ss_pc _ _ SS), ?(ss_shut _ _ SS).
  - intros [K|K]; discriminate.
  - discriminate.
  - discriminate.
Qed.

(** * Dependencies, shutdown, exit code *)
Lemma in_kills ev sg l : In ev (kills sg l) -> exists x, ev = EKill x sg /\ In x l.
Proof. unfold kills. intros H. apply in_map_iff in H. destruct H as (x & <- & H). eauto. Qed.

(** What the dependency manager has been told about. *)
Definition finished (configs : list proc_config) (h : list event) (u : nat) : Prop :=
  (~ cronjob configs u /\ exists pid rc, In (EEnd u pid rc) h) \/ notified h u "READY" "1".

Definition exit_ok (x : Z) (h : list event) : Prop :=
  (x = 6 /\ exists id pid rc, In (EEnd id pid rc) h /\ rc <> 0) \/ (x = 0 /\ forall id pid rc, In (EEnd id pid rc) h -> rc = 0).

Record flow_inv (configs : list proc_config) (s : sys) : Prop := {
  fl_dep : exists handed, dep_inv configs (finished configs (s_hist s)) handed (g_dep (s_g s)) /\
    (forall v pid, In (EStart v pid) (s_hist s) -> ~ cronjob configs v -> In v handed) /\
    (forall v, In v handed -> ~ cronjob configs v -> (exists pid, In (EStart v pid) (s_hist s)) \/ In (EStartFail v) (s_hist s)) /\
    (forall v p, g_procs (s_g s) !! v = Some p -> ~ cronjob configs v -> ~ In v handed -> p_state p = Blocked);
  fl_keep : g_keep (s_g s) = true -> forall ev, In ev (s_hist s) -> ~ shutdown_trigger ev;
  fl_exit : exit_ok (g_exit (s_g s)) (s_hist s);
  fl_cron : cron_inv (g_cron (s_g s));
  fl_jobs : forall id, In id (map fst (timers (g_cron (s_g s)))) <-> cronjob configs id
}.

(** Effects that concern none of this. *)
Definition aside (ev : event) : Prop :=
  match ev with
  | EStart _ _ | EStartFail _ | EEnd _ _ _ | ENotify _ _ _ => False
  | ESignal SIGCHLD => True
  | ESignal _ => False
  | _ => True
  end.

Lemma aside_trigger ev : aside ev -> ~ shutdown_trigger ev.
Proof. destruct ev as [| | | | | | | | | | | | |[]| | | | | |]; cbn; tauto. Qed.
Lemma aside_kills sg l ev : In ev (kills sg l) -> aside ev.
Proof. intros H. apply in_kills in H. destruct H as (x & -> & _). exact Logic.I. Qed.

Definition neutral (ev : event) : Prop :=
  match ev with
  | EEnd _ _ _ | ENotify _ _ _ => False
  | ESignal SIGCHLD => True
  | ESignal _ => False
  | _ => True
  end.
Lemma aside_neutral ev : aside ev -> neutral ev.
Proof. destruct ev as [| | | | | | | | | | | | |[]| | | | | |]; cbn; tauto. Qed.
Lemma neutral_trigger ev : neutral ev -> ~ shutdown_trigger ev.
Proof. destruct ev as [| | | | | | | | | | | | |[]| | | | | |]; cbn; tauto. Qed.

Lemma finished_neutral configs h evs u : (forall ev, In ev evs -> neutral ev) -> finished configs (h ++ evs) u <-> finished configs h u.
Proof.
  intros A. unfold finished, notified. split.
  - intros [(N & pid & rc & H)|(pid & vars & H & K)].
    + left. split; [auto|]. exists pid, rc. apply in_app_or in H. destruct H as [H|H]; [auto|]. apply A in H. destruct H.
    + right. exists pid, vars. split; [|auto]. apply in_app_or in H. destruct H as [H|H]; [auto|]. apply A in H. destruct H.
  - intros [(N & pid & rc & H)|(pid & vars & H & K)].
    + left. split; [auto|]. exists pid, rc. apply in_or_app. auto.
    + right. exists pid, vars. split; [apply in_or_app; auto|auto].
Qed.
Lemma finished_aside configs h evs u : (forall ev, In ev evs -> aside ev) -> finished configs (h ++ evs) u <-> finished configs h u.
Proof. intros A. apply finished_neutral. intros ev H. apply aside_neutral. auto. Qed.

Lemma keep_neutral (b : bool) h evs : (b = true -> forall ev, In ev h -> ~ shutdown_trigger ev) -> (forall ev, In ev evs -> neutral ev) ->
  b = true -> forall ev, In ev (h ++ evs) -> ~ shutdown_trigger ev.
Proof. intros H A B ev K. apply in_app_or in K. destruct K as [K|K]; [auto|]. apply neutral_trigger. auto. Qed.

Lemma exit_app x h evs : exit_ok x h -> (forall id pid rc, In (EEnd id pid rc) evs -> rc = 0) -> exit_ok x (h ++ evs).
Proof.
  intros [(C & id & pid & rc & H & N)|(C & H)] A.
  - left. split; [auto|]. exists id, pid, rc. split; [apply in_or_app; auto|auto].
  - right. split; [auto|]. intros id pid rc K. apply in_app_or in K. destruct K as [K|K]; eauto.
Qed.
Lemma exit_neutral x h evs : exit_ok x h -> (forall ev, In ev evs -> neutral ev) -> exit_ok x (h ++ evs).
Proof. intros H A. apply exit_app; [auto|]. intros id pid rc K. apply A in K. destruct K. Qed.

(** Steps that leave the managers alone. *)
Lemma flow_aside configs s s' evs : flow_inv configs s -> s_hist s' = s_hist s ++ evs -> (forall ev, In ev evs -> aside ev) ->
  g_procs (s_g s') = g_procs (s_g s) -> g_keep (s_g s') = g_keep (s_g s) -> g_exit (s_g s') = g_exit (s_g s) ->
  g_dep (s_g s') = g_dep (s_g s) -> g_cron (s_g s') = g_cron (s_g s) -> flow_inv configs s'.
Proof.
  intros [(handed & A1 & A2 & A3 & A4) B C D E] Hh As E1 E2 E3 E4 E5.
  split; rewrite ?Hh, ?E1, ?E2, ?E3, ?E4, ?E5; auto.
  - exists handed. split; [|split; [|split]]; auto.
    + eapply dep_inv_ext; [|exact A1]. intros u. symmetry. apply finished_aside. auto.
    + intros v pid H. apply in_app_or in H. destruct H as [H|H]; [eauto|]. apply As in H. destruct H.
    + intros v H N. destruct (A3 v H N) as [[pid K]|K]; [left; exists pid|right]; apply in_or_app; auto.
  - intros K ev H. apply in_app_or in H. destruct H as [H|H]; [auto|]. apply aside_trigger. auto.
  - apply exit_neutral; [auto|]. intros ev H. apply aside_neutral. auto.
Qed.

Lemma cronjob_dec configs v : cronjob configs v \/ ~ cronjob configs v.
Proof.
  unfold cronjob. destruct (nth_error configs v) as [c|] eqn:E.
  - destruct (pc_type c) as [| |t] eqn:T.
    + right. intros (c' & t & H & K). congruence.
    + right. intros (c' & t & H & K). congruence.
    + left. eauto.
  - right. intros (c' & t & H & K). congruence.
Qed.
Lemma cronjob_type configs e s id p : maps_inv configs e s -> g_procs (s_g s) !! id = Some p ->
  cronjob configs id <-> p_type p = RCronjob.
Proof.
  intros M H. destruct (ma_proc _ _ _ M _ _ H) as (c & Hc & _ & T). rewrite T. unfold cronjob. split.
  - intros (c' & t & H' & K). rewrite Hc in H'. inversion H'; subst. rewrite K. reflexivity.
  - destruct (pc_type c) eqn:K; cbn; try discriminate. eauto.
Qed.

Lemma ma_lt configs e s id : maps_inv configs e s -> is_Some (g_procs (s_g s) !! id) -> (id < length configs)%nat.
Proof. intros M H. apply lookup_lt_is_Some in H. rewrite <- (ma_len _ _ _ M). auto. Qed.

Lemma dep_inv_handed_nodup programs fin handed m : dep_inv programs fin handed m -> List.NoDup handed.
Proof. intros I. apply (NoDup_app_left _ (dm_runnable m)). apply (di_once _ _ _ _ I). Qed.

Lemma vars_nodup e text : (forall l, Permutation (e_order e l) l) -> List.NoDup (map fst (e_order e (parse text))).
Proof. intros OK. eapply Permutation_NoDup; [apply Permutation_map, Permutation_sym, OK|]. apply parse_nodup. Qed.
Lemma ready_in vars : List.NoDup (map fst vars) -> forall k, is_one (var vars k) = true <-> In (k, "1") vars.
Proof.
  intros N k. rewrite <- (var_in _ _ _ N). unfold is_one. destruct (var vars k) as [v|]; [|split; discriminate].
  rewrite String.eqb_eq. split; congruence.
Qed.
Lemma finished_notify configs h id sender vars : List.NoDup (map fst vars) -> ~ cronjob configs id ->
  forall u, finished configs (h ++ [ENotify id sender vars]) u <-> finished configs h u \/ (u = id /\ is_one (var vars "READY") = true).
Proof.
  intros N NC u. rewrite (ready_in _ N). unfold finished, notified. split.
  - intros [(Nu & x & rc & H)|(x & vs & H & K)]; apply in_app_or in H; destruct H as [H|[H|[]]]; try discriminate.
    + left. left. eauto.
    + left. right. eauto.
    + inversion H; subst. auto.
  - intros [[(Nu & x & rc & H)|(x & vs & H & K)]|[-> K]].
    + left. split; [auto|]. exists x, rc. apply in_or_app. auto.
    + right. exists x, vs. split; [apply in_or_app; auto|auto].
    + right. exists sender, vars. split; [apply in_or_app; cbn; auto|auto].
Qed.

Lemma flow_step configs e s s' : (forall l, Permutation (e_order e l) l) -> maps_inv configs e s -> flow_inv configs s -> ~ panicked s' -> trans e s s' -> flow_inv configs s'.
Proof.
  intros OK M I NP T.
  assert (Quiet : forall s' evs, s_hist s' = s_hist s ++ evs -> (forall ev, In ev evs -> aside ev) ->
    g_procs (s_g s') = g_procs (s_g s) -> g_keep (s_g s') = g_keep (s_g s) -> g_exit (s_g s') = g_exit (s_g s) ->
    g_dep (s_g s') = g_dep (s_g s) -> g_cron (s_g s') = g_cron (s_g s) -> flow_inv configs s').
  { intros. eapply flow_aside; eauto. }
  assert (Cron : forall c now id, cron_pop (e_zone e) (g_cron (s_g s)) now = Ret (c, Some id) ->
    cron_inv c /\ (forall id, In id (map fst (timers c)) <-> cronjob configs id) /\ cronjob configs id).
  { intros c now id C. apply cron_pop_spec in C; [|apply (fl_cron _ _ I)].
    destruct C as (C1 & C2 & t & d & u & k & C3 & _ & _ & C4 & _). split; [auto|]. rewrite C1. split; [apply (fl_jobs _ _ I)|].
    apply (fl_jobs _ _ I). apply timer_of_In in C4. apply in_map_iff. exists (id, d). auto. }
  assert (I' := I). destruct I' as [(handed & A1 & A2 & A3 & A4) B C0 Dc Ec].
  step_cases T.
  - apply (Quiet _ []); cbn; rewrite ?app_nil_r; auto. intros ev [].
  - apply (Quiet _ [EWrote fd data]); cbn; auto. intros ev [<-|[]]. exact Logic.I.
  - apply (Quiet _ []); cbn; rewrite ?app_nil_r; auto. intros ev [].
  - apply (Quiet _ [EExit (g_exit (s_g s))]); cbn; auto. intros ev [<-|[]]. exact Logic.I.
  - (* a cronjob from the dependency manager *)
    destruct (pop_dep_inv _ _ _ _ _ _ A1 D) as (J1 & J2 & J3).
    split; cbn; auto. exists (id :: handed). split; [auto|]. split; [intros; right; eauto|]. split.
    + intros v [<-|H] N; [|auto]. exfalso. apply N. apply (cronjob_type _ _ _ _ _ M Hp). auto.
    + intros v q H N K. apply (A4 v q H N). intros X. apply K. right. auto.
  - destruct (Cron _ _ _ C) as (C1 & C2 & C3).
    destruct (flow_aside configs s (mk_s (s_g s) (s_k s) AtSpawnCron (s_shut s) (s_hist s ++ [EDue id now; ESkipped id])) _ I eq_refl) as [F1 F2 F3 F4 F5]; auto.
    { intros ev [<-|[<-|[]]]; exact Logic.I. }
    split; cbn in *; auto.
  - (* refused *)
    destruct O as [d p' P D Hp' Ty|now c P C R].
    + exfalso. destruct (pop_dep_inv _ _ _ _ _ _ A1 D) as (J1 & J2 & J3). apply N1. eapply A4; eauto.
      rewrite Hp in Hp'. inversion Hp'; subst. rewrite (cronjob_type _ _ _ _ _ M Hp). auto.
    + destruct (Cron _ _ _ C) as (C1 & C2 & C3).
      destruct (flow_aside configs s (mk_s (s_g s) (s_k s) AtSpawnCron (s_shut s) (s_hist s ++ [EDue id now; ERefused id])) _ I eq_refl) as [F1 F2 F3 F4 F5]; auto.
      { intros ev [<-|[<-|[]]]; exact Logic.I. }
      split; cbn in *; auto.
  - (* fork failed *)
    assert (Nt : forall ev, In ev (pre ++ [EStartFail id]) -> neutral ev).
    { intros ev H. apply in_app_or in H. destruct H as [H|[<-|[]]]; [|exact Logic.I]. destruct O; [destruct H|]. destruct H as [<-|[]]. exact Logic.I. }
    destruct O as [d p' P D Hp' Ty|now c P C R]; split; cbn; eauto using keep_neutral, exit_neutral.
    + destruct (pop_dep_inv _ _ _ _ _ _ A1 D) as (J1 & J2 & J3). exists (id :: handed).
      split; [eapply dep_inv_ext; [|exact J1]; intros u; symmetry; apply finished_neutral; auto|]. split; [|split].
      * intros v pid H N. apply in_app_or in H. destruct H as [H|[H|[]]]; [|discriminate]. right. eauto.
      * intros v [<-|H] N; [right; apply in_or_app; cbn; auto|]. destruct (A3 v H N) as [[pid K]|K]; [left; exists pid|right]; apply in_or_app; auto.
      * intros v q H N K. apply (A4 v q H N). intros X. apply K. right. auto.
    + exists handed.
      split; [eapply dep_inv_ext; [|exact A1]; intros u; symmetry; apply finished_neutral; auto|]. split; [|split; [|auto]].
      * intros v pid H N. apply in_app_or in H. destruct H as [H|[H|[H|[]]]]; try discriminate. eauto.
      * intros v H N. destruct (A3 v H N) as [[pid K]|K]; [left; exists pid|right]; apply in_or_app; auto.
    + apply (Cron _ _ _ C).
    + apply (Cron _ _ _ C).
  - (* started *)
    assert (Nt : forall ev, In ev (pre ++ [EStart id pid; EOpen out id true; EOpen err id false]) -> neutral ev).
    { intros ev H. apply in_app_or in H. destruct H as [H|[<-|[<-|[<-|[]]]]]; try exact Logic.I. destruct O; [destruct H|]. destruct H as [<-|[]]. exact Logic.I. }
    destruct O as [d p' P D Hp' Ty|now c P C R]; split; cbn; eauto using keep_neutral, exit_neutral.
    + destruct (pop_dep_inv _ _ _ _ _ _ A1 D) as (J1 & J2 & J3). exists (id :: handed).
      split; [eapply dep_inv_ext; [|exact J1]; intros u; symmetry; apply finished_neutral; auto|]. split; [|split].
      * intros v pid' H N. apply in_app_or in H. destruct H as [H|[H|[H|[H|[]]]]]; try discriminate; [right; eauto|]. inversion H; subst. left. auto.
      * intros v [<-|H] N; [left; exists pid; apply in_or_app; cbn; auto|]. destruct (A3 v H N) as [[pid' K]|K]; [left; exists pid'|right]; apply in_or_app; auto.
      * intros v q H N K. apply lookup_update_Some in H. destruct H as [(-> & _ & _)|(X & H)]; [exfalso; apply K; left; auto|].
        apply (A4 v q H N). intros Y. apply K. right. auto.
    + exists handed. destruct (Cron _ _ _ C) as (_ & _ & C3).
      split; [eapply dep_inv_ext; [|exact A1]; intros u; symmetry; apply finished_neutral; auto|]. split; [|split].
      * intros v pid' H N. apply in_app_or in H. destruct H as [H|[H|[H|[H|[H|[]]]]]]; try discriminate; [eauto|]. inversion H; subst. tauto.
      * intros v H N. destruct (A3 v H N) as [[pid' K]|K]; [left; exists pid'|right]; apply in_or_app; auto.
      * intros v q H N K. apply lookup_update_Some in H. destruct H as [(-> & _ & _)|(X & H)]; [tauto|]. eauto.
    + apply (Cron _ _ _ C).
    + apply (Cron _ _ _ C).
  - (* signal *)
    assert (Fi : forall u, finished configs (s_hist s ++ ESignal sg :: kills sent (running_pids (s_g s))) u <-> finished configs (s_hist s) u).
    { intros u. unfold finished, notified. split; (intros [(N & x & rc & H)|(x & vars & H & K)]; [left; split; [auto|]; exists x, rc|right; exists x, vars; split; [|auto]]);
        try (apply in_or_app; auto; fail); (apply in_app_or in H; destruct H as [H|[H|H]]; [auto|discriminate|apply in_kills in H; destruct H as (y & H & _); discriminate]). }
    split; cbn; auto.
    + exists handed. split; [eapply dep_inv_ext; [|exact A1]; intros u; symmetry; auto|]. split; [|split; [|auto]].
      * intros v x H N. apply in_app_or in H; destruct H as [H|[H|H]]; [eauto|discriminate|apply in_kills in H; destruct H as (y & H & _); discriminate].
      * intros v H N. destruct (A3 v H N) as [[x K]|K]; [left; exists x|right]; apply in_or_app; auto.
    + discriminate.
    + apply exit_app; [auto|]. intros i x rc [H|H]; [discriminate|apply in_kills in H; destruct H as (y & H & _); discriminate].
  - apply (Quiet _ [ESignal SIGCHLD]); cbn; auto. intros ev [<-|[]]. exact Logic.I.
  - apply (Quiet _ [EReport text]); cbn; auto. intros ev [<-|[]]. exact Logic.I.
  - apply (Quiet _ [EIgnored sender]); cbn; auto. intros ev [<-|[]]. exact Logic.I.
  - (* notified *)
    assert (NC : ~ cronjob configs id) by (rewrite (cronjob_type _ _ _ _ _ M Hp), Ty; discriminate).
    assert (L : (id < length configs)%nat) by (apply (ma_lt _ _ _ _ M); eauto).
    assert (Nv : List.NoDup (map fst vars)) by (rewrite Vs; apply vars_nodup; auto).
    destruct (ma_pid _ _ _ M _ _ D) as (p' & Hp' & _ & Act). rewrite Hp in Hp'. inversion Hp'; subst p'. clear Hp'.
    split; cbn; auto.
    + exists handed. split; [|split; [|split]].
      * destruct (is_one (var vars "READY")) eqn:R.
        -- destruct (notify_inv _ _ _ _ _ A1 L) as (d' & Hd & J). rewrite Hd in Nd. inversion Nd; subst d'.
           eapply dep_inv_ext; [|exact J]. intros u. rewrite finished_notify, R by auto. tauto.
        -- inversion Nd; subst d. eapply dep_inv_ext; [|exact A1]. intros u. rewrite finished_notify, R by auto. intuition discriminate.
      * intros v x H N. apply in_app_or in H. destruct H as [H|[H|[]]]; [eauto|discriminate].
      * intros v H N. destruct (A3 v H N) as [[x K]|K]; [left; exists x|right]; apply in_or_app; auto.
      * intros v q H N K. apply lookup_update_Some in H. destruct H as [(-> & -> & _)|(X & H)]; [|eauto].
        exfalso. assert (B' := A4 _ _ Hp N K). rewrite B' in Act. destruct Act as [X|[X|X]]; discriminate.
    + intros K ev H. apply in_app_or in H. destruct H as [H|[<-|[]]]; [eauto|]. cbn. tauto.
    + apply exit_app; [auto|]. intros i x rc [H|[]]. discriminate.
  - apply (Quiet _ (EChunk fd (stake n (pp_buf q)) ::
                     map (ELog (is_stdout (s_g s) fd) (p_name p))
                         (List.filter nonempty (lines (utf8_lossy (stake n (pp_buf q))))))); cbn; auto.
    intros ev [<-|H]; [exact Logic.I|]. apply in_map_iff in H. destruct H as (x & <- & _). exact Logic.I.
  - apply (Quiet _ [EClosed fd]); cbn; auto. intros ev [<-|[]]. exact Logic.I.
  - apply (Quiet _ [EReap pid st; EUnknown pid (code_of st)]); cbn; auto. intros ev [<-|[<-|[]]]; exact Logic.I.
  - apply (Quiet _ [EReap pid (XRealtime n); ELost pid]); cbn; auto. intros ev [<-|[<-|[]]]; exact Logic.I.
  - (* ended *)
    assert (L : (id < length configs)%nat) by (apply (ma_lt _ _ _ _ M); eauto).
    assert (In_evs : forall ev, In ev (EReap pid st :: EEnd id pid (code_of st) :: kills SIGINT sent) ->
      ev = EReap pid st \/ ev = EEnd id pid (code_of st) \/ exists x, ev = EKill x SIGINT).
    { intros ev [<-|[<-|H]]; auto. apply in_kills in H. destruct H as (x & -> & _). eauto. }
    assert (Here : In (EEnd id pid (code_of st)) (s_hist s ++ EReap pid st :: EEnd id pid (code_of st) :: kills SIGINT sent)).
    { apply in_or_app. cbn. auto. }
    assert (Fi : forall u, finished configs (s_hist s ++ EReap pid st :: EEnd id pid (code_of st) :: kills SIGINT sent) u <->
                   (finished configs (s_hist s) u \/ (u = id /\ ~ cronjob configs id))).
    { intros u. unfold finished, notified. split.
      - intros [(N & x & rc & H)|(x & vars & H & K)]; apply in_app_or in H; destruct H as [H|H].
        + left. left. eauto.
        + apply In_evs in H. destruct H as [H|[H|[y H]]]; try discriminate. inversion H; subst. auto.
        + left. right. eauto.
        + apply In_evs in H. destruct H as [H|[H|[y H]]]; discriminate.
      - intros [[(N & x & rc & H)|(x & vars & H & K)]|[-> N]].
        + left. split; [auto|]. exists x, rc. apply in_or_app. auto.
        + right. exists x, vars. split; [apply in_or_app; auto|auto].
        + left. eauto. }
    destruct (ma_pid _ _ _ M _ _ D) as (p' & Hp' & _ & Act). rewrite Hp in Hp'. inversion Hp'; subst p'. clear Hp'.
    split; cbn; auto.
    + exists handed. split; [|split; [|split]].
      * assert (E : cronjob configs id <-> p_type p = RCronjob) by exact (cronjob_type _ _ _ _ _ M Hp).
        destruct (notify_inv _ _ _ _ _ A1 L) as (d' & Hd & J).
        destruct (p_type p) eqn:Ty; [rewrite Hd in Nd; inversion Nd; subst d'; eapply dep_inv_ext; [|exact J]..|].
        -- intros u. rewrite Fi. assert (~ cronjob configs id) by (rewrite E; discriminate). tauto.
        -- intros u. rewrite Fi. assert (~ cronjob configs id) by (rewrite E; discriminate). tauto.
        -- inversion Nd; subst d. eapply dep_inv_ext; [|exact A1]. intros u. rewrite Fi. tauto.
      * intros v x H N. apply in_app_or in H. destruct H as [H|H]; [eauto|]. apply In_evs in H. destruct H as [H|[H|[y H]]]; discriminate.
      * intros v H N. destruct (A3 v H N) as [[x K]|K]; [left; exists x|right]; apply in_or_app; auto.
      * intros v q H N K. apply lookup_update_Some in H. destruct H as [(-> & -> & _)|(X & H)]; [|eauto].
        exfalso. assert (B' := A4 _ _ Hp N K). rewrite B' in Act. destruct Act as [X|[X|X]]; discriminate.
    + destruct (code_of st =? 0) eqn:Z0; [|discriminate]. apply Z.eqb_eq in Z0. intros K ev H. apply in_app_or in H. destruct H as [H|H]; [eauto|].
      apply In_evs in H. destruct H as [->|[->|[y ->]]]; cbn; tauto.
    + destruct (code_of st =? 0) eqn:Z0.
      * apply Z.eqb_eq in Z0. apply exit_app; [auto|]. intros i x rc H. apply In_evs in H. destruct H as [H|[H|[y H]]]; try discriminate.
        inversion H; subst. auto.
      * apply Z.eqb_neq in Z0. left. split; [auto|]. eauto.
  - exfalso. apply NP. exact Logic.I.
Qed.

Lemma start_flow configs s : start_state configs s -> flow_inv configs s.
Proof.
  intros S. split; rewrite ?(ss_hist _ _ S).
  - exists []. split; [|split; [intros v pid []|split; [intros v []|]]].
    + eapply dep_inv_ext; [|apply (ss_dep _ _ S)]. intros u. unfold finished, notified. split; [tauto|].
      intros [(_ & x & rc & [])|(x & vs & [] & _)].
    + intros v p H N _. destruct (ss_proc _ _ S _ _ H) as (c & Hc & _ & _ & E). rewrite E.
      destruct (pc_type c) eqn:T; auto. exfalso. apply N. exists c, timer. auto.
  - intros _ ev [].
  - right. split; [apply (ss_exit _ _ S)|]. intros id pid rc [].
  - apply (ss_cron _ _ S).
  - apply (ss_jobs _ _ S).
Qed.
