(** Proofs about the lines of the log and the operations they come from. *)
From stdpp Require Import gmap strings.
From Coq Require Import Ascii ZArith List Bool Lia Permutation.
From Verif Require Import Base RStr CronModel ConfigModel ProcessModel DepModel NotifyModel ManagerModel SysModel MainModel LogModel TraceModel
  SpecStr SpecText SpecRun SpecTrace SpecWarn SpecEnd NotifyProofs EnvProofs RunStep RunInv RunFlow RunHist RunAlive RunStream RunClaims RunLife RunThms RunFinal RunView RunSteps RunSteps4 EndProofs TraceProofs.
Import ListNotations.
Local Open Scope string_scope.
Local Open Scope list_scope.
Local Open Scope Z_scope.

(** * Datagrams *)
Lemma line_told t : line_tells t (parse_line_says t).
Proof.
  unfold parse_line_says. pose proof (splitn2_spec "=" t) as S. destruct (splitn2 "=" t) as [key [value|]].
  - destruct S as [-> F]. destruct (existsb (String.eqb key) allowed_keys) eqn:K.
    + apply li_known. apply known_key_spec. exact K.
    + apply li_unknown; [exact F|]. intros N. apply known_key_spec in N. congruence.
  - destruct S as [_ F]. apply li_other. exact F.
Qed.
Lemma lines_told ts : lines_tell ts (flat_map parse_line_says ts).
Proof. induction ts as [|t ts IH]; cbn [flat_map]; constructor; [apply line_told|exact IH]. Qed.

Section Step.
  Context {k : machine} {e : env} {configs : list proc_config} {s : sys} (R : reachable k e configs s) (NP : ~ panicked s).

  Lemma spawn_explained q o d g id r pre : g_procs g = g_procs (s_g s) -> (forall ev, In ev pre -> unseen ev) -> tries o r id pre ->
    explained e configs (s_hist s) q o d (pre ++ effects (spawn_child g id r)) (spawn_says d g id r).
  Proof.
    intros G U T. assert (NT : ~ troubled q o) by (destruct T; intros []).
    assert (PN : forall ev, In ev pre -> ~ explained_apart ev) by (intros ev K; destruct T; [destruct K|destruct K as [<-|[]]; exact (fun F => F)]).
    assert (PS : forall ev, In ev pre -> silent ev) by (intros ev K; destruct T; [destruct K|destruct K as [<-|[]]; exact Logic.I]).
    pose proof (spawn_tells R NP d g id r pre G U) as Pl.
    revert Pl. unfold spawn_child, spawn_says. rewrite G. destruct (g_procs (s_g s) !! id) as [p|] eqn:Hp.
    2:{ intros _. cbn [effects]. rewrite app_nil_r. apply ex_other; [exact NT|exact PN|apply plainly_silent; exact PS]. }
    destruct (known_as R _ _ Hp) as (c & Hc & Nm & Pt & _).
    assert (S : forall b, starting_says p b = prepares c b) by (intros b; unfold starting_says, prepares; rewrite Nm, Pt; reflexivity).
    destruct (negb (pstate_eqb (p_state p) Blocked) && negb (pstate_eqb (p_state p) Sleeping)).
    - intros Pl. apply ex_other; [exact NT| |].
      + intros ev K. apply in_app_or in K. destruct K as [K|[<-|[]]]; [auto|exact (fun F => F)].
      + exact (plainly_app _ _ _ [] _ _ (plainly_silent _ _ _ PS) Pl).
    - intros _. rewrite !S. destruct r as [|pid out err wo we]; cbn [effects].
      + destruct (d_stage d) eqn:St; cbn [app]; [apply ex_no_pipes|apply ex_no_flags|apply ex_no_fork]; auto.
      + rewrite Nm. exact (ex_started e configs (s_hist s) q o pre id pid out err wo we c d T Hc).
  Qed.

  Lemma message_explained q d dg text sender r : (forall l, Permutation (e_order e l) l) -> q = EvIn (e_notify e) :: r -> read_text dg = Some (Ret text) ->
    explained e configs (s_hist s) q (CEvent (AMessage (Some (dg, sender)))) d (effects (process_message (e_order e) (s_g s) text sender))
      (message_says d (e_order e) (s_g s) text sender).
  Proof.
    intros OK Hq Rd. pose proof (message_tells R NP d text sender) as Pl. revert Pl. unfold process_message, message_says.
    pose proof (bk_main _ _ _ (reachable_book _ _ _ _ R NP) sender) as B.
    assert (NT : ~ troubled q (CEvent (AMessage (Some (dg, sender))))) by (subst q; exact (fun F => F)).
    destruct (g_pids (s_g s) !! sender) as [id|].
    2:{ intros Pl. apply ex_other; [exact NT|intros ev [<-|[]]; exact (fun F => F)|exact Pl]. }
    destruct (g_procs (s_g s) !! id) as [p|] eqn:Hp; [|intros _; apply ex_other; [exact NT|intros ev []|constructor]].
    destruct (known_as R _ _ Hp) as (c & Hc & Nm & _ & Ty).
    destruct (p_type p) eqn:Tp.
    - intros Pl. apply ex_other; [exact NT|intros ev [<-|[]]; exact (fun F => F)|exact Pl].
    - intros _. rewrite effects_then. cbn [effects app]. rewrite notifications_effects.
      apply (ex_datagram e configs (s_hist s) q dg text (lines text) sender id c (e_order e (parse text)) d r); auto.
      + apply read_text_spec. exact Rd.
      + apply lines_spec. reflexivity.
      + apply lines_told.
      + destruct (pc_type c); cbn in Ty; congruence.
      + apply vars_nodup. exact OK.
      + intros key value. rewrite <- parse_spec. split; intros K; (eapply Permutation_in; [|exact K]); [apply OK|apply Permutation_sym, OK].
      + pose proof (seen_as R NP _ _ [] Hp (fun _ F => match F with end)) as V. rewrite app_nil_r in V. rewrite V, (called_as R _ _ Hp). apply variables_say.
    - intros Pl. apply ex_other; [exact NT|intros ev [<-|[]]; exact (fun F => F)|exact Pl].
  Qed.
End Step.

(** * One step *)
Lemma quiet_step e configs h q o d : ~ troubled q o -> exists evs, h = h ++ evs /\ explained e configs h q o d evs [].
Proof. intros N. exists []. rewrite app_nil_r. split; [reflexivity|]. apply ex_other; [exact N|intros ev []|constructor]. Qed.
Lemma remark_step e configs h q o d l : explained e configs h q o d [] l -> exists evs, h = h ++ evs /\ explained e configs h q o d evs l.
Proof. intros X. exists []. rewrite app_nil_r. auto. Qed.
Lemma act_step e configs s q o d a k p s' l : goes s a k p = s' -> explained e configs (s_hist s) q o d (effects a) l ->
  exists evs, s_hist s' = s_hist s ++ evs /\ explained e configs (s_hist s) q o d evs l.
Proof. intros <- X. exists (effects a). rewrite goes_hist. auto. Qed.
Lemma plain_act e configs s q o d a k p s' l : goes s a k p = s' -> ~ troubled q o -> (forall ev, In ev (effects a) -> ~ explained_apart ev) ->
  plainly configs (s_hist s) (effects a) l -> exists evs, s_hist s' = s_hist s ++ evs /\ explained e configs (s_hist s) q o d evs l.
Proof. intros G N A P. eapply act_step; [exact G|]. apply ex_other; assumption. Qed.
Lemma silent_apart ev : silent ev -> ~ explained_apart ev.
Proof. destruct ev; cbn; tauto. Qed.
Lemma finished_apart r g pid rc ev : In ev (effects (handle_finished_child r g pid rc)) -> ~ explained_apart ev.
Proof.
  unfold handle_finished_child. destruct (g_pids g !! pid) as [id|]; [|intros [<-|[]]; exact (fun F => F)].
  destruct (g_procs g !! id) as [p|]; [|intros []].
  assert (Tail : forall a (f : manager -> act), (forall g ev, In ev (effects (f g)) -> silent ev) -> forall ev,
    In ev (match a with Go g _ => effects (f g) | Die _ _ => [] end) -> silent ev).
  { intros [g' evs|m evs] f H x K; [eauto|destruct K]. }
  assert (Last : forall g ev, In ev (effects (let g := set_pids g (delete pid (g_pids g)) in
    if match p_type p with RCronjob => true | _ => false end then Go g [] else finished_dep g id)) -> silent ev).
  { intros g' x K. cbn zeta in K. destruct (match p_type p with RCronjob => true | _ => false end); [destruct K|rewrite finished_dep_effects in K; destruct K]. }
  destruct (rc =? 0).
  - rewrite effects_then. cbn [then_ effects app]. intros [<-|K]; [exact (fun F => F)|]. apply silent_apart. eapply Last. exact K.
  - rewrite !effects_then. cbn [effects app]. rewrite <- ?app_assoc. cbn [app]. intros [<-|K]; [exact (fun F => F)|]. apply silent_apart.
    apply in_app_or in K. destruct K as [K|K]; [eapply shutdown_silent; exact K|revert K; apply Tail; exact Last].
Qed.

Definition at_hand (s : sys) (q : list epev) : Prop := forall l, s_pc s = AtEvents l -> q = l.
Lemma step_explained k e configs s q o d s' : reachable k e configs s -> (forall l, Permutation (e_order e l) l) -> at_hand s q -> sstep e s o = Some s' ->
  exists evs, s_hist s' = s_hist s ++ evs /\ explained e configs (s_hist s) q o d evs (step_says e s o d).
Proof.
  intros R OK Q H.
  assert (NP : match o with KFork _ | KGone _ | KAdopt _ | KExit _ _ | KWrite _ _ | KHangup _ => True | _ => ~ panicked s end).
  { unfold panicked. destruct o as [| | | | | | | | | | |[x|]]; try exact Logic.I; cbn in H; destruct (s_pc s); try discriminate H; intros []. }
  destruct o as [pid|pid|pid|pid st|fd data|fd| |r|now r|evs|a|[pid|]]; cbn in H.
  - destruct (_ && _); [|discriminate]. inversion H; subst. apply quiet_step. intros [].
  - destruct (k_procs (s_k s) !! pid) as [[]|]; inversion H; subst; apply quiet_step; intros [].
  - destruct (k_procs (s_k s) !! pid) as [[]|]; inversion H; subst; apply quiet_step; intros [].
  - destruct (k_procs (s_k s) !! pid) as [[]|]; try discriminate. destruct (valid_status st); inversion H; subst; apply quiet_step; intros [].
  - destruct (k_pipes (s_k s) !! fd) as [p|]; [|discriminate]. destruct (pp_open p); [|discriminate]. inversion H; subst. exists [EWrote fd data].
    split; [reflexivity|]. apply ex_other; [intros []|intros ev [<-|[]]; exact (fun F => F)|]. apply plainly_one, te_silent. exact Logic.I.
  - destruct (k_pipes (s_k s) !! fd) as [p|]; inversion H; subst; apply quiet_step; intros [].
  - destruct (s_pc s); try discriminate. apply Some_inj in H. subst s'. cbn [step_says]. unfold head_says, step_head in *.
    destruct (s_shut s) eqn:Sh.
    + destruct (has_running_processes (s_g s)); [apply quiet_step; intros []|]. exists [EExit (g_exit (s_g s))]. split; [reflexivity|].
      apply ex_other; [intros []|intros ev [<-|[]]; exact (fun F => F)|]. apply plainly_one, te_exit.
    + destruct (g_keep (s_g s) && (has_running_processes (s_g s) || has_runnables (g_dep (s_g s)))); [apply quiet_step; intros []|].
      apply remark_step. constructor.
  - destruct (s_pc s); try discriminate. cbn [step_says] in *. unfold spawn_dep, spawn_dep_says in *. destruct (pop_dep (g_dep (s_g s))) as [[id dm]|];
      [|apply Some_inj in H; subst s'; apply quiet_step; intros []].
    change (g_procs (set_dep (s_g s) dm)) with (g_procs (s_g s)) in *.
    set (a := match g_procs (s_g s) !! id with Some p => match p_type p with RCronjob => Go (set_dep (s_g s) dm) [] | _ => spawn_child (set_dep (s_g s) dm) id r end | None => Die BOUNDS [] end) in *.
    assert (N : explained e configs (s_hist s) q (CSpawnDep r) d (effects a)
      (match g_procs (s_g s) !! id with Some p => match p_type p with RCronjob => [] | _ => spawn_says d (set_dep (s_g s) dm) id r end | None => [] end)).
    { assert (Nil : explained e configs (s_hist s) q (CSpawnDep r) d [] []) by (apply ex_other; [intros []|intros ev []|constructor]).
      subst a. destruct (g_procs (s_g s) !! id) as [p|]; [|exact Nil]. destruct (p_type p); [|  |exact Nil];
        exact (spawn_explained R NP q (CSpawnDep r) d (set_dep (s_g s) dm) id r [] eq_refl (fun _ F => match F with end) (tr_dep r id)). }
    destruct (forks a); [destruct (fork_fits e (s_k s) r); [|discriminate]|]; apply Some_inj in H; exact (act_step _ _ _ _ _ _ _ _ _ _ _ H N).
  - destruct (s_pc s); try discriminate. cbn [step_says] in *. unfold spawn_cron, spawn_cron_says in *. destruct (cron_pop (e_zone e) (g_cron (s_g s)) now) as [[c [id|]]|m].
    + set (a := then_ _ _) in *.
      assert (N : explained e configs (s_hist s) q (CSpawnCron now r) d (effects a) (if is_runnable (g_dep (set_cron (s_g s) c)) id then spawn_says d (set_cron (s_g s) c) id r
        else match g_procs (set_cron (s_g s) c) !! id with None => [] | Some p => [Own LTrace ("Refusing to start cronjob child '" +:+ p_name p +:+ "' because of uncompleted dependencies")] end)).
      { subst a. rewrite effects_then. cbn [effects].
        destruct (is_runnable (g_dep (set_cron (s_g s) c)) id).
        - apply (spawn_explained R NP); [reflexivity| |constructor]. intros ev [<-|[]]. exact Logic.I.
        - change (g_procs (set_cron (s_g s) c)) with (g_procs (s_g s)). apply ex_other; [intros []| |].
          + destruct (g_procs (s_g s) !! id) as [p|]; cbn [effects app]; [intros ev [<-|[<-|[]]]; exact (fun F => F)|intros ev [<-|[]]; exact (fun F => F)].
          + apply plainly_skip; [exact Logic.I|]. destruct (g_procs (s_g s) !! id) as [p|] eqn:Hp; [|constructor].
            destruct (known_as R _ _ Hp) as (c' & Hc & _). apply plainly_one. eapply te_skipped; [exact Hc|]. cbn. rewrite (called_as R _ _ Hp). reflexivity. }
      destruct (forks a); [destruct (fork_fits e (s_k s) r); [|discriminate]|]; apply Some_inj in H; exact (act_step _ _ _ _ _ _ _ _ _ _ _ H N).
    + apply Some_inj in H; subst s'; apply quiet_step; intros [].
    + cbn [forks] in H. apply Some_inj in H. eapply plain_act; [exact H|intros []|intros ev []|constructor].
  - destruct (s_pc s); try discriminate. destruct evs as [l|].
    + destruct (_ && _); [|discriminate]. apply Some_inj in H; subst s'; apply quiet_step; intros [].
    + apply Some_inj in H; subst s'. apply remark_step; constructor.
  - cbn [step_says].
    destruct (s_pc s) as [| | | |[|ev rest]| | |] eqn:P; try discriminate;
      [apply Some_inj in H; subst s'; apply quiet_step; rewrite (Q _ P); cbn; tauto|]. specialize (Q _ P). subst q.
    unfold step_event in H. unfold event_says. destruct ev as [fd|fd|fd].
    + destruct (fd =? e_signal e).
      { destruct a as [sg|ok|m|n]; try discriminate. apply Some_inj in H. eapply plain_act; [exact H|intros []| |]; unfold handle_signal, signal_says.
        - intros ev K. destruct sg as [[]|]; rewrite ?effects_then in K; cbn [effects app] in K;
            try (destruct K as [<-|K]; [exact (fun F => F)|apply silent_apart; eapply shutdown_silent; exact K]); [destruct K as [<-|[]]; exact (fun F => F)|destruct K].
        - destruct sg as [[]|]; rewrite ?effects_then; cbn [effects app]; try (apply plainly_then; [apply te_signal; discriminate|intros x K; eapply shutdown_silent; exact K]);
            [apply plainly_one, te_child_ended|constructor]. }
      destruct (fd =? e_status e) eqn:Fs.
      { apply Z.eqb_eq in Fs. subst fd. destruct a as [sg|ok|m|n]; try discriminate. destruct ok; apply Some_inj in H.
        - destruct (report_total configs e s (e_rfc3339 e) (so_good _ _ _ (wh_sound _ _ _ (whole_of R NP)))) as (text & F).
          eapply act_step; [exact H|]. unfold report_status, report_says. rewrite F. cbn [effects andb].
          pose proof (ex_report e configs (s_hist s) (EvIn (e_status e) :: rest) d text rest eq_refl) as X. destruct (d_unwritten d); exact X.
        - subst s'. apply remark_step. eapply ex_no_connection. reflexivity. }
      destruct (fd =? e_notify e) eqn:Fn.
      { apply Z.eqb_eq in Fn. subst fd. destruct a as [sg|ok|[[dg sender]|]|n]; try discriminate; apply Some_inj in H.
        - eapply act_step; [exact H|]. unfold receive, receive_says. destruct (read_text dg) as [[text|m]|] eqn:Rd.
          + eapply (message_explained R NP); [exact OK|reflexivity|exact Rd].
          + apply ex_other; [intros []|intros ev []|constructor].
          + apply ex_other; [intros []|intros ev []|constructor].
        - subst s'. apply remark_step. eapply ex_lost. reflexivity. }
      destruct a as [sg|ok|m|[n|]]; try discriminate; [|apply Some_inj in H; subst s'; apply quiet_step; intros []].
      destruct (k_pipes (s_k s) !! fd) as [p|]; [|discriminate]. destruct (_ && _); [|discriminate]. apply Some_inj in H.
      eapply plain_act; [exact H|intros []| |apply output_tells].
      unfold print_child_output. destruct (process_for_fd (s_g s) fd) as [x|m]; cbn [effects]; intros ev [<-|K]; try exact (fun F => F); [|destruct K].
      apply in_map_iff in K. destruct K as (t & <- & _). exact (fun F => F).
    + apply Some_inj in H. eapply plain_act; [exact H|intros []|intros ev [<-|[]]; exact (fun F => F)|]. apply plainly_one, te_silent. exact Logic.I.
    + apply Some_inj in H. subst s'. apply remark_step. eapply ex_odd. reflexivity.
  - cbn [step_says]. destruct (s_pc s); try discriminate. destruct (k_procs (s_k s) !! pid) as [[| | |st]|]; try discriminate.
    destruct (child_ended (reach (set_kprocs (s_k s) (delete pid (k_procs (s_k s))))) (s_g s) pid st) as [a more] eqn:E. apply Some_inj in H.
    unfold child_ended in E. unfold ended_says.
    destruct st as [rc|n|n]; apply (f_equal fst) in E; cbn [fst] in E; subst a; (eapply plain_act; [exact H|intros []| |]); clear H more.
    + intros ev K. rewrite effects_then in K. destruct K as [<-|K]; [exact (fun F => F)|]. eapply finished_apart. exact K.
    + rewrite effects_then. cbn [effects]. apply plainly_skip; [exact Logic.I|apply (finished_tells R)].
    + intros ev K. rewrite effects_then in K. destruct K as [<-|K]; [exact (fun F => F)|]. eapply finished_apart. exact K.
    + rewrite effects_then. cbn [effects]. apply plainly_skip; [exact Logic.I|apply (finished_tells R)].
    + intros ev [<-|[<-|[]]]; exact (fun F => F).
    + apply plainly_silent. intros x [<-|[<-|[]]]; exact Logic.I.
  - destruct (s_pc s); try discriminate. destruct (forallb _ _); [|discriminate]. apply Some_inj in H; subst s'; apply quiet_step; intros [].
Qed.

(** * Executions *)
Fixpoint left_over (q : list epev) (ops : list (op * detail)) : list epev :=
  match ops with [] => q | (o, _) :: rest => left_over (waiting q o) rest end.
Lemma accounts_snoc e configs ops : forall b q h ls o d evs l, accounts e configs b q ops h ls ->
  explained e configs (b ++ h) (left_over q ops) o d evs l -> accounts e configs b q (ops ++ [(o, d)]) (h ++ evs) (ls ++ l).
Proof.
  induction ops as [|[o' d'] ops IH]; intros b q h ls o d evs l A X; inversion A; subst.
  - rewrite app_nil_r in X. cbn [app]. rewrite <- (app_nil_r evs), <- (app_nil_r l). apply ac_step; [exact X|constructor].
  - cbn [app]. rewrite <- !app_assoc. apply ac_step; [assumption|]. apply IH; [assumption|]. rewrite <- app_assoc. exact X.
Qed.
Lemma left_over_snoc ops : forall q o d, left_over q (ops ++ [(o, d)]) = waiting (left_over q ops) o.
Proof. induction ops as [|[o' d'] ops IH]; intros q o d; [reflexivity|]. cbn. apply IH. Qed.
Lemma goes_pc s a k p l : s_pc (goes s a k p) = AtEvents l -> p = AtEvents l.
Proof. destruct a; [auto|discriminate]. Qed.
Lemma hand_step e s q o s' : at_hand s q -> sstep e s o = Some s' -> at_hand s' (waiting q o).
Proof.
  intros Q H l P.
  assert (Same : match o with KFork _ | KGone _ | KAdopt _ | KExit _ _ | KWrite _ _ | KHangup _ => s_pc s' = s_pc s | _ => True end).
  { destruct o; try exact Logic.I; cbn in H.
    - destruct (_ && _); [|discriminate]. apply Some_inj in H; subst s'; auto.
    - destruct (k_procs (s_k s) !! pid) as [[]|]; try discriminate; apply Some_inj in H; subst s'; auto.
    - destruct (k_procs (s_k s) !! pid) as [[]|]; try discriminate; apply Some_inj in H; subst s'; auto.
    - destruct (k_procs (s_k s) !! pid) as [[]|]; try discriminate. destruct (valid_status st); try discriminate; apply Some_inj in H; subst s'; auto.
    - destruct (k_pipes (s_k s) !! fd) as [p|]; [|discriminate]. destruct (pp_open p); [|discriminate]. apply Some_inj in H; subst s'; auto.
    - destruct (k_pipes (s_k s) !! fd) as [p|]; [|discriminate]. apply Some_inj in H; subst s'; auto. }
  destruct o as [pid|pid|pid|pid st|fd data|fd| |r|now r|evs|a|[pid|]]; cbn [waiting]; try (apply Q; congruence); clear Same; cbn in H.
  - destruct (s_pc s); try discriminate. apply Some_inj in H. subst s'. unfold step_head in P. destruct (s_shut s); [destruct (has_running_processes _)|destruct (_ && _)]; discriminate P.
  - destruct (s_pc s); try discriminate. destruct (spawn_dep (s_g s) r) as [a|]; [|apply Some_inj in H; subst s'; discriminate P].
    destruct (forks a); [destruct (fork_fits e (s_k s) r); [|discriminate]|]; apply Some_inj in H; subst s'; apply goes_pc in P; discriminate P.
  - destruct (s_pc s); try discriminate. destruct (spawn_cron (e_zone e) (s_g s) now r) as [a|]; [|apply Some_inj in H; subst s'; discriminate P].
    destruct (forks a); [destruct (fork_fits e (s_k s) r); [|discriminate]|]; apply Some_inj in H; subst s'; apply goes_pc in P; discriminate P.
  - destruct (s_pc s); try discriminate. destruct evs as [l'|]; [destruct (_ && _); [|discriminate]|]; apply Some_inj in H; subst s'; [|discriminate P].
    cbn in P. congruence.
  - destruct (s_pc s) as [| | | |[|ev rest]| | |] eqn:Ps; try discriminate; [apply Some_inj in H; subst s'; discriminate P|]. rewrite (Q _ Ps). cbn [tl].
    assert (X : forall a k, s_pc (goes s a k (AtEvents rest)) = AtEvents l -> rest = l) by (intros x k K; apply goes_pc in K; congruence).
    assert (Y : s_pc (with_pc s (AtEvents rest)) = AtEvents l -> rest = l) by (cbn; congruence).
    unfold step_event in H. destruct ev as [fd|fd|fd]; [|apply Some_inj in H; subst s'; eauto..].
    destruct (fd =? e_signal e); [destruct a; try discriminate H; apply Some_inj in H; subst s'; eauto|].
    destruct (fd =? e_status e); [destruct a as [|[]| |]; try discriminate H; apply Some_inj in H; subst s'; eauto|].
    destruct (fd =? e_notify e); [destruct a as [| |[[]|]|]; try discriminate H; apply Some_inj in H; subst s'; eauto|].
    destruct a as [| | |[n|]]; try discriminate H; [|apply Some_inj in H; subst s'; eauto].
    destruct (k_pipes (s_k s) !! fd); [|discriminate H]. destruct (_ && _); [|discriminate H]. apply Some_inj in H. subst s'. eauto.
  - destruct (s_pc s); try discriminate. destruct (k_procs (s_k s) !! pid) as [[| | |st]|]; try discriminate.
    destruct (child_ended _ _ _ _) as [a more]. apply Some_inj in H. subst s'. apply goes_pc in P. destruct more; discriminate P.
  - destruct (s_pc s); try discriminate. destruct (forallb _ _); [|discriminate]. apply Some_inj in H; subst s'. discriminate P.
Qed.

Lemma log_accounts k e configs s0 ops s ls : launched k e configs s0 -> narrate e s0 ops = Some (s, ls) -> accounts e configs [] [] ops (s_hist s) ls.
Proof.
  intros L. pose proof (launched_start _ _ _ _ L) as St.
  enough (G : narrate e s0 ops = Some (s, ls) -> accounts e configs [] [] ops (s_hist s) ls /\ at_hand s (left_over [] ops)) by (intros H; apply G; exact H).
  revert s ls. induction ops as [|[o d] ops IH] using rev_ind; intros s ls H.
  - cbn in H. inversion H; subst. split; [rewrite (ss_hist _ _ St); constructor|]. intros l P. pose proof L as (_ & _ & _ & a & others & _ & _ & ->). discriminate P.
  - destruct (narrate_snoc _ _ _ _ _ _ _ H) as (s1 & ls1 & H1 & E & ->). destruct (IH _ _ H1) as [A Q].
    pose proof (narrate_reachable _ _ _ _ _ _ _ L H1) as R. pose proof L as (_ & _ & OK & _).
    destruct (step_explained _ _ _ _ _ _ d _ R OK Q E) as (evs & -> & X). split.
    + apply accounts_snoc; [exact A|exact X].
    + rewrite left_over_snoc. eapply hand_step; [exact Q|exact E].
Qed.
