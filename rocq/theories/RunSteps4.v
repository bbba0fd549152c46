(** Life cycle, output streams and main processes in whole executions. *)
From stdpp Require Import gmap strings.
From Coq Require Import Ascii ZArith List Bool Lia Permutation Relations.
From Verif Require Import Base RStr CronModel ConfigModel ProcessModel EnvModel DepModel NotifyModel ManagerModel SysModel
  MainModel SpecDep SpecTimer SpecText SpecRun DepProofs CronTimerProofs RunStep RunInv RunFlow RunHist RunAlive RunStream RunClaims RunLife RunThms
  RunFinal RunSteps RunSteps2 RunView RunSteps3.
Import ListNotations.
Local Open Scope string_scope.
Local Open Scope list_scope.
Local Open Scope Z_scope.

Lemma reachable_snoc k e configs s o s' : reachable k e configs s -> sstep e s o = Some s' -> reachable k e configs s'.
Proof.
  intros (z & zs & L & Z) E. exists z, (zs ++ [o]). split; [auto|]. clear L. revert z Z. induction zs as [|q zs IH]; cbn; intros z Z.
  - inversion Z; subst. rewrite E. reflexivity.
  - destruct (sstep e z q); [auto|discriminate].
Qed.
Lemma reachable_execute k e configs s ops s' : reachable k e configs s -> execute e s ops = Some s' -> reachable k e configs s'.
Proof.
  revert s. induction ops as [|o ops IH]; intros s R X; cbn in X; [inversion X; subst; auto|].
  destruct (sstep e s o) as [t|] eqn:E; [|discriminate]. eauto using reachable_snoc.
Qed.
Lemma reachable_order k e configs s : reachable k e configs s -> forall l, Permutation (e_order e l) l.
Proof. intros (z & zs & (_ & _ & OK & _) & _). auto. Qed.

(** Induction over reachable states. *)
Lemma reachable_ind k e configs (I : sys -> Prop) :
  (forall s, start_state configs s -> I s) ->
  (forall s s', reachable k e configs s -> I s -> trans e s s' -> I s') ->
  forall s, reachable k e configs s -> I s.
Proof.
  intros H0 H1 s (s0 & ops & L & X). assert (R0 : reachable k e configs s0) by (exists s0, []; auto).
  assert (I0 : I s0) by (apply H0; eapply launched_start; eauto). clear L H0. revert s0 R0 I0 X.
  induction ops as [|o ops IH]; intros s0 R0 I0 X; cbn in X; [inversion X; subst; auto|].
  destruct (sstep e s0 o) as [s1|] eqn:E; [|discriminate]. apply (IH s1); eauto using reachable_snoc.
  eapply H1; eauto. apply (sstep_trans _ _ _ _ (reachable_order _ _ _ _ R0) E).
Qed.

(** Who is taken for whose main process. *)
Definition heard_claim (configs : list proc_config) (h : list event) (ev : event) : Prop :=
  match ev with
  | ENotify id x _ => main_of configs h x = Some id /\ v_pid (view_of configs h id) = x /\ kind configs id = Notify
  | EEnd id x _ => main_of configs h x = Some id /\ v_pid (view_of configs h id) = x
  | EUnknown x _ => main_of configs h x = None
  | EIgnored x => forall id, main_of configs h x = Some id -> kind configs id <> Notify
  | EExit _ => forall x, main_of configs h x = None
  | _ => True
  end.

Definition unheard (ev : event) : Prop := match ev with ENotify _ _ _ | EEnd _ _ _ | EUnknown _ _ | EIgnored _ | EExit _ => False | _ => True end.
Lemma unheard_ok configs h evs : each_time h (heard_claim configs) -> (forall ev, In ev evs -> unheard ev) -> each_time (h ++ evs) (heard_claim configs).
Proof. intros A B. apply each_other; [auto|]. intros h' ev X. apply B in X. destruct ev; cbn in *; tauto. Qed.
Lemma unheard_kills sg l ev : In ev (kills sg l) -> unheard ev.
Proof. intros H. apply in_kills in H. destruct H as (x & -> & _). exact Logic.I. Qed.
Lemma main_unseen configs h ev x : unseen ev -> main_of configs (h ++ [ev]) x = main_of configs h x.
Proof. intros U. unfold main_of. rewrite book_app. destruct ev; cbn in *; tauto || reflexivity. Qed.
Lemma view_unseen configs h ev id : unseen ev -> view_of configs (h ++ [ev]) id = view_of configs h id.
Proof. intros U. unfold view_of. rewrite book_app. destruct ev; cbn in *; tauto || reflexivity. Qed.

Ltac unheard_events := intros ?ev ?X; cbn [In app] in *;
  repeat match goal with
  | X : _ \/ _ |- _ => destruct X as [<-|X]; [exact Logic.I|]
  | X : False |- _ => destruct X
  | X : In _ (kills _ _) |- _ => exact (unheard_kills _ _ _ X)
  | X : In _ (map _ _) |- _ => apply in_map_iff in X; destruct X as (? & <- & _); exact Logic.I
  end.

Lemma no_running g : has_running_processes g = false -> forall x, g_pids g !! x = None.
Proof.
  unfold has_running_processes. intros R x. apply negb_false_iff in R. apply andb_true_iff in R. destruct R as [_ R].
  apply bool_decide_eq_true in R. rewrite R. apply lookup_empty.
Qed.

Lemma heard_step configs e s s' : whole configs e s -> book_inv configs (s_g s) (s_hist s) ->
  each_time (s_hist s) (heard_claim configs) -> trans e s s' -> each_time (s_hist s') (heard_claim configs).
Proof.
  intros W B L T. assert (M := go_maps _ _ _ (so_good _ _ _ (wh_sound _ _ _ W))).
  assert (Own : forall x id, g_pids (s_g s) !! x = Some id -> main_of configs (s_hist s) x = Some id /\ v_pid (view_of configs (s_hist s) id) = x).
  { intros x id K. rewrite (bk_main _ _ _ B). destruct (ma_pid _ _ _ M _ _ K) as (p & Hp & Pid & _). rewrite (bk_view _ _ _ B _ _ Hp). auto. }
  assert (Ends : forall pid st id rc l, g_pids (s_g s) !! pid = Some id -> each_time (s_hist s ++ EReap pid st :: EEnd id pid rc :: kills SIGINT l) (heard_claim configs)).
  { intros pid st id rc l K. change (EReap pid st :: EEnd id pid rc :: kills SIGINT l) with ([EReap pid st] ++ [EEnd id pid rc] ++ kills SIGINT l).
    rewrite !app_assoc. apply unheard_ok; [|unheard_events]. apply each_last; [apply each_last; [auto|exact Logic.I]|].
    cbn. rewrite main_unseen, view_unseen by exact Logic.I. auto. }
  step_cases T; cbn [mk_s s_hist with_kernel]; auto; try (apply unheard_ok; [auto|unheard_events]; fail).
  - apply each_last; [auto|]. intros x. rewrite (bk_main _ _ _ B). eapply no_running; eauto.
  - apply unheard_ok; [auto|]. destruct O; unheard_events.
  - apply unheard_ok; [auto|]. destruct O; unheard_events.
  - apply unheard_ok; [auto|]. destruct O; unheard_events.
  - apply each_last; [auto|]. cbn. intros id K. rewrite (bk_main _ _ _ B) in K. destruct (ma_pid _ _ _ M _ _ K) as (p & Hp & _).
    intros X. apply (Ig _ _ K Hp). rewrite (kind_of _ _ _ _ _ M Hp), X. reflexivity.
  - apply each_last; [auto|]. cbn. destruct (Own _ _ D). repeat split; auto.
    assert (X := kind_of _ _ _ _ _ M Hp). rewrite Ty in X. destruct (kind configs id); auto; discriminate.
  - change [EReap pid st; EUnknown pid (code_of st)] with ([EReap pid st] ++ [EUnknown pid (code_of st)]). rewrite app_assoc.
    apply each_last; [apply each_last; [auto|exact Logic.I]|]. cbn. rewrite main_unseen by exact Logic.I. rewrite (bk_main _ _ _ B). auto.
  - destruct D as [id d P D Hp|now m P C|now c id P C Hp|fd rest sg sent pre x post P NS Es Er Re|fd rest m P Fr|fd rest dg m P Rt
      |fd rest dg P Rt|fd rest sender id P Dp Hp|fd rest sender id p vars m P Dp Hp Nf|fd rest data k' m P Fx Pf|pid st id P Z Dp Hp
      |pid st id p pre x post P Z Dp Hp NZ Er Re NR|pid st id p sent m P Z Dp Hp Nf Es]; auto;
    try (apply unheard_ok; [auto|unheard_events]; fail).
    exfalso. destruct (fl_dep _ _ (go_flow _ _ _ (so_good _ _ _ (wh_sound _ _ _ W)))) as (handed & A1 & _).
    destruct (notify_inv _ _ _ _ id A1) as (d' & Hd & _); [apply (ma_lt _ _ _ _ M); eauto|]. congruence.
Qed.

Lemma trans_books k e configs s : reachable k e configs s -> each_time (s_hist s) (heard_claim configs).
Proof.
  intros R. revert s R. apply (reachable_ind k e configs (fun s => each_time (s_hist s) (heard_claim configs))).
  - intros s S. rewrite (ss_hist _ _ S). apply each_nil.
  - intros s s' R L T. destruct (panicked_dec s) as [P|P].
    + destruct (panicked_step _ _ _ P T) as (_ & evs & -> & K). apply unheard_ok; [auto|]. intros ev X. destruct (K _ X) as (fd & data & ->). exact Logic.I.
    + eapply heard_step; eauto using whole_of, reachable_book.
Qed.

(** A main process stays one until it ends, hands over, or its number is given away. *)
Lemma main_kept configs h1 h2 n id : each_time (h1 ++ h2) (heard_claim configs) -> main_of configs h1 n = Some id ->
  (forall j, ~ In (EStart j n) h2) -> (forall rc, ~ In (EEnd id n rc) h2) ->
  (forall x vars, In (ENotify id x vars) h2 -> new_pid vars = None) ->
  (forall j x vars, In (ENotify j x vars) h2 -> new_pid vars <> Some n) ->
  main_of configs (h1 ++ h2) n = Some id.
Proof.
  induction h2 as [|ev h2 IH] using rev_ind; intros C Hm N1 N2 N3 N4; [now rewrite app_nil_r|].
  assert (Hi : main_of configs (h1 ++ h2) n = Some id).
  { apply IH; auto.
    - intros b x a E. apply (C b x (a ++ [ev])). rewrite app_assoc, E, <- app_assoc. reflexivity.
    - intros j X. apply (N1 j). apply in_or_app; auto.
    - intros rc X. apply (N2 rc). apply in_or_app; auto.
    - intros x vars X. apply (N3 x). apply in_or_app; auto.
    - intros j x vars X. apply (N4 j x). apply in_or_app; auto. }
  assert (Cl : heard_claim configs (h1 ++ h2) ev) by (apply (C _ _ []); rewrite app_assoc; reflexivity).
  assert (In ev (h2 ++ [ev])) as X by (apply in_or_app; right; left; auto).
  rewrite app_assoc. unfold main_of in *. rewrite book_app. destruct ev as [j x| | | | | | | |j x rc| | |j x vars| | | | | | | |]; cbn; auto; unfold put.
  - destruct (Z.eqb_spec n x) as [->|]; [exfalso; eapply N1; eauto|auto].
  - destruct (Z.eqb_spec n x) as [->|]; [|auto]. destruct Cl as [Cl _]. unfold main_of in Cl. rewrite Hi in Cl. inversion Cl; subst. exfalso. eapply N2; eauto.
  - destruct (new_pid vars) as [y|] eqn:Y; [|auto]. destruct (Z.eqb_spec n y) as [->|]; [exfalso; eapply N4; eauto|].
    destruct Cl as (C1 & C2 & _). destruct (Z.eqb_spec n (v_pid (b_view (book_of configs (h1 ++ h2)) j))) as [E|]; [|auto].
    exfalso. unfold view_of in C2. rewrite C2 in E. subst x. unfold main_of in C1. rewrite <- E, Hi in C1. inversion C1; subst j. rewrite (N3 _ _ X) in Y. discriminate.
Qed.
Lemma main_none_kept configs h1 h2 n : main_of configs h1 n = None ->
  (forall j, ~ In (EStart j n) h2) -> (forall j x vars, In (ENotify j x vars) h2 -> new_pid vars <> Some n) ->
  main_of configs (h1 ++ h2) n = None.
Proof.
  induction h2 as [|ev h2 IH] using rev_ind; intros Hm N1 N4; [now rewrite app_nil_r|].
  assert (Hi : main_of configs (h1 ++ h2) n = None).
  { apply IH; auto; [intros j X; apply (N1 j); apply in_or_app; auto|intros j x vars X; apply (N4 j x); apply in_or_app; auto]. }
  assert (In ev (h2 ++ [ev])) as X by (apply in_or_app; right; left; auto).
  rewrite app_assoc. unfold main_of in *. rewrite book_app. destruct ev as [j x| | | | | | | |j x rc| | |j x vars| | | | | | | |]; cbn; auto; unfold put.
  - destruct (Z.eqb_spec n x) as [->|]; [exfalso; eapply N1; eauto|auto].
  - destruct (Z.eqb_spec n x); auto.
  - destruct (new_pid vars) as [y|] eqn:Y; [|auto]. destruct (Z.eqb_spec n y) as [->|]; [exfalso; eapply N4; eauto|].
    match goal with |- (if ?b then _ else _) = _ => destruct b; auto end.
Qed.

Section reachable.
Context {k : machine} {e : env} {configs : list proc_config} {s : sys} (Re : reachable k e configs s).

(** After a handover. *)
Lemma handover_main h1 id old vars n h2 : s_hist s = h1 ++ ENotify id old vars :: h2 -> new_pid vars = Some n ->
  (forall j, ~ In (EStart j n) h2) -> (forall rc, ~ In (EEnd id n rc) h2) ->
  (forall x vars, In (ENotify id x vars) h2 -> new_pid vars = None) ->
  (forall j x vars, In (ENotify j x vars) h2 -> new_pid vars <> Some n) ->
  main_of configs (s_hist s) n = Some id.
Proof.
  intros E Hn N1 N2 N3 N4. assert (C := trans_books _ _ _ _ Re). rewrite E in *.
  replace (h1 ++ ENotify id old vars :: h2) with ((h1 ++ [ENotify id old vars]) ++ h2) in * by (rewrite <- app_assoc; reflexivity).
  apply main_kept; auto. unfold main_of. rewrite book_app. cbn. rewrite Hn. unfold put. now rewrite Z.eqb_refl.
Qed.
Lemma handover_old h1 id old vars n h2 : s_hist s = h1 ++ ENotify id old vars :: h2 -> new_pid vars = Some n -> n <> old ->
  (forall j, ~ In (EStart j old) h2) -> (forall j x vars, In (ENotify j x vars) h2 -> new_pid vars <> Some old) ->
  main_of configs (s_hist s) old = None.
Proof.
  intros E Hn Ne N1 N4. assert (C := trans_books _ _ _ _ Re _ _ _ E). destruct C as (_ & C & _). rewrite E.
  replace (h1 ++ ENotify id old vars :: h2) with ((h1 ++ [ENotify id old vars]) ++ h2) by (rewrite <- app_assoc; reflexivity).
  apply main_none_kept; auto. unfold main_of. rewrite book_app. cbn. rewrite Hn. unfold put. unfold view_of in C. rewrite C, Z.eqb_refl.
  destruct (Z.eqb_spec old n); congruence.
Qed.

(** Life cycle. *)
Lemma first_state id c : nth_error configs id = Some c -> s_hist s = [] -> v_state (view_of configs (s_hist s) id) = match pc_type c with CronJob _ => Sleeping | _ => Blocked end.
Proof. intros H E. rewrite E. unfold view_of. cbn. unfold kind. rewrite H. reflexivity. Qed.

Lemma state_step o s' : ~ panicked s -> sstep e s o = Some s' ->
  exists evs, s_hist s' = s_hist s ++ evs /\ forall id c p, nth_error configs id = Some c -> g_procs (s_g s) !! id = Some p ->
    exists p', g_procs (s_g s') !! id = Some p' /\ (p_state p' = p_state p \/ life id evs (pc_type c) (p_state p) (p_state p')).
Proof.
  intros NP H. assert (OK := reachable_order _ _ _ _ Re). assert (W := whole_of Re NP).
  destruct (life_cycle configs e s s' OK (go_maps _ _ _ (so_good _ _ _ (wh_sound _ _ _ W))) (wh_life _ _ _ W) (sstep_trans _ _ _ _ OK H)) as (evs & E & Ln & K).
  exists evs. split; [auto|]. intros id c p Hc Hp. destruct (g_procs (s_g s') !! id) as [p'|] eqn:Hp'; [eauto|].
  apply lookup_ge_None in Hp'. apply lookup_lt_Some in Hp. lia.
Qed.

Lemma state_known id p : ~ panicked s -> g_procs (s_g s) !! id = Some p -> v_state (view_of configs (s_hist s) id) = p_state p.
Proof. intros NP Hp. rewrite (bk_view _ _ _ (reachable_book _ _ _ _ Re NP) _ _ Hp). reflexivity. Qed.

(** Events on output streams. *)
Lemma opened_fun fd id out id' out' : ~ panicked s -> opened (s_hist s) fd id out -> opened (s_hist s) fd id' out' -> id' = id /\ out' = out.
Proof.
  intros NP A B. assert (W := whole_of Re NP). assert (S := so_stream _ _ _ (wh_sound _ _ _ W)). assert (M := go_maps _ _ _ (so_good _ _ _ (wh_sound _ _ _ W))).
  destruct out, out'; repeat match goal with X : opened _ _ _ true |- _ => apply (st_out _ S) in X | X : opened _ _ _ false |- _ => apply (st_err _ S) in X end;
    try (split; congruence).
  - destruct (ma_out _ _ _ M _ _ A) as (_ & X & _). congruence.
  - destruct (ma_out _ _ _ M _ _ B) as (_ & X & _). congruence.
Qed.

Lemma stream_event ev rest a s' : s_pc s = AtEvents (ev :: rest) -> is_fixed e (ev_fd ev) = false -> sstep e s (CEvent a) = Some s' ->
  match ev with
  | EvIn fd => exists id out c, opened (s_hist s) fd id out /\ nth_error configs id = Some c /\ s_g s' = s_g s /\
      (s_hist s' = s_hist s \/ exists data ls, s_hist s' = s_hist s ++ EChunk fd data :: map (ELog out (pc_name c)) ls)
  | EvHup fd => (exists id out, opened (s_hist s) fd id out) /\ s_hist s' = s_hist s ++ [EClosed fd] /\ g_procs (s_g s') = g_procs (s_g s) /\
      forall fd' id' out', fd' <> fd -> opened (s_hist s) fd' id' out' -> opened (s_hist s') fd' id' out'
  | EvOther _ => s_g s' = s_g s /\ s_hist s' = s_hist s
  end /\ s_pc s' = AtEvents rest.
Proof.
  intros P FX H. assert (NP : ~ panicked s) by (unfold panicked; rewrite P; auto). assert (W := whole_of Re NP).
  assert (S := so_stream _ _ _ (wh_sound _ _ _ W)). assert (G := so_good _ _ _ (wh_sound _ _ _ W)). assert (M := go_maps _ _ _ G).
  assert (Ow : forall fd, is_Some (g_out (s_g s) !! fd) \/ is_Some (g_err (s_g s) !! fd) -> exists id out, opened (s_hist s) fd id out).
  { intros fd [[id K]|[id K]]; [exists id, true; apply (st_out _ S); auto|exists id, false; apply (st_err _ S); auto]. }
  cbn in H. rewrite P in H. assert (Fx := FX). unfold is_fixed in FX. rewrite !orb_false_iff in FX. destruct FX as [[F1 F2] F3]. destruct ev as [fd|fd|fd]; cbn [ev_fd step_event] in *.
  - rewrite F1, F2, F3 in H. destruct (batch_owner _ _ _ _ _ G P Fx) as (id & p & E1 & E2 & E3).
    destruct (ma_proc _ _ _ M _ _ E2) as (c & Hc & Nm & _).
    assert (Op : opened (s_hist s) fd id (is_stdout (s_g s) fd)).
    { destruct (is_stdout (s_g s) fd); [apply (st_out _ S)|apply (st_err _ S)]; auto. }
    destruct a as [| | |[n|]]; try discriminate.
    + destruct (k_pipes (s_k s) !! fd) as [q|]; [|discriminate]. destruct (_ && _ && _); [|discriminate]. apply Some_inj in H. subst s'.
      unfold print_child_output. rewrite E1. cbn. split; [|auto]. exists id, (is_stdout (s_g s) fd), c. rewrite Nm. eauto 10.
    + apply Some_inj in H. subst s'. cbn. split; [|auto]. eauto 10.
  - apply Some_inj in H. subst s'. cbn. split; [|auto]. assert (B := ma_batch _ _ _ M). rewrite P in B. destruct B as [_ B].
    destruct (B _ (or_introl eq_refl)) as [Ep _]. split; [apply Ow; apply (ma_epoll _ _ _ M); auto|]. split; [auto|]. split; [auto|].
    intros fd' id' out' Ne O. apply opened_app. left. split; [auto|]. intros [X|[]]. congruence.
  - apply Some_inj in H. subst s'. cbn. auto.
Qed.

(** Signals sent. *)
Lemma running_view h l : forall n, (forall i p, l !! i = Some p -> view_of configs h (n + i) = seen p) ->
  map p_pid (List.filter (fun p => pstate_eqb (p_state p) Running) l) =
  map (fun id => v_pid (view_of configs h id)) (List.filter (fun id => match v_state (view_of configs h id) with Running => true | _ => false end) (seq n (length l))).
Proof.
  induction l as [|p l IH]; intros n V; [reflexivity|]. cbn [List.filter length seq].
  assert (Vp := V 0%nat p eq_refl). rewrite Nat.add_0_r in Vp. assert (E : pstate_eqb (p_state p) Running = match v_state (view_of configs h n) with Running => true | _ => false end).
  { rewrite Vp. cbn. destruct (p_state p); reflexivity. }
  assert (V' : forall i p', l !! i = Some p' -> view_of configs h (S n + i) = seen p').
  { intros i p' Hi. specialize (V (S i) p' Hi). rewrite Nat.add_succ_r in V. exact V. }
  rewrite E. destruct (v_state (view_of configs h n)) eqn:Es; cbn [map]; rewrite (IH (S n) V'); auto. rewrite Vp. reflexivity.
Qed.
Lemma signal_running s' sg rest : s_pc s = AtEvents (EvIn (e_signal e) :: rest) -> sg <> SIGCHLD ->
  sstep e s (CEvent (ASignal (Some sg))) = Some s' ->
  (s_hist s' = s_hist s ++ ESignal sg :: map (fun id => EKill (v_pid (view_of configs (s_hist s) id)) (forwarded sg)) (running_programs configs (s_hist s)) /\
   s_pc s' = AtEvents rest) \/ panicked s'.
Proof.
  intros P N H. assert (NP : ~ panicked s) by (unfold panicked; rewrite P; auto). assert (W := whole_of Re NP).
  assert (B := reachable_book _ _ _ _ Re NP). assert (M := go_maps _ _ _ (so_good _ _ _ (wh_sound _ _ _ W))).
  assert (K : running_pids (s_g s) = map (fun id => v_pid (view_of configs (s_hist s) id)) (running_programs configs (s_hist s))).
  { unfold running_pids, running_programs. rewrite <- (ma_len _ _ _ M). apply running_view. intros i p Hp. apply (bk_view _ _ _ B _ _ Hp). }
  cbn in H. rewrite P in H. cbn in H. rewrite Z.eqb_refl in H. apply Some_inj in H. subst s'.
  destruct sg; try contradiction; cbn; unfold initiate_shutdown; cbn;
    match goal with |- context [kill_all ?r ?x ?l] => destruct (kill_all r x l) as [evs []] eqn:Ek; cbn; [left|right; exact Logic.I];
      apply kill_all_ok in Ek; destruct Ek as [-> _]; rewrite K, map_map; auto end.
Qed.
Lemma kill_alive h1 x sg h2 : s_hist s = h1 ++ EKill x sg :: h2 -> calm h1 -> exists id, alive h1 id x.
Proof. intros E Cm. exact (pa_run _ _ (past_of Re) _ _ _ E Cm). Qed.
Lemma kill_safe o s' : ~ panicked s -> calm (s_hist s) -> (exists sg, o = CEvent (ASignal sg)) \/ (exists pid, o = CWait pid) ->
  sstep e s o = Some s' -> ~ panicked s'.
Proof.
  intros NP Cm C H P. destruct (panic_cause Re o s' NP Cm H P) as [(now & r & id & c & text & d & m & -> & _)|(dg & sender & rest & -> & _)];
    destruct C as [[? C]|[? C]]; discriminate.
Qed.

Lemma no_main_left h1 code h2 : s_hist s = h1 ++ EExit code :: h2 -> forall x, main_of configs h1 x = None.
Proof. intros E. exact (trans_books k e configs s Re _ _ _ E). Qed.

(** Output that was read is a prefix of what was written. *)
Lemma output_kept h1 fd id out h2 : ~ panicked s -> s_hist s = h1 ++ EOpen fd id out :: h2 -> ~ In (EClosed fd) h2 ->
  exists rest, written fd h2 = fetched fd h2 +:+ rest.
Proof.
  intros NP E N. assert (W := whole_of Re NP). destruct (st_data _ (so_stream _ _ _ (wh_sound _ _ _ W)) _ _ _ _ _ E N) as (q & _ & X). eauto.
Qed.
End reachable.

(** Done and crashed are final. *)
Lemma final_step k e configs s o s' id p : reachable k e configs s -> sstep e s o = Some s' -> g_procs (s_g s) !! id = Some p ->
  (p_state p = Done \/ exists rc, p_state p = Crashed rc) ->
  exists p', g_procs (s_g s') !! id = Some p' /\ p_state p' = p_state p.
Proof.
  intros R H Hp F. destruct (panicked_dec s) as [P|NP].
  { assert (E : s_g s' = s_g s); [|rewrite E; eauto].
    destruct (s_pc s) eqn:Epc; try (unfold panicked in P; rewrite Epc in P; destruct P).
    destruct o as [| | | | | | | | | | |[]]; try (eapply outside_step; [|exact H]; exact Logic.I); cbn in H; rewrite Epc in H; discriminate. }
  assert (W := whole_of R NP). destruct (ma_proc _ _ _ (go_maps _ _ _ (so_good _ _ _ (wh_sound _ _ _ W))) _ _ Hp) as (c & Hc & _).
  destruct (state_step R o s' NP H) as (evs & _ & K). destruct (K id c p Hc Hp) as (p' & Hp' & [E|L]); [eauto|]. exfalso.
  destruct F as [F|[rc F]]; rewrite F in L; inversion L; subst; unfold active in *; intuition congruence.
Qed.
Lemma final_state k e configs s ops s' id p : reachable k e configs s -> execute e s ops = Some s' -> g_procs (s_g s) !! id = Some p ->
  (p_state p = Done \/ exists rc, p_state p = Crashed rc) ->
  exists p', g_procs (s_g s') !! id = Some p' /\ p_state p' = p_state p.
Proof.
  revert s p. induction ops as [|o ops IH]; intros s p R X Hp F; cbn in X; [inversion X; subst; eauto|].
  destruct (sstep e s o) as [t|] eqn:E; [|discriminate]. destruct (final_step _ _ _ _ _ _ _ _ R E Hp F) as (q & Hq & Sq).
  rewrite <- Sq in F |- *. apply (IH t q); auto. eapply reachable_snoc; eauto.
Qed.
