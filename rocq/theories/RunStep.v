(** The steps of the system model in normal form. *)
From stdpp Require Import gmap strings.
From Coq Require Import Ascii ZArith List Bool Lia Permutation.
From Verif Require Import Base RStr CronModel ConfigModel ProcessModel DepModel NotifyModel ManagerModel SysModel SpecRun.
Import ListNotations.
Local Open Scope string_scope.
Local Open Scope list_scope.
Local Open Scope Z_scope.

(** ** Killing *)
Lemma kill_all_ok r sg pids : forall evs, kill_all r sg pids = (evs, true) ->
  evs = map (fun x => EKill x sg) pids /\ forall x, In x pids -> r x = true.
Proof.
  induction pids as [|x rest IH]; cbn; intros evs H.
  - inversion H. split; [reflexivity|]. intros y [].
  - destruct (r x) eqn:R; [|discriminate]. destruct (kill_all r sg rest) as [e ok]. inversion H; subst.
    destruct (IH e eq_refl) as [-> K]. split; [reflexivity|]. intros y [<-|Hy]; auto.
Qed.
Lemma kill_all_fail r sg pids : forall evs, kill_all r sg pids = (evs, false) ->
  exists pre x post, pids = pre ++ x :: post /\ evs = map (fun x => EKill x sg) pre /\ r x = false /\
    forall y, In y pre -> r y = true.
Proof.
  induction pids as [|x rest IH]; cbn; intros evs H; [discriminate|].
  destruct (r x) eqn:R.
  - destruct (kill_all r sg rest) as [e ok]. inversion H; subst.
    destruct (IH e eq_refl) as (pre & y & post & -> & -> & K & A). exists (x :: pre), y, post. cbn.
    split; [reflexivity|]. split; [reflexivity|]. split; [auto|]. intros z [<-|Hz]; auto.
  - inversion H. exists [], x, rest. cbn. split; [reflexivity|]. split; [reflexivity|]. split; [auto|]. intros y [].
Qed.

(** ** Variables of a notification *)
Lemma var_in vars k v : List.NoDup (map fst vars) -> var vars k = Some v <-> In (k, v) vars.
Proof.
  induction vars as [|[k' v'] rest IH]; cbn; intros N; [split; [discriminate|tauto]|].
  inversion N as [|? ? N1 N2]; subst. destruct (String.eqb_spec k' k) as [->|E].
  - split; [intros [= ->]; auto|]. intros [[= ->]|H]; [reflexivity|]. exfalso. apply N1. apply in_map_iff. exists (k, v). auto.
  - rewrite IH by auto. split; [auto|]. intros [[= -> ->]|H]; [congruence|auto].
Qed.
Lemma var_none vars k : var vars k = None <-> forall v, ~ In (k, v) vars.
Proof.
  induction vars as [|[k' v'] rest IH]; cbn; [split; auto|].
  destruct (String.eqb_spec k' k) as [->|E].
  - split; [discriminate|]. intros H. exfalso. apply (H v'). auto.
  - rewrite IH. split; [intros H v [[= -> ->]|K]; [congruence|eapply H; eauto]|]. intros H v K. apply (H v). auto.
Qed.
Lemma var_perm vars vars' k : List.NoDup (map fst vars) -> Permutation vars vars' -> var vars k = var vars' k.
Proof.
  intros N P. assert (N' : List.NoDup (map fst vars')) by (eapply Permutation_NoDup; [apply Permutation_map; exact P|exact N]).
  destruct (var vars k) as [v|] eqn:E.
  - apply var_in in E; auto. symmetry. apply var_in; auto. eapply Permutation_in; eauto.
  - rewrite var_none in E. symmetry. apply var_none. intros v Hv. apply (E v). eapply Permutation_in; [symmetry; exact P|auto].
Qed.

Definition mainpid (vars : list (string * string)) : option Z :=
  match var vars "MAINPID" with Some v => parse_i32 v | None => None end.
Definition is_one (v : option string) : bool := match v with Some v => String.eqb v "1" | None => false end.

(** What a notification makes of the sender's record. *)
Definition notified_process (p : process) (vars : list (string * string)) : process :=
  let s := if is_one (var vars "STOPPING") then Stopping
           else if is_one (var vars "READY") && pstate_eqb (p_state p) Starting then Running else p_state p in
  let q := with_state p s in
  let q := match var vars "STATUS" with Some v => with_status q v | None => q end in
  match mainpid vars with Some n => with_pid q n | None => q end.

Lemma with_state_id p : with_state p (p_state p) = p.
Proof. destruct p; reflexivity. Qed.
Lemma pstate_eqb_spec a b : pstate_eqb a b = true <-> a = b.
Proof.
  destruct a, b; cbn; split; intros H; try discriminate; try reflexivity.
  - apply Z.eqb_eq in H. congruence.
  - inversion H. apply Z.eqb_refl.
Qed.

Lemma fold_notified vars : forall p, List.NoDup (map fst vars) ->
  fold_left (fun q v => proc_notification q (fst v) (snd v)) vars p = notified_process p vars.
Proof.
  induction vars as [|[k v] rest IH]; intros p N; cbn [fold_left fst snd].
  - unfold notified_process, mainpid. cbn. symmetry. apply with_state_id.
  - inversion N as [|? ? N1 N2]; subst. rewrite IH by auto.
    assert (Hn : var rest k = None).
    { apply var_none. intros w Hw. apply N1. apply in_map_iff. exists (k, w). auto. }
    unfold notified_process, mainpid, proc_notification. cbn [var].
    destruct (String.eqb_spec k "READY") as [->|K1].
    { cbn. rewrite Hn. cbn. destruct (String.eqb v "1"); cbn.
      - destruct (pstate_eqb (p_state p) Starting) eqn:E; cbn; destruct (is_one (var rest "STOPPING")); cbn; reflexivity.
      - reflexivity. }
    destruct (String.eqb_spec k "STOPPING") as [->|K2].
    { cbn. rewrite Hn. cbn. destruct (String.eqb v "1"); cbn; [|reflexivity].
      rewrite andb_false_r. reflexivity. }
    destruct (String.eqb_spec k "STATUS") as [->|K3].
    { cbn. rewrite Hn. destruct (var rest "MAINPID") as [w|]; [destruct (parse_i32 w)|]; reflexivity. }
    destruct (String.eqb_spec k "MAINPID") as [->|K4].
    { cbn. rewrite Hn. destruct (parse_i32 v); cbn; [|reflexivity].
      destruct (var rest "STATUS"); reflexivity. }
    reflexivity.
Qed.

Definition notified_pids (id : nat) (pid : Z) (m : gmap Z nat) (vars : list (string * string)) : gmap Z nat :=
  match mainpid vars with Some n => <[n := id]> (delete pid m) | None => m end.

Definition mk_g procs out err pids keep dep cr ex ep : manager :=
  {| g_procs := procs; g_out := out; g_err := err; g_pids := pids; g_keep := keep; g_dep := dep; g_cron := cr;
     g_exit := ex; g_epoll := ep |}.

Lemma then_nil a : then_ a (fun g => Go g []) = a.
Proof. destruct a; cbn; [rewrite app_nil_r|]; reflexivity. Qed.

(** The effect of the variables on the manager. *)
Lemma manager_notified id pid vars : forall g, List.NoDup (map fst vars) ->
  match (if is_one (var vars "READY") then notify_process_finished (g_dep g) id else Ret (g_dep g)) with
  | Ret d => manager_notifications id pid g vars =
             Go (set_dep (set_pids g (notified_pids id pid (g_pids g) vars)) d) []
  | Panic m => manager_notifications id pid g vars = Die m []
  end.
Proof.
  induction vars as [|[k v] rest IH]; intros g N; cbn [manager_notifications].
  - cbn. destruct g; reflexivity.
  - inversion N as [|? ? N1 N2]; subst.
    assert (Hn : var rest k = None).
    { apply var_none. intros w Hw. apply N1. apply in_map_iff. exists (k, w). auto. }
    unfold manager_notification. cbn [var].
    destruct (String.eqb_spec k "READY") as [->|K1].
    { cbn. unfold notified_pids, mainpid. cbn. destruct (String.eqb v "1") eqn:V; cbn.
      - unfold finished_dep. destruct (notify_process_finished (g_dep g) id) as [d|m]; cbn; [|reflexivity].
        specialize (IH (set_dep g d) N2). rewrite Hn in IH. cbn in IH. rewrite IH. reflexivity.
      - specialize (IH g N2). rewrite Hn in IH. cbn in IH. rewrite IH. reflexivity. }
    destruct (String.eqb_spec k "MAINPID") as [->|K4].
    { cbn. unfold notified_pids, mainpid. cbn. destruct (parse_i32 v) as [n|] eqn:V; cbn.
      - specialize (IH (set_pids g (<[n := id]> (delete pid (g_pids g)))) N2).
        unfold notified_pids, mainpid in IH. rewrite Hn in IH. cbn in IH.
        destruct (is_one (var rest "READY")).
        + destruct (notify_process_finished (g_dep g) id) as [d|m]; rewrite IH; reflexivity.
        + rewrite IH. reflexivity.
      - specialize (IH g N2). unfold notified_pids, mainpid in IH. rewrite Hn in IH.
        destruct (is_one (var rest "READY")).
        + destruct (notify_process_finished (g_dep g) id) as [d|m]; rewrite IH; reflexivity.
        + rewrite IH. reflexivity. }
    specialize (IH g N2). unfold notified_pids, mainpid in *. cbn [var then_].
    assert (M : String.eqb k "MAINPID" = false) by (apply String.eqb_neq; auto). rewrite M.
    destruct (is_one (var rest "READY")).
    + destruct (notify_process_finished (g_dep g) id) as [d|m]; rewrite IH; reflexivity.
    + rewrite IH. reflexivity.
Qed.

(** ** Parsing gives distinct keys *)
Lemma filter_keys k (m : list (string * string)) x : In x (map fst (List.filter (fun e => negb (String.eqb (fst e) k)) m)) ->
  In x (map fst m) /\ x <> k.
Proof.
  intros H. apply in_map_iff in H. destruct H as (e & <- & H). apply filter_In in H. destruct H as [H1 H2].
  split; [apply in_map; auto|]. destruct (String.eqb_spec (fst e) k); [discriminate|auto].
Qed.
Lemma filter_nodup k (m : list (string * string)) : List.NoDup (map fst m) ->
  List.NoDup (map fst (List.filter (fun e => negb (String.eqb (fst e) k)) m)).
Proof.
  induction m as [|e m IH]; cbn; intros N; [constructor|]. inversion N; subst.
  destruct (negb (String.eqb (fst e) k)); cbn; [|auto]. constructor; [|auto].
  intros K. apply filter_keys in K. tauto.
Qed.
Lemma parse_line_nodup m l : List.NoDup (map fst m) -> List.NoDup (map fst (parse_line m l)).
Proof.
  intros N. unfold parse_line. destruct (splitn2 _ l) as [k [v|]]; [|auto]. destruct (existsb _ _); [|auto].
  unfold var_insert. cbn [map fst]. constructor; [|apply filter_nodup; auto].
  intros K. apply filter_keys in K. tauto.
Qed.
Lemma parse_nodup s : List.NoDup (map fst (parse s)).
Proof.
  unfold parse. assert (G : forall ls m, List.NoDup (map fst m) -> List.NoDup (map fst (fold_left parse_line ls m))).
  { induction ls as [|l ls IH]; cbn; intros m N; [auto|]. apply IH. apply parse_line_nodup. auto. }
  apply G. constructor.
Qed.

Definition end_state (t : run_type) (rc : Z) : pstate :=
  if rc =? 0 then match t with RCronjob => Sleeping | _ => Done end else Crashed rc.

(** ** Steps *)
Inductive kmove : kernel -> kernel -> Prop :=
| km_fork k pid : 0 < pid -> k_procs k !! pid = None -> kmove k (set_kprocs k (<[pid := KOther]> (k_procs k)))
| km_gone k pid : k_procs k !! pid = Some KOther -> kmove k (set_kprocs k (delete pid (k_procs k)))
| km_adopt k pid : k_procs k !! pid = Some KOther -> kmove k (set_kprocs k (<[pid := KChild]> (k_procs k)))
| km_exit k pid st : k_procs k !! pid = Some KChild -> valid_status st = true ->
    kmove k (set_kprocs k (<[pid := KZombie st]> (k_procs k)))
| km_hangup k fd p : k_pipes k !! fd = Some p ->
    kmove k (set_kpipes k (<[fd := {| pp_buf := pp_buf p; pp_open := false |}]> (k_pipes k))).

Definition no_zombie (k : kernel) : Prop := forall pid st, k_procs k !! pid <> Some (KZombie st).

(** Moves of cinit that change nothing but its position. *)
Inductive qmove (e : env) (s : sys) : pc -> bool -> Prop :=
| q_enter : s_pc s = AtHead -> s_shut s = false -> g_keep (s_g s) = true ->
    has_running_processes (s_g s) || has_runnables (g_dep (s_g s)) = true -> qmove e s AtSpawnDep false
| q_leave : s_pc s = AtHead -> s_shut s = false ->
    g_keep (s_g s) && (has_running_processes (s_g s) || has_runnables (g_dep (s_g s))) = false -> qmove e s AtHead true
| q_again : s_pc s = AtHead -> s_shut s = true -> has_running_processes (s_g s) = true -> qmove e s AtPoll true
| q_deps_done : s_pc s = AtSpawnDep -> pop_dep (g_dep (s_g s)) = None -> qmove e s AtSpawnCron (s_shut s)
| q_cron_done now c : s_pc s = AtSpawnCron -> cron_pop (e_zone e) (g_cron (s_g s)) now = Ret (c, None) ->
    qmove e s AtPoll (s_shut s)
| q_poll_failed : s_pc s = AtPoll -> qmove e s AtWait (s_shut s)
| q_poll l : s_pc s = AtPoll -> List.NoDup (map ev_fd l) -> (length l <= 10)%nat -> (forall ev, In ev l -> ready e s ev = true) ->
    qmove e s (AtEvents l) (s_shut s)
| q_events_done : s_pc s = AtEvents [] -> qmove e s AtWait (s_shut s)
| q_event ev rest : s_pc s = AtEvents (ev :: rest) -> qmove e s (AtEvents rest) (s_shut s)
| q_waited : s_pc s = AtWait -> no_zombie (s_k s) -> qmove e s AtHead (s_shut s).

Definition fits (e : env) (k : kernel) (pid out err : Z) : Prop :=
  0 < pid /\ k_procs k !! pid = None /\ k_pipes k !! out = None /\ k_pipes k !! err = None /\ out <> err /\
  is_fixed e out = false /\ is_fixed e err = false.

(** Where a start attempt comes from: the manager after taking the program from its
    queue, and the effects so far. *)
Inductive origin (e : env) (s : sys) (id : nat) : manager -> list event -> Prop :=
| o_dep d p : s_pc s = AtSpawnDep -> pop_dep (g_dep (s_g s)) = Some (id, d) ->
    g_procs (s_g s) !! id = Some p -> p_type p <> RCronjob ->
    origin e s id (set_dep (s_g s) d) []
| o_cron now c : s_pc s = AtSpawnCron -> cron_pop (e_zone e) (g_cron (s_g s)) now = Ret (c, Some id) ->
    is_runnable (g_dep (s_g s)) id = true ->
    origin e s id (set_cron (s_g s) c) [EDue id now].

Definition mk_s g k p sh h : sys := {| s_g := g; s_k := k; s_pc := p; s_shut := sh; s_hist := h |}.

Definition kills (sg : signal) (pids : list Z) : list event := map (fun x => EKill x sg) pids.

Definition start_event (ev : event) : bool := match ev with EStart _ _ => true | _ => false end.

(** Effects that happen before a panic. *)
Inductive dying (e : env) (s : sys) : string -> list event -> kernel -> Prop :=
| d_bounds_dep id d : s_pc s = AtSpawnDep -> pop_dep (g_dep (s_g s)) = Some (id, d) -> g_procs (s_g s) !! id = None ->
    dying e s BOUNDS [] (s_k s)
| d_cron now m : s_pc s = AtSpawnCron -> cron_pop (e_zone e) (g_cron (s_g s)) now = Panic m -> dying e s m [] (s_k s)
| d_bounds_cron now c id : s_pc s = AtSpawnCron -> cron_pop (e_zone e) (g_cron (s_g s)) now = Ret (c, Some id) ->
    g_procs (s_g s) !! id = None -> dying e s BOUNDS [EDue id now] (s_k s)
| d_signal fd rest sg sent pre x post : s_pc s = AtEvents (EvIn fd :: rest) ->
    sg <> SIGCHLD -> sent = (match sg with SIGQUIT => SIGQUIT | _ => SIGINT end) ->
    running_pids (s_g s) = pre ++ x :: post -> reach (s_k s) x = false ->
    dying e s "Could not transmit signal to child" (ESignal sg :: kills sent pre) (s_k s)
| d_report fd rest m : s_pc s = AtEvents (EvIn fd :: rest) -> format_report (e_rfc3339 e) (s_g s) = Panic m ->
    dying e s m [] (s_k s)
| d_text fd rest datagram m : s_pc s = AtEvents (EvIn fd :: rest) ->
    read_text datagram = Some (Panic m) -> dying e s m [] (s_k s)
| d_overread fd rest datagram : s_pc s = AtEvents (EvIn fd :: rest) ->
    read_text datagram = None -> dying e s "undefined behaviour" [] (s_k s)
| d_bounds_notify fd rest sender id : s_pc s = AtEvents (EvIn fd :: rest) ->
    g_pids (s_g s) !! sender = Some id -> g_procs (s_g s) !! id = None -> dying e s BOUNDS [] (s_k s)
| d_dep_notify fd rest sender id p vars m : s_pc s = AtEvents (EvIn fd :: rest) ->
    g_pids (s_g s) !! sender = Some id -> g_procs (s_g s) !! id = Some p ->
    notify_process_finished (g_dep (s_g s)) id = Panic m -> dying e s m [ENotify id sender vars] (s_k s)
| d_fd fd rest data k' m : s_pc s = AtEvents (EvIn fd :: rest) -> is_fixed e fd = false ->
    process_for_fd (s_g s) fd = Panic m -> dying e s m [EChunk fd data] k'
| d_bounds_wait pid st id : s_pc s = AtWait -> k_procs (s_k s) !! pid = Some (KZombie st) ->
    g_pids (s_g s) !! pid = Some id -> g_procs (s_g s) !! id = None ->
    dying e s BOUNDS [EReap pid st] (set_kprocs (s_k s) (delete pid (k_procs (s_k s))))
| d_kill pid st id p pre x post : s_pc s = AtWait -> k_procs (s_k s) !! pid = Some (KZombie st) ->
    g_pids (s_g s) !! pid = Some id -> g_procs (s_g s) !! id = Some p -> code_of st <> 0 ->
    running_pids (update (s_g s) id (with_state p (Crashed (code_of st)))) = pre ++ x :: post ->
    reach (set_kprocs (s_k s) (delete pid (k_procs (s_k s)))) x = false -> (forall n, st <> XRealtime n) ->
    dying e s "Could not transmit signal to child" (EReap pid st :: EEnd id pid (code_of st) :: kills SIGINT pre)
      (set_kprocs (s_k s) (delete pid (k_procs (s_k s))))
| d_dep_wait pid st id p sent m : s_pc s = AtWait -> k_procs (s_k s) !! pid = Some (KZombie st) ->
    g_pids (s_g s) !! pid = Some id -> g_procs (s_g s) !! id = Some p ->
    notify_process_finished (g_dep (s_g s)) id = Panic m ->
    sent = (if code_of st =? 0 then []
            else running_pids (update (s_g s) id (with_state p (Crashed (code_of st))))) ->
    dying e s m (EReap pid st :: EEnd id pid (code_of st) :: kills SIGINT sent)
      (set_kprocs (s_k s) (delete pid (k_procs (s_k s)))).

Inductive trans (e : env) (s : sys) : sys -> Prop :=
| t_kernel k' : kmove (s_k s) k' -> trans e s (with_kernel s k')
| t_write fd data q : k_pipes (s_k s) !! fd = Some q -> pp_open q = true ->
    trans e s (mk_s (s_g s) (set_kpipes (s_k s) (<[fd := {| pp_buf := pp_buf q +:+ data; pp_open := true |}]> (k_pipes (s_k s))))
                    (s_pc s) (s_shut s) (s_hist s ++ [EWrote fd data]))
| t_quiet p sh : qmove e s p sh -> trans e s (mk_s (s_g s) (s_k s) p sh (s_hist s))
| t_exit : s_pc s = AtHead -> s_shut s = true -> has_running_processes (s_g s) = false ->
    trans e s (mk_s (s_g s) (s_k s) (Finished (g_exit (s_g s))) true (s_hist s ++ [EExit (g_exit (s_g s))]))
| t_pop_cronjob id d p : s_pc s = AtSpawnDep -> pop_dep (g_dep (s_g s)) = Some (id, d) ->
    g_procs (s_g s) !! id = Some p -> p_type p = RCronjob ->
    trans e s (mk_s (set_dep (s_g s) d) (s_k s) AtSpawnDep (s_shut s) (s_hist s))
| t_skipped now c id p : s_pc s = AtSpawnCron -> cron_pop (e_zone e) (g_cron (s_g s)) now = Ret (c, Some id) ->
    is_runnable (g_dep (s_g s)) id = false -> g_procs (s_g s) !! id = Some p ->
    trans e s (mk_s (set_cron (s_g s) c) (s_k s) AtSpawnCron (s_shut s) (s_hist s ++ [EDue id now; ESkipped id]))
| t_refused id g1 pre p : origin e s id g1 pre -> g_procs (s_g s) !! id = Some p ->
    p_state p <> Blocked -> p_state p <> Sleeping ->
    trans e s (mk_s g1 (s_k s) (s_pc s) (s_shut s) (s_hist s ++ pre ++ [ERefused id]))
| t_fork_failed id g1 pre p : origin e s id g1 pre -> g_procs (s_g s) !! id = Some p ->
    p_state p = Blocked \/ p_state p = Sleeping ->
    trans e s (mk_s g1 (s_k s) (s_pc s) (s_shut s) (s_hist s ++ pre ++ [EStartFail id]))
| t_started id g1 pre p pid out err ep : origin e s id g1 pre -> g_procs (s_g s) !! id = Some p ->
    p_state p = Blocked \/ p_state p = Sleeping -> fits e (s_k s) pid out err ->
    (forall fd, fd ∈ ep -> fd ∈ g_epoll (s_g s) \/ fd = out \/ fd = err) ->
    trans e s (mk_s (mk_g (<[id := started p pid]> (g_procs (s_g s))) (<[out := id]> (g_out (s_g s)))
                          (<[err := id]> (g_err (s_g s))) (<[pid := id]> (g_pids (s_g s))) (g_keep (s_g s))
                          (g_dep g1) (g_cron g1) (g_exit (s_g s)) ep)
                    {| k_procs := <[pid := KChild]> (k_procs (s_k s));
                       k_pipes := <[err := {| pp_buf := ""; pp_open := true |}]>
                                  (<[out := {| pp_buf := ""; pp_open := true |}]> (k_pipes (s_k s))) |}
                    (s_pc s) (s_shut s) (s_hist s ++ pre ++ [EStart id pid; EOpen out id true; EOpen err id false]))
| t_signal fd rest sg sent : s_pc s = AtEvents (EvIn fd :: rest) -> fd = e_signal e -> sg <> SIGCHLD ->
    sent = (match sg with SIGQUIT => SIGQUIT | _ => SIGINT end) ->
    (forall x, In x (running_pids (s_g s)) -> reach (s_k s) x = true) ->
    trans e s (mk_s (set_keep (s_g s) false) (s_k s) (AtEvents rest) (s_shut s)
                    (s_hist s ++ ESignal sg :: kills sent (running_pids (s_g s))))
| t_sigchld fd rest : s_pc s = AtEvents (EvIn fd :: rest) -> fd = e_signal e ->
    trans e s (mk_s (s_g s) (s_k s) (AtEvents rest) (s_shut s) (s_hist s ++ [ESignal SIGCHLD]))
| t_report fd rest text : s_pc s = AtEvents (EvIn fd :: rest) -> fd = e_status e ->
    format_report (e_rfc3339 e) (s_g s) = Ret text ->
    trans e s (mk_s (s_g s) (s_k s) (AtEvents rest) (s_shut s) (s_hist s ++ [EReport text]))
| t_ignored fd rest datagram text sender : s_pc s = AtEvents (EvIn fd :: rest) -> fd = e_notify e ->
    read_text datagram = Some (Ret text) ->
    (forall id p, g_pids (s_g s) !! sender = Some id -> g_procs (s_g s) !! id = Some p -> p_type p <> RNotify) ->
    trans e s (mk_s (s_g s) (s_k s) (AtEvents rest) (s_shut s) (s_hist s ++ [EIgnored sender]))
| t_notified fd rest datagram text sender id p vars d : s_pc s = AtEvents (EvIn fd :: rest) -> fd = e_notify e ->
    read_text datagram = Some (Ret text) -> vars = e_order e (parse text) ->
    g_pids (s_g s) !! sender = Some id -> g_procs (s_g s) !! id = Some p -> p_type p = RNotify ->
    (if is_one (var vars "READY") then notify_process_finished (g_dep (s_g s)) id else Ret (g_dep (s_g s))) = Ret d ->
    trans e s (mk_s (mk_g (<[id := notified_process p vars]> (g_procs (s_g s))) (g_out (s_g s)) (g_err (s_g s))
                          (notified_pids id (p_pid p) (g_pids (s_g s)) vars) (g_keep (s_g s)) d (g_cron (s_g s))
                          (g_exit (s_g s)) (g_epoll (s_g s)))
                    (s_k s) (AtEvents rest) (s_shut s) (s_hist s ++ [ENotify id sender vars]))
| t_output fd rest n q p : s_pc s = AtEvents (EvIn fd :: rest) -> is_fixed e fd = false ->
    k_pipes (s_k s) !! fd = Some q -> (1 <= n <= 4096)%nat -> (n <= String.length (pp_buf q))%nat ->
    process_for_fd (s_g s) fd = Ret p ->
    trans e s (mk_s (s_g s)
                    (set_kpipes (s_k s) (<[fd := {| pp_buf := sdrop n (pp_buf q); pp_open := pp_open q |}]> (k_pipes (s_k s))))
                    (AtEvents rest) (s_shut s)
                    (s_hist s ++ EChunk fd (stake n (pp_buf q)) ::
                     map (ELog (is_stdout (s_g s) fd) (p_name p))
                         (List.filter nonempty (lines (utf8_lossy (stake n (pp_buf q)))))))
| t_closed fd rest : s_pc s = AtEvents (EvHup fd :: rest) ->
    trans e s (mk_s (set_fds (s_g s) (delete fd (g_out (s_g s))) (delete fd (g_err (s_g s))) (g_epoll (s_g s) ∖ {[fd]}))
                    (set_kpipes (s_k s) (delete fd (k_pipes (s_k s)))) (AtEvents rest) (s_shut s)
                    (s_hist s ++ [EClosed fd]))
| t_unknown pid st : s_pc s = AtWait -> k_procs (s_k s) !! pid = Some (KZombie st) ->
    (forall n, st <> XRealtime n) -> g_pids (s_g s) !! pid = None ->
    trans e s (mk_s (s_g s) (set_kprocs (s_k s) (delete pid (k_procs (s_k s)))) AtWait (s_shut s)
                    (s_hist s ++ [EReap pid st; EUnknown pid (code_of st)]))
| t_lost pid n : s_pc s = AtWait -> k_procs (s_k s) !! pid = Some (KZombie (XRealtime n)) ->
    trans e s (mk_s (s_g s) (set_kprocs (s_k s) (delete pid (k_procs (s_k s)))) AtHead (s_shut s)
                    (s_hist s ++ [EReap pid (XRealtime n); ELost pid]))
| t_ended pid st id p d sent : s_pc s = AtWait -> k_procs (s_k s) !! pid = Some (KZombie st) ->
    (forall n, st <> XRealtime n) -> g_pids (s_g s) !! pid = Some id -> g_procs (s_g s) !! id = Some p ->
    (match p_type p with RCronjob => Ret (g_dep (s_g s)) | _ => notify_process_finished (g_dep (s_g s)) id end) = Ret d ->
    sent = (if code_of st =? 0 then []
            else running_pids (update (s_g s) id (with_state p (Crashed (code_of st))))) ->
    (forall x, In x sent -> reach (set_kprocs (s_k s) (delete pid (k_procs (s_k s)))) x = true) ->
    trans e s (mk_s (mk_g (<[id := with_state p (end_state (p_type p) (code_of st))]> (g_procs (s_g s))) (g_out (s_g s))
                          (g_err (s_g s)) (delete pid (g_pids (s_g s)))
                          (if code_of st =? 0 then g_keep (s_g s) else false) d (g_cron (s_g s))
                          (if code_of st =? 0 then g_exit (s_g s) else 6) (g_epoll (s_g s)))
                    (set_kprocs (s_k s) (delete pid (k_procs (s_k s)))) AtWait (s_shut s)
                    (s_hist s ++ EReap pid st :: EEnd id pid (code_of st) :: kills SIGINT sent))
| t_died m evs k' : dying e s m evs k' ->
    trans e s (mk_s (s_g s) k' (Panicked m) (s_shut s) (s_hist s ++ evs)).

(** The cases of a step, with fixed names. *)
Ltac step_cases T := destruct T as
  [k' KM|fd data q Hq Ho|p sh Q|P Sh R|id d p P D Hp Ht|now c id p P C R Hp|id g1 pre p O Hp N1 N2|id g1 pre p O Hp St
  |id g1 pre p pid out err ep O Hp St F Ep|fd rest sg sent P F1 NS Es Re|fd rest P F1|fd rest text P F1 Rt
  |fd rest dg text sender P F1 Rt Ig|fd rest dg text sender id p vars d P F1 Rt Vs D Hp Ty Nd
  |fd rest n q p P FX K Hn Hl PF|fd rest P|pid st P Z NR D|pid n P Z|pid st id p d sent P Z NR D Hp Nd Es Re|m evs k' D].

Lemma fork_fits_spec e k pid out err a b : fork_fits e k (Forked pid out err a b) = true -> fits e k pid out err.
Proof.
  unfold fork_fits, fits. rewrite !andb_true_iff, !negb_true_iff. intros ((((((H1 & H2) & H3) & H4) & H5) & H6) & H7).
  apply Z.ltb_lt in H1. apply Z.eqb_neq in H5.
  destruct (k_procs k !! pid), (k_pipes k !! out), (k_pipes k !! err); try discriminate. auto 10.
Qed.

Lemma spawn_trans e s id g1 pre r : origin e s id g1 pre ->
  g_procs g1 = g_procs (s_g s) -> g_out g1 = g_out (s_g s) -> g_err g1 = g_err (s_g s) -> g_pids g1 = g_pids (s_g s) ->
  g_keep g1 = g_keep (s_g s) -> g_exit g1 = g_exit (s_g s) -> g_epoll g1 = g_epoll (s_g s) ->
  forall p, g_procs (s_g s) !! id = Some p ->
  let a := then_ (Go g1 pre) (fun g => spawn_child g id r) in
  (forks a = true -> fork_fits e (s_k s) r = true -> trans e s (goes s a (kernel_forked (s_k s) r) (s_pc s))) /\
  (forks a = false -> trans e s (goes s a (s_k s) (s_pc s))).
Proof.
  intros O E1 E2 E3 E4 E5 E6 E7 p Hp. cbn [then_]. unfold spawn_child. rewrite E1, Hp.
  destruct (negb (pstate_eqb (p_state p) Blocked) && negb (pstate_eqb (p_state p) Sleeping)) eqn:B.
  - assert (N1 : p_state p <> Blocked) by (intros K; rewrite K in B; discriminate).
    assert (N2 : p_state p <> Sleeping) by (intros K; rewrite K in B; discriminate).
    assert (T : trans e s (goes s (Go g1 (pre ++ [ERefused id])) (s_k s) (s_pc s))) by (eapply t_refused; eauto).
    split; [|intros _; exact T]. cbn [forks]. intros F. exfalso. rewrite existsb_app in F.
    inversion O; subst; discriminate.
  - assert (St : p_state p = Blocked \/ p_state p = Sleeping).
    { destruct (p_state p); cbn in B; try discriminate; auto. }
    destruct r as [|pid out err wo we].
    + assert (T : trans e s (goes s (Go g1 (pre ++ [EStartFail id])) (s_k s) (s_pc s))) by (eapply t_fork_failed; eauto).
      split; [|intros _; exact T]. cbn [forks]. intros F. exfalso. rewrite existsb_app in F.
      inversion O; subst; discriminate.
    + split.
      * intros _ F. apply fork_fits_spec in F. cbn [goes].
        replace (set_fds _ _ _ _) with
          (mk_g (<[id := started p pid]> (g_procs (s_g s))) (<[out := id]> (g_out (s_g s)))
                          (<[err := id]> (g_err (s_g s))) (<[pid := id]> (g_pids (s_g s))) (g_keep (s_g s))
                          (g_dep g1) (g_cron g1) (g_exit (s_g s))
                          ((if we then {[err]} else ∅) ∪ ((if wo then {[out]} else ∅) ∪ g_epoll (s_g s)))).
        -- eapply t_started; eauto. intros fd. rewrite !elem_of_union. destruct we, wo; set_solver.
        -- unfold set_fds, set_pids, update, set_procs, mk_g. cbn. rewrite E1, E2, E3, E4, E5, E6, E7. reflexivity.
      * intros F. exfalso. cbn [forks] in F. rewrite existsb_app in F. cbn in F. rewrite orb_true_r in F. discriminate.
Qed.

Lemma no_zombie_spec k : forallb (fun x : Z * kproc => match snd x with KZombie _ => false | _ => true end)
  (map_to_list (k_procs k)) = true -> no_zombie k.
Proof.
  intros H pid st E. rewrite forallb_forall in H. specialize (H (pid, KZombie st)).
  cbn in H. discriminate H. apply elem_of_list_In, elem_of_map_to_list. auto.
Qed.

Theorem sstep_trans e s o s' : (forall l, Permutation (e_order e l) l) -> sstep e s o = Some s' -> trans e s s'.
Proof.
  intros OK H. unfold sstep in H. destruct o as [pid|pid|pid|pid st|fd data|fd| |r|now r|evs|a|[pid|]].
  - destruct ((0 <? pid) && negb (is_some (k_procs (s_k s) !! pid))) eqn:B; [|discriminate]. inversion H; subst.
    apply andb_true_iff in B. destruct B as [B1 B2]. apply Z.ltb_lt in B1.
    destruct (k_procs (s_k s) !! pid) eqn:E; [discriminate|]. apply t_kernel. constructor; auto.
  - destruct (k_procs (s_k s) !! pid) as [[| | |]|] eqn:E; try discriminate. inversion H; subst.
    apply t_kernel. constructor; auto.
  - destruct (k_procs (s_k s) !! pid) as [[| | |]|] eqn:E; try discriminate. inversion H; subst.
    apply t_kernel. constructor; auto.
  - destruct (k_procs (s_k s) !! pid) as [[| | |]|] eqn:E; try discriminate.
    destruct (valid_status st) eqn:V; [|discriminate]. inversion H; subst. apply t_kernel. constructor; auto.
  - destruct (k_pipes (s_k s) !! fd) as [p|] eqn:E; [|discriminate]. destruct (pp_open p) eqn:O; [|discriminate].
    inversion H; subst. eapply t_write; eauto.
  - destruct (k_pipes (s_k s) !! fd) as [p|] eqn:E; [|discriminate].
    inversion H; subst. apply t_kernel. constructor; auto.
  - destruct (s_pc s) eqn:P; try discriminate. inversion H; subst. unfold step_head.
    destruct (s_shut s) eqn:Sh.
    + destruct (has_running_processes (s_g s)) eqn:R.
      * unfold with_pc. rewrite Sh. apply t_quiet. apply q_again; auto.
      * apply t_exit; auto.
    + destruct (g_keep (s_g s) && _) eqn:C.
      * apply andb_true_iff in C. unfold with_pc. rewrite Sh. apply t_quiet. apply q_enter; tauto.
      * apply t_quiet. apply q_leave; auto.
  - destruct (s_pc s) eqn:P; try discriminate. unfold spawn_dep in H.
    destruct (pop_dep (g_dep (s_g s))) as [[id d]|] eqn:D.
    + change (g_procs (set_dep (s_g s) d)) with (g_procs (s_g s)) in H.
      destruct (g_procs (s_g s) !! id) as [p|] eqn:Hp.
      * destruct (p_type p) eqn:T.
        3: { cbn [forks existsb] in H. inversion H; subst. cbn [goes]. rewrite app_nil_r. eapply t_pop_cronjob; eauto. }
        all: assert (O : origin e s id (set_dep (s_g s) d) []) by (eapply o_dep; eauto; congruence).
        all: destruct (spawn_trans e s id _ _ r O eq_refl eq_refl eq_refl eq_refl eq_refl eq_refl eq_refl p Hp) as [T1 T2].
        all: rewrite P in T1, T2.
        all: replace (then_ (Go (set_dep (s_g s) d) []) (fun g => spawn_child g id r)) with (spawn_child (set_dep (s_g s) d) id r) in T1, T2
               by (cbn [then_]; destruct (spawn_child _ id r); reflexivity).
        all: destruct (forks (spawn_child (set_dep (s_g s) d) id r)) eqn:F.
        all: try (destruct (fork_fits e (s_k s) r) eqn:FF; [|discriminate]).
        all: inversion H; subst; auto.
      * cbn in H. inversion H; subst. apply t_died. eapply d_bounds_dep; eauto.
    + inversion H; subst. apply t_quiet. apply q_deps_done; auto.
  - destruct (s_pc s) eqn:P; try discriminate. unfold spawn_cron in H.
    destruct (cron_pop (e_zone e) (g_cron (s_g s)) now) as [[c [id|]]|m] eqn:C.
    + change (g_dep (set_cron (s_g s) c)) with (g_dep (s_g s)) in H.
      destruct (g_procs (s_g s) !! id) as [p|] eqn:Hp.
      * destruct (is_runnable (g_dep (s_g s)) id) eqn:R.
        -- assert (O : origin e s id (set_cron (s_g s) c) [EDue id now]) by (eapply o_cron; eauto).
           destruct (spawn_trans e s id _ _ r O eq_refl eq_refl eq_refl eq_refl eq_refl eq_refl eq_refl p Hp) as [T1 T2].
           rewrite P in T1, T2.
           replace (then_ (Go (set_cron (s_g s) c) [EDue id now])
             (fun g => if is_runnable (g_dep g) id then spawn_child g id r
              else match g_procs g !! id with None => Die BOUNDS [] | Some _ => Go g [ESkipped id] end))
             with (then_ (Go (set_cron (s_g s) c) [EDue id now]) (fun g => spawn_child g id r)) in H
             by (cbn [then_]; change (g_dep (set_cron (s_g s) c)) with (g_dep (s_g s)); rewrite R; reflexivity).
           destruct (forks (then_ (Go (set_cron (s_g s) c) [EDue id now]) (fun g => spawn_child g id r))) eqn:F.
           ++ destruct (fork_fits e (s_k s) r) eqn:FF; [|discriminate]. inversion H; subst; auto.
           ++ inversion H; subst; auto.
        -- cbn [then_] in H. change (g_dep (set_cron (s_g s) c)) with (g_dep (s_g s)) in H. rewrite R in H.
           change (g_procs (set_cron (s_g s) c)) with (g_procs (s_g s)) in H. rewrite Hp in H. cbn in H.
           inversion H; subst. eapply t_skipped; eauto.
      * cbn [then_] in H. change (g_dep (set_cron (s_g s) c)) with (g_dep (s_g s)) in H.
        unfold spawn_child in H. change (g_procs (set_cron (s_g s) c)) with (g_procs (s_g s)) in H. rewrite Hp in H.
        destruct (is_runnable (g_dep (s_g s)) id); cbn in H; inversion H; subst; apply t_died; eapply d_bounds_cron; eauto.
    + inversion H; subst. apply t_quiet. eapply q_cron_done; eauto.
    + cbn in H. inversion H; subst. apply t_died. eapply d_cron; eauto.
  - destruct (s_pc s) eqn:P; try discriminate. destruct evs as [l|].
    + destruct ((length l <=? 10)%nat && bool_decide (base.NoDup (map ev_fd l)) && forallb (ready e s) l) eqn:B; [|discriminate].
      inversion H; subst. apply andb_true_iff in B. destruct B as [B B3]. apply andb_true_iff in B. destruct B as [B1 B2].
      apply bool_decide_eq_true in B2. rewrite forallb_forall in B3. apply Nat.leb_le in B1.
      apply t_quiet. apply q_poll; auto. apply NoDup_ListNoDup. auto.
    + inversion H; subst. apply t_quiet. apply q_poll_failed; auto.
  - destruct (s_pc s) as [| | | |[|ev rest]| | |] eqn:P; try discriminate.
    + inversion H; subst. apply t_quiet. apply q_events_done; auto.
    + assert (Q : trans e s (with_pc s (AtEvents rest))) by (apply t_quiet; eapply q_event; eauto).
      unfold step_event in H. destruct ev as [fd|fd|fd].
      * destruct (Z.eqb_spec fd (e_signal e)) as [F1|F1].
        { destruct a as [sg| | |]; try discriminate. inversion H; subst. unfold handle_signal.
          assert (G : forall sg sent, sg <> SIGCHLD -> sent = (match sg with SIGQUIT => SIGQUIT | _ => SIGINT end) ->
            trans e s (goes s (then_ (Go (s_g s) [ESignal sg]) (fun g => initiate_shutdown (reach (s_k s)) g sent))
                        (s_k s) (AtEvents rest))).
          { intros g sent Hg Hs. cbn [then_]. unfold initiate_shutdown.
            destruct (kill_all (reach (s_k s)) sent (running_pids (s_g s))) as [ev ok] eqn:K. destruct ok.
            - apply kill_all_ok in K. destruct K as [-> K]. cbn [goes].
              eapply t_signal with (sg := g); eauto.
            - apply kill_all_fail in K. destruct K as (pre & x & post & E & -> & R & _). cbn [goes].
              apply t_died. eapply d_signal; eauto. }
          destruct sg as [[| | |]|].
          - apply G; [discriminate|reflexivity].
          - apply G; [discriminate|reflexivity].
          - apply G; [discriminate|reflexivity].
          - cbn. eapply t_sigchld; eauto.
          - cbn. rewrite app_nil_r. exact Q. }
        destruct (Z.eqb_spec fd (e_status e)) as [F2|F2].
        { destruct a as [|[|]| |]; try discriminate; inversion H; subst; [|exact Q]. unfold report_status.
          destruct (format_report (e_rfc3339 e) (s_g s)) as [text|m] eqn:R; cbn [goes].
          - eapply t_report; eauto.
          - apply t_died. eapply d_report; eauto. }
        destruct (Z.eqb_spec fd (e_notify e)) as [F3|F3].
        { destruct a as [| |[[dg sender]|]|]; try discriminate; inversion H; subst; [|exact Q]. unfold receive.
          destruct (read_text dg) as [[text|m]|] eqn:R.
          - unfold process_message. destruct (g_pids (s_g s) !! sender) as [id|] eqn:D.
            + destruct (g_procs (s_g s) !! id) as [p|] eqn:Hp.
              * destruct (p_type p) eqn:T.
                -- cbn [goes]. eapply t_ignored; eauto. intros id' p'. rewrite D. intros [= <-]. rewrite Hp. intros [= <-]. congruence.
                -- set (vars := e_order e (parse text)).
                   assert (N : List.NoDup (map fst vars)).
                   { eapply Permutation_NoDup; [apply Permutation_map, Permutation_sym, OK|]. apply parse_nodup. }
                   rewrite (fold_notified vars p N). cbn [then_].
                   pose proof (manager_notified id (p_pid p) vars (update (s_g s) id (notified_process p vars)) N) as M.
                   change (g_dep (update (s_g s) id (notified_process p vars))) with (g_dep (s_g s)) in M.
                   destruct (if is_one (var vars "READY") then notify_process_finished (g_dep (s_g s)) id else Ret (g_dep (s_g s)))
                     as [d|m] eqn:ND.
                   ++ rewrite M. cbn [goes app]. eapply t_notified; eauto.
                   ++ rewrite M. cbn [goes app]. apply t_died.
                      destruct (is_one (var vars "READY")); [|discriminate]. eapply d_dep_notify; eauto.
                -- cbn [goes]. eapply t_ignored; eauto. intros id' p'. rewrite D. intros [= <-]. rewrite Hp. intros [= <-]. congruence.
              * cbn [goes]. apply t_died. eapply d_bounds_notify; eauto.
            + cbn [goes]. eapply t_ignored; eauto. intros id' p'. rewrite D. discriminate.
          - cbn [goes]. apply t_died. eapply d_text; eauto.
          - cbn [goes]. apply t_died. eapply d_overread; eauto. }
        assert (FX : is_fixed e fd = false).
        { unfold is_fixed. rewrite !orb_false_iff, !Z.eqb_neq. auto. }
        destruct a as [| | |[n|]]; try discriminate; [|inversion H; subst; exact Q].
        destruct (k_pipes (s_k s) !! fd) as [q|] eqn:K; [|discriminate].
        destruct ((1 <=? n)%nat && (n <=? 4096)%nat && (n <=? String.length (pp_buf q))%nat) eqn:B; [|discriminate].
        apply andb_true_iff in B. destruct B as [B B3]. apply andb_true_iff in B. destruct B as [B1 B2].
        apply Nat.leb_le in B1, B2, B3.
        inversion H; subst. unfold print_child_output.
        destruct (process_for_fd (s_g s) fd) as [p|m] eqn:PF; cbn [goes].
        -- eapply t_output; eauto.
        -- apply t_died. eapply d_fd; eauto.
      * inversion H; subst. unfold hang_up. cbn [goes]. eapply t_closed; eauto.
      * inversion H; subst. exact Q.
  - destruct (s_pc s) eqn:P; try discriminate.
    destruct (k_procs (s_k s) !! pid) as [[| | |st]|] eqn:E; try discriminate.
    set (k' := set_kprocs (s_k s) (delete pid (k_procs (s_k s)))) in *.
    assert (G : (forall n, st <> XRealtime n) ->
      trans e s (goes s (then_ (Go (s_g s) [EReap pid st]) (fun g => handle_finished_child (reach k') g pid (code_of st))) k' AtWait)).
    { intros NR. unfold handle_finished_child. cbn [then_]. destruct (g_pids (s_g s) !! pid) as [id|] eqn:D.
      - destruct (g_procs (s_g s) !! id) as [p|] eqn:Hp.
        + set (rc := code_of st) in *.
          set (sent := if rc =? 0 then [] else running_pids (update (s_g s) id (with_state p (Crashed rc)))).
          set (g2 := mk_g (<[id := with_state p (end_state (p_type p) rc)]> (g_procs (s_g s))) (g_out (s_g s))
                          (g_err (s_g s)) (g_pids (s_g s)) (if rc =? 0 then g_keep (s_g s) else false) (g_dep (s_g s))
                          (g_cron (s_g s)) (if rc =? 0 then g_exit (s_g s) else 6) (g_epoll (s_g s))).
          set (is_cron := match p_type p with RCronjob => true | _ => false end).
          assert (First : then_ (if rc =? 0 then Go (update (s_g s) id (with_state p (if is_cron then Sleeping else Done))) [EEnd id pid rc]
                else Go (set_exit (update (s_g s) id (with_state p (Crashed rc))) CHILD_CRASH_EXIT_CODE) [EEnd id pid rc])
               (fun g => if rc =? 0 then Go g [] else initiate_shutdown (reach k') g SIGINT)
             = Go g2 (EEnd id pid rc :: kills SIGINT sent) /\ (forall x, In x sent -> reach k' x = true) \/
             exists pre x post, running_pids (update (s_g s) id (with_state p (Crashed rc))) = pre ++ x :: post /\ rc <> 0 /\
               reach k' x = false /\
               then_ (if rc =? 0 then Go (update (s_g s) id (with_state p (if is_cron then Sleeping else Done))) [EEnd id pid rc]
                else Go (set_exit (update (s_g s) id (with_state p (Crashed rc))) CHILD_CRASH_EXIT_CODE) [EEnd id pid rc])
               (fun g => if rc =? 0 then Go g [] else initiate_shutdown (reach k') g SIGINT)
               = Die "Could not transmit signal to child" (EEnd id pid rc :: kills SIGINT pre)).
          { subst sent g2. unfold end_state, is_cron. destruct (Z.eqb_spec rc 0) as [Z0|Z0].
            - left. split; [|intros x []]. cbn [then_]. destruct (p_type p); reflexivity.
            - cbn [then_]. unfold initiate_shutdown.
              change (running_pids (set_exit (update (s_g s) id (with_state p (Crashed rc))) CHILD_CRASH_EXIT_CODE))
                with (running_pids (update (s_g s) id (with_state p (Crashed rc)))).
              destruct (kill_all (reach k') SIGINT (running_pids (update (s_g s) id (with_state p (Crashed rc))))) as [ev ok] eqn:K.
              destruct ok.
              + apply kill_all_ok in K. destruct K as [-> K]. left. split; [reflexivity|auto].
              + apply kill_all_fail in K. destruct K as (pre & x & post & E1 & -> & R & _). right.
                exists pre, x, post. auto. }
          destruct First as [[F R]|(pre & x & post & E1 & NZ & R & F)]; rewrite F; cbn [then_].
          * destruct is_cron eqn:IC.
            -- cbn [goes app]. rewrite ?app_nil_r. eapply t_ended with (d := g_dep (s_g s)); eauto.
               unfold is_cron in IC. destruct (p_type p); try discriminate. reflexivity.
            -- unfold finished_dep. change (g_dep (set_pids g2 _)) with (g_dep (s_g s)).
               assert (NC : match p_type p with RCronjob => Ret (g_dep (s_g s)) | _ => notify_process_finished (g_dep (s_g s)) id end
                 = notify_process_finished (g_dep (s_g s)) id) by (unfold is_cron in IC; destruct (p_type p); [reflexivity|reflexivity|discriminate]).
               destruct (notify_process_finished (g_dep (s_g s)) id) as [d|m] eqn:ND.
               ++ cbn [goes app]. rewrite ?app_nil_r. eapply t_ended with (d := d); eauto. rewrite ND. exact NC.
               ++ cbn [goes app]. rewrite ?app_nil_r. apply t_died. eapply d_dep_wait; eauto.
          * cbn [goes]. apply t_died. eapply d_kill; eauto.
        + cbn. apply t_died. eapply d_bounds_wait; eauto.
      - cbn. eapply t_unknown; eauto. }
    unfold child_ended in H. destruct st as [rc|n|n]; inversion H; subst.
    + apply G. discriminate.
    + apply G. discriminate.
    + cbn [goes]. eapply t_lost; eauto.
  - destruct (s_pc s) eqn:P; try discriminate. destruct (forallb _ _) eqn:B; [|discriminate]. inversion H; subst.
    apply t_quiet. apply q_waited; auto. apply no_zombie_spec. auto.
Qed.
