(** Invariants of the running system. *)
From stdpp Require Import gmap strings.
From Coq Require Import Ascii ZArith List Bool Lia Permutation.
From Verif Require Import Base RStr CronModel ConfigModel ProcessModel EnvModel DepModel NotifyModel ManagerModel SysModel
  MainModel SpecEnv SpecDep SpecMain SpecRun EnvProofs DepProofs CronTimerProofs MainProofs RunStep.
Import ListNotations.
Local Open Scope string_scope.
Local Open Scope list_scope.
Local Open Scope Z_scope.

Lemma nth_error_lookup {A} (l : list A) i : nth_error l i = l !! i.
Proof. revert i. induction l as [|a l IH]; intros [|i]; cbn; auto. Qed.

(** * The state at the start of the loop *)
Definition runs_as (t : process_type) : run_type :=
  match t with Oneshot => ROneshot | Notify => RNotify | CronJob _ => RCronjob end.

Record start_state (configs : list proc_config) (s : sys) : Prop := {
  ss_len : length (g_procs (s_g s)) = length configs;
  ss_proc : forall id p, g_procs (s_g s) !! id = Some p -> exists c, nth_error configs id = Some c /\
    p_name p = pc_name c /\ p_type p = runs_as (pc_type c) /\
    p_state p = match pc_type c with CronJob _ => Sleeping | _ => Blocked end;
  ss_plain : forall id p, g_procs (s_g s) !! id = Some p -> p_pid p = 0 /\ p_status p = "";
  ss_before : forall c t, In c configs -> pc_type c = CronJob t -> pc_before c = [];
  ss_acyclic : acyclic configs;
  ss_after : no_cron_after configs;
  ss_refs : refs_known configs;
  ss_dep : dep_inv configs (fun _ => False) [] (g_dep (s_g s));
  ss_cron : cron_inv (g_cron (s_g s));
  ss_jobs : forall id, In id (map fst (timers (g_cron (s_g s)))) <-> cronjob configs id;
  ss_desc : forall id d, In (id, d) (timers (g_cron (s_g s))) ->
    exists c t, nth_error configs id = Some c /\ pc_type c = CronJob t /\ parse_timer t = Ret (Ok d);
  ss_out : g_out (s_g s) = ∅;
  ss_err : g_err (s_g s) = ∅;
  ss_pids : g_pids (s_g s) = ∅;
  ss_keep : g_keep (s_g s) = true;
  ss_exit : g_exit (s_g s) = 0;
  ss_epoll : g_epoll (s_g s) = ∅;
  ss_pipes : k_pipes (s_k s) = ∅;
  ss_procs : plausible (k_procs (s_k s));
  ss_pc : s_pc s = AtHead;
  ss_shut : s_shut s = false;
  ss_hist : s_hist s = []
}.

Lemma filter_fst_nodup {A} (f : nat * A -> bool) (l : list (nat * A)) : List.NoDup (map fst l) -> List.NoDup (map fst (List.filter f l)).
Proof.
  induction l as [|x l IH]; cbn; intros N; [constructor|]. inversion N; subst. destruct (f x); cbn; [|auto].
  constructor; [|auto]. intros K. apply in_map_iff in K. destruct K as (y & E & Hy). apply filter_In in Hy.
  apply H1. rewrite <- E. apply in_map. tauto.
Qed.

Lemma launched_start k e configs s : launched k e configs s -> start_state configs s.
Proof.
  intros (Hk & _ & _ & a & others & Hr & Pl & ->).
  assert (Ho := Hk). destruct Ho as (Hd & Hp & Ht & Hu).
  unfold run in Hr. destruct (do_startup_checks _ _); [|discriminate].
  destruct (parse_config _ _ _) as [[cs|]|] eqn:PC; try discriminate. cbn [obind] in Hr.
  destruct (manager_from k cs) as [[a'|]|] eqn:M; try discriminate. cbn [obind] in Hr.
  destruct (m_setup k); [|discriminate]. inversion Hr; subst cs a'. clear Hr.
  assert (U : unique_names configs).
  { eapply (loaded_names_unique _ _ _ _ _ _ Hd Hu Hp Ht PC). }
  assert (NP : forall m, manager_from k configs <> Panic m) by (intros m E; rewrite M in E; discriminate).
  destruct (analysis_exact k configs U Hk NP) as [[_ E]|(_ & a2 & E & F & D & B)]; [rewrite M in E; discriminate|].
  rewrite M in E. inversion E; subst a2.
  assert (W : refs_known configs /\ no_cron_after configs /\ acyclic configs).
  { destruct (with_nodes_spec (m_order k) (m_toposort k) configs U Hp Ht) as [(m & E1 & R & N & A & _)|(er & E1 & _ & _)]; [auto|].
    exfalso. unfold manager_from in M. destruct (build_processes _ _) as [[ps|]|]; try discriminate. cbn [obind] in M.
    unfold build_dependency_manager in M. rewrite E1 in M. cbn [obind] in M.
    destruct er; repeat match type of M with context [nth_error ?l ?i] => destruct (nth_error l i) end; cbn [obind] in M; try discriminate;
      destruct (build_cron _ _ _); cbn [obind] in M; try discriminate; destruct (m_sockets k); cbn in M; discriminate. }
  destruct W as (W1 & W2 & W3).
  assert (Ds : forall id d, In (id, d) (timers (a_cron a)) ->
    exists c t, nth_error configs id = Some c /\ pc_type c = CronJob t /\ parse_timer t = Ret (Ok d)).
  { unfold build_cron in B. set (jobs := List.filter _ _) in B.
    destruct (with_jobs _ _ _) as [[c|[]]|] eqn:WJ; cbn [obind] in B; try discriminate.
    2: destruct (nth_error configs n); discriminate.
    inversion B; subst c. intros id d H. apply (with_jobs_timers _ _ _ _ WJ) in H. destruct H as (raw & H & Pd).
    apply in_map_iff in H. destruct H as ([i c] & E1 & H). apply filter_In in H. destruct H as [H1 H2].
    apply enumerate_in in H1. cbn in E1, H2. unfold timer_text in E1. destruct (pc_type c) eqn:Tc; try discriminate.
    inversion E1; subst. exists c, raw. auto. }
  assert (C : cron_inv (a_cron a) /\ forall id, In id (map fst (timers (a_cron a))) <-> cronjob configs id).
  { unfold build_cron in B. set (jobs := List.filter _ _) in B.
    destruct (with_jobs _ _ _) as [[c|[]]|] eqn:WJ; cbn [obind] in B; try discriminate.
    2: destruct (nth_error configs n); discriminate.
    inversion B; subst c.
    assert (J : map fst (map (fun e0 : nat * proc_config => (fst e0, timer_text (snd e0))) jobs) = map fst jobs).
    { rewrite map_map. reflexivity. }
    apply with_jobs_inv in WJ.
    - destruct WJ as [W W']. split; [auto|]. intros id. rewrite J in W'. split.
      + intros H. apply (Permutation_in _ W') in H. apply in_map_iff in H. destruct H as ([i c] & <- & H).
        apply filter_In in H. destruct H as [H1 H2]. apply enumerate_in in H1. cbn in H2 |- *.
        destruct (pc_type c) eqn:T; try discriminate. exists c, timer. auto.
      + intros (c & t & Hc & T). apply (Permutation_in _ (Permutation_sym W')). apply in_map_iff. exists (id, c).
        split; [reflexivity|]. apply filter_In. split; [apply enumerate_in; auto|]. cbn. rewrite T. reflexivity.
    - rewrite J. apply filter_fst_nodup. rewrite map_fst_enumerate. apply seq_NoDup. }
  destruct C as [C1 C2].
  split; cbn [initial s_g s_k s_pc s_shut s_hist g_procs g_dep g_cron g_out g_err g_pids g_keep g_exit g_epoll k_pipes]; auto.
  - symmetry. eapply Forall2_length; eauto.
  - intros id p H. rewrite Forall2_lookup in F. specialize (F id). rewrite H in F. inversion F as [c q Hq Hc|]; subst.
    rewrite nth_error_lookup. symmetry in Hc. exists c. split; [auto|].
    apply process_from_ok in Hq. destruct Hq as (u & g & path & _ & _ & _ & _ & _ & _ & _ & _ & N & _ & _ & _ & _ & S & T & _).
    auto.
  - intros id p H. rewrite Forall2_lookup in F. specialize (F id). rewrite H in F. inversion F as [c q Hq Hc|]; subst.
    apply process_from_ok in Hq. destruct Hq as (u & g & path & _ & _ & _ & _ & _ & _ & _ & _ & _ & _ & _ & _ & _ & _ & _ & Z1 & Z2). auto.
  - intros c t Hc T. apply In_nth_error in Hc. destruct Hc as [i Hi]. rewrite Forall2_lookup in F. specialize (F i).
    rewrite <- nth_error_lookup, Hi in F. inversion F as [c' q Hq Hc Hx|]; subst.
    apply process_from_ok in Hq. destruct Hq as (u & g & path & _ & _ & _ & NB & _).
    destruct (pc_before c); [reflexivity|]. exfalso. apply NB. rewrite T. split; [reflexivity|discriminate].
Qed.

Lemma no_cron_dependency configs s u v : start_state configs s -> depends configs u v -> ~ cronjob configs u.
Proof.
  intros SS (cu & cv & Hu & Hv & H) (c & t & Hc & T). rewrite Hu in Hc. inversion Hc; subst c.
  destruct H as [H|H].
  - rewrite (ss_before _ _ SS cu t) in H; [destruct H|eapply nth_error_In; eauto|auto].
  - apply (ss_after _ _ SS cv (pc_name cu)); [eapply nth_error_In; eauto|auto|].
    exists cu. split; [eapply nth_error_In; eauto|]. rewrite T. auto.
Qed.

(** * Processes, descriptors and the position in the loop *)
Definition panicked (s : sys) : Prop := match s_pc s with Panicked _ => True | _ => False end.

Definition event_ok (e : env) (s : sys) (ev : epev) : Prop :=
  match ev with
  | EvIn fd => is_fixed e fd = true \/ fd ∈ g_epoll (s_g s)
  | EvHup fd => fd ∈ g_epoll (s_g s) /\ exists q, k_pipes (s_k s) !! fd = Some q /\ pp_buf q = "" /\ pp_open q = false
  | EvOther fd => True
  end.

Record maps_inv (configs : list proc_config) (e : env) (s : sys) : Prop := {
  ma_len : length (g_procs (s_g s)) = length configs;
  ma_proc : forall id p, g_procs (s_g s) !! id = Some p -> exists c, nth_error configs id = Some c /\
    p_name p = pc_name c /\ p_type p = runs_as (pc_type c);
  ma_pid : forall x id, g_pids (s_g s) !! x = Some id -> exists p, g_procs (s_g s) !! id = Some p /\ p_pid p = x /\ active (p_state p);
  ma_out : forall fd id, g_out (s_g s) !! fd = Some id -> is_Some (g_procs (s_g s) !! id) /\ g_err (s_g s) !! fd = None /\ is_fixed e fd = false;
  ma_err : forall fd id, g_err (s_g s) !! fd = Some id -> is_Some (g_procs (s_g s) !! id) /\ is_fixed e fd = false;
  ma_pipes : forall fd, is_Some (k_pipes (s_k s) !! fd) <-> is_Some (g_out (s_g s) !! fd) \/ is_Some (g_err (s_g s) !! fd);
  ma_epoll : forall fd, fd ∈ g_epoll (s_g s) -> is_Some (g_out (s_g s) !! fd) \/ is_Some (g_err (s_g s) !! fd);
  ma_batch : match s_pc s with
             | AtEvents l => List.NoDup (map ev_fd l) /\ forall ev, In ev l -> event_ok e s ev
             | _ => True
             end
}.

Lemma event_ok_frame e s s' : g_epoll (s_g s') = g_epoll (s_g s) ->
  (forall fd q, k_pipes (s_k s) !! fd = Some q -> pp_buf q = "" -> pp_open q = false -> k_pipes (s_k s') !! fd = Some q) ->
  forall ev, event_ok e s ev -> event_ok e s' ev.
Proof.
  intros E1 E2 [fd|fd|fd]; cbn; rewrite ?E1; auto. intros (H & q & Hq & B & O). eauto 10.
Qed.

Lemma ready_ok e s ev : ready e s ev = true -> event_ok e s ev.
Proof.
  destruct ev as [fd|fd|fd]; cbn; [| |auto].
  - rewrite orb_true_iff, andb_true_iff, bool_decide_eq_true. tauto.
  - rewrite andb_true_iff, bool_decide_eq_true. intros [H K]. split; [auto|].
    destruct (k_pipes (s_k s) !! fd) as [q|]; [|discriminate]. exists q. apply andb_true_iff in K. rewrite !negb_true_iff in K.
    destruct K as [K1 K2]. split; [auto|]. split; [|auto]. destruct (pp_buf q); [auto|discriminate].
Qed.

Lemma lookup_update_Some {A} (l : list A) i x j y : (<[i := x]> l) !! j = Some y ->
  (j = i /\ y = x /\ is_Some (l !! i)) \/ (j <> i /\ l !! j = Some y).
Proof.
  intros H. destruct (decide (j = i)) as [->|N].
  - left. assert (L : (i < length l)%nat) by (apply lookup_lt_Some in H; rewrite insert_length in H; auto).
    rewrite list_lookup_insert in H by auto. inversion H. split; [auto|]. split; [auto|]. apply lookup_lt_is_Some. auto.
  - right. rewrite list_lookup_insert_ne in H by auto. auto.
Qed.
Lemma lookup_update_same {A} (l : list A) i x z : l !! i = Some z -> (<[i := x]> l) !! i = Some x.
Proof. intros H. apply list_lookup_insert. apply lookup_lt_Some in H. auto. Qed.
Lemma lookup_update_is {A} (l : list A) i x j : is_Some ((<[i := x]> l) !! j) <-> is_Some (l !! j).
Proof. rewrite !lookup_lt_is_Some, insert_length. reflexivity. Qed.

Lemma notified_type p vars : p_type (notified_process p vars) = p_type p.
Proof. unfold notified_process. destruct (mainpid vars), (var vars "STATUS"); reflexivity. Qed.
Lemma notified_name p vars : p_name (notified_process p vars) = p_name p.
Proof. unfold notified_process. destruct (mainpid vars), (var vars "STATUS"); reflexivity. Qed.
Lemma notified_pid p vars : p_pid (notified_process p vars) = match mainpid vars with Some n => n | None => p_pid p end.
Proof. unfold notified_process. destruct (mainpid vars), (var vars "STATUS"); reflexivity. Qed.
Lemma notified_state p vars : p_state (notified_process p vars) =
  if is_one (var vars "STOPPING") then Stopping
  else if is_one (var vars "READY") && pstate_eqb (p_state p) Starting then Running else p_state p.
Proof. unfold notified_process. destruct (mainpid vars), (var vars "STATUS"); reflexivity. Qed.
Lemma notified_active p vars : active (p_state p) -> active (p_state (notified_process p vars)).
Proof.
  rewrite notified_state. unfold active. destruct (is_one _); [auto|]. destruct (_ && _); auto.
Qed.
Lemma started_active p pid : active (p_state (started p pid)).
Proof. unfold started, active. cbn. destruct (p_type p); auto. Qed.

Lemma origin_frame e s id g1 pre : origin e s id g1 pre ->
  g_procs g1 = g_procs (s_g s) /\ g_out g1 = g_out (s_g s) /\ g_err g1 = g_err (s_g s) /\ g_pids g1 = g_pids (s_g s) /\
  g_keep g1 = g_keep (s_g s) /\ g_exit g1 = g_exit (s_g s) /\ g_epoll g1 = g_epoll (s_g s) /\
  (s_pc s = AtSpawnDep \/ s_pc s = AtSpawnCron).
Proof. intros [d p ? ? ? ?|now c ? ? ?]; cbn; repeat (split; [reflexivity|]); auto. Qed.

(** Only the position, the history or unrelated parts change. *)
Lemma maps_frame configs e s s' : maps_inv configs e s ->
  g_procs (s_g s') = g_procs (s_g s) -> g_out (s_g s') = g_out (s_g s) -> g_err (s_g s') = g_err (s_g s) ->
  g_pids (s_g s') = g_pids (s_g s) -> g_epoll (s_g s') = g_epoll (s_g s) ->
  (forall fd, is_Some (k_pipes (s_k s') !! fd) <-> is_Some (k_pipes (s_k s) !! fd)) ->
  match s_pc s' with AtEvents l => List.NoDup (map ev_fd l) /\ forall ev, In ev l -> event_ok e s' ev | _ => True end ->
  maps_inv configs e s'.
Proof.
  intros [A1 A2 A3 A4 A5 A6 A7 A8] E1 E2 E3 E4 E5 E6 E7.
  split; rewrite ?E1, ?E2, ?E3, ?E4, ?E5; auto. intros fd. rewrite E6. auto.
Qed.

Lemma insert_same_dom {A} (m : gmap Z A) k x y fd : m !! k = Some y -> is_Some ((<[k := x]> m) !! fd) <-> is_Some (m !! fd).
Proof.
  intros H. rewrite lookup_insert_is_Some'. split; [intros [<-|K]; [rewrite H; eauto|auto]|auto].
Qed.

Ltac mframe I := eapply maps_frame; [exact I|reflexivity|reflexivity|reflexivity|reflexivity|reflexivity| |].

Lemma maps_step configs e s s' : maps_inv configs e s -> ~ panicked s' -> trans e s s' -> maps_inv configs e s'.
Proof.
  intros I NP T. assert (I' := I). destruct I' as [A1 A2 A3 A4 A5 A6 A7 A8].
  destruct T as [k' KM|fd data q Hq Ho|p sh Q|P Sh R|id d p P D Hp Ht|now c id p P C R Hp|id g1 pre p O Hp N1 N2|id g1 pre p O Hp St
    |id g1 pre p pid out err ep O Hp St F Ep|fd rest sg sent P F1 NS Es Re|fd rest P F1|fd rest text P F1 Rt
    |fd rest dg text sender P F1 Rt Ig|fd rest dg text sender id p vars d P F1 Rt Vs D Hp Ty Nd
    |fd rest n q p P FX K Hn Hl PF|fd rest P|pid st P Z NR D|pid n P Z|pid st id p d sent P Z NR D Hp Nd Es Re|m evs k' D].
  - (* kernel *)
    mframe I.
    + cbn. intros fd. destruct KM; cbn; try reflexivity. eapply insert_same_dom; eauto.
    + cbn. destruct (s_pc s); auto. destruct A8 as [A8 A9]. split; [auto|]. intros ev Hev.
      eapply event_ok_frame; [..|apply A9; auto]; [reflexivity|]. cbn. intros fd q Hq B O. destruct KM as [| | | |k fd' q' Hq']; cbn; auto.
      destruct (decide (fd' = fd)) as [->|NE]; [|rewrite lookup_insert_ne; auto].
      rewrite Hq in Hq'. inversion Hq'; subst q'. rewrite lookup_insert. destruct q; cbn in *; subst; reflexivity.
  - (* write *)
    mframe I.
    + cbn. intros fd'. eapply insert_same_dom; eauto.
    + cbn. destruct (s_pc s); auto. destruct A8 as [A8 A9]. split; [auto|]. intros ev Hev.
      eapply event_ok_frame; [..|apply A9; auto]; [reflexivity|]. cbn. intros fd' q' Hq' B O.
      destruct (decide (fd = fd')) as [->|NE]; [|rewrite lookup_insert_ne; auto]. rewrite Hq in Hq'. congruence.
  - (* quiet *)
    mframe I; [reflexivity|]. cbn. destruct Q; auto.
    + split; [auto|]. intros ev Hev. eapply event_ok_frame; [..|apply ready_ok; eauto]; auto.
    + rewrite H in A8. destruct A8 as [A8 A9]. cbn in A8. inversion A8; subst. split; [auto|]. intros ev' Hev.
      eapply event_ok_frame; [..|apply A9; right; auto]; auto.
  - mframe I; [reflexivity|exact Logic.I].
  - mframe I; [reflexivity|exact Logic.I].
  - mframe I; [reflexivity|exact Logic.I].
  - destruct (origin_frame _ _ _ _ _ O) as (E1 & E2 & E3 & E4 & E5 & E6 & E7 & E8).
    eapply maps_frame; [exact I|exact E1|exact E2|exact E3|exact E4|exact E7| |]; [reflexivity|]. cbn. destruct E8 as [->| ->]; auto.
  - destruct (origin_frame _ _ _ _ _ O) as (E1 & E2 & E3 & E4 & E5 & E6 & E7 & E8).
    eapply maps_frame; [exact I|exact E1|exact E2|exact E3|exact E4|exact E7| |]; [reflexivity|]. cbn. destruct E8 as [->| ->]; auto.
  - (* started *)
    destruct (origin_frame _ _ _ _ _ O) as (_ & _ & _ & _ & _ & _ & _ & E8).
    destruct F as (F1 & F2 & F3 & F4 & F5 & F6 & F7).
    assert (No : forall fd, k_pipes (s_k s) !! fd = None -> g_out (s_g s) !! fd = None /\ g_err (s_g s) !! fd = None).
    { intros fd H. specialize (A6 fd). rewrite H in A6. destruct (g_out (s_g s) !! fd), (g_err (s_g s) !! fd); auto; exfalso;
        (assert (X : is_Some (@None pipe)) by (apply A6; eauto)); destruct X; discriminate. }
    destruct (No _ F3) as [O1 O2]. destruct (No _ F4) as [O3 O4].
    split; cbn [s_g s_k s_pc mk_s mk_g g_procs g_pids g_out g_err g_epoll k_pipes].
    + rewrite insert_length. auto.
    + intros id' p' H. apply lookup_update_Some in H. destruct H as [(-> & -> & _)|[_ H]]; [|eauto].
      destruct (A2 _ _ Hp) as (c & Hc & N & Ty). exists c. auto.
    + intros x id' H. apply lookup_insert_Some in H. destruct H as [(<- & <-)|(NE & H)].
      * exists (started p pid). split; [eapply lookup_update_same; eauto|]. split; [reflexivity|apply started_active].
      * destruct (A3 _ _ H) as (p' & Hp' & Px & Ac). exists p'. split; [|auto].
        assert (id' <> id). { intros ->. rewrite Hp in Hp'. inversion Hp'; subst p'. destruct Ac as [Ac|[Ac|Ac]], St; congruence. }
        rewrite list_lookup_insert_ne; auto.
    + intros fd id' H. rewrite lookup_update_is. apply lookup_insert_Some in H. destruct H as [(<- & <-)|(NE & H)].
      * rewrite Hp. split; [eauto|]. split; [|auto]. rewrite lookup_insert_ne; auto.
      * destruct (A4 _ _ H) as (B1 & B2 & B3). split; [auto|]. split; [|auto].
        rewrite lookup_insert_ne; [auto|]. intros ->. congruence.
    + intros fd id' H. rewrite lookup_update_is. apply lookup_insert_Some in H. destruct H as [(<- & <-)|(NE & H)]; [rewrite Hp; eauto|eauto].
    + intros fd. rewrite !lookup_insert_is_Some'. rewrite A6. tauto.
    + intros fd H. rewrite !lookup_insert_is_Some'. apply Ep in H. destruct H as [H|[->| ->]]; [|auto|auto]. apply A7 in H. tauto.
    + destruct E8 as [->| ->]; auto.
  - mframe I; [reflexivity|]. cbn. rewrite P in A8. destruct A8 as [A8 A9]. cbn in A8. inversion A8; subst.
    split; [auto|]. intros ev Hev. eapply event_ok_frame; [..|apply A9; right; auto]; auto.
  - mframe I; [reflexivity|]. cbn. rewrite P in A8. destruct A8 as [A8 A9]. cbn in A8. inversion A8; subst.
    split; [auto|]. intros ev Hev. eapply event_ok_frame; [..|apply A9; right; auto]; auto.
  - mframe I; [reflexivity|]. cbn. rewrite P in A8. destruct A8 as [A8 A9]. cbn in A8. inversion A8; subst.
    split; [auto|]. intros ev Hev. eapply event_ok_frame; [..|apply A9; right; auto]; auto.
  - mframe I; [reflexivity|]. cbn. rewrite P in A8. destruct A8 as [A8 A9]. cbn in A8. inversion A8; subst.
    split; [auto|]. intros ev Hev. eapply event_ok_frame; [..|apply A9; right; auto]; auto.
  - (* notified *)
    destruct (A3 _ _ D) as (p0 & Hp0 & Px & Ac). rewrite Hp in Hp0. inversion Hp0; subst p0. clear Hp0.
    split; cbn [s_g s_k s_pc mk_s mk_g g_procs g_pids g_out g_err g_epoll k_pipes]; auto.
    + rewrite insert_length. auto.
    + intros id' p' H. apply lookup_update_Some in H. destruct H as [(-> & -> & _)|[_ H]]; [|eauto].
      rewrite notified_type, notified_name. eauto.
    + intros x id' H.
      assert (Same : forall y, g_pids (s_g s) !! y = Some id' -> (mainpid vars <> None -> y <> p_pid p) ->
        exists q, <[id := notified_process p vars]> (g_procs (s_g s)) !! id' = Some q /\ p_pid q = y /\ active (p_state q)).
      { intros y Hy NE. destruct (A3 _ _ Hy) as (q & Hq & Pq & Aq). destruct (decide (id' = id)) as [->|Ni].
        - exists (notified_process p vars). split; [eapply lookup_update_same; eauto|]. rewrite Hp in Hq. inversion Hq; subst q.
          split; [|apply notified_active; auto]. rewrite notified_pid. destruct (mainpid vars) as [n|] eqn:M; [|auto].
          exfalso. apply NE; [discriminate|auto].
        - exists q. rewrite list_lookup_insert_ne; auto. }
      unfold notified_pids in H. destruct (mainpid vars) as [n|] eqn:M.
      * apply lookup_insert_Some in H. destruct H as [(<- & <-)|(NE & H)].
        -- exists (notified_process p vars). split; [eapply lookup_update_same; eauto|]. split; [|apply notified_active; auto].
           rewrite notified_pid, M. reflexivity.
        -- apply lookup_delete_Some in H. destruct H as [N H]. apply Same; auto.
      * apply Same; auto.
    + intros fd' id' H. rewrite lookup_update_is. eauto.
    + intros fd' id' H. rewrite lookup_update_is. eauto.
    + rewrite P in A8. destruct A8 as [A8 A9]. cbn in A8. inversion A8; subst. split; [auto|]. intros ev Hev.
      eapply event_ok_frame; [..|apply A9; right; auto]; auto.
  - (* output *)
    mframe I.
    + cbn. intros fd'. eapply insert_same_dom; eauto.
    + cbn. rewrite P in A8. destruct A8 as [A8 A9]. cbn in A8. inversion A8 as [|? ? A10 A11]; subst. split; [auto|]. intros ev Hev.
      eapply event_ok_frame; [..|apply A9; right; auto]; [reflexivity|]. cbn. intros fd' q' Hq' B O.
      destruct (decide (fd = fd')) as [->|NE]; [|rewrite lookup_insert_ne; auto]. rewrite K in Hq'. inversion Hq'; subst q'.
      rewrite B in Hl. cbn in Hl. lia.
  - (* closed *)
    split; cbn [s_g s_k s_pc mk_s mk_g g_procs g_pids g_out g_err g_epoll k_pipes set_fds set_kpipes]; auto.
    + intros fd' id' H. apply lookup_delete_Some in H. destruct H as [NE H]. destruct (A4 _ _ H) as (B1 & B2 & B3).
      split; [auto|]. split; [|auto]. rewrite lookup_delete_ne; auto.
    + intros fd' id' H. apply lookup_delete_Some in H. destruct H as [NE H]. eauto.
    + intros fd'. rewrite !lookup_delete_is_Some. rewrite A6. tauto.
    + intros fd' H. rewrite !lookup_delete_is_Some. apply elem_of_difference in H. destruct H as [H1 H2].
      apply A7 in H1. assert (fd <> fd') by set_solver. tauto.
    + rewrite P in A8. destruct A8 as [A8 A9]. cbn in A8. inversion A8 as [|? ? A10 A11]; subst. split; [auto|]. intros ev Hev.
      assert (NE : ev_fd ev <> fd). { intros <-. apply A10. apply in_map. auto. }
      specialize (A9 ev (or_intror Hev)). destruct ev as [fd'|fd'|fd']; cbn in A9, NE |- *; auto.
      * destruct A9 as [A9|A9]; [auto|]. right. set_solver.
      * destruct A9 as (A9 & q & Hq & B & O). split; [set_solver|]. exists q. rewrite lookup_delete_ne; auto.
  - mframe I; [reflexivity|exact Logic.I].
  - mframe I; [reflexivity|exact Logic.I].
  - (* ended *)
    split; cbn [s_g s_k s_pc mk_s mk_g g_procs g_pids g_out g_err g_epoll k_pipes set_kprocs]; auto.
    + rewrite insert_length. auto.
    + intros id' p' H. apply lookup_update_Some in H. destruct H as [(-> & -> & _)|[_ H]]; [|eauto]. cbn. eauto.
    + intros x id' H. apply lookup_delete_Some in H. destruct H as [NE H]. destruct (A3 _ _ H) as (q & Hq & Pq & Aq).
      destruct (A3 _ _ D) as (p0 & Hp0 & Px & _). assert (id' <> id). { intros ->. congruence. }
      exists q. rewrite list_lookup_insert_ne; auto.
    + intros fd id' H. rewrite lookup_update_is. eauto.
    + intros fd id' H. rewrite lookup_update_is. eauto.
  - exfalso. apply NP. exact Logic.I.
Qed.

Lemma trans_running e s s' : trans e s s' -> ~ panicked s' -> ~ panicked s.
Proof.
  intros T NP K. unfold panicked in K. destruct (s_pc s) eqn:P; try contradiction.
  destruct T as [k' KM|fd data q Hq Ho|p sh Q|P' Sh R|id d p P' D Hp Ht|now c id p P' C R Hp|id g1 pre p O Hp N1 N2|id g1 pre p O Hp St
    |id g1 pre p pid out err ep O Hp St F Ep|fd rest sg sent P' F1 NS Es Re|fd rest P' F1|fd rest text P' F1 Rt
    |fd rest dg text sender P' F1 Rt Ig|fd rest dg text sender id p vars d P' F1 Rt Vs D Hp Ty Nd
    |fd rest n q p P' FX K' Hn Hl PF|fd rest P'|pid st P' Z NR D|pid n P' Z|pid st id p d sent P' Z NR D Hp Nd Es Re|m evs k' D];
  try congruence; try (apply NP; unfold panicked; cbn; rewrite ?P; exact Logic.I).
  - destruct Q; congruence.
Qed.

Lemma start_maps configs e s : start_state configs s -> maps_inv configs e s.
Proof.
  intros SS. split; rewrite ?(ss_pids _ _ SS), ?(ss_out _ _ SS), ?(ss_err _ _ SS), ?(ss_pipes _ _ SS), ?(ss_epoll _ _ SS), ?(ss_pc _ _ SS); auto.
  - apply (ss_len _ _ SS).
  - intros id p H. apply (ss_proc _ _ SS) in H. destruct H as (c & Hc & N & T & _). eauto.
  - intros x id H. rewrite lookup_empty in H. discriminate.
  - intros fd id H. rewrite lookup_empty in H. discriminate.
  - intros fd id H. rewrite lookup_empty in H. discriminate.
  - intros fd. rewrite !lookup_empty. split; [intros [? K]; discriminate|]. intros [[? K]|[? K]]; discriminate.
  - intros fd H. set_solver.
Qed.

(** Induction over executions. *)
Lemma execute_ind e (P : sys -> Prop) : (forall l, Permutation (e_order e l) l) ->
  (forall s s', P s -> trans e s s' -> P s') ->
  forall ops s s', P s -> execute e s ops = Some s' -> P s'.
Proof.
  intros OK Step. induction ops as [|o rest IH]; intros s s' Hs H; cbn in H; [congruence|].
  destruct (sstep e s o) as [s1|] eqn:E; [|discriminate]. eapply IH; [|exact H]. eapply Step; [exact Hs|]. eapply sstep_trans; eauto.
Qed.
