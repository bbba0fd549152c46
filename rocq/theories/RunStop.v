(** cinit ends once its programs have ended. *)
From stdpp Require Import gmap strings.
From Coq Require Import Ascii ZArith List Bool Lia Permutation Relations.
From Verif Require Import Base RStr CronModel ConfigModel ProcessModel EnvModel DepModel NotifyModel ManagerModel SysModel
  MainModel SpecDep SpecTimer SpecRun SpecLive DepProofs NotifyProofs TextProofs CronTimerProofs RunStep RunInv RunFlow RunHist RunAlive RunStream
  RunClaims RunLife RunThms RunFinal RunView RunSteps4 RunLive.
Import ListNotations.
Local Open Scope string_scope.
Local Open Scope list_scope.
Local Open Scope Z_scope.

(** * What is left in the streams *)
Definition weight (x : Z * pipe) : nat := (String.length (pp_buf (snd x)) + 1)%nat.
Definition weigh (l : list (Z * pipe)) : nat := fold_right (fun x n => weight x + n)%nat 0%nat l.

Lemma backlog_weigh k : backlog k = weigh (map_to_list (k_pipes k)).
Proof. unfold backlog, weigh, weight. induction (map_to_list (k_pipes k)); cbn; lia. Qed.

Lemma weigh_perm a b : Permutation a b -> weigh a = weigh b.
Proof. intros H. unfold weigh. induction H; cbn [fold_right]; lia. Qed.

Lemma weigh_lookup (m : gmap Z pipe) fd q : m !! fd = Some q ->
  weigh (map_to_list m) = (String.length (pp_buf q) + 1 + weigh (map_to_list (delete fd m)))%nat.
Proof. intros H. rewrite (weigh_perm _ _ (Permutation_sym (map_to_list_delete m fd q H))). reflexivity. Qed.

Lemma weigh_insert (m : gmap Z pipe) fd q q' : m !! fd = Some q ->
  (weigh (map_to_list (<[fd := q']> m)) + String.length (pp_buf q) = weigh (map_to_list m) + String.length (pp_buf q'))%nat.
Proof.
  intros H. rewrite (weigh_lookup m fd q H), (weigh_lookup (<[fd := q']> m) fd q' (lookup_insert m fd q')).
  rewrite delete_insert_delete. lia.
Qed.

Lemma weigh_zero (m : gmap Z pipe) : weigh (map_to_list m) = 0%nat -> m = ∅.
Proof.
  intros H. apply map_to_list_empty_iff. destruct (map_to_list m) as [|x l]; [auto|]. cbn in H. unfold weight in H. lia.
Qed.
Lemma weigh_some (m : gmap Z pipe) : weigh (map_to_list m) <> 0%nat -> exists fd q, m !! fd = Some q.
Proof.
  intros H. destruct (map_to_list m) as [|[fd q] l] eqn:E; [cbn in H; lia|]. exists fd, q.
  apply elem_of_map_to_list. rewrite E. left.
Qed.

(** * Winding down *)
Record ebbing (s : sys) : Prop := {
  eb_keep : g_keep (s_g s) = false;
  eb_over : forall x id, g_pids (s_g s) !! x = Some id -> over s x;
  eb_streams : forall fd q, k_pipes (s_k s) !! fd = Some q -> abandoned s fd q
}.

Definition quieter (s s' : sys) : Prop :=
  (backlog (s_k s') <= backlog (s_k s))%nat /\ (g_pids (s_g s) = ∅ -> g_pids (s_g s') = ∅).

Lemma ebbing_step configs e s s' : (forall l, Permutation (e_order e l) l) -> whole configs e s -> ebbing s -> calm (s_hist s') ->
  ~ panicked s' -> trans e s s' -> ebbing s' /\ quieter s s'.
Proof.
  intros OK W [Kp Zs Sa] Cm NP T. unfold quieter.
  assert (G := so_good _ _ _ (wh_sound _ _ _ W)). assert (M := go_maps _ _ _ G). assert (L := go_loop _ _ _ G).
  assert (NSp : s_pc s <> AtSpawnDep /\ s_pc s <> AtSpawnCron).
  { split; intros P; destruct (lo_spawn _ L) as [X _]; auto; congruence. }
  assert (Or : forall id g1 pre, ~ origin e s id g1 pre) by (intros id g1 pre O; destruct O, NSp; congruence).
  unfold over, abandoned in *.
  step_cases T; cbn [with_kernel mk_s s_pc s_shut s_g s_k set_dep set_cron set_keep set_fds mk_g g_keep g_pids g_epoll
    set_kprocs set_kpipes k_procs k_pipes] in *;
    try (exfalso; eapply Or; eassumption); try (exfalso; destruct NSp; congruence); rewrite ?backlog_weigh;
    cbn [set_kprocs set_kpipes k_procs k_pipes].
  - (* the kernel *) destruct KM; cbn [set_kprocs set_kpipes k_procs k_pipes] in *.
    1-4: split; [split; cbn [with_kernel s_g s_k set_kprocs set_kpipes k_procs k_pipes]; auto|lia || auto].
    + intros x id X. destruct (Zs x id X) as [st Y]. exists st. cbn. rewrite lookup_insert_ne; [auto|congruence].
    + intros x id X. destruct (Zs x id X) as [st Y]. exists st. cbn. rewrite lookup_delete_ne; [auto|congruence].
    + intros x id X. destruct (Zs x id X) as [st Y]. exists st. cbn. rewrite lookup_insert_ne; [auto|congruence].
    + intros x id X. destruct (Zs x id X) as [st' Y]. exists st'. cbn. rewrite lookup_insert_ne; [auto|congruence].
    + split; [split; cbn [with_kernel s_g s_k set_kprocs set_kpipes k_procs k_pipes]; auto|].
      * intros f q X. destruct (decide (fd = f)) as [<-|N]; [rewrite lookup_insert in X; apply Some_inj in X; subst|rewrite lookup_insert_ne in X by auto; exact (Sa _ _ X)].
        destruct (Sa _ _ H). split; auto.
      * split; [|auto]. pose proof (weigh_insert _ _ _ {| pp_buf := pp_buf p; pp_open := false |} H). cbn in *. lia.
  - (* somebody writes *) destruct (Sa _ _ Hq). congruence.
  - (* cinit moves on *) split; [split; auto|lia || auto].
  - (* exit *) split; [split; auto|lia || auto].
  - (* signal *) split; [split; auto|lia || auto].
  - split; [split; auto|lia || auto].
  - split; [split; auto|lia || auto].
  - split; [split; auto|lia || auto].
  - (* a message *) assert (MP : notified_pids id (p_pid p) (g_pids (s_g s)) vars = g_pids (s_g s)).
    { unfold notified_pids. rewrite (calm_mainpid (s_hist s) id sender vars); [auto| |auto]. subst vars.
      eapply Permutation_NoDup; [apply Permutation_map, Permutation_sym, OK|apply parse_nodup]. }
    split; [split; cbn [mk_s s_g s_k mk_g g_keep g_pids g_epoll]; rewrite ?MP; auto|]. rewrite MP. split; [lia|auto].
  - (* output *) split; [split; cbn [mk_s s_g s_k]; auto|].
    + cbn. intros f x X. destruct (decide (fd = f)) as [<-|N]; [rewrite lookup_insert in X; apply Some_inj in X; subst|rewrite lookup_insert_ne in X by auto; apply Sa; auto].
      destruct (Sa _ _ K) as [A B]. split; auto.
    + split; [|auto]. pose proof (weigh_insert _ _ _ {| pp_buf := sdrop n (pp_buf q); pp_open := pp_open q |} K) as X.
      cbn [pp_buf] in X. rewrite sdrop_length in X. lia.
  - (* closed *) split; [split; cbn [mk_s s_g s_k set_fds g_keep g_pids]; auto|].
    + cbn. intros f x X. apply lookup_delete_Some in X. destruct X as [X Y]. destruct (Sa _ _ Y) as [A B]. split; [auto|].
      apply elem_of_difference. split; [auto|]. rewrite elem_of_singleton. congruence.
    + split; [|auto]. assert (B := ma_batch _ _ _ M). rewrite P in B. destruct B as [_ B].
      destruct (B (EvHup fd) (or_introl eq_refl)) as (_ & q & X & _). rewrite (weigh_lookup _ _ _ X). lia.
  - (* an unknown child *) split; [split; cbn [mk_s s_g s_k set_kprocs k_procs]; auto|lia || auto].
    intros x id X. destruct (Zs x id X) as [st' Y]. exists st'. cbn. rewrite lookup_delete_ne; [auto|congruence].
  - (* a lost child *) split; [split; cbn [mk_s s_g s_k set_kprocs k_procs]; auto|lia || auto].
    intros x id X. destruct (Zs x id X) as [st' Y]. exists st'. cbn. rewrite lookup_delete_ne; [auto|]. intros <-.
    assert (A := so_alive _ _ _ (wh_sound _ _ _ W)).
    assert (Cs : calm (s_hist s)) by (apply (proj1 (calm_app _ _ Cm))).
    apply (al_pids _ (A Cs)) in X. destruct Cm as [_ Cm]. eapply (Cm (s_hist s)); [reflexivity|exact X].
  - (* the end of a program *) split; [split; cbn [mk_s s_g s_k set_kprocs k_procs mk_g g_keep g_pids g_epoll]; auto|].
    + destruct (code_of st =? 0); auto.
    + intros x i X. apply lookup_delete_Some in X. destruct X as [X Y]. destruct (Zs x i Y) as [st' V]. exists st'. cbn. rewrite lookup_delete_ne; auto.
    + split; [lia|]. intros ->. rewrite delete_empty. reflexivity.
  - exfalso. apply NP. exact Logic.I.
Qed.

(** * Rounds left *)
Definition streamb (e : env) (ev : epev) : bool :=
  match ev with EvIn fd | EvHup fd => negb (is_fixed e fd) | EvOther _ => false end.
Lemma streamb_spec e ev : streamb e ev = true <-> of_stream e ev.
Proof. destruct ev; cbn; rewrite ?negb_true_iff; split; auto; try discriminate; contradiction. Qed.

Definition some_pid (g : manager) : nat := if bool_decide (g_pids g = ∅) then 0%nat else 1%nat.
Definition left_over (s : sys) : nat := (backlog (s_k s) + some_pid (s_g s))%nat.
Definition after_wait (s : sys) : nat := if Nat.eqb (backlog (s_k s)) 0 then 1%nat else S (left_over s).
Definition potential (e : env) (s : sys) : nat :=
  match s_pc s with
  | AtHead => S (left_over s) + (if s_shut s then 0 else 1)
  | AtPoll => Nat.max 1 (left_over s) + (if s_shut s then 0 else 1)
  | AtEvents l => (if existsb (streamb e) l then Nat.max 1 (left_over s) else after_wait s) + (if s_shut s then 0 else 1)
  | AtWait => after_wait s + (if s_shut s then 0 else 1)
  | _ => 0
  end%nat.

Lemma quieter_left s s' : quieter s s' -> (left_over s' <= left_over s)%nat /\ (after_wait s' <= after_wait s)%nat.
Proof.
  intros [A B]. unfold left_over, after_wait, some_pid.
  assert (X : (some_pid (s_g s') <= some_pid (s_g s))%nat).
  { unfold some_pid. destruct (bool_decide (g_pids (s_g s) = ∅)) eqn:E; [|destruct (bool_decide (g_pids (s_g s') = ∅)); lia].
    apply bool_decide_eq_true in E. rewrite (bool_decide_eq_true_2 _ (B E)). lia. }
  unfold some_pid in X. split; [lia|]. unfold left_over, some_pid.
  destruct (Nat.eqb_spec (backlog (s_k s')) 0), (Nat.eqb_spec (backlog (s_k s)) 0); lia.
Qed.

Lemma running_left configs e s : maps_inv configs e s -> has_running_processes (s_g s) = true -> (1 <= left_over s)%nat.
Proof.
  intros M H. unfold left_over, some_pid. destruct (bool_decide (g_pids (s_g s) = ∅)) eqn:E; [|lia].
  unfold has_running_processes in H. rewrite E, andb_true_r, negb_true_iff, andb_false_iff in H.
  assert (X : exists fd, is_Some (k_pipes (s_k s) !! fd)).
  { destruct H as [H|H]; apply bool_decide_eq_false in H; apply map_choose in H; destruct H as (fd & id & K); exists fd; apply (ma_pipes _ _ _ M); eauto. }
  destruct X as (fd & q & X). rewrite backlog_weigh, (weigh_lookup _ _ _ X). lia.
Qed.

Lemma goes_pc s a k p : panicked (goes s a k p) \/ s_pc (goes s a k p) = p /\ s_shut (goes s a k p) = s_shut s.
Proof. destruct a; cbn; [right; auto|left; exact Logic.I]. Qed.

(** Something in a stream is reported. *)
Lemma stream_reported configs e s : maps_inv configs e s -> ebbing s -> backlog (s_k s) <> 0%nat ->
  exists ev, of_stream e ev /\ ready e s ev = true.
Proof.
  intros M E H. rewrite backlog_weigh in H. apply weigh_some in H. destruct H as (fd & q & H).
  destruct (eb_streams _ E _ _ H) as [O W].
  assert (F : is_fixed e fd = false).
  { destruct (ma_epoll _ _ _ M _ W) as [[id X]|[id X]]; [destruct (ma_out _ _ _ M _ _ X) as (_ & _ & Y)|destruct (ma_err _ _ _ M _ _ X) as (_ & Y)]; exact Y. }
  destruct (nonempty (pp_buf q)) eqn:N.
  - exists (EvIn fd). split; [exact F|]. cbn. rewrite H, N, (bool_decide_eq_true_2 _ W), orb_true_r. reflexivity.
  - exists (EvHup fd). split; [exact F|]. cbn. rewrite H, N, O, (bool_decide_eq_true_2 _ W). reflexivity.
Qed.

Lemma lost_app a b : lost (a ++ b) = (lost a + lost b)%nat.
Proof. unfold lost. rewrite filter_app, app_length. reflexivity. Qed.

Definition head_count (o : op) : nat := match o with CHead => 1%nat | _ => 0%nat end.

Lemma potential_step k e configs s o s' : reachable k e configs s -> ebbing s -> calm (s_hist s') -> ~ panicked s -> ~ panicked s' ->
  attentive e s [o] -> sstep e s o = Some s' ->
  (head_count o + potential e s' + lost (s_hist s) <= potential e s + lost (s_hist s'))%nat.
Proof.
  intros R E C NP NP' [At _] H. assert (W := whole_of R NP). assert (OK := kn_order _ _ _ (reachable_known _ _ _ _ R)).
  assert (T := sstep_trans e s o s' OK H).
  destruct (ebbing_step configs e s s' OK W E C NP' T) as [E' Qu]. destruct (quieter_left _ _ Qu) as [Q1 Q2].
  assert (G := so_good _ _ _ (wh_sound _ _ _ W)). assert (M := go_maps _ _ _ G).
  destruct (trans_hist _ _ _ T) as [evs Hh].
  assert (Lo : (lost (s_hist s) <= lost (s_hist s'))%nat) by (rewrite Hh, lost_app; lia).
  assert (Out : outside o -> s_pc s' = s_pc s /\ s_shut s' = s_shut s).
  { intros O. destruct o; try contradiction; cbn in H;
      repeat match type of H with context [match ?x with _ => _ end] => destruct x; try discriminate end; apply Some_inj in H; subst s'; auto. }
  assert (Same : outside o -> (head_count o + potential e s' + lost (s_hist s) <= potential e s + lost (s_hist s'))%nat).
  { intros O. destruct (Out O) as [X Y]. unfold potential. rewrite X, Y.
    destruct o; try contradiction; cbn [head_count]; destruct (s_pc s); destruct (s_shut s); try lia;
      destruct (existsb (streamb e) evs0); lia. }
  destruct o; try (apply Same; exact Logic.I); clear Same Out; cbn [sstep head_count] in *.
  - (* head *) destruct (s_pc s) eqn:P; try discriminate. apply Some_inj in H. subst s'. unfold step_head in *. rewrite (eb_keep _ E) in *.
    destruct (s_shut s) eqn:Sh.
    + destruct (has_running_processes (s_g s)) eqn:HR; unfold potential; cbn [with_pc s_pc s_shut]; rewrite P, ?Sh.
      * assert (X := running_left _ _ _ M HR). change (left_over (with_pc s AtPoll)) with (left_over s). cbn [with_pc s_hist]. lia.
      * lia.
    + cbn [andb]. unfold potential. cbn [with_pc s_pc s_shut s_hist]. rewrite P, Sh.
      match goal with |- context [left_over ?x] => change (left_over x) with (left_over s) end. lia.
  - destruct (s_pc s) eqn:P; try discriminate. destruct (lo_spawn _ (go_loop _ _ _ G)) as [X _]; [auto|]. rewrite (eb_keep _ E) in X. discriminate.
  - destruct (s_pc s) eqn:P; try discriminate. destruct (lo_spawn _ (go_loop _ _ _ G)) as [X _]; [auto|]. rewrite (eb_keep _ E) in X. discriminate.
  - (* poll *) destruct (s_pc s) eqn:P; try discriminate.
    assert (Z : backlog (s_k s) <> 0%nat -> exists l ev, evs0 = Some l /\ In ev l /\ of_stream e ev)
      by (intros X; apply At; eapply stream_reported; eauto).
    destruct evs0 as [l|].
    + destruct (_ && _ && _); [|discriminate]. apply Some_inj in H. subst s'. unfold potential. rewrite P. cbn [with_pc s_pc s_shut s_hist]. change (left_over (with_pc s (AtEvents l))) with (left_over s).
      change (after_wait (with_pc s (AtEvents l))) with (after_wait s).
      destruct (existsb (streamb e) l) eqn:X; [lia|]. unfold after_wait. destruct (Nat.eqb_spec (backlog (s_k s)) 0) as [B|B]; [lia|].
      exfalso. destruct (Z B) as (l' & ev & Y1 & Y2 & Y3). apply Some_inj in Y1. subst l'. apply streamb_spec in Y3.
      apply not_true_iff_false in X. apply X. apply existsb_exists. eauto.
    + apply Some_inj in H. subst s'. unfold potential. rewrite P. cbn [with_pc s_pc s_shut s_hist]. change (after_wait (with_pc s AtWait)) with (after_wait s).
      unfold after_wait. destruct (Nat.eqb_spec (backlog (s_k s)) 0) as [B|B]; [lia|].
      exfalso. destruct (Z B) as (l' & ev & Y1 & Y2 & Y3). discriminate.
  - (* event *) destruct (s_pc s) as [| | | |l| | |] eqn:P; try discriminate. destruct l as [|ev rest].
    + apply Some_inj in H. subst s'. unfold potential. rewrite P. cbn [with_pc s_pc s_shut s_hist existsb]. change (after_wait (with_pc s AtWait)) with (after_wait s). lia.
    + assert (Pc : s_pc s' = AtEvents rest /\ s_shut s' = s_shut s).
      { destruct ev; cbn [step_event] in H;
          repeat match type of H with
                 | context [match ?x with _ => _ end] => destruct x; try discriminate
                 end; apply Some_inj in H; subst s'; auto; match goal with |- s_pc (goes ?s ?a ?k ?p) = _ /\ _ => destruct (goes_pc s a k p); [contradiction|auto] end. }
      destruct Pc as [Pc Ps]. unfold potential. rewrite P, Pc, Ps. cbn [existsb].
      destruct (streamb e ev) eqn:B; [|cbn [orb]; destruct (existsb (streamb e) rest); lia]. cbn [orb].
      assert (X : (S (left_over s') <= left_over s)%nat).
      { assert (Y : (S (backlog (s_k s')) <= backlog (s_k s))%nat).
        { destruct ev as [fd|fd|fd]; cbn [streamb] in B; try discriminate; apply negb_true_iff in B.
          - assert (Fx := B). unfold is_fixed in Fx. rewrite !orb_false_iff in Fx. destruct Fx as [[F1 F2] F3]. cbn [step_event] in H. rewrite F1, F2, F3 in H.
            destruct a as [| | |[n|]]; try discriminate; [|congruence]. destruct (k_pipes (s_k s) !! fd) as [q|] eqn:Hq; [|discriminate].
            destruct (_ && _ && _) eqn:Hn; [|discriminate]. rewrite !andb_true_iff, !Nat.leb_le in Hn. apply Some_inj in H.
            assert (Ke : s_k s' = set_kpipes (s_k s) (<[fd := {| pp_buf := sdrop n (pp_buf q); pp_open := pp_open q |}]> (k_pipes (s_k s)))).
            { subst s'. destruct (print_child_output _ _ _); reflexivity. }
            rewrite Ke, !backlog_weigh. cbn [set_kpipes k_pipes].
            pose proof (weigh_insert _ _ _ {| pp_buf := sdrop n (pp_buf q); pp_open := pp_open q |} Hq) as X. cbn [pp_buf] in X. rewrite sdrop_length in X. lia.
          - cbn [step_event] in H. apply Some_inj in H. assert (Bt := ma_batch _ _ _ M). rewrite P in Bt. destruct Bt as [_ Bt].
            destruct (Bt (EvHup fd) (or_introl eq_refl)) as (_ & q & X & _).
            assert (Ke : s_k s' = set_kpipes (s_k s) (delete fd (k_pipes (s_k s)))) by (subst s'; destruct (hang_up _ _); reflexivity).
            rewrite Ke, !backlog_weigh, (weigh_lookup _ _ _ X). cbn [set_kpipes k_pipes]. lia. }
        unfold left_over. assert (Z : (some_pid (s_g s') <= some_pid (s_g s))%nat).
        { unfold some_pid. destruct (bool_decide (g_pids (s_g s) = ∅)) eqn:F; [|destruct (bool_decide (g_pids (s_g s') = ∅)); lia].
          apply bool_decide_eq_true in F. rewrite (bool_decide_eq_true_2 _ (proj2 Qu F)). lia. }
        lia. }
      unfold after_wait. destruct (existsb (streamb e) rest), (Nat.eqb (backlog (s_k s')) 0); lia.
  - (* wait *) destruct pid as [pid|]; (destruct (s_pc s) eqn:P; try discriminate).
    + destruct (k_procs (s_k s) !! pid) as [[| | |st]|]; try discriminate.
      destruct (child_ended _ (s_g s) pid st) as [a more] eqn:Ce. apply Some_inj in H.
      destruct more.
      * assert (Pc : s_pc s' = AtWait /\ s_shut s' = s_shut s) by (subst s'; match goal with |- s_pc (goes ?s ?a ?k ?p) = _ /\ _ => destruct (goes_pc s a k p); [contradiction|auto] end).
        destruct Pc as [Pc Ps]. unfold potential. rewrite P, Pc, Ps. lia.
      * assert (Pc : s_pc s' = AtHead /\ s_shut s' = s_shut s) by (subst s'; match goal with |- s_pc (goes ?s ?a ?k ?p) = _ /\ _ => destruct (goes_pc s a k p); [contradiction|auto] end).
        destruct Pc as [Pc Ps]. unfold potential. rewrite P, Pc, Ps.
        assert (Hl : lost (s_hist s') = S (lost (s_hist s))).
        { destruct st; cbn in Ce; try discriminate Ce. injection Ce as <-. subst s'. cbn [goes s_hist]. rewrite lost_app. cbn. lia. }
        assert (X : (left_over s' <= after_wait s)%nat).
        { unfold after_wait. destruct (Nat.eqb_spec (backlog (s_k s)) 0) as [B|B]; [|lia]. destruct Qu as [Qb _].
          unfold left_over, some_pid. destruct (bool_decide _); lia. }
        lia.
    + destruct (forallb _ _) eqn:F; [|discriminate]. apply Some_inj in H. subst s'.
      assert (X : g_pids (s_g s) = ∅).
      { apply map_empty. intros x. destruct (g_pids (s_g s) !! x) as [id|] eqn:Y; [|auto]. exfalso.
        destruct (eb_over _ E _ _ Y) as [st Z]. rewrite forallb_forall in F. specialize (F (x, KZombie st)). cbn in F.
        discriminate F. apply elem_of_list_In, elem_of_map_to_list. auto. }
      unfold potential. rewrite P. cbn [with_pc s_pc s_shut s_hist]. change (left_over (with_pc s AtHead)) with (left_over s). unfold after_wait, left_over, some_pid.
      rewrite (bool_decide_eq_true_2 _ X). destruct (Nat.eqb_spec (backlog (s_k s)) 0); lia.
Qed.

Lemma ended_stays e s o s' : terminated s -> sstep e s o = Some s' -> terminated s' /\ head_count o = 0%nat.
Proof.
  unfold terminated. intros T H. destruct (s_pc s) eqn:P; try contradiction; destruct o; cbn in H; rewrite ?P in H; try discriminate;
    repeat match type of H with context [match ?x with _ => _ end] => destruct x; try discriminate end;
    apply Some_inj in H; subst s'; cbn; rewrite ?P; auto.
Qed.
Lemma ended_rounds e ops : forall s s', terminated s -> execute e s ops = Some s' -> rounds ops = 0%nat.
Proof.
  induction ops as [|o rest IH]; intros s s' T H; [reflexivity|]. cbn in H. destruct (sstep e s o) as [s1|] eqn:E; [|discriminate].
  destruct (ended_stays _ _ _ _ T E) as [T1 Z]. unfold rounds. cbn. destruct o; cbn; try (eapply IH; eauto). discriminate Z.
Qed.

Lemma execute_hist e ops : (forall l, Permutation (e_order e l) l) -> forall s s', execute e s ops = Some s' -> exists h, s_hist s' = s_hist s ++ h.
Proof.
  intros OK. induction ops as [|o rest IH]; intros s s' H; cbn in H; [exists []; rewrite app_nil_r; congruence|].
  destruct (sstep e s o) as [s1|] eqn:E; [|discriminate]. destruct (IH _ _ H) as [h X].
  destruct (trans_hist _ _ _ (sstep_trans _ _ _ _ OK E)) as [h1 Y]. exists (h1 ++ h). rewrite X, Y, app_assoc. reflexivity.
Qed.

Lemma panicked_dec s : panicked s \/ ~ panicked s.
Proof. unfold panicked. destruct (s_pc s); auto. Qed.

Lemma rounds_bound k e configs ops : forall s s', reachable k e configs s -> ebbing s -> ~ panicked s -> calm (s_hist s') ->
  execute e s ops = Some s' -> attentive e s ops -> (rounds ops + lost (s_hist s) <= potential e s + lost (s_hist s'))%nat.
Proof.
  induction ops as [|o rest IH]; intros s s' R E NP C X At.
  - cbn in X. apply Some_inj in X. subst s'. cbn. lia.
  - assert (OK := kn_order _ _ _ (reachable_known _ _ _ _ R)). cbn [execute] in X. destruct (sstep e s o) as [s1|] eqn:H; [|discriminate].
    cbn [attentive] in At. destruct At as [A1 A2]. rewrite H in A2.
    destruct (execute_hist _ _ OK _ _ X) as [h Hh]. assert (C1 : calm (s_hist s1)) by (rewrite Hh in C; eapply calm_prefix; eauto).
    assert (R1 := reachable_snoc _ _ _ _ _ _ R H). assert (T := sstep_trans _ _ _ _ OK H).
    assert (Ro : rounds (o :: rest) = (head_count o + rounds rest)%nat) by (unfold rounds; destruct o; reflexivity).
    destruct (panicked_dec s1) as [P1|NP1].
    + assert (T1 : terminated s1) by (unfold terminated; unfold panicked in P1; destruct (s_pc s1); auto).
      rewrite Ro, (ended_rounds _ _ _ _ T1 X). assert (Z : head_count o = 0%nat).
      { destruct o; auto. cbn in H. destruct (s_pc s); try discriminate. apply Some_inj in H. subst s1. exfalso. unfold step_head in P1.
        destruct (s_shut s); [destruct (has_running_processes (s_g s)); exact P1|]. destruct (_ && _); exact P1. }
      rewrite Z, Hh. destruct (trans_hist _ _ _ T) as [h1 Y]. rewrite Y, !lost_app. lia.
    + assert (At1 : attentive e s [o]) by (split; [exact A1|rewrite H; exact Logic.I]).
      assert (P := potential_step k e configs s o s1 R E C1 NP NP1 At1 H).
      destruct (ebbing_step configs e s s1 OK (whole_of R NP) E C1 NP1 T) as [E1 _].
      specialize (IH s1 s' R1 E1 NP1 C X A2). lia.
Qed.

(** After a reason to shut down, when every program has ended and nobody writes to their
    streams any more, cinit goes round a bounded number of times. *)
Lemma ends k e configs s ops s' : reachable k e configs s -> ~ panicked s -> calm (s_hist s') ->
  (exists ev, In ev (s_hist s) /\ shutdown_trigger ev) ->
  (forall id pid, alive (s_hist s) id pid -> over s pid) ->
  (forall fd q, k_pipes (s_k s) !! fd = Some q -> abandoned s fd q) ->
  execute e s ops = Some s' -> attentive e s ops ->
  (rounds ops + lost (s_hist s) <= backlog (s_k s) + 3 + lost (s_hist s'))%nat.
Proof.
  intros R NP C (ev & I & Tr) Ov Ab X At. assert (OK := kn_order _ _ _ (reachable_known _ _ _ _ R)). assert (W := whole_of R NP).
  assert (G := so_good _ _ _ (wh_sound _ _ _ W)).
  destruct (execute_hist _ _ OK _ _ X) as [h Hh]. assert (Cs : calm (s_hist s)) by (rewrite Hh in C; eapply calm_prefix; eauto).
  assert (E : ebbing s).
  { split; [| |exact Ab].
    - destruct (g_keep (s_g s)) eqn:K; [|auto]. exfalso. exact (fl_keep _ _ (go_flow _ _ _ G) K _ I Tr).
    - intros x id Y. apply (Ov id). apply (al_pids _ (so_alive _ _ _ (wh_sound _ _ _ W) Cs)). exact Y. }
  assert (B := rounds_bound _ _ _ _ _ _ R E NP C X At).
  assert (P : (potential e s <= backlog (s_k s) + 3)%nat).
  { assert (P1 : (some_pid (s_g s) <= 1)%nat) by (unfold some_pid; destruct (bool_decide _); lia).
    unfold potential, after_wait, left_over. destruct (s_pc s), (s_shut s); try lia; destruct (Nat.eqb _ _); try lia; destruct (existsb _ _); lia. }
  lia.
Qed.

(** * Steps left *)
Definition inner_count (o : op) : nat := match o with KFork _ | KGone _ | KAdopt _ | KExit _ _ | KWrite _ _ | KHangup _ => 0%nat | _ => 1%nat end.
Definition leg (s : sys) : nat :=
  match s_pc s with AtPoll => 13 | AtEvents l => length l + 2 | AtWait => 1 | _ => 0 end%nat.

Lemma reaped_app a b : reaped (a ++ b) = (reaped a + reaped b)%nat.
Proof. unfold reaped. rewrite filter_app, app_length. reflexivity. Qed.

Lemma ended_reap reach g pid st : exists g' m evs, fst (child_ended reach g pid st) = Go g' (EReap pid st :: evs) \/
  fst (child_ended reach g pid st) = Die m (EReap pid st :: evs).
Proof.
  destruct st as [rc|n|n]; cbn; [destruct (handle_finished_child reach g pid rc) as [g' evs|m evs]|
    destruct (handle_finished_child reach g pid n) as [g' evs|m evs]|exists g, "", [ELost pid]; auto];
    [exists g', "", evs|exists g, m, evs|exists g', "", evs|exists g, m, evs]; cbn; auto.
Qed.

Lemma leg_step e s o s' : (forall l, Permutation (e_order e l) l) -> s_pc s <> AtSpawnDep -> s_pc s <> AtSpawnCron -> g_keep (s_g s) = false -> sstep e s o = Some s' ->
  (inner_count o + leg s' + reaped (s_hist s) <= leg s + 14 * head_count o + reaped (s_hist s'))%nat.
Proof.
  intros OK N1 N2 K H. assert (T := sstep_trans _ _ _ _ OK H). destruct (trans_hist _ _ _ T) as [h Hh].
  assert (Le : (reaped (s_hist s) <= reaped (s_hist s'))%nat) by (rewrite Hh, reaped_app; lia).
  clear T. destruct o; cbn [sstep inner_count head_count] in *.
  1-6: repeat match type of H with context [match ?x with _ => _ end] => destruct x; try discriminate end; apply Some_inj in H; subst s';
       unfold leg; cbn [with_kernel s_pc s_hist] in *; lia.
  - destruct (s_pc s) eqn:P; try discriminate. apply Some_inj in H. subst s'. unfold leg. rewrite P. unfold step_head in *.
    destruct (s_shut s); [destruct (has_running_processes (s_g s)); cbn [with_pc s_pc s_hist] in *; lia|]. rewrite K. cbn [andb s_pc s_hist]. lia.
  - destruct (s_pc s); congruence.
  - destruct (s_pc s); congruence.
  - destruct (s_pc s) eqn:P; try discriminate. unfold leg. rewrite P. destruct evs as [l|].
    + destruct (_ && _ && _) eqn:X; [|discriminate]. rewrite !andb_true_iff, Nat.leb_le in X. apply Some_inj in H. subst s'. cbn [with_pc s_pc s_hist]. lia.
    + apply Some_inj in H. subst s'. cbn [with_pc s_pc s_hist]. lia.
  - destruct (s_pc s) as [| | | |l| | |] eqn:P; try discriminate. unfold leg. rewrite P. destruct l as [|ev rest].
    + apply Some_inj in H. subst s'. cbn [with_pc s_pc s_hist length]. lia.
    + assert (X : s_pc s' = AtEvents rest \/ panicked s').
      { destruct ev; cbn [step_event] in H;
          repeat match type of H with context [match ?x with _ => _ end] => destruct x; try discriminate end; apply Some_inj in H; subst s'; auto;
          match goal with |- s_pc (goes ?s ?a ?k ?p) = _ \/ _ => destruct (goes_pc s a k p) as [Y|[Y _]]; auto end. }
      destruct X as [->|X]; [cbn [length]; lia|]. unfold panicked in X. destruct (s_pc s'); try contradiction. cbn [length]. lia.
  - destruct pid as [pid|]; (destruct (s_pc s) eqn:P; try discriminate); unfold leg; rewrite P.
    + destruct (k_procs (s_k s) !! pid) as [[| | |st]|]; try discriminate.
      destruct (child_ended _ (s_g s) pid st) as [a more] eqn:Ce. apply Some_inj in H.
      assert (X : reaped (s_hist s') = S (reaped (s_hist s)) \/ (S (reaped (s_hist s)) < reaped (s_hist s'))%nat).
      { assert (Y : exists evs, s_hist s' = s_hist s ++ EReap pid st :: evs).
        { subst s'. destruct (ended_reap (reach (set_kprocs (s_k s) (delete pid (k_procs (s_k s))))) (s_g s) pid st) as (g' & m & evs & Y).
          rewrite Ce in Y. cbn [fst] in Y. destruct Y as [->| ->]; cbn; eauto. }
        destruct Y as [evs Y]. rewrite Y, reaped_app. cbn. lia. }
      assert (Y : s_pc s' = AtWait \/ s_pc s' = AtHead \/ panicked s').
      { subst s'. match goal with |- s_pc (goes ?s ?a ?k ?p) = _ \/ _ => destruct (goes_pc s a k p) as [Y|[Y _]] end; [auto|]. rewrite Y. destruct more; auto. }
      destruct Y as [->|[->|Y]]; try lia. unfold panicked in Y. destruct (s_pc s'); try contradiction. lia.
    + destruct (forallb _ _); [|discriminate]. apply Some_inj in H. subst s'. cbn [with_pc s_pc s_hist]. lia.
Qed.

Lemma effort_cons o ops : effort (o :: ops) = (inner_count o + effort ops)%nat.
Proof. unfold effort. destruct o; reflexivity. Qed.
Lemma rounds_cons o ops : rounds (o :: ops) = (head_count o + rounds ops)%nat.
Proof. unfold rounds. destruct o; reflexivity. Qed.

Lemma ended_effort e ops : forall s s', terminated s -> execute e s ops = Some s' -> effort ops = 0%nat.
Proof.
  induction ops as [|o rest IH]; intros s s' T H; [reflexivity|]. cbn in H. destruct (sstep e s o) as [s1|] eqn:E; [|discriminate].
  destruct (ended_stays _ _ _ _ T E) as [T1 Z]. rewrite effort_cons, (IH _ _ T1 H). unfold terminated in T.
  destruct o; cbn in *; auto; destruct (s_pc s); try contradiction; try discriminate; destruct pid; discriminate.
Qed.

Lemma effort_bound k e configs ops : forall s s', reachable k e configs s -> ebbing s -> ~ panicked s -> calm (s_hist s') ->
  execute e s ops = Some s' -> (effort ops + reaped (s_hist s) <= leg s + 14 * rounds ops + reaped (s_hist s'))%nat.
Proof.
  induction ops as [|o rest IH]; intros s s' R E NP C X.
  - cbn in X. apply Some_inj in X. subst s'. cbn [effort rounds List.filter length]. unfold effort. cbn. lia.
  - assert (OK := kn_order _ _ _ (reachable_known _ _ _ _ R)). cbn [execute] in X. destruct (sstep e s o) as [s1|] eqn:H; [|discriminate].
    destruct (execute_hist _ _ OK _ _ X) as [h Hh]. assert (C1 : calm (s_hist s1)) by (rewrite Hh in C; eapply calm_prefix; eauto).
    assert (R1 := reachable_snoc _ _ _ _ _ _ R H). assert (T := sstep_trans _ _ _ _ OK H). assert (W := whole_of R NP).
    assert (L := go_loop _ _ _ (so_good _ _ _ (wh_sound _ _ _ W))).
    assert (Ns : s_pc s <> AtSpawnDep /\ s_pc s <> AtSpawnCron).
    { split; intros P; destruct (lo_spawn _ L) as [Y _]; auto; rewrite (eb_keep _ E) in Y; discriminate. }
    assert (Le := leg_step e s o s1 OK (proj1 Ns) (proj2 Ns) (eb_keep _ E) H). rewrite effort_cons, rounds_cons.
    destruct (panicked_dec s1) as [P1|NP1].
    + assert (T1 : terminated s1) by (unfold terminated; unfold panicked in P1; destruct (s_pc s1); auto).
      rewrite (ended_rounds _ _ _ _ T1 X), (ended_effort _ _ _ _ T1 X), Hh, reaped_app. lia.
    + destruct (ebbing_step configs e s s1 OK W E C1 NP1 T) as [E1 _]. specialize (IH s1 s' R1 E1 NP1 C X). lia.
Qed.

Lemma lost_reaped_step e s o s' : (forall l, Permutation (e_order e l) l) -> sstep e s o = Some s' ->
  (lost (s_hist s') + reaped (s_hist s) <= lost (s_hist s) + reaped (s_hist s'))%nat.
Proof.
  intros OK H. apply (sstep_trans _ _ _ _ OK) in H. 
  assert (KL : forall sg l, lost (kills sg l) = 0%nat) by (intros sg l; induction l; auto).
  assert (OL : forall a b l, lost (map (ELog a b) l) = 0%nat) by (intros a b l; induction l; auto).
  assert (LC : forall ev l, lost (ev :: l) = ((match ev with ELost _ => 1 | _ => 0 end) + lost l)%nat) by (intros [] l; reflexivity).
  assert (RC : forall ev l, reaped (ev :: l) = ((match ev with EReap _ _ => 1 | _ => 0 end) + reaped l)%nat) by (intros [] l; reflexivity).
  assert (OP : forall id g1 pre, origin e s id g1 pre -> lost pre = 0%nat) by (intros id g1 pre []; reflexivity).
  assert (LN : lost [] = 0%nat) by reflexivity. assert (RN : reaped [] = 0%nat) by reflexivity.
  destruct H; cbn [mk_s with_kernel s_hist];
    try match goal with H : origin _ _ _ _ _ |- _ => apply OP in H end;
    try (rewrite ?lost_app, ?reaped_app, ?LC, ?RC, ?KL, ?OL, ?LN, ?RN; lia).
  destruct H; rewrite ?lost_app, ?reaped_app, ?LC, ?RC, ?KL, ?OL, ?LN, ?RN; lia.
Qed.

Lemma lost_reaped k e configs ops : forall s s', reachable k e configs s -> execute e s ops = Some s' ->
  (lost (s_hist s') + reaped (s_hist s) <= lost (s_hist s) + reaped (s_hist s'))%nat.
Proof.
  induction ops as [|o rest IH]; intros s s' R X; cbn in X; [apply Some_inj in X; subst; lia|].
  destruct (sstep e s o) as [s1|] eqn:H; [|discriminate]. assert (OK := kn_order _ _ _ (reachable_known _ _ _ _ R)).
  assert (A := lost_reaped_step _ _ _ _ OK H). assert (B := IH _ _ (reachable_snoc _ _ _ _ _ _ R H) X). lia.
Qed.

Definition batch (s : sys) : Prop := match s_pc s with AtEvents l => (length l <= 10)%nat | _ => True end.
Lemma batch_step e s s' : batch s -> trans e s s' -> batch s'.
Proof.
  unfold batch. intros B T. step_cases T; cbn [with_kernel mk_s s_pc] in *; auto;
    try (rewrite P in B; cbn [length] in B; auto; lia); try (destruct O; rewrite H; auto).
  destruct Q; auto. rewrite H in B. cbn [length] in B. lia.
Qed.
Lemma reachable_batch k e configs s : reachable k e configs s -> batch s.
Proof.
  intros R. assert (OK := kn_order _ _ _ (reachable_known _ _ _ _ R)). destruct R as (s0 & ops & L & X).
  eapply (execute_ind e batch OK); [intros ? ?; apply batch_step| |exact X].
  apply launched_start in L. unfold batch. rewrite (ss_pc _ _ L). exact Logic.I.
Qed.

Lemma ends_soon k e configs s ops s' h : reachable k e configs s -> ~ panicked s -> calm (s_hist s') ->
  (exists ev, In ev (s_hist s) /\ shutdown_trigger ev) ->
  (forall id pid, alive (s_hist s) id pid -> over s pid) ->
  (forall fd q, k_pipes (s_k s) !! fd = Some q -> abandoned s fd q) ->
  execute e s ops = Some s' -> attentive e s ops -> s_hist s' = s_hist s ++ h ->
  (effort ops <= 14 * (backlog (s_k s) + 4) + 15 * reaped h)%nat.
Proof.
  intros R NP C Tr Ov Ab X At Hh. assert (A := ends _ _ _ _ _ _ R NP C Tr Ov Ab X At).
  destruct Tr as (ev & I & Tr). assert (OK := kn_order _ _ _ (reachable_known _ _ _ _ R)). assert (W := whole_of R NP).
  assert (G := so_good _ _ _ (wh_sound _ _ _ W)). assert (Cs : calm (s_hist s)) by (rewrite Hh in C; eapply calm_prefix; eauto).
  assert (E : ebbing s).
  { split; [| |exact Ab].
    - destruct (g_keep (s_g s)) eqn:K; [|auto]. exfalso. exact (fl_keep _ _ (go_flow _ _ _ G) K _ I Tr).
    - intros x id Y. apply (Ov id). apply (al_pids _ (so_alive _ _ _ (wh_sound _ _ _ W) Cs)). exact Y. }
  assert (B := effort_bound _ _ _ _ _ _ R E NP C X). assert (D := lost_reaped _ _ _ _ _ _ R X).
  assert (Lg : (leg s <= 13)%nat).
  { unfold leg. destruct (s_pc s) as [| | | |l| | |] eqn:P; try lia.
    assert (Z := reachable_batch _ _ _ _ R). unfold batch in Z. rewrite P in Z. lia. }
  rewrite Hh, !lost_app in *. rewrite !reaped_app in *. lia.
Qed.

(** * No exit without the end of every program *)
Lemma var_found vars k : forall v, var vars k = Some v -> In (k, v) vars.
Proof.
  induction vars as [|[k' v'] rest IH]; cbn; intros v H; [discriminate|].
  destruct (String.eqb_spec k' k) as [->|N]; [apply Some_inj in H; subst; auto|auto].
Qed.

Lemma main_stays configs evs : forall h x, main_of configs h x <> None -> (forall ev, In ev evs -> ~ handover ev) ->
  (forall id rc, ~ In (EEnd id x rc) evs) -> main_of configs (h ++ evs) x <> None.
Proof.
  induction evs as [|ev evs IH]; intros h x M Ho Ne; [rewrite app_nil_r; auto|].
  replace (h ++ ev :: evs) with ((h ++ [ev]) ++ evs) by (rewrite <- app_assoc; reflexivity).
  apply IH; [|intros; apply Ho; right; auto|intros id rc K; apply (Ne id rc); right; auto].
  unfold main_of in *. rewrite book_app. cbn [fold_left].
  destruct ev as [id pid| | | | | | | |id pid rc| | |id pid vars| | | | | | | |]; cbn [book_step]; auto; cbn [b_main].
  - unfold put. destruct (x =? pid); [discriminate|auto].
  - unfold put. destruct (Z.eqb_spec x pid) as [->|N]; [|auto]. exfalso. apply (Ne id rc). left. auto.
  - assert (Z : new_pid vars = None).
    { unfold new_pid. destruct (var vars "MAINPID") as [v|] eqn:V; [|auto]. destruct (parse_i32 v) as [n|] eqn:F; [|auto].
      exfalso. apply (Ho (ENotify id pid vars) (or_introl eq_refl)). exists v, n. split; [apply var_found; auto|auto]. }
    rewrite Z. auto.
Qed.

Lemma no_early_exit k e configs s h1 id pid h2 code : reachable k e configs s -> s_pc s = Finished code ->
  (forall ev, In ev (s_hist s) -> ~ handover ev) -> s_hist s = h1 ++ EStart id pid :: h2 -> exists id' rc, In (EEnd id' pid rc) h2.
Proof.
  intros R P Ho E. assert (NP : ~ panicked s) by (unfold panicked; rewrite P; auto).
  assert (B := reachable_book _ _ _ _ R NP). assert (W := whole_of R NP).
  destruct (existsb (fun ev => match ev with EEnd _ x _ => x =? pid | _ => false end) h2) eqn:X.
  - apply existsb_exists in X. destruct X as (ev & I & K). destruct ev; try discriminate. apply Z.eqb_eq in K. subst. eauto.
  - exfalso. apply (main_stays configs h2 (h1 ++ [EStart id pid]) pid).
    + unfold main_of. rewrite book_app. cbn. unfold put. rewrite Z.eqb_refl. discriminate.
    + intros ev K. apply Ho. rewrite E. apply in_or_app. right. right. auto.
    + intros i rc K. apply not_true_iff_false in X. apply X. apply existsb_exists. eexists. split; [exact K|]. cbn. apply Z.eqb_refl.
    + rewrite <- app_assoc. cbn [app]. rewrite <- E, (bk_main _ _ _ B).
      destruct (lo_finished _ (go_loop _ _ _ (so_good _ _ _ (wh_sound _ _ _ W))) _ P) as [Z _].
      unfold has_running_processes in Z. rewrite negb_false_iff, !andb_true_iff in Z. destruct Z as [_ Z]. apply bool_decide_eq_true in Z. rewrite Z. apply lookup_empty.
Qed.
