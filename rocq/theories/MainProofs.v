From stdpp Require Import gmap strings.
From Coq Require Import Ascii ZArith List Bool Lia.
From Verif Require Import Base RStr CronModel ConfigModel ProcessModel EnvModel DepModel MainModel
  SpecStr SpecConfig SpecEnv SpecDep SpecMain RStrProofs ConfigProofs EnvProofs DepProofs CronTimerProofs.
From Verif Require SpecFault FaultProofs.
Import ListNotations.
Local Open Scope string_scope.
Local Open Scope list_scope.

(** * C14 *)
Lemma number_text_parse t n : parse_u32 t = Some n <-> number_text t n.
Proof.
  rewrite parse_u32_spec. unfold number_text, U32_MAX. split.
  - intros (plus & d & E & H). exists d. split; [destruct plus; subst; auto|auto].
  - intros (d & [E|E] & H); [exists false, d|exists true, d]; auto.
Qed.
Lemma number_text_free t n : number_text t n -> free_of "."%char t.
Proof.
  intros (d & E & [_ Hd] & _).
  assert (F : free_of "."%char d) by (intros K; apply (Hd _ K); reflexivity).
  destruct E as [->| ->]; [auto|]. cbn. apply free_of_cons. split; [discriminate|auto].
Qed.

Lemma version_split r M m : version r M m <->
  exists a b l, split_on "."%char r = a :: b :: l /\ parse_u32 a = Some M /\ parse_u32 b = Some m.
Proof.
  unfold version. split.
  - intros (a & b & Ha & Hb & E). pose proof (number_text_free _ _ Ha) as Fa. pose proof (number_text_free _ _ Hb) as Fb.
    destruct E as [->|(rest & ->)].
    + exists a, b, []. split; [|split; apply number_text_parse; auto].
      change (a +:+ "." +:+ b) with (a +:+ String "."%char b). rewrite split_on_app by auto. rewrite split_on_none by auto. reflexivity.
    + exists a, b, (split_on "."%char rest). split; [|split; apply number_text_parse; auto].
      change (a +:+ "." +:+ b +:+ "." +:+ rest) with (a +:+ String "."%char (b +:+ String "."%char rest)).
      rewrite split_on_app by auto. rewrite split_on_app by auto. reflexivity.
  - intros (a & b & l & E & Ha & Hb). exists a, b.
    split; [apply number_text_parse; auto|]. split; [apply number_text_parse; auto|].
    rewrite <- (join_split_on "."%char%char r), E. destruct l as [|x l]; [left; reflexivity|]. right.
    exists (join "." (x :: l)). reflexivity.
Qed.

Theorem startup_exact release uid :
  ((uid <> 0%Z \/ too_old release) /\ do_startup_checks release uid = Err STARTUP_EXIT) \/
  (~ (uid <> 0%Z \/ too_old release) /\ do_startup_checks release uid = Ok tt).
Proof.
  assert (K : (too_old release /\ check_kernel_version release = Err STARTUP_EXIT) \/
              (~ too_old release /\ check_kernel_version release = Ok tt)).
  { unfold check_kernel_version. destruct release as [r|].
    2:{ right. split; [|reflexivity]. intros (r & M & m & E & _). discriminate. }
    assert (N : forall P : Prop, (forall M m, version (utf8_lossy r) M m -> P) -> too_old (Some r) -> P).
    { intros P H (r' & M & m & E & V & _). inversion E; subst. eauto. }
    destruct (split_on "."%char (utf8_lossy r)) as [|a [|b l]] eqn:E.
    - right. split; [|reflexivity]. refine (N False _). intros M m V. apply version_split in V.
      destruct V as (a & b & l & E' & _). congruence.
    - right. split; [|reflexivity]. refine (N False _). intros M m V. apply version_split in V.
      destruct V as (x & b & l & E' & _). congruence.
    - assert (V : forall M m, version (utf8_lossy r) M m <-> parse_u32 a = Some M /\ parse_u32 b = Some m).
      { intros M m. rewrite version_split, E. split.
        - intros (x & y & l' & E' & H). inversion E'; subst. auto.
        - intros H. exists a, b, l. auto. }
      destruct (parse_u32 a) as [M|]; [|right; split; [refine (N False _); intros M m H; apply V in H; destruct H; discriminate|reflexivity]].
      destruct (parse_u32 b) as [m|]; [|right; split; [refine (N False _); intros M' m H; apply V in H; destruct H; discriminate|reflexivity]].
      destruct ((M <? 4) || ((M =? 4) && (m <? 3)))%Z eqn:C.
      + left. split; [|reflexivity]. exists r, M, m. split; [reflexivity|]. split; [apply V; auto|].
        apply orb_true_iff in C. destruct C as [C|C]; [lia|]. apply andb_true_iff in C. lia.
      + right. split; [|reflexivity]. intros (r' & M' & m' & E' & V' & C'). inversion E'; subst.
        apply V in V'. destruct V' as [V1 V2]. inversion V1; inversion V2; subst.
        apply orb_false_iff in C. destruct C as [C1 C2]. apply andb_false_iff in C2. lia. }
  unfold do_startup_checks, check_user. destruct K as [[K ->]|[K ->]]; [left; auto|].
  destruct (Z.eqb_spec uid 0) as [->|E]; [right|left]; (split; [|reflexivity]); [intros [H|H]; auto|auto].
Qed.

(** * Analysis *)
Lemma build_processes_spec w configs :
  (forall m, build_processes w configs <> Panic m) ->
  (exists c, In c configs /\ program_fault w c) /\ build_processes w configs = Ret (Err ANALYSE_EXIT) \/
  (forall c, In c configs -> ~ program_fault w c) /\
  exists ps, build_processes w configs = Ret (Ok ps) /\ Forall2 (fun c p => process_from w c = Ret (Ok p)) configs ps.
Proof.
  induction configs as [|c rest IH]; intros Hp.
  - right. split; [intros c []|]. exists []. split; [reflexivity|constructor].
  - cbn in Hp |- *. pose proof (process_from_rejects w c) as R.
    destruct (process_from w c) as [[p|e]|m] eqn:E; cbn in Hp |- *.
    + assert (NF : ~ program_fault w c) by (intros K; apply R in K; destruct K; discriminate).
      destruct IH as [[(c' & Hc' & F) ->]|[Hn (ps & -> & FF)]].
      * intros m Hm. rewrite Hm in Hp. cbn in Hp. eapply Hp; reflexivity.
      * left. split; [exists c'; split; [right; auto|auto]|reflexivity].
      * right. split; [intros c' [<-|Hc']; auto|]. exists (p :: ps). split; [reflexivity|constructor; auto].
    + left. split; [|reflexivity]. exists c. split; [left; reflexivity|]. apply R. eauto.
    + exfalso. eapply Hp. reflexivity.
Qed.

Lemma build_dep_spec order toposort configs :
  unique_names configs -> any_perm order -> finds_cycles toposort ->
  (dependency_fault configs /\ build_dependency_manager order toposort configs = Ret (Err ANALYSE_EXIT)) \/
  (~ dependency_fault configs /\ exists m, build_dependency_manager order toposort configs = Ret (Ok m) /\
     dep_inv configs (fun _ => False) [] m).
Proof.
  intros U Ho Ht. unfold build_dependency_manager.
  destruct (with_nodes_spec order toposort configs U Ho Ht) as [(m & -> & R & C & A & I)|(e & -> & O & N)]; cbn.
  - right. split; [intros F; apply F; auto|]. exists m. auto.
  - left. split; [exact N|].
    destruct e as [i|i k|i k|i]; cbn in O.
    + assert (B : (i < length configs)%nat).
      { clear -O. revert O. generalize i at 2. intros j O. induction O as [a b H|a b c _ IH _ _]; [|auto].
        apply depends_bound in H. tauto. }
      apply nth_error_Some in B. destruct (nth_error configs i); [reflexivity|congruence].
    + destruct O as (c & n & -> & -> & _). reflexivity.
    + destruct O as (c & n & -> & -> & _). reflexivity.
    + destruct O as (c & n & -> & _). reflexivity.
Qed.

Lemma with_jobs_result tz : forall jobs c clock,
  (forall m, with_jobs_from tz c jobs clock <> Panic m) ->
  (exists id s e, In (id, Some s) jobs /\ parse_timer s = Ret (Err e) /\ with_jobs_from tz c jobs clock = Ret (Err (e, id))) \/
  (forall id s e, In (id, Some s) jobs -> parse_timer s <> Ret (Err e)) /\ exists c', with_jobs_from tz c jobs clock = Ret (Ok c').
Proof.
  induction jobs as [|[id raw] rest IH]; intros c clock Hp.
  - right. split; [intros id s e []|]. exists c. reflexivity.
  - cbn in Hp |- *. destruct raw as [s|]; [|exfalso; eapply Hp; reflexivity].
    destruct (parse_timer s) as [[d|e]|m] eqn:E; [|left; exists id, s, e; split; [left; reflexivity|auto]|exfalso; eapply Hp; reflexivity].
    destruct clock as [|now clock]; [exfalso; eapply Hp; reflexivity|].
    destruct (next_execution tz d now) as [t|m]; cbn in Hp |- *; [|exfalso; eapply Hp; reflexivity].
    destruct (insert_job (timer c) t id) as [tm|m]; cbn in Hp |- *; [|exfalso; eapply Hp; reflexivity].
    destruct (IH _ _ Hp) as [(id' & s' & e & Hin & P & ->)|[Hn (c' & ->)]].
    + left. exists id', s', e. split; [right; auto|auto].
    + right. split; [|eauto]. intros id' s' e [H|H]; [inversion H; subst; congruence|eauto].
Qed.

Lemma timer_fault_parse c : timer_fault c <-> exists t e, pc_type c = CronJob t /\ parse_timer t = Ret (Err e).
Proof.
  unfold timer_fault. split; intros (t & e & T & P); exists t, e; (split; [exact T|]).
  - exact (proj2 (FaultProofs.timer_refused t e) P).
  - exact (proj1 (FaultProofs.timer_refused t e) P).
Qed.

Lemma build_cron_spec tz clock configs : (forall m, build_cron tz clock configs <> Panic m) ->
  ((exists c, In c configs /\ timer_fault c) /\ build_cron tz clock configs = Ret (Err ANALYSE_EXIT)) \/
  ((forall c, In c configs -> ~ timer_fault c) /\ exists cr, build_cron tz clock configs = Ret (Ok cr)).
Proof.
  unfold build_cron. set (jobs := map _ _). intros Hp.
  assert (J : forall id s, In (id, Some s) jobs <-> exists c, nth_error configs id = Some c /\ pc_type c = CronJob s).
  { intros id s. unfold jobs. rewrite in_map_iff. split.
    - intros ([i c] & E & Hin). cbn in E. inversion E; subst. apply filter_In in Hin. destruct Hin as [Hin _].
      apply enumerate_in in Hin. exists c. split; [auto|]. unfold timer_text in H1. destruct (pc_type c); congruence.
    - intros (c & Hc & T). exists (id, c). cbn. unfold timer_text. rewrite T. split; [reflexivity|].
      apply filter_In. split; [apply enumerate_in; auto|]. cbn. rewrite T. reflexivity. }
  destruct (with_jobs_result tz jobs {| timers := []; timer := [] |} clock) as [(id & s & e & Hin & P & E)|[Hn (c' & E)]].
  - intros m Hm. unfold with_jobs in Hp. rewrite Hm in Hp. cbn in Hp. eapply Hp; reflexivity.
  - left. unfold with_jobs. rewrite E. cbn. apply J in Hin. destruct Hin as (c & Hc & T). rewrite Hc.
    split; [|reflexivity]. exists c. split; [eapply nth_error_In; eauto|]. apply timer_fault_parse. exists s, e. auto.
  - right. unfold with_jobs. rewrite E. cbn. split; [|eauto]. intros c Hc F. apply timer_fault_parse in F. destruct F as (s & e & T & P).
    apply In_nth_error in Hc. destruct Hc as [i Hi]. apply (Hn i s e); [|auto]. apply J. eauto.
Qed.

Theorem analysis_exact k configs : unique_names configs -> honest k ->
  (forall m, manager_from k configs <> Panic m) ->
  (analysis_fails k configs /\ manager_from k configs = Ret (Err ANALYSE_EXIT)) \/
  (~ analysis_fails k configs /\ exists a, manager_from k configs = Ret (Ok a) /\
     Forall2 (fun c p => process_from (m_world k) c = Ret (Ok p)) configs (a_processes a) /\
     dep_inv configs (fun _ => False) [] (a_dep a) /\
     build_cron (m_zone k) (m_clock k) configs = Ret (Ok (a_cron a))).
Proof.
  intros U (_ & Ho & Ht & _) Hp. unfold manager_from in *.
  destruct (build_processes_spec (m_world k) configs) as [[F ->]|[NF (ps & E & FF)]].
  { intros m Hm. rewrite Hm in Hp. cbn in Hp. eapply Hp; reflexivity. }
  { left. split; [left; auto|reflexivity]. }
  rewrite E in *. cbn in Hp |- *.
  destruct (build_dep_spec (m_order k) (m_toposort k) configs U Ho Ht) as [[DF ED]|[ND (dm & ED & I)]]; rewrite ED in *; cbn in Hp |- *.
  - left. split; [right; left; auto|].
    destruct (build_cron (m_zone k) (m_clock k) configs) as [c|m]; cbn in Hp |- *; [|exfalso; eapply Hp; reflexivity].
    destruct (m_sockets k); reflexivity.
  - destruct (build_cron_spec (m_zone k) (m_clock k) configs) as [[CF EC]|[NC (cr & EC)]].
    { intros m Hm. rewrite Hm in Hp. cbn in Hp. eapply Hp; reflexivity. }
    + rewrite EC in *. cbn in Hp |- *. left. split; [right; right; left; auto|]. destruct (m_sockets k); reflexivity.
    + rewrite EC in *. cbn in Hp |- *. destruct (m_sockets k) eqn:S; cbn in Hp |- *.
      * destruct (m_epoll k); [|exfalso; eapply Hp; reflexivity].
        right. split; [|eexists; split; [reflexivity|]; cbn; auto].
        intros [(c & Hc & F)|[F|[(c & Hc & F)|F]]]; [eapply NF; eauto|auto|eapply NC; eauto|congruence].
      * left. split; [right; right; right; auto|reflexivity].
Qed.

(** * C13 *)
Lemma load_cases k : honest k ->
  (unloadable k /\ parse_config (m_yaml k) (m_drain k) (m_files k) = Ret (Err CONFIG_EXIT)) \/
  (~ unloadable k /\ exists parsed, read_as k parsed /\
     parse_config (m_yaml k) (m_drain k) (m_files k) = merge_dropins (m_drain k) (concat parsed)).
Proof.
  intros (Hd & _ & _ & Hu).
  destruct (load_all_or_nothing (m_yaml k) (m_drain k) (m_files k) Hd Hu) as [L1 L2].
  assert (Dec : unloadable k \/ (~ broken (m_files k) /\ forall p s, file_at (m_files k) p s -> m_yaml k s <> None)).
  { assert (R := read_config_spec (m_files k)). inversion R as [ps cs L B U E|B E|s U E].
    - destruct L as (_ & LF & LC). destruct (forallb (fun s => is_some (m_yaml k s)) cs) eqn:F.
      + right. split; [auto|]. intros p s Hp Hy. pose proof (LC _ _ Hp) as Hin. rewrite forallb_forall in F.
        assert (Hs : In s cs).
        { clear -LF Hin Hp.
          assert (D : forall s', file_at (m_files k) p s' -> s' = s).
          { intros s' H'. pose proof (node_at_fun _ _ _ _ Hp H') as K. congruence. }
          induction LF; [inversion Hin|]. destruct Hin as [<-|Hin]; [left|right]; auto. }
        apply F in Hs. rewrite Hy in Hs. discriminate.
      + left. right. assert (K : exists s, In s cs /\ m_yaml k s = None).
        { clear -F. induction cs as [|s cs IH]; cbn in F; [discriminate|]. destruct (m_yaml k s) eqn:Y; cbn in F.
          - destruct (IH F) as (s' & H1 & H2). exists s'. split; [right; auto|auto].
          - exists s. split; [left; reflexivity|auto]. }
        destruct K as (s & Hs & Hy). apply In_nth_error in Hs. destruct Hs as [i Hi].
        assert (exists p, file_at (m_files k) p s) as [p Hp]; [|eauto].
        clear -LF Hi. revert i Hi. induction LF; intros [|i] Hi; cbn in *; try discriminate; [inversion Hi; subst; eauto|eauto].
    - left. left. auto.
    - contradiction. }
  destruct Dec as [D|[D1 D2]].
  - left. split; [auto|]. apply L1. exact D.
  - right. split; [intros [K|(p & s & K1 & K2)]; [auto|eapply D2; eauto]|].
    destruct (L2 D1 D2) as (ps & contents & parsed & H1 & H2 & H3). exists parsed. split; [exists ps, contents; auto|auto].
Qed.

Theorem run_exact k r : honest k -> run k = Ret r ->
  (precondition_fails k /\ r = Exits 5) \/
  (~ precondition_fails k /\
   ((unloadable k /\ r = Exits 1) \/
    (~ unloadable k /\ exists parsed, read_as k parsed /\
     ((unmergeable (concat parsed) /\ r = Exits 1) \/
      (~ unmergeable (concat parsed) /\ exists configs, merged (concat parsed) configs /\
       ((analysis_fails k configs /\ r = Exits 2) \/
        (~ analysis_fails k configs /\ m_setup k = false /\ r = Exits 3) \/
        (~ analysis_fails k configs /\ m_setup k = true /\ exists a, r = EntersLoop configs a /\
           Forall2 (fun c p => process_from (m_world k) c = Ret (Ok p)) configs (a_processes a) /\
           dep_inv configs (fun _ => False) [] (a_dep a) /\
           build_cron (m_zone k) (m_clock k) configs = Ret (Ok (a_cron a))))))))).
Proof.
  intros Hh. unfold run, precondition_fails.
  destruct (startup_exact (m_release k) (m_uid k)) as [[P ->]|[P ->]].
  - intros E. inversion E; subst. left. auto.
  - intros E. right. split; [exact P|].
    destruct (load_cases k Hh) as [[L EL]|[L (parsed & R & EL)]]; rewrite EL in E; cbn in E.
    + inversion E; subst. left. auto.
    + right. split; [auto|]. exists parsed. split; [auto|].
      destruct (merge_dropins_total (m_drain k) (concat parsed) (proj1 Hh)) as [(configs & EM)|[EM (n & e & Hn & He)]].
      * right. rewrite EM in E. cbn in E. pose proof (merge_dropins_spec _ _ _ (proj1 Hh) EM) as M.
        split.
        { intros (n & e & Hn & He). destruct M as (_ & M2 & M3). apply M2, in_map_iff in Hn. destruct Hn as (c & <- & Hc).
          apply M3 in Hc. congruence. }
        exists configs. split; [exact M|].
        destruct (analysis_exact k configs (proj1 M) Hh) as [[F EA]|[NF (a & EA & H)]].
        -- intros m Hm. rewrite Hm in E. discriminate.
        -- left. rewrite EA in E. cbn in E. inversion E; subst. auto.
        -- right. rewrite EA in E. cbn in E. destruct (m_setup k); inversion E; subst; [right|left]; eauto 10.
      * left. rewrite EM in E. cbn in E. inversion E; subst. split; [exists n, e; auto|reflexivity].
Qed.

(** * What is left: the crashes *)
Lemma build_processes_panic w configs m : build_processes w configs = Panic m ->
  exists c, In c configs /\ process_from w c = Panic m.
Proof.
  induction configs as [|c rest IH]; cbn; [discriminate|].
  destruct (process_from w c) as [[p|e]|m'] eqn:E; cbn; [|discriminate|].
  - destruct (build_processes w rest) as [[ps|e]|m']; cbn; try discriminate. intros H. inversion H; subst.
    destruct (IH eq_refl) as (c' & Hc' & K). exists c'. split; [right; auto|auto].
  - intros H. inversion H; subst. exists c. split; [left; reflexivity|auto].
Qed.

Lemma with_jobs_panic tz m : forall jobs c clock, keys_inc (timer c) -> (length jobs <= length clock)%nat ->
  (forall id, ~ In (id, None) jobs) ->
  with_jobs_from tz c jobs clock = Panic m ->
  exists id s, In (id, Some s) jobs /\ (parse_timer s = Panic m \/
    exists d now, parse_timer s = Ret (Ok d) /\ In now clock /\ next_execution tz d now = Panic m).
Proof.
  induction jobs as [|[id raw] rest IH]; intros c clock K L N; cbn; [discriminate|].
  destruct raw as [s|]; [|exfalso; eapply N; left; reflexivity].
  destruct (parse_timer s) as [[d|e]|m'] eqn:P; [|discriminate|].
  2:{ intros H. inversion H; subst. exists id, s. split; [left; reflexivity|auto]. }
  destruct clock as [|now clock]; cbn in L; [lia|].
  destruct (next_execution tz d now) as [t|m'] eqn:X; cbn.
  2:{ intros H. inversion H; subst. exists id, s. split; [left; reflexivity|]. right. exists d, now. cbn. auto. }
  destruct (insert_job_ok (timer c) t id K) as (u & tm & -> & _ & K' & _). cbn. intros H.
  apply IH in H; [|exact K'|cbn in L; lia|intros i Hi; apply (N i); right; auto].
  destruct H as (id' & s' & Hin & [H|(d' & now' & H1 & H2 & H3)]); exists id', s'; (split; [right; auto|]); [auto|].
  right. exists d', now'. split; [auto|]. split; [right; auto|auto].
Qed.

Lemma filter_shorter {A} (f : A -> bool) l : (length (List.filter f l) <= length l)%nat.
Proof. induction l as [|a l IH]; cbn; [lia|]. destruct (f a); cbn; lia. Qed.

Lemma build_cron_panic tz clock configs m : (length configs <= length clock)%nat ->
  build_cron tz clock configs = Panic m ->
  exists c s, In c configs /\ pc_type c = CronJob s /\ (parse_timer s = Panic m \/
    exists d now, parse_timer s = Ret (Ok d) /\ In now clock /\ next_execution tz d now = Panic m).
Proof.
  intros L. unfold build_cron. set (jobs := map _ _).
  assert (J : forall id o, In (id, o) jobs -> exists c s, nth_error configs id = Some c /\ pc_type c = CronJob s /\ o = Some s).
  { intros id o Hin. unfold jobs in Hin. apply in_map_iff in Hin. destruct Hin as ([i c] & E & Hin). cbn in E. inversion E; subst.
    apply filter_In in Hin. destruct Hin as [Hin T]. apply enumerate_in in Hin. cbn in T. unfold timer_text.
    destruct (pc_type c) eqn:P; try discriminate. exists c, timer. auto. }
  destruct (with_jobs tz jobs clock) as [[c|[e id]]|m'] eqn:W; cbn; [discriminate| |].
  - destruct (nth_error configs id) eqn:N; [discriminate|]. exfalso.
    destruct (with_jobs_result tz jobs {| timers := []; timer := [] |} clock) as [(id' & s & e' & Hin & _ & E)|[_ (c' & E)]].
    + intros m' Hm'. unfold with_jobs in W. congruence.
    + unfold with_jobs in W. rewrite E in W. inversion W; subst. apply J in Hin. destruct Hin as (c & s' & Hc & _). congruence.
    + unfold with_jobs in W. congruence.
  - intros H. inversion H; subst. apply with_jobs_panic in W.
    + destruct W as (id & s & Hin & D). apply J in Hin. destruct Hin as (c & s' & Hc & T & E). inversion E; subst s'.
      exists c, s. split; [eapply nth_error_In; eauto|auto].
    + constructor.
    + unfold jobs. rewrite map_length. etransitivity; [|exact L].
      etransitivity; [apply filter_shorter|]. rewrite <- (map_length snd), map_snd_enumerate. reflexivity.
    + intros id Hin. apply J in Hin. destruct Hin as (c & s & _ & _ & E). discriminate.
Qed.

Theorem run_crashes k m : honest k -> run k = Panic m ->
  exists parsed configs, read_as k parsed /\ merged (concat parsed) configs /\ crash_cause k configs m.
Proof.
  intros Hh. unfold run.
  destruct (startup_exact (m_release k) (m_uid k)) as [[P ->]|[P ->]]; [discriminate|].
  destruct (load_cases k Hh) as [[L ->]|[L (parsed & R & ->)]]; cbn; [discriminate|].
  destruct (merge_dropins_total (m_drain k) (concat parsed) (proj1 Hh)) as [(configs & EM)|[EM _]]; rewrite EM; cbn; [|discriminate].
  pose proof (merge_dropins_spec _ _ _ (proj1 Hh) EM) as M. destruct (manager_from k configs) as [[a|e]|m'] eqn:E; cbn.
  - destruct (m_setup k); discriminate.
  - discriminate.
  - intros H. inversion H; subst m'. exists parsed, configs. split; [auto|]. split; [exact M|]. clear H.
    unfold manager_from in E. unfold crash_cause.
    destruct (build_processes (m_world k) configs) as [[ps|e]|m'] eqn:B; cbn in E; [|discriminate|].
    2:{ inversion E; subst. left. apply build_processes_panic. auto. }
    destruct Hh as (_ & Ho & Ht & _).
    destruct (build_dep_spec (m_order k) (m_toposort k) configs (proj1 M) Ho Ht) as [[_ D]|[_ (dm & D & _)]]; rewrite D in E; cbn in E.
    + destruct (build_cron (m_zone k) (m_clock k) configs) as [c|m'] eqn:C; cbn in E.
      * destruct (m_sockets k); cbn in E; discriminate.
      * inversion E; subst. destruct (le_lt_dec (length configs) (length (m_clock k))) as [Hl|Hl]; [|auto].
        right. left. apply build_cron_panic; auto.
    + destruct (build_cron (m_zone k) (m_clock k) configs) as [c|m'] eqn:C; cbn in E.
      * destruct (m_sockets k); cbn in E; [|discriminate]. destruct c; [|discriminate].
        destruct (m_epoll k); [discriminate|auto].
      * inversion E; subst. destruct (le_lt_dec (length configs) (length (m_clock k))) as [Hl|Hl]; [|auto].
        right. left. apply build_cron_panic; auto.
Qed.
