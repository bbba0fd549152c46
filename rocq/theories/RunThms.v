(** Facts about all reachable states. *)
From stdpp Require Import gmap strings.
From Coq Require Import Ascii ZArith List Bool Lia Permutation Relations.
From Verif Require Import Base RStr CronModel ConfigModel ProcessModel EnvModel DepModel NotifyModel ManagerModel SysModel
  MainModel SpecDep SpecTimer SpecText SpecRun DepProofs CronTimerProofs TextProofs NotifyProofs RunStep RunInv RunFlow RunHist RunAlive RunStream RunClaims RunLife.
Import ListNotations.
Local Open Scope string_scope.
Local Open Scope list_scope.
Local Open Scope Z_scope.

(** ** Logging *)

Lemma owners_app own h1 h2 : owners own (h1 ++ h2) = owners (owners own h1) h2.
Proof. unfold owners. apply fold_left_app. Qed.
Lemma owners_other evs : forall own, (forall f i b, ~ In (EOpen f i b) evs) -> owners own evs = own.
Proof.
  induction evs as [|ev evs IH]; intros own N; [reflexivity|]. unfold owners in *. cbn. rewrite IH by (intros f i b K; eapply N; right; eauto).
  destruct ev; try reflexivity. exfalso. eapply N. left. eauto.
Qed.
Lemma owners_logs own out name ls : owners own (map (ELog out name) ls) = own.
Proof. apply owners_other. intros f i b K. apply in_map_iff in K. destruct K as (x & K & _). discriminate. Qed.
Lemma logged_app configs own h1 : logged configs own h1 -> forall h2, logged configs (owners own h1) h2 -> logged configs own (h1 ++ h2).
Proof.
  induction 1 as [own|own fd data id out c text ls rest Ow Hc Sv Ls L IH|own ev rest N1 N2 L IH]; intros h2 K; cbn [app].
  - exact K.
  - rewrite <- app_assoc. apply (lo_chunk configs own fd data id out c text ls); auto. apply IH.
    unfold owners in K. cbn [fold_left owners_step] in K. fold (owners own) in K. rewrite fold_left_app in K. fold (owners own (map (ELog out (pc_name c)) (List.filter nonempty ls))) in K.
    rewrite owners_logs in K. exact K.
  - apply lo_other; auto.
Qed.
Lemma logged_none configs evs : forall own, (forall ev, In ev evs -> (forall fd data, ev <> EChunk fd data) /\ forall out name line, ev <> ELog out name line) -> logged configs own evs.
Proof.
  induction evs as [|ev evs IH]; intros own M; [constructor|]. destruct (M ev (or_introl eq_refl)). apply lo_other; auto.
  apply IH. intros x K. apply M. right. auto.
Qed.

Definition log_inv (configs : list proc_config) (h : list event) : Prop := logged configs nobody h.
Record own_inv (s : sys) : Prop := {
  ow_out : forall fd id, g_out (s_g s) !! fd = Some id -> owners nobody (s_hist s) fd = Some (id, true);
  ow_err : forall fd id, g_err (s_g s) !! fd = Some id -> owners nobody (s_hist s) fd = Some (id, false)
}.

Definition mute (ev : event) : Prop := match ev with EOpen _ _ _ | EChunk _ _ | ELog _ _ _ => False | _ => True end.
Lemma log_mute configs h evs : log_inv configs h -> (forall ev, In ev evs -> mute ev) -> log_inv configs (h ++ evs).
Proof.
  intros L M. apply logged_app; [auto|]. apply logged_none. intros ev K. apply M in K. destruct ev; try destruct K; split; discriminate.
Qed.
Lemma own_mute s s' evs : own_inv s -> s_hist s' = s_hist s ++ evs -> (forall f i b, ~ In (EOpen f i b) evs) ->
  (forall fd id, g_out (s_g s') !! fd = Some id -> g_out (s_g s) !! fd = Some id) ->
  (forall fd id, g_err (s_g s') !! fd = Some id -> g_err (s_g s) !! fd = Some id) -> own_inv s'.
Proof.
  intros [A B] E M E1 E2. split; rewrite E, owners_app, owners_other; eauto.
Qed.
Lemma mute_kills sg l ev : In ev (kills sg l) -> mute ev.
Proof. intros H. apply in_kills in H. destruct H as (x & -> & _). exact Logic.I. Qed.

Lemma own_step configs e s s' : maps_inv configs e s -> own_inv s -> ~ panicked s' -> trans e s s' -> own_inv s'.
Proof.
  intros M I NP T. step_cases T.
  - eapply own_mute with (evs := []); cbn; rewrite ?app_nil_r; eauto.
  - eapply own_mute; cbn; eauto. intros f i b K. not_in K.
  - eapply own_mute with (evs := []); cbn; rewrite ?app_nil_r; eauto.
  - eapply own_mute; cbn; eauto. intros f i b K. not_in K.
  - eapply own_mute with (evs := []); cbn; rewrite ?app_nil_r; eauto.
  - eapply own_mute; cbn; eauto. intros f i b K. not_in K.
  - destruct (origin_frame _ _ _ _ _ O) as (E1 & E2 & E3 & E4 & E5 & E6 & E7 & E8).
    eapply own_mute; cbn; eauto; [|rewrite E2; auto|rewrite E3; auto].
    intros f i b K. apply in_app_or in K. destruct K as [K|K]; [destruct O|]; not_in K.
  - destruct (origin_frame _ _ _ _ _ O) as (E1 & E2 & E3 & E4 & E5 & E6 & E7 & E8).
    eapply own_mute; cbn; eauto; [|rewrite E2; auto|rewrite E3; auto].
    intros f i b K. apply in_app_or in K. destruct K as [K|K]; [destruct O|]; not_in K.
  - destruct F as (F1 & F2 & F3 & F4 & F5 & _).
    assert (Np : forall f i b, ~ In (EOpen f i b) (pre ++ [EStart id pid])).
    { intros f i b K. apply in_app_or in K. destruct K as [K|K]; [destruct O|]; not_in K. }
    assert (Fo : forall fd, k_pipes (s_k s) !! fd = None -> g_out (s_g s) !! fd = None /\ g_err (s_g s) !! fd = None).
    { intros fd K. split; [destruct (g_out (s_g s) !! fd) eqn:X|destruct (g_err (s_g s) !! fd) eqn:X]; auto; exfalso;
        assert (Y : is_Some (k_pipes (s_k s) !! fd)) by (apply (ma_pipes _ _ _ M); rewrite X; eauto); rewrite K in Y; destruct Y; discriminate. }
    destruct (Fo _ F3) as [O1 O2]. destruct (Fo _ F4) as [R1 R2].
    assert (E : owners nobody (s_hist s ++ pre ++ [EStart id pid; EOpen out id true; EOpen err id false]) =
                fun x => if x =? err then Some (id, false) else if x =? out then Some (id, true) else owners nobody (s_hist s) x).
    { replace (s_hist s ++ pre ++ [EStart id pid; EOpen out id true; EOpen err id false])
        with (s_hist s ++ (pre ++ [EStart id pid]) ++ [EOpen out id true; EOpen err id false]) by (rewrite <- !app_assoc; reflexivity).
      rewrite owners_app, (owners_app _ (pre ++ [EStart id pid])), (owners_other _ _ Np). reflexivity. }
    split; cbn [mk_s mk_g s_hist s_g g_out g_err]; rewrite E; intros fd i K; apply lookup_insert_Some in K; destruct K as [[<- <-]|[X K]].
    + destruct (Z.eqb_spec out err); [congruence|]. rewrite Z.eqb_refl. reflexivity.
    + destruct (Z.eqb_spec fd err); [congruence|]. destruct (Z.eqb_spec fd out); [congruence|]. apply (ow_out _ I). auto.
    + rewrite Z.eqb_refl. reflexivity.
    + destruct (Z.eqb_spec fd err); [congruence|]. destruct (Z.eqb_spec fd out); [congruence|]. apply (ow_err _ I). auto.
  - eapply own_mute; cbn; eauto. intros f i b K. not_in K.
  - eapply own_mute; cbn; eauto. intros f i b K. not_in K.
  - eapply own_mute; cbn; eauto. intros f i b K. not_in K.
  - eapply own_mute; cbn; eauto. intros f i b K. not_in K.
  - eapply own_mute; cbn; eauto. intros f i b K. not_in K.
  - eapply own_mute; cbn; eauto. intros f i b X. not_in X.
  - eapply own_mute; cbn; eauto.
    + intros f i b K. not_in K.
    + intros f i K. apply lookup_delete_Some in K. tauto.
    + intros f i K. apply lookup_delete_Some in K. tauto.
  - eapply own_mute; cbn; eauto. intros f i b K. not_in K.
  - eapply own_mute; cbn; eauto. intros f i b K. not_in K.
  - eapply own_mute; cbn; eauto. intros f i b K. not_in K.
  - exfalso. apply NP. exact Logic.I.
Qed.

(** ** What follows the reaping of a child *)
Definition follows (h : list event) : Prop :=
  forall h1 pid st h2, h = h1 ++ EReap pid st :: h2 -> exists ev h3, h2 = ev :: h3 /\
    match ev with
    | EEnd _ p rc | EUnknown p rc => p = pid /\ rc = code_of st /\ forall n, st <> XRealtime n
    | ELost p => p = pid /\ exists n, st = XRealtime n
    | _ => False
    end.
Lemma follows_app h evs : follows h -> follows evs -> follows (h ++ evs).
Proof.
  intros A B h1 pid st h2 E. apply split_app in E. destruct E as [(h3 & -> & E)|(e1 & e2 & -> & E & ->)].
  - destruct (A _ _ _ _ E) as (ev & h4 & -> & K). exists ev, (h4 ++ evs). auto.
  - eauto.
Qed.
Lemma follows_other evs : (forall pid st, ~ In (EReap pid st) evs) -> follows evs.
Proof. intros N h1 pid st h2 E. exfalso. eapply N. eapply split_in. eauto. Qed.
Lemma follows_one pid st ev evs : (match ev with
    | EEnd _ p rc | EUnknown p rc => p = pid /\ rc = code_of st /\ forall n, st <> XRealtime n
    | ELost p => p = pid /\ exists n, st = XRealtime n
    | _ => False
    end) -> (forall pid st, ~ In (EReap pid st) evs) -> follows (EReap pid st :: ev :: evs).
Proof.
  intros K N h1 pid' st' h2 E. destruct h1 as [|x h1]; inversion E; subst; [eauto|].
  destruct h1 as [|y h1]; inversion H1; subst; [destruct K|]. exfalso. eapply N. eapply split_in. eauto.
Qed.

(** ** The state of a notify program follows from its notifications *)
Record mood_inv (s : sys) : Prop := {
  md_new : forall id p, g_procs (s_g s) !! id = Some p -> p_state p = Blocked -> forall x vars, ~ In (ENotify id x vars) (s_hist s);
  md_state : forall id p, g_procs (s_g s) !! id = Some p -> p_type p = RNotify -> active (p_state p) ->
    (p_state p = Stopping <-> notified (s_hist s) id "STOPPING" "1") /\
    (p_state p = Running -> notified (s_hist s) id "READY" "1") /\
    (notified (s_hist s) id "READY" "1" -> p_state p <> Starting)
}.

Lemma notified_app h evs id k v : notified (h ++ evs) id k v <-> notified h id k v \/ notified evs id k v.
Proof.
  unfold notified. split.
  - intros (pid & vars & K & V). apply in_app_or in K. destruct K; eauto 10.
  - intros [(pid & vars & K & V)|(pid & vars & K & V)]; exists pid, vars; (split; [apply in_or_app; auto|auto]).
Qed.
Lemma notified_none evs id k v : (forall x vars, ~ In (ENotify id x vars) evs) -> ~ notified evs id k v.
Proof. intros N (pid & vars & K & _). eapply N; eauto. Qed.

Lemma mood_frame s s' evs : mood_inv s -> s_hist s' = s_hist s ++ evs -> (forall id x vars, ~ In (ENotify id x vars) evs) ->
  g_procs (s_g s') = g_procs (s_g s) -> mood_inv s'.
Proof.
  intros [A B] E N Ep. assert (Q : forall id k v, notified (s_hist s ++ evs) id k v <-> notified (s_hist s) id k v).
  { intros id k v. rewrite notified_app. pose proof (notified_none evs id k v (N id)). tauto. }
  split; rewrite Ep, E.
  - intros id p Hp Bl x vars K. apply in_app_or in K. destruct K as [K|K]; [eapply A; eauto|eapply N; eauto].
  - intros id p Hp Ty Ac. rewrite !Q. eauto.
Qed.

Lemma mood_step configs e s s' : (forall l, Permutation (e_order e l) l) -> maps_inv configs e s -> mood_inv s -> life_inv configs s -> ~ panicked s' -> trans e s s' -> mood_inv s'.
Proof.
  intros OK M I L NP T.
  assert (Quiet : forall s' evs, s_hist s' = s_hist s ++ evs -> (forall id x vars, ~ In (ENotify id x vars) evs) ->
    g_procs (s_g s') = g_procs (s_g s) -> mood_inv s').
  { intros. eapply mood_frame; eauto. }
  step_cases T; try (eapply Quiet; [reflexivity|intros ? ? ? K0; not_in K0|reflexivity]; fail);
    try (apply (Quiet _ []); cbn; rewrite ?app_nil_r; auto; fail).
  - destruct (origin_frame _ _ _ _ _ O) as (E1 & _). eapply Quiet; [reflexivity| |auto].
    intros ? ? ? K. apply in_app_or in K. destruct K as [K|K]; [destruct O|]; not_in K.
  - destruct (origin_frame _ _ _ _ _ O) as (E1 & _). eapply Quiet; [reflexivity| |auto].
    intros ? ? ? K. apply in_app_or in K. destruct K as [K|K]; [destruct O|]; not_in K.
  - (* started *)
    assert (N : forall i x vars, ~ In (ENotify i x vars) (pre ++ [EStart id pid; EOpen out id true; EOpen err id false])).
    { intros ? ? ? K. apply in_app_or in K. destruct K as [K|K]; [destruct O|]; not_in K. }
    assert (Q : forall i k v, notified (s_hist s ++ pre ++ [EStart id pid; EOpen out id true; EOpen err id false]) i k v <-> notified (s_hist s) i k v).
    { intros i k v. rewrite notified_app. pose proof (notified_none _ i k v (N i)). tauto. }
    split; cbn [mk_s mk_g s_hist s_g g_procs].
    + intros i q Hq Bl x vars K. apply lookup_update_Some in Hq. destruct Hq as [(-> & -> & _)|(X & Hq)].
      * unfold started in Bl. cbn in Bl. destruct (p_type p); discriminate.
      * apply in_app_or in K. destruct K as [K|K]; [eapply md_new; eauto|eapply N; eauto].
    + intros i q Hq Ty Ac. rewrite !Q. apply lookup_update_Some in Hq. destruct Hq as [(-> & -> & _)|(X & Hq)]; [|eapply md_state; eauto].
      assert (Bl : p_state p = Blocked).
      { destruct St as [St|St]; [auto|]. pose proof (lf_type _ _ L _ _ Hp) as K. unfold started in Ty. cbn in Ty. rewrite Ty in K. contradiction. }
      unfold started in *. cbn in *. rewrite Ty.
      split; [split; [discriminate|]|split; [discriminate|]]; intros (x & vars & K & _); exfalso; eapply (md_new _ I); eauto.
  - (* notified *)
    assert (N : List.NoDup (map fst vars)) by (rewrite Vs; apply vars_nodup; auto).
    destruct (ma_pid _ _ _ M _ _ D) as (p' & Hp' & Pid & Act). rewrite Hp in Hp'. inversion Hp'; subst p'. clear Hp'.
    assert (Q : forall i k v, notified (s_hist s ++ [ENotify id sender vars]) i k v <-> notified (s_hist s) i k v \/ (i = id /\ In (k, v) vars)).
    { intros i k v. rewrite notified_app. apply or_iff_compat_l. unfold notified. split.
      - intros (x & vs & [E|[]] & V). inversion E; subst. auto.
      - intros [-> V]. exists sender, vars. split; [left; auto|auto]. }
    split; cbn [mk_s mk_g s_hist s_g g_procs].
    + intros i q Hq Bl x vs K. apply lookup_update_Some in Hq. destruct Hq as [(-> & -> & _)|(X & Hq)].
      * pose proof (notified_active p vars Act) as Ac. rewrite Bl in Ac. destruct Ac as [Ac|[Ac|Ac]]; discriminate.
      * apply in_app_or in K. destruct K as [K|[K|[]]]; [eapply md_new; eauto|congruence].
    + intros i q Hq Tq Ac. rewrite !Q. apply lookup_update_Some in Hq. destruct Hq as [(-> & -> & _)|(X & Hq)].
      * destruct (md_state _ I _ _ Hp Ty Act) as (A1 & A2 & A3). rewrite notified_state, <- !(ready_in _ N).
        destruct (is_one (var vars "STOPPING")) eqn:E1.
        { split; [split; auto|]. split; [discriminate|]. intros _. discriminate. }
        destruct (is_one (var vars "READY")) eqn:E2; cbn [andb].
        -- destruct (pstate_eqb (p_state p) Starting) eqn:E3.
           ++ apply pstate_eqb_spec in E3. rewrite E3 in A1. split; [split; [discriminate|]|].
              { intros [K|[_ K]]; [|discriminate]. apply A1 in K. discriminate. }
              split; [auto|intros _; discriminate].
           ++ split; [rewrite A1; split; [auto|intros [K|[_ K]]; [auto|discriminate]]|]. split; [auto|].
              intros _ K. rewrite K in E3. discriminate.
        -- split; [rewrite A1; split; [auto|intros [K|[_ K]]; [auto|discriminate]]|]. split; [auto|].
           intros [K|[_ K]]; [auto|discriminate].
      * destruct (md_state _ I _ _ Hq Tq Ac) as (A1 & A2 & A3). rewrite A1. split; [split; [auto|intros [K|[K _]]; [auto|congruence]]|].
        split; [auto|]. intros [K|[K _]]; [auto|congruence].
  - (* ended *)
    assert (Nn : forall i x vs, ~ In (ENotify i x vs) (EReap pid st :: EEnd id pid (code_of st) :: kills SIGINT sent)) by (intros ? ? ? K; not_in K).
    assert (Q : forall i k v, notified (s_hist s ++ EReap pid st :: EEnd id pid (code_of st) :: kills SIGINT sent) i k v <-> notified (s_hist s) i k v).
    { intros i k v. rewrite notified_app. pose proof (notified_none _ i k v (Nn i)). tauto. }
    split; cbn [mk_s mk_g s_hist s_g g_procs].
    + intros i q Hq Bl x vs K. apply lookup_update_Some in Hq. destruct Hq as [(-> & -> & _)|(X & Hq)].
      * cbn in Bl. unfold end_state in Bl. destruct (code_of st =? 0), (p_type p); discriminate.
      * apply in_app_or in K. destruct K as [K|K]; [eapply md_new; eauto|eapply Nn; eauto].
    + intros i q Hq Ty Ac. rewrite !Q. apply lookup_update_Some in Hq. destruct Hq as [(-> & -> & _)|(X & Hq)]; [|eapply md_state; eauto].
      cbn in Ac. unfold end_state in Ac. destruct (code_of st =? 0), (p_type p), Ac as [K|[K|K]]; discriminate.
  - exfalso. apply NP. exact Logic.I.
Qed.

Lemma start_mood configs s : start_state configs s -> mood_inv s.
Proof.
  intros S. split; rewrite (ss_hist _ _ S).
  - intros id p _ _ x vars [].
  - intros id p H _ Ac. destruct (ss_proc _ _ S _ _ H) as (c & _ & _ & T & E). rewrite E in Ac. destruct (pc_type c), Ac as [K|[K|K]]; discriminate.
Qed.

(** ** Numbers are handed out while not in use *)
Definition fresh_claim (before : list event) (ev : event) : Prop :=
  match ev with
  | EOpen fd _ _ => forall id o, ~ opened before fd id o
  | EStart _ pid => 0 < pid /\ (calm before -> forall id, ~ alive before id pid)
  | _ => True
  end.
Definition stale (ev : event) : Prop := match ev with EOpen _ _ _ | EStart _ _ => False | _ => True end.
Lemma stale_ok h evs : each_time h fresh_claim -> (forall ev, In ev evs -> stale ev) -> each_time (h ++ evs) fresh_claim.
Proof. intros H K. apply each_other; [auto|]. intros h' ev X. apply K in X. destruct ev; cbn in *; tauto. Qed.
Lemma stale_kills sg l ev : In ev (kills sg l) -> stale ev.
Proof. intros H. apply in_kills in H. destruct H as (x & -> & _). exact Logic.I. Qed.

Lemma fresh_step configs e s s' : sound configs e s -> each_time (s_hist s) fresh_claim -> trans e s s' -> each_time (s_hist s') fresh_claim.
Proof.
  intros So H T. assert (M := go_maps _ _ _ (so_good _ _ _ So)).
  step_cases T; cbn; auto; try (apply stale_ok; [auto|intros ev K0; cbn [In] in K0; decompose [or] K0; subst; try contradiction; try exact Logic.I; eauto using stale_kills]; fail).
  - apply stale_ok; [auto|]. intros ev K. apply in_app_or in K. destruct K as [K|[<-|[]]]; [|exact Logic.I]. destruct O; [destruct K|destruct K as [<-|[]]; exact Logic.I].
  - apply stale_ok; [auto|]. intros ev K. apply in_app_or in K. destruct K as [K|[<-|[]]]; [|exact Logic.I]. destruct O; [destruct K|destruct K as [<-|[]]; exact Logic.I].
  - (* started *)
    destruct F as (F1 & F2 & F3 & F4 & F5 & _).
    assert (Np : forall ev, In ev pre -> exists now, ev = EDue id now).
    { intros ev K. destruct O; [destruct K|destruct K as [<-|[]]; eauto]. }
    assert (Cl : forall fd, k_pipes (s_k s) !! fd = None -> forall i o, ~ opened (s_hist s) fd i o).
    { intros fd K i o Op. assert (X : is_Some (k_pipes (s_k s) !! fd)).
      { apply (ma_pipes _ _ _ M). destruct o; [left; apply (st_out _ (so_stream _ _ _ So)) in Op|right; apply (st_err _ (so_stream _ _ _ So)) in Op]; rewrite Op; eauto. }
      rewrite K in X. destruct X. discriminate. }
    replace (s_hist s ++ pre ++ [EStart id pid; EOpen out id true; EOpen err id false])
      with ((((s_hist s ++ pre) ++ [EStart id pid]) ++ [EOpen out id true]) ++ [EOpen err id false]) by (rewrite <- !app_assoc; reflexivity).
    assert (Gone : forall fd i o, opened ((s_hist s ++ pre) ++ [EStart id pid]) fd i o -> opened (s_hist s) fd i o).
    { intros fd i o Op. apply opened_app in Op. destruct Op as [[Op _]|Op]; [|apply opened_none in Op; [destruct Op|intros f j b K; not_in K]].
      apply opened_app in Op. destruct Op as [[Op _]|Op]; [auto|]. apply opened_none in Op; [destruct Op|].
      intros f j b K. apply Np in K. destruct K as [now K]. discriminate. }
    apply each_last; [apply each_last; [apply each_last; [apply stale_ok; [auto|]|]|]|]; cbn.
    + intros ev K. apply Np in K. destruct K as [now ->]. exact Logic.I.
    + split; [auto|]. intros Cm i Al. apply calm_app in Cm. destruct Cm as [Cm _].
      apply alive_same in Al; [|intros j y K; apply Np in K; destruct K as [now K]; discriminate|intros j y K; apply Np in K; destruct K as [now K]; discriminate].
      assert (A := so_alive _ _ _ So Cm). apply (al_pids _ A) in Al. apply (al_kernel _ A) in Al. destruct Al as [_ [Al|[st Al]]]; congruence.
    + intros i o Op. apply Gone in Op. exact (Cl _ F3 _ _ Op).
    + intros i o Op. apply opened_app in Op. destruct Op as [[Op _]|Op]; [apply Gone in Op; exact (Cl _ F4 _ _ Op)|].
      destruct Op as (h1 & h2 & E & _). apply split_in in E. destruct E as [E|[]]. inversion E. congruence.
  - apply stale_ok; [auto|]. intros ev [<-|X]; [exact Logic.I|]. apply in_map_iff in X. destruct X as (y & <- & _). exact Logic.I.
  - apply stale_ok; [auto|]. intros ev K. destruct D; cbn [In] in K; decompose [or] K; subst; try contradiction; try exact Logic.I; eauto using stale_kills.
Qed.

(** ** The timers are the configured ones *)
Definition desc_inv (configs : list proc_config) (s : sys) : Prop :=
  forall id d, In (id, d) (timers (g_cron (s_g s))) ->
    exists c t, nth_error configs id = Some c /\ pc_type c = CronJob t /\ parse_timer t = Ret (Ok d).
Lemma desc_step configs e s s' : cron_inv (g_cron (s_g s)) -> desc_inv configs s -> trans e s s' -> desc_inv configs s'.
Proof.
  intros Ci H T. unfold desc_inv.
  assert (Og : forall id g1 pre, origin e s id g1 pre -> timers (g_cron g1) = timers (g_cron (s_g s))).
  { intros id g1 pre [d p ? ? ? ?|now c P C R]; cbn; [auto|]. apply cron_pop_spec in C; [|auto]. tauto. }
  step_cases T; cbn; auto; try (rewrite (Og _ _ _ O); auto; fail).
  apply cron_pop_spec in C; [|auto]. destruct C as [-> _]. auto.
Qed.

(** ** All invariants together *)
Record whole (configs : list proc_config) (e : env) (s : sys) : Prop := {
  wh_sound : sound configs e s;
  wh_life : life_inv configs s;
  wh_procs : plausible (k_procs (s_k s));
  wh_own : own_inv s;
  wh_mood : mood_inv s;
  wh_desc : desc_inv configs s
}.
Record past (configs : list proc_config) (h : list event) : Prop := {
  pa_starts : each_time h (start_claim configs);
  pa_run : each_time h (run_claim configs);
  pa_logs : log_inv configs h;
  pa_follow : follows h;
  pa_fresh : each_time h fresh_claim
}.

Lemma panicked_dec s : panicked s \/ ~ panicked s.
Proof. unfold panicked. destruct (s_pc s); auto. Qed.

(** After a panic cinit has no effects any more. *)
Lemma panicked_step e s s' : panicked s -> trans e s s' -> panicked s' /\ exists evs, s_hist s' = s_hist s ++ evs /\
  forall ev, In ev evs -> exists fd data, ev = EWrote fd data.
Proof.
  intros Pk T. unfold panicked in Pk. destruct (s_pc s) as [| | | | | | |m0] eqn:Pc; try contradiction.
  step_cases T; try congruence.
  - split; [unfold panicked; cbn; rewrite Pc; auto|]. exists []. cbn. rewrite app_nil_r. split; [auto|]. intros ev [].
  - split; [unfold panicked; cbn; rewrite Pc; auto|]. exists [EWrote fd data]. cbn. split; [auto|]. intros ev [<-|[]]. eauto.
  - destruct Q; congruence.
  - destruct O; congruence.
  - destruct O; congruence.
  - destruct O; congruence.
  - destruct D; congruence.
Qed.

Lemma log_step configs e s s' : whole configs e s -> log_inv configs (s_hist s) -> trans e s s' -> log_inv configs (s_hist s').
Proof.
  intros W L T. assert (M := go_maps _ _ _ (so_good _ _ _ (wh_sound _ _ _ W))).
  step_cases T; cbn; try (apply log_mute; [auto|intros ev K; cbn [In] in K; decompose [or] K; subst; try contradiction; try exact Logic.I; eauto using mute_kills]; fail); auto.
  - apply log_mute; [auto|]. intros ev K. apply in_app_or in K. destruct K as [K|[<-|[]]]; [|exact Logic.I]. destruct O; [destruct K|destruct K as [<-|[]]; exact Logic.I].
  - apply log_mute; [auto|]. intros ev K. apply in_app_or in K. destruct K as [K|[<-|[]]]; [|exact Logic.I]. destruct O; [destruct K|destruct K as [<-|[]]; exact Logic.I].
  - apply logged_app; [auto|]. apply logged_none. intros ev K. apply in_app_or in K.
    assert (X : (exists i n, ev = EDue i n) \/ (exists i q, ev = EStart i q) \/ exists f i b, ev = EOpen f i b).
    { destruct K as [K|K]; [destruct O; [destruct K|destruct K as [<-|[]]; eauto]|]. cbn in K. decompose [or] K; subst; eauto 10; contradiction. }
    destruct X as [(a & b & ->)|[(a & b & ->)|(a & b & c & ->)]]; split; discriminate.
  - (* output *)
    apply logged_app; [auto|]. destruct (batch_owner _ _ _ _ _ (so_good _ _ _ (wh_sound _ _ _ W)) P FX) as (id & p' & E1 & E2 & E3).
    rewrite PF in E1. inversion E1; subst p'.
    assert (Ow : owners nobody (s_hist s) fd = Some (id, is_stdout (s_g s) fd)).
    { destruct (is_stdout (s_g s) fd); [apply (ow_out _ (wh_own _ _ _ W))|apply (ow_err _ (wh_own _ _ _ W))]; auto. }
    destruct (ma_proc _ _ _ M _ _ E2) as (c & Hc & Nm & _). rewrite Nm. rewrite <- (app_nil_r (map _ _)).
    eapply lo_chunk; eauto; [apply utf8_lossy_spec|apply lines_spec; reflexivity|constructor].
  - (* died *)
    destruct D as [id d P D Hp|now m P C|now c id P C Hp|fd rest sg sent pre x post P NS Es Er Re|fd rest m P Fr|fd rest dg m P Rt
      |fd rest dg P Rt|fd rest sender id P Dp Hp|fd rest sender id p vars m P Dp Hp Nf|fd rest data k' m P Fx Pf|pid st id P Z Dp Hp
      |pid st id p pre x post P Z Dp Hp NZ Er Re|pid st id p sent m P Z Dp Hp Nf Es];
    try (apply log_mute; [auto|intros ev K; cbn [In] in K; decompose [or] K; subst; try contradiction; try exact Logic.I; eauto using mute_kills]; fail); auto.
    exfalso. destruct (batch_owner _ _ _ _ _ (so_good _ _ _ (wh_sound _ _ _ W)) P Fx) as (id & p & E & _). congruence.
Qed.

Lemma follow_step configs e s s' : whole configs e s -> follows (s_hist s) -> trans e s s' -> follows (s_hist s').
Proof.
  intros W L T. assert (M := go_maps _ _ _ (so_good _ _ _ (wh_sound _ _ _ W))).
  step_cases T; cbn; auto; try (apply follows_app; [auto|apply follows_other; intros x y K; not_in K]; fail).
  - apply follows_app; [auto|]. apply follows_other. intros x y K. apply in_app_or in K. destruct K as [K|K]; [destruct O|]; not_in K.
  - apply follows_app; [auto|]. apply follows_other. intros x y K. apply in_app_or in K. destruct K as [K|K]; [destruct O|]; not_in K.
  - apply follows_app; [auto|]. apply follows_other. intros x y K. apply in_app_or in K. destruct K as [K|K]; [destruct O|]; not_in K.
  - apply follows_app; [auto|]. apply follows_other. intros x y X. not_in X.
  - apply follows_app; [auto|]. apply follows_one; [auto|]. intros x y [].
  - apply follows_app; [auto|]. apply follows_one; [eauto|]. intros x y [].
  - apply follows_app; [auto|]. apply follows_one; [eauto|]. intros x y K. not_in K.
  - apply follows_app; [auto|]. assert (G := so_good _ _ _ (wh_sound _ _ _ W)).
    destruct D as [id d P D Hp|now m P C|now c id P C Hp|fd rest sg sent pre x post P NS Es Er Re|fd rest m P Fr|fd rest dg m P Rt
      |fd rest dg P Rt|fd rest sender id P Dp Hp|fd rest sender id p vars m P Dp Hp Nf|fd rest data k' m P Fx Pf|pid st id P Z Dp Hp
      |pid st id p pre x post P Z Dp Hp NZ Er Re NR|pid st id p sent m P Z Dp Hp Nf Es];
    try (apply follows_other; intros a b K; not_in K; fail).
    + exfalso. destruct (ma_pid _ _ _ M _ _ Dp) as (p' & Hp' & _). congruence.
    + apply follows_one; [auto|]. intros a b K. not_in K.
    + exfalso. destruct (fl_dep _ _ (go_flow _ _ _ G)) as (handed & A1 & _).
      destruct (notify_inv _ _ _ _ id A1) as (d' & Hd & _); [apply (ma_lt _ _ _ _ M); eauto|]. congruence.
Qed.

Lemma whole_step configs e s s' : (forall l, Permutation (e_order e l) l) -> whole configs e s -> ~ panicked s' -> trans e s s' -> whole configs e s'.
Proof.
  intros OK [A B C D E F] NP T. assert (M := go_maps _ _ _ (so_good _ _ _ A)). split.
  - eapply sound_step; eauto.
  - eapply life_step; eauto.
  - eapply plausible_step; eauto.
  - eapply own_step; eauto.
  - eapply mood_step; eauto.
  - eapply desc_step; eauto. apply (fl_cron _ _ (go_flow _ _ _ (so_good _ _ _ A))).
Qed.

Lemma past_step configs e s s' : (forall l, Permutation (e_order e l) l) -> (forall u v, depends configs u v -> ~ cronjob configs u) ->
  whole configs e s -> past configs (s_hist s) -> trans e s s' -> past configs (s_hist s').
Proof.
  intros OK NC W [A B C D E] T. split.
  - eapply claims_step; eauto. left. apply (so_good _ _ _ (wh_sound _ _ _ W)).
  - eapply run_claims_step; eauto; [left; apply W|apply W].
  - eapply log_step; eauto.
  - eapply follow_step; eauto.
  - eapply fresh_step; eauto. apply W.
Qed.

Lemma past_writes configs h evs : past configs h -> (forall ev, In ev evs -> exists fd data, ev = EWrote fd data) -> past configs (h ++ evs).
Proof.
  intros [A B C D E] K. split.
  - apply unclaimed_ok; auto. intros ev X. destruct (K _ X) as (fd & data & ->). exact Logic.I.
  - apply silent_ok; auto. intros ev X. destruct (K _ X) as (fd & data & ->). exact Logic.I.
  - apply log_mute; auto. intros ev X. destruct (K _ X) as (fd & data & ->). exact Logic.I.
  - apply follows_app; auto. apply follows_other. intros pid st X. destruct (K _ X) as (fd & data & F). discriminate.
  - apply stale_ok; auto. intros ev X. destruct (K _ X) as (fd & data & ->). exact Logic.I.
Qed.

(** ** Reachable states *)
Record known (configs : list proc_config) (e : env) (s : sys) : Prop := {
  kn_order : forall l, Permutation (e_order e l) l;
  kn_acyclic : forall v, ~ clos_trans nat (depends configs) v v;
  kn_cron : forall u v, depends configs u v -> ~ cronjob configs u;
  kn_past : past configs (s_hist s);
  kn_now : whole configs e s \/ panicked s
}.

Lemma known_step configs e s s' : known configs e s -> trans e s s' -> known configs e s'.
Proof.
  intros [A B C D E] T. destruct E as [W|P].
  - split; auto; [eapply past_step; eauto|]. destruct (panicked_dec s') as [Q|Q]; [auto|]. left. eapply whole_step; eauto.
  - destruct (panicked_step _ _ _ P T) as (P' & evs & Eh & K). split; auto. rewrite Eh. apply past_writes; auto.
Qed.

Lemma reachable_known k e configs s : reachable k e configs s -> known configs e s.
Proof.
  intros (s0 & ops & L & X). assert (St := launched_start _ _ _ _ L). destruct L as (_ & _ & OK & _).
  revert X. apply (execute_ind e (known configs e)); auto; [intros s1 s2; apply known_step|].
  split; auto.
  - apply (ss_acyclic _ _ St).
  - intros u v. eapply no_cron_dependency; eauto.
  - destruct St. rewrite ss_hist. split; [apply each_nil|apply each_nil|constructor| |apply each_nil].
    intros h1 pid st h2 E. destruct h1; discriminate.
  - left. split; [apply start_sound; auto|apply start_life; auto|apply (ss_procs _ _ St)| |eapply start_mood; eauto|intros id d; apply (ss_desc _ _ St)].
    destruct St. split; rewrite ?ss_out, ?ss_err; intros fd id K; rewrite lookup_empty in K; discriminate.
Qed.
