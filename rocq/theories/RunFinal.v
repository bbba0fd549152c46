(** The properties of executions, from the invariants. *)
From stdpp Require Import gmap strings.
From Coq Require Import Ascii ZArith List Bool Lia Permutation Relations Wellfounded.
From Verif Require Import Base RStr CronModel ConfigModel ProcessModel EnvModel DepModel NotifyModel ManagerModel SysModel
  MainModel SpecDep SpecTimer SpecRun DepProofs CronTimerProofs RunStep RunInv RunFlow RunHist RunAlive RunStream RunClaims RunLife RunThms.
Import ListNotations.
Local Open Scope string_scope.
Local Open Scope list_scope.
Local Open Scope Z_scope.

Ltac lst := cbn [app]; repeat (rewrite <- app_assoc; cbn [app]); reflexivity.

Lemma first_close fd h : ~ In (EClosed fd) h \/ exists h5 h6, h = h5 ++ EClosed fd :: h6 /\ ~ In (EClosed fd) h5.
Proof.
  induction h as [|ev h IH]; [left; intros []|].
  assert (D : ev = EClosed fd \/ ev <> EClosed fd).
  { destruct ev as [| | | | | |f| | | | | | | | | | | | |]; try (right; discriminate). destruct (Z.eq_dec f fd) as [->|N]; [auto|right; congruence]. }
  destruct D as [->|D]; [right; exists [], h; auto|]. destruct IH as [IH|(h5 & h6 & -> & IH)].
  - left. intros [K|K]; auto.
  - right. exists (ev :: h5), h6. split; [auto|]. intros [K|K]; auto.
Qed.

Section reachable.
Context {k : machine} {e : env} {configs : list proc_config} {s : sys} (R : reachable k e configs s).

Lemma past_of : past configs (s_hist s).
Proof. apply (kn_past _ _ _ (reachable_known _ _ _ _ R)). Qed.

Lemma whole_of : ~ panicked s -> whole configs e s.
Proof. intros N. destruct (kn_now _ _ _ (reachable_known _ _ _ _ R)); [auto|contradiction]. Qed.

(** ** Starts *)
Lemma end_status h1 id pid rc h2 : s_hist s = h1 ++ EEnd id pid rc :: h2 ->
  exists h st, h1 = h ++ [EReap pid st] /\ rc = code_of st /\ valid_status st = true /\ (rc = 0 <-> st = XExit 0) /\ (calm h -> alive h id pid).
Proof.
  intros E. destruct (pa_run _ _ past_of _ _ _ E) as (h & st & -> & -> & A). exists h, st.
  assert (V : valid_status st = true).
  { assert (E2 : s_hist s = h ++ EReap pid st :: EEnd id pid (code_of st) :: h2) by (rewrite E; lst).
    apply (pa_run _ _ past_of _ _ _ E2). }
  split; [auto|]. split; [auto|]. split; [auto|]. split; [|auto].
  destruct st; cbn in *; apply andb_true_iff in V; destruct V as [V1 V2]; apply Z.leb_le in V1, V2;
    (split; intros K; [try (exfalso; lia); subst; auto|inversion K; auto]).
Qed.

Lemma notify_type id pid vars : In (ENotify id pid vars) (s_hist s) -> notifier configs id.
Proof.
  intros K. apply in_split in K. destruct K as (h1 & h2 & E). apply (pa_run _ _ past_of _ _ _ E).
Qed.

Lemma start_order h1 v pid h2 u : s_hist s = h1 ++ EStart v pid :: h2 -> depends configs u v ->
  ~ cronjob configs u /\ (succeeded h1 u \/ (notifier configs u /\ notified h1 u "READY" "1")).
Proof.
  intros E D. split; [eapply (kn_cron _ _ _ (reachable_known _ _ _ _ R)); eauto|].
  destruct (pa_starts _ _ past_of _ _ _ E) as (C & _). destruct (C _ D) as [K|K]; [auto|]. right. split; [|auto].
  destruct K as (x & vars & K & _). eapply notify_type. rewrite E. apply in_or_app. eauto.
Qed.

Lemma start_once h1 id x h2 : s_hist s = h1 ++ EStart id x :: h2 -> ~ cronjob configs id -> forall y, ~ In (EStart id y) h1 /\ ~ In (EStart id y) h2.
Proof.
  intros E N y. split.
  - destruct (pa_starts _ _ past_of _ _ _ E) as (_ & _ & C & _). auto.
  - intros K. apply in_split in K. destruct K as (h3 & h4 & ->).
    assert (E2 : s_hist s = (h1 ++ EStart id x :: h3) ++ EStart id y :: h4) by (rewrite E; lst).
    destruct (pa_starts _ _ past_of _ _ _ E2) as (_ & _ & C & _). apply (C N x). apply in_or_app. cbn. auto.
Qed.

Lemma restart h1 id x h2 y h3 : s_hist s = h1 ++ EStart id x :: h2 ++ EStart id y :: h3 ->
  cronjob configs id /\ exists h4 h5, h2 = h4 ++ EReap x (XExit 0) :: EEnd id x 0 :: h5.
Proof.
  intros E. assert (E2 : s_hist s = (h1 ++ EStart id x :: h2) ++ EStart id y :: h3) by (rewrite E; lst).
  destruct (pa_starts _ _ past_of _ _ _ E2) as (_ & _ & C1 & C2). destruct (cronjob_dec configs id) as [J|J].
  2:{ exfalso. apply (C1 J x). apply in_or_app. cbn. auto. }
  split; [auto|]. destruct (C2 J) as [_ A]. destruct (A _ _ _ eq_refl) as [_ K]. apply in_split in K. destruct K as (h4 & h5 & ->).
  assert (E3 : s_hist s = (h1 ++ EStart id x :: h4) ++ EEnd id x 0 :: h5 ++ EStart id y :: h3).
  { rewrite E. lst. }
  destruct (end_status _ _ _ _ _ E3) as (h & st & F & _ & _ & Z & _). apply proj1 in Z. specialize (Z eq_refl). subst st.
  destruct (exists_last (l := EStart id x :: h4)) as (l & z & L); [discriminate|]. rewrite L, app_assoc in F. apply app_inj_tail in F. destruct F as [_ ->].
  destruct h4 as [|a h4]; [destruct l as [|? [|? ?]]; inversion L|].
  destruct l as [|b l]; inversion L; subst. exists l, h5. rewrite H1, <- app_assoc. reflexivity.
Qed.

Lemma one_alive id x y : alive (s_hist s) id x -> alive (s_hist s) id y -> x = y.
Proof.
  intros (a1 & a2 & A & NA) (b1 & b2 & B & NB). rewrite A in B. apply split_app in B.
  assert (G : forall h1 p h2 q h3, s_hist s = h1 ++ EStart id p :: h2 ++ EStart id q :: h3 -> exists st, In (EReap p st) h2).
  { intros h1 p h2 q h3 E. destruct (restart _ _ _ _ _ _ E) as (_ & h4 & h5 & ->). exists (XExit 0). apply in_or_app. cbn. auto. }
  destruct B as [(h3 & -> & ->)|([|z e1] & e2 & -> & B & ->)].
  - exfalso. destruct (G b1 y h3 x a2) as [st K]; [rewrite A, <- app_assoc; reflexivity|]. eapply NB. apply in_or_app. eauto.
  - cbn in B. inversion B. auto.
  - exfalso. cbn in B. inversion B; subst. destruct (G a1 x e1 y e2) as [st K]; [auto|]. eapply NA. apply in_or_app. eauto.
Qed.

Lemma no_start_after h1 ev h2 : s_hist s = h1 ++ ev :: h2 -> shutdown_trigger ev -> forall id pid, ~ In (EStart id pid) h2.
Proof.
  intros E T id pid K. apply in_split in K. destruct K as (h3 & h4 & ->).
  assert (E2 : s_hist s = (h1 ++ ev :: h3) ++ EStart id pid :: h4) by (rewrite E; lst).
  destruct (pa_starts _ _ past_of _ _ _ E2) as (_ & N & _). apply (N ev); [apply in_or_app; cbn; auto|auto].
Qed.

Lemma due_before h1 id pid h2 : s_hist s = h1 ++ EStart id pid :: h2 -> cronjob configs id -> exists h now, h1 = h ++ [EDue id now].
Proof. intros E J. destruct (pa_starts _ _ past_of _ _ _ E) as (_ & _ & _ & C). destruct (C J); auto. Qed.

(** ** The end *)
Lemma exit_code h1 code h2 : s_hist s = h1 ++ EExit code :: h2 ->
  (code = 0 \/ code = 6) /\ (code = 6 <-> exists id pid rc, In (EEnd id pid rc) h1 /\ rc <> 0).
Proof.
  intros E. destruct (pa_run _ _ past_of _ _ _ E) as ([(-> & K)|(-> & K)] & _).
  - split; [auto|]. split; auto.
  - split; [auto|]. split; [discriminate|]. intros (id & pid & rc & X & Y). exfalso. eauto.
Qed.

Lemma nobody_left h1 code h2 : s_hist s = h1 ++ EExit code :: h2 -> calm h1 -> forall id x, ~ alive h1 id x.
Proof. intros E. apply (pa_run _ _ past_of _ _ _ E). Qed.

Lemma alive_fun h1 h2 id id' x : s_hist s = h1 ++ h2 -> calm h1 -> alive h1 id x -> alive h1 id' x -> id = id'.
Proof.
  intros E Cm (a1 & a2 & A & NA) (b1 & b2 & B & NB).
  assert (G : forall p1 i p2 j p3, h1 = p1 ++ EStart i x :: p2 ++ EStart j x :: p3 -> (forall st, ~ In (EReap x st) p2) -> False).
  { intros p1 i p2 j p3 F N.
    assert (E2 : s_hist s = (p1 ++ EStart i x :: p2) ++ EStart j x :: p3 ++ h2) by (rewrite E, F; lst).
    destruct (pa_fresh _ _ past_of _ _ _ E2) as [_ K].
    assert (Cm' : calm ((p1 ++ EStart i x :: p2) ++ EStart j x :: p3)) by (rewrite <- app_assoc; rewrite F in Cm; exact Cm).
    apply calm_app in Cm'. apply (K (proj1 Cm') i). exists p1, p2. auto. }
  rewrite A in B. apply split_app in B. destruct B as [(h3 & -> & ->)|([|z e1] & e2 & -> & B & ->)].
  - exfalso. eapply (G b1 id' h3 id a2); [rewrite A, <- app_assoc; reflexivity|]. intros st K. eapply NB. apply in_or_app. eauto.
  - cbn in B. inversion B. auto.
  - exfalso. cbn in B. inversion B; subst. eapply (G a1 id e1 id' e2); [reflexivity|]. intros st K. eapply NA. apply in_or_app. eauto.
Qed.

(** A program's end is noticed. *)
Lemma end_noticed h1 pid st h2 id : s_hist s = h1 ++ EReap pid st :: h2 -> (forall n, st <> XRealtime n) -> calm h1 -> alive h1 id pid ->
  exists h3, h2 = EEnd id pid (code_of st) :: h3.
Proof.
  intros E NR Cm Al. destruct (pa_follow _ _ past_of _ _ _ _ E) as (ev & h3 & -> & K).
  assert (E2 : s_hist s = (h1 ++ [EReap pid st]) ++ ev :: h3) by (rewrite E; lst).
  pose proof (pa_run _ _ past_of _ _ _ E2) as C. destruct ev; try contradiction.
  - destruct K as (-> & -> & _). cbn in C. destruct C as (h & st' & F & _ & C). apply app_inj_tail in F. destruct F as [<- F]. inversion F; subst st'.
    rewrite <- (alive_fun _ _ _ _ _ E Cm Al (C Cm)). eauto.
  - destruct K as (-> & -> & _). cbn in C. destruct C as (h & st' & F & _ & C). apply app_inj_tail in F. destruct F as [<- F]. exfalso. eapply C; eauto.
  - destruct K as (_ & n & K). exfalso. eapply NR; eauto.
Qed.

Lemma code_zero st : valid_status st = true -> code_of st = 0 <-> st = XExit 0.
Proof.
  destruct st; cbn; intros V; apply andb_true_iff in V; destruct V as [V1 V2]; apply Z.leb_le in V1, V2;
    (split; intros K; [try (exfalso; lia); subst; auto|inversion K; auto]).
Qed.

Lemma calm_prefix h1 h2 : calm (h1 ++ h2) -> calm h1.
Proof. intros C. apply (proj1 (calm_app _ _ C)). Qed.

Lemma exit_code_programs h1 code h2 : s_hist s = h1 ++ EExit code :: h2 -> calm h1 ->
  (code = 0 \/ code = 6) /\ (code = 6 <-> exists id, failed h1 id).
Proof.
  intros E Cm. destruct (exit_code _ _ _ E) as [A B]. split; [auto|]. rewrite B. split.
  - intros (id & pid & rc & K & NZ). apply in_split in K. destruct K as (p1 & p2 & ->).
    assert (E2 : s_hist s = p1 ++ EEnd id pid rc :: p2 ++ EExit code :: h2) by (rewrite E; lst).
    destruct (end_status _ _ _ _ _ E2) as (h & st & -> & -> & V & Z & Al). exists id.
    exists h, pid, st, (EEnd id pid (code_of st) :: p2). split; [rewrite <- app_assoc; reflexivity|]. split; [|rewrite <- Z; auto].
    apply Al. rewrite <- app_assoc in Cm. eapply calm_prefix; eauto.
  - intros (id & p1 & pid & st & p2 & -> & Al & NZ).
    assert (E2 : s_hist s = p1 ++ EReap pid st :: p2 ++ EExit code :: h2) by (rewrite E; lst).
    assert (V := pa_run _ _ past_of _ _ _ E2). cbn in V.
    assert (C1 := calm_prefix _ _ Cm).
    destruct (end_noticed _ _ _ _ id E2) as (h3 & E3); auto.
    { intros n ->. apply (proj2 Cm _ _ _ _ eq_refl id). auto. }
    destruct p2 as [|a p2]; [destruct h3; discriminate|]. inversion E3; subst.
    exists id, pid, (code_of st). split; [apply in_or_app; cbn; auto|]. rewrite code_zero by auto. auto.
Qed.

Lemma streams_drained h1 code h2 : s_hist s = h1 ++ EExit code :: h2 -> forall h3 fd id o h4, h1 = h3 ++ EOpen fd id o :: h4 ->
  exists h5 h6, h4 = h5 ++ EClosed fd :: h6 /\ ~ In (EClosed fd) h5 /\ written fd h5 = fetched fd h5.
Proof.
  intros E h3 fd id o h4 F. destruct (pa_run _ _ past_of _ _ _ E) as (_ & _ & No).
  destruct (first_close fd h4) as [K|(h5 & h6 & -> & N5)]; [exfalso; apply (No fd id o); exists h3, h4; auto|].
  exists h5, h6. split; [auto|]. split; [auto|].
  assert (E2 : s_hist s = (h3 ++ EOpen fd id o :: h5) ++ EClosed fd :: h6 ++ EExit code :: h2) by (rewrite E, F; lst).
  destruct (pa_run _ _ past_of _ _ _ E2) as (a & i & b & c & A & Nc & W).
  assert (G : forall p1 i p2 j o' p3 q o, s_hist s = p1 ++ EOpen fd i o :: p2 ++ EOpen fd j o' :: p3 ++ q -> ~ In (EClosed fd) p2 -> False).
  { intros p1 i' p2 j o' p3 q o'' X N. assert (X2 : s_hist s = (p1 ++ EOpen fd i' o'' :: p2) ++ EOpen fd j o' :: p3 ++ q) by (rewrite X; lst).
    apply (pa_fresh _ _ past_of _ _ _ X2 i' o''). exists p1, p2. auto. }
  apply split_app in A. destruct A as [(h7 & -> & ->)|([|z e1] & e2 & -> & A & ->)].
  - exfalso. eapply (G a i h7 id o h5 (EClosed fd :: h6 ++ EExit code :: h2) b); [rewrite E2; lst|]. intros K. apply Nc. apply in_or_app. auto.
  - cbn in A. inversion A; subst. auto.
  - exfalso. cbn in A. inversion A; subst. eapply (G h3 id e1 i b e2 (EClosed fd :: h6 ++ EExit code :: h2) o); [rewrite E2; lst|].
    intros K. apply N5. apply in_or_app. auto.
Qed.

(** ** A clean exit *)
Lemma finished_of : forall code, In (EExit code) (s_hist s) -> s_pc s = Finished code /\ whole configs e s \/ panicked s.
Proof.
  intros code K. destruct (kn_now _ _ _ (reachable_known _ _ _ _ R)) as [W|P]; [|auto]. left. split; [|auto].
  apply (lf_exit _ _ (wh_life _ _ _ W)). auto.
Qed.

Lemma everything_ran code : s_pc s = Finished code -> calm (s_hist s) -> (forall ev, In ev (s_hist s) -> ~ shutdown_trigger ev) ->
  (forall id, In (EStartFail id) (s_hist s) -> cronjob configs id) ->
  forall id, (id < length configs)%nat -> ~ cronjob configs id -> exists pid, In (EStart id pid) (s_hist s) /\ In (EEnd id pid 0) (s_hist s).
Proof.
  intros F Cm NT NF.
  assert (W : whole configs e s) by (apply whole_of; unfold panicked; rewrite F; auto).
  destruct W as [[G S A] L _ _ _ _]. specialize (A Cm). destruct G as [M Lo Fl _].
  destruct (lo_finished _ Lo _ F) as (Hr & Sh & _).
  assert (Nr : dm_runnable (g_dep (s_g s)) = []).
  { destruct (lo_shut _ Lo Sh) as [K|(_ & K & _)].
    - exfalso. destruct (lf_keep _ _ L K) as (ev & X & Y). eapply NT; eauto.
    - unfold has_runnables in K. destruct (dm_runnable _); [auto|discriminate]. }
  assert (Np : g_pids (s_g s) = ∅).
  { unfold has_running_processes in Hr. apply negb_false_iff in Hr. apply andb_true_iff in Hr. destruct Hr as [_ Hr]. apply bool_decide_eq_true in Hr. auto. }
  destruct (fl_dep _ _ Fl) as (handed & D1 & _ & D3 & _).
  assert (Wf : well_founded (depends configs)).
  { apply (acyclic_wf _ (length configs)); [|apply (kn_acyclic _ _ _ (reachable_known _ _ _ _ R))]. intros u v D. apply depends_bound in D. auto. }
  intros id. induction (Wf id) as [id _ IH]. intros Lt NC.
  assert (Rel : released configs (finished configs (s_hist s)) id).
  { split; [auto|]. intros u D. destruct (IH u D) as (pid & _ & K).
    - apply depends_bound in D. tauto.
    - eapply (kn_cron _ _ _ (reachable_known _ _ _ _ R)); eauto.
    - left. split; [eapply (kn_cron _ _ _ (reachable_known _ _ _ _ R)); eauto|eauto]. }
  apply (dep_inv_released _ _ _ _ _ D1) in Rel. rewrite Nr, app_nil_r in Rel.
  destruct (D3 _ Rel NC) as [[pid K]|K]; [|exfalso; apply NC; auto].
  assert (Ex : is_Some (g_procs (s_g s) !! id)) by (apply lookup_lt_is_Some; rewrite (ma_len _ _ _ M); auto). destruct Ex as [p Hp].
  destruct (lf_started _ _ L _ _ _ Hp K) as [Ac|(x & rc & X)].
  - exfalso. apply (al_active _ A _ _ Hp) in Ac. rewrite Np, lookup_empty in Ac. discriminate.
  - assert (rc = 0) as ->.
    { destruct (Z.eq_dec rc 0) as [?|N]; [auto|]. exfalso. eapply NT; [exact X|exact N]. }
    exists x. split; [|auto]. apply in_split in X. destruct X as (h1 & h2 & E).
    destruct (end_status _ _ _ _ _ E) as (h & st & -> & _ & _ & _ & Al). destruct Al as (a1 & a2 & -> & _).
    + rewrite E in Cm. rewrite <- app_assoc in Cm. eapply calm_prefix; eauto.
    + rewrite E. apply in_or_app. left. apply in_or_app. left. apply in_or_app. cbn. auto.
Qed.

(** ** Signals *)
Lemma running_nodup : alive_inv s -> List.NoDup (running_pids (s_g s)).
Proof.
  intros A. unfold running_pids.
  assert (G : forall l off, (forall i p, l !! i = Some p -> p_state p = Running -> g_pids (s_g s) !! p_pid p = Some (off + i)%nat) ->
    List.NoDup (map p_pid (List.filter (fun p => pstate_eqb (p_state p) Running) l))).
  { induction l as [|p l IH]; intros off H; cbn; [constructor|].
    assert (H' : forall i q, l !! i = Some q -> p_state q = Running -> g_pids (s_g s) !! p_pid q = Some (S off + i)%nat).
    { intros i q K1 K2. replace (S off + i)%nat with (off + S i)%nat by lia. apply H; auto. }
    destruct (pstate_eqb (p_state p) Running) eqn:E; cbn; [|eapply IH; eauto]. constructor; [|eapply IH; eauto].
    intros K. apply in_map_iff in K. destruct K as (q & Eq & K). apply filter_In in K. destruct K as [K1 K2].
    apply elem_of_list_In, elem_of_list_lookup in K1. destruct K1 as [i K1]. apply pstate_eqb_spec in E, K2.
    pose proof (H' _ _ K1 K2) as X. pose proof (H 0%nat p eq_refl E) as Y. rewrite Eq in X. rewrite X in Y. inversion Y. lia. }
  apply (G _ 0%nat). intros i p Hp St. apply (al_active _ A _ _ Hp). rewrite St. unfold active. auto.
Qed.

Lemma running_are : whole configs e s -> alive_inv s -> forall x,
  In x (running_pids (s_g s)) <-> exists id, alive (s_hist s) id x /\ responsive configs (s_hist s) id.
Proof.
  intros W A x. assert (M := go_maps _ _ _ (so_good _ _ _ (wh_sound _ _ _ W))). rewrite running_in. split.
  - intros (id & p & Hp & St & <-). exists id. split.
    + apply (al_pids _ A). apply (al_active _ A _ _ Hp). rewrite St. unfold active. auto.
    + intros (c & Hc & Ty). destruct (ma_proc _ _ _ M _ _ Hp) as (c' & Hc' & _ & Tp). rewrite Hc in Hc'. inversion Hc'; subst c'.
      rewrite Ty in Tp. destruct (md_state _ (wh_mood _ _ _ W) _ _ Hp Tp) as (B1 & B2 & B3); [rewrite St; unfold active; auto|].
      split; [auto|]. rewrite <- B1, St. discriminate.
  - intros (id & Al & Re). apply (al_pids _ A) in Al. destruct (ma_pid _ _ _ M _ _ Al) as (p & Hp & <- & Ac). exists id, p. split; [auto|]. split; [|auto].
    destruct (ma_proc _ _ _ M _ _ Hp) as (c & Hc & _ & Tp). pose proof (lf_type _ _ (wh_life _ _ _ W) _ _ Hp) as K.
    destruct (pc_type c) eqn:Ty; cbn in Tp; rewrite Tp in K.
    + destruct Ac as [Ac|[Ac|Ac]]; tauto.
    + destruct (md_state _ (wh_mood _ _ _ W) _ _ Hp Tp Ac) as (B1 & B2 & B3).
      destruct Re as [R1 R2]; [exists c; auto|]. rewrite <- B1 in R2. specialize (B3 R1). destruct Ac as [Ac|[Ac|Ac]]; tauto.
    + destruct Ac as [Ac|[Ac|Ac]]; tauto.
Qed.

Lemma kill_all_total r sg l : (forall x, In x l -> r x = true) -> kill_all r sg l = (kills sg l, true).
Proof. induction l as [|x l IH]; cbn; intros H; [auto|]. rewrite H, IH; auto. Qed.

Lemma signal_forwarded s' sg rest : calm (s_hist s) -> s_pc s = AtEvents (EvIn (e_signal e) :: rest) -> sg <> SIGCHLD ->
  sstep e s (CEvent (ASignal (Some sg))) = Some s' ->
  exists l, s_hist s' = s_hist s ++ ESignal sg :: map (fun x => EKill x (forwarded sg)) l /\ List.NoDup l /\
    (forall x, In x l <-> exists id, alive (s_hist s) id x /\ responsive configs (s_hist s) id) /\ s_pc s' = AtEvents rest.
Proof.
  intros Cm P N H. assert (W : whole configs e s) by (apply whole_of; unfold panicked; rewrite P; auto).
  assert (A := so_alive _ _ _ (wh_sound _ _ _ W) Cm). exists (running_pids (s_g s)).
  assert (E : s_hist s' = s_hist s ++ ESignal sg :: kills (forwarded sg) (running_pids (s_g s)) /\ s_pc s' = AtEvents rest).
  { cbn in H. rewrite P in H. cbn in H. rewrite Z.eqb_refl in H. inversion H; subst s'. clear H.
    assert (K : forall sg', kill_all (reach (s_k s)) sg' (running_pids (s_g s)) = (kills sg' (running_pids (s_g s)), true)).
    { intros sg'. apply kill_all_total. intros x Hx. apply (running_reach _ A) in Hx. tauto. }
    destruct sg; cbn; unfold initiate_shutdown; cbn; rewrite ?K; cbn; try contradiction; auto. }
  destruct E as [E1 E2]. split; [auto|]. split; [apply running_nodup; auto|]. split; [apply running_are; auto|auto].
Qed.
End reachable.
