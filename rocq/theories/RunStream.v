(** Output streams. *)
From stdpp Require Import gmap strings.
From Coq Require Import Ascii ZArith List Bool Lia Permutation.
From Verif Require Import Base RStr CronModel ConfigModel ProcessModel EnvModel DepModel NotifyModel ManagerModel SysModel
  MainModel SpecDep SpecRun DepProofs CronTimerProofs RunStep RunInv RunFlow RunHist.
Import ListNotations.
Local Open Scope string_scope.
Local Open Scope list_scope.
Local Open Scope Z_scope.

Lemma append_assoc (a b c : string) : (a +:+ b) +:+ c = a +:+ (b +:+ c).
Proof. unfold "+:+". induction a as [|x a IH]; cbn; [reflexivity|]. now rewrite IH. Qed.
Lemma append_nil_r (a : string) : a +:+ "" = a.
Proof. unfold "+:+". induction a as [|x a IH]; cbn; [reflexivity|]. now rewrite IH. Qed.

Lemma written_app fd h1 h2 : written fd (h1 ++ h2) = written fd h1 +:+ written fd h2.
Proof.
  induction h1 as [|ev h1 IH]; cbn; [reflexivity|]. destruct ev; cbn; auto. destruct (fd0 =? fd); [|auto]. rewrite IH, append_assoc. reflexivity.
Qed.
Lemma fetched_app fd h1 h2 : fetched fd (h1 ++ h2) = fetched fd h1 +:+ fetched fd h2.
Proof.
  induction h1 as [|ev h1 IH]; cbn; [reflexivity|]. destruct ev; cbn; auto. destruct (fd0 =? fd); [|auto]. rewrite IH, append_assoc. reflexivity.
Qed.
Lemma stake_sdrop n : forall s, stake n s +:+ sdrop n s = s.
Proof. unfold "+:+". induction n as [|n IH]; intros s; [reflexivity|]. destruct s; cbn; [reflexivity|]. now rewrite IH. Qed.

(** Effects without bytes or descriptors. *)
Definition dry (ev : event) : Prop :=
  match ev with EOpen _ _ _ | EClosed _ | EWrote _ _ | EChunk _ _ => False | _ => True end.
Lemma dry_written fd evs : (forall ev, In ev evs -> dry ev) -> written fd evs = "" /\ fetched fd evs = "".
Proof.
  induction evs as [|ev evs IH]; intros D; [auto|]. destruct IH as [E1 E2]; [intros; apply D; right; auto|].
  specialize (D ev (or_introl eq_refl)). destruct ev; cbn in *; tauto.
Qed.
Lemma dry_kills sg l ev : In ev (kills sg l) -> dry ev.
Proof. intros H. apply in_kills in H. destruct H as (x & -> & _). exact Logic.I. Qed.

Lemma opened_app h evs fd id o : opened (h ++ evs) fd id o <-> (opened h fd id o /\ ~ In (EClosed fd) evs) \/ opened evs fd id o.
Proof.
  unfold opened. split.
  - intros (h1 & h2 & E & N). apply split_app in E. destruct E as [(h3 & -> & E)|(e1 & e2 & -> & E & ->)].
    + left. split.
      * exists h1, h3. split; [auto|]. intros K. apply N. apply in_or_app. auto.
      * intros K. apply N. apply in_or_app. auto.
    + right. eauto.
  - intros [[(h1 & h2 & -> & N) K]|(h1 & h2 & -> & N)].
    + exists h1, (h2 ++ evs). split; [rewrite <- app_assoc; reflexivity|]. intros X. apply in_app_or in X. tauto.
    + exists (h ++ h1), h2. split; [rewrite <- app_assoc; reflexivity|auto].
Qed.
Lemma opened_none evs fd id o : (forall f i b, ~ In (EOpen f i b) evs) -> ~ opened evs fd id o.
Proof. intros N (h1 & h2 & E & _). eapply N. eapply split_in. eauto. Qed.

Record stream_inv (s : sys) : Prop := {
  st_out : forall fd id, opened (s_hist s) fd id true <-> g_out (s_g s) !! fd = Some id;
  st_err : forall fd id, opened (s_hist s) fd id false <-> g_err (s_g s) !! fd = Some id;
  st_data : forall h1 fd id o h2, s_hist s = h1 ++ EOpen fd id o :: h2 -> ~ In (EClosed fd) h2 ->
    exists q, k_pipes (s_k s) !! fd = Some q /\ written fd h2 = fetched fd h2 +:+ pp_buf q
}.

(** Steps without bytes or descriptors. *)
Lemma stream_frame s s' evs : stream_inv s -> s_hist s' = s_hist s ++ evs -> (forall ev, In ev evs -> dry ev) ->
  g_out (s_g s') = g_out (s_g s) -> g_err (s_g s') = g_err (s_g s) ->
  (forall fd q, k_pipes (s_k s) !! fd = Some q -> exists q', k_pipes (s_k s') !! fd = Some q' /\ pp_buf q' = pp_buf q) -> stream_inv s'.
Proof.
  intros [A B C] E D E1 E2 E3.
  assert (No : forall f i b, ~ In (EOpen f i b) evs) by (intros f i b K; apply D in K; destruct K).
  assert (Nc : forall f, ~ In (EClosed f) evs) by (intros f K; apply D in K; destruct K).
  split; rewrite ?E1, ?E2, ?E.
  - intros fd id. rewrite <- A, opened_app. pose proof (opened_none evs fd id true No). specialize (Nc fd). tauto.
  - intros fd id. rewrite <- B, opened_app. pose proof (opened_none evs fd id false No). specialize (Nc fd). tauto.
  - intros h1 fd id o h2 S N. apply split_app in S. destruct S as [(h3 & -> & S)|(e1 & e2 & -> & S & ->)].
    + destruct (C _ _ _ _ _ S) as (q & Hq & W); [intros K; apply N; apply in_or_app; auto|].
      destruct (E3 _ _ Hq) as (q' & Hq' & B'). exists q'. split; [auto|]. rewrite written_app, fetched_app.
      destruct (dry_written fd evs D) as [-> ->]. rewrite !append_nil_r, B'. auto.
    + exfalso. eapply No. eapply split_in; eauto.
Qed.

Lemma stream_step configs e s s' : maps_inv configs e s -> stream_inv s -> ~ panicked s' -> trans e s s' -> stream_inv s'.
Proof.
  intros M I NP T.
  assert (Quiet : forall s' evs, s_hist s' = s_hist s ++ evs -> (forall ev, In ev evs -> dry ev) ->
    g_out (s_g s') = g_out (s_g s) -> g_err (s_g s') = g_err (s_g s) -> k_pipes (s_k s') = k_pipes (s_k s) -> stream_inv s').
  { intros s'' evs E D E1 E2 E3. eapply stream_frame; eauto. rewrite E3. eauto. }
  step_cases T.
  - eapply stream_frame with (evs := []); [exact I|cbn; rewrite app_nil_r; auto|intros ev []|reflexivity|reflexivity|].
    cbn. intros f q H. inversion KM as [k pid Lp Np E1 E2|k pid Np E1 E2|k pid Np E1 E2|k pid st Np V E1 E2|k fd' q' Hq E1 E2]; subst k; cbn; eauto.
    destruct (Z.eq_dec f fd') as [->|X]; [rewrite lookup_insert|rewrite lookup_insert_ne by auto; eauto].
    eexists. split; [reflexivity|]. cbn. congruence.
  - (* write *)
    split; cbn.
    + intros f i. rewrite <- (st_out _ I), opened_app. split.
      * intros [[K _]|(h1 & h2 & E & _)]; [auto|]. apply split_in in E. destruct E as [E|[]]. discriminate.
      * intros K. left. split; [auto|]. intros [E|[]]. discriminate.
    + intros f i. rewrite <- (st_err _ I), opened_app. split.
      * intros [[K _]|(h1 & h2 & E & _)]; [auto|]. apply split_in in E. destruct E as [E|[]]. discriminate.
      * intros K. left. split; [auto|]. intros [E|[]]. discriminate.
    + intros h1 f i o h2 S N. apply split_app in S. destruct S as [(h3 & -> & S)|(e1 & e2 & -> & S & ->)];
        [|apply split_in in S; destruct S as [S|[]]; discriminate].
      destruct (st_data _ I _ _ _ _ _ S) as (q' & Hq' & W); [intros K; apply N; apply in_or_app; auto|].
      rewrite written_app, fetched_app. cbn. destruct (Z.eqb_spec fd f) as [->|X].
      * rewrite lookup_insert. eexists. split; [reflexivity|]. cbn. rewrite !append_nil_r, W, append_assoc. congruence.
      * rewrite lookup_insert_ne by auto. exists q'. rewrite !append_nil_r. auto.
  - apply (Quiet _ []); cbn; rewrite ?app_nil_r; auto. intros ev [].
  - apply (Quiet _ [EExit (g_exit (s_g s))]); cbn; auto. intros ev [<-|[]]. exact Logic.I.
  - apply (Quiet _ []); cbn; rewrite ?app_nil_r; auto. intros ev [].
  - apply (Quiet _ [EDue id now; ESkipped id]); cbn; auto. intros ev [<-|[<-|[]]]; exact Logic.I.
  - destruct (origin_frame _ _ _ _ _ O) as (E1 & E2 & E3 & E4 & E5 & E6 & E7 & E8). apply (Quiet _ (pre ++ [ERefused id])); cbn; auto.
    intros ev K. apply in_app_or in K. destruct K as [K|[<-|[]]]; [|exact Logic.I]. destruct O; [destruct K|destruct K as [<-|[]]; exact Logic.I].
  - destruct (origin_frame _ _ _ _ _ O) as (E1 & E2 & E3 & E4 & E5 & E6 & E7 & E8). apply (Quiet _ (pre ++ [EStartFail id])); cbn; auto.
    intros ev K. apply in_app_or in K. destruct K as [K|[<-|[]]]; [|exact Logic.I]. destruct O; [destruct K|destruct K as [<-|[]]; exact Logic.I].
  - (* started *)
    assert (Np : forall ev, In ev pre -> dry ev).
    { intros ev K. destruct O; [destruct K|destruct K as [<-|[]]; exact Logic.I]. }
    destruct F as (F1 & F2 & F3 & F4 & F5 & _).
    assert (I' : stream_inv (mk_s (s_g s) (s_k s) (s_pc s) (s_shut s) (s_hist s ++ pre ++ [EStart id pid]))).
    { eapply (Quiet _ (pre ++ [EStart id pid])); cbn; auto. intros ev K. apply in_app_or in K. destruct K as [K|[<-|[]]]; [auto|exact Logic.I]. }
    destruct I' as [A B C]. cbn in A, B, C.
    assert (Fo : forall fd, k_pipes (s_k s) !! fd = None -> g_out (s_g s) !! fd = None /\ g_err (s_g s) !! fd = None).
    { intros fd K. split; [destruct (g_out (s_g s) !! fd) eqn:X|destruct (g_err (s_g s) !! fd) eqn:X]; auto; exfalso;
        assert (Y : is_Some (k_pipes (s_k s) !! fd)) by (apply (ma_pipes _ _ _ M); rewrite X; eauto); rewrite K in Y; destruct Y; discriminate. }
    destruct (Fo _ F3) as [O1 O2]. destruct (Fo _ F4) as [R1 R2].
    replace (s_hist s ++ pre ++ [EStart id pid; EOpen out id true; EOpen err id false])
      with ((s_hist s ++ pre ++ [EStart id pid]) ++ [EOpen out id true; EOpen err id false]) by (rewrite <- !app_assoc; reflexivity).
    generalize dependent (s_hist s ++ pre ++ [EStart id pid]). intros h A B C.
    assert (Op : forall f i o, opened [EOpen out id true; EOpen err id false] f i o <-> (f = out /\ i = id /\ o = true) \/ (f = err /\ i = id /\ o = false)).
    { intros f i o. split.
      - intros (h1 & h2 & E & _). apply split_in in E. destruct E as [E|[E|[]]]; inversion E; subst; auto.
      - intros [(-> & -> & ->)|(-> & -> & ->)].
        + exists [], [EOpen err id false]. split; [auto|]. intros [K|[]]. discriminate.
        + exists [EOpen out id true], []. split; [auto|]. intros []. }
    split; cbn.
    + intros f i. rewrite opened_app, Op, A. rewrite lookup_insert_Some. split.
      * intros [[K _]|[(-> & -> & _)|(_ & _ & K)]]; [right|auto|discriminate]. split; [congruence|auto].
      * intros [[<- <-]|[X K]]; [auto|]. left. split; [auto|]. intros [E|[E|[]]]; discriminate.
    + intros f i. rewrite opened_app, Op, B. rewrite lookup_insert_Some. split.
      * intros [[K _]|[(_ & _ & K)|(-> & -> & _)]]; [right|discriminate|auto]. split; [congruence|auto].
      * intros [[<- <-]|[X K]]; [auto|]. left. split; [auto|]. intros [E|[E|[]]]; discriminate.
    + intros h1 f i o h2 S N. apply split_app in S. destruct S as [(h3 & -> & S)|(e1 & e2 & -> & S & ->)].
      * destruct (C _ _ _ _ _ S) as (q & Hq & W); [intros K; apply N; apply in_or_app; auto|].
        exists q. rewrite !lookup_insert_ne by congruence. split; [auto|]. rewrite written_app, fetched_app. cbn. rewrite !append_nil_r. auto.
      * destruct e1 as [|y e1]; [|destruct e1 as [|y' e1]; [|destruct e1; discriminate]]; inversion S; subst.
        -- rewrite lookup_insert_ne, lookup_insert by auto. eexists. split; [reflexivity|]. reflexivity.
        -- rewrite lookup_insert. eexists. split; [reflexivity|]. reflexivity.
  - apply (Quiet _ (ESignal sg :: kills sent (running_pids (s_g s)))); cbn; auto. intros ev [<-|K]; [exact Logic.I|]. eapply dry_kills; eauto.
  - apply (Quiet _ [ESignal SIGCHLD]); cbn; auto. intros ev [<-|[]]. exact Logic.I.
  - apply (Quiet _ [EReport text]); cbn; auto. intros ev [<-|[]]. exact Logic.I.
  - apply (Quiet _ [EIgnored sender]); cbn; auto. intros ev [<-|[]]. exact Logic.I.
  - apply (Quiet _ [ENotify id sender vars]); cbn; auto. intros ev [<-|[]]. exact Logic.I.
  - (* output *)
    remember (map (ELog (is_stdout (s_g s) fd) (p_name p)) (List.filter nonempty (lines (utf8_lossy (stake n (pp_buf q)))))) as logs eqn:El.
    assert (Dl : forall ev, In ev logs -> dry ev).
    { intros ev X. rewrite El in X. apply in_map_iff in X. destruct X as (y & <- & _). exact Logic.I. }
    assert (No : forall f i b, ~ In (EOpen f i b) (EChunk fd (stake n (pp_buf q)) :: logs)).
    { intros f i b [X|X]; [discriminate|]. apply Dl in X. destruct X. }
    assert (Nc : forall f, ~ In (EClosed f) (EChunk fd (stake n (pp_buf q)) :: logs)).
    { intros f [X|X]; [discriminate|]. apply Dl in X. destruct X. }
    split; cbn.
    + intros f i. rewrite <- (st_out _ I), opened_app. pose proof (opened_none _ f i true No). specialize (Nc f). tauto.
    + intros f i. rewrite <- (st_err _ I), opened_app. pose proof (opened_none _ f i false No). specialize (Nc f). tauto.
    + intros h1 f i o h2 S N. apply split_app in S. destruct S as [(h3 & -> & S)|(e1 & e2 & -> & S & ->)];
        [|exfalso; eapply No; eapply split_in; eauto].
      destruct (st_data _ I _ _ _ _ _ S) as (q' & Hq' & W); [intros X; apply N; apply in_or_app; auto|].
      rewrite written_app, fetched_app. cbn. destruct (dry_written f logs Dl) as [-> ->].
      destruct (Z.eqb_spec fd f) as [->|X].
      * rewrite lookup_insert. eexists. split; [reflexivity|]. cbn. rewrite !append_nil_r, append_assoc, stake_sdrop. congruence.
      * rewrite lookup_insert_ne by auto. exists q'. rewrite !append_nil_r. auto.
  - (* closed *)
    split; cbn.
    + intros f i. rewrite opened_app, (st_out _ I), lookup_delete_Some. split.
      * intros [[K N]|(h1 & h2 & E & _)]; [|apply split_in in E; destruct E as [E|[]]; discriminate].
        split; [|auto]. intros ->. apply N. left. auto.
      * intros [X K]. left. split; [auto|]. intros [E|[]]. congruence.
    + intros f i. rewrite opened_app, (st_err _ I), lookup_delete_Some. split.
      * intros [[K N]|(h1 & h2 & E & _)]; [|apply split_in in E; destruct E as [E|[]]; discriminate].
        split; [|auto]. intros ->. apply N. left. auto.
      * intros [X K]. left. split; [auto|]. intros [E|[]]. congruence.
    + intros h1 f i o h2 S N. apply split_app in S. destruct S as [(h3 & -> & S)|(e1 & e2 & -> & S & ->)];
        [|apply split_in in S; destruct S as [S|[]]; discriminate].
      destruct (st_data _ I _ _ _ _ _ S) as (q' & Hq' & W); [intros X; apply N; apply in_or_app; auto|].
      rewrite written_app, fetched_app. cbn. rewrite !append_nil_r. exists q'. rewrite lookup_delete_ne; [auto|].
      intros ->. apply N. apply in_or_app. right. left. auto.
  - apply (Quiet _ [EReap pid st; EUnknown pid (code_of st)]); cbn; auto. intros ev [<-|[<-|[]]]; exact Logic.I.
  - apply (Quiet _ [EReap pid (XRealtime n); ELost pid]); cbn; auto. intros ev [<-|[<-|[]]]; exact Logic.I.
  - apply (Quiet _ (EReap pid st :: EEnd id pid (code_of st) :: kills SIGINT sent)); cbn; auto.
    intros ev [<-|[<-|K]]; try exact Logic.I. eapply dry_kills; eauto.
  - exfalso. apply NP. exact Logic.I.
Qed.

Lemma start_stream configs s : start_state configs s -> stream_inv s.
Proof.
  intros S. split; rewrite ?(ss_hist _ _ S), ?(ss_out _ _ S), ?(ss_err _ _ S).
  - intros fd id. rewrite lookup_empty. split; [|discriminate]. intros (h1 & h2 & E & _). destruct h1; discriminate.
  - intros fd id. rewrite lookup_empty. split; [|discriminate]. intros (h1 & h2 & E & _). destruct h1; discriminate.
  - intros h1 fd id o h2 E. destruct h1; discriminate.
Qed.

(** * A stream is only closed after everything was read *)
Definition close_claim (before : list event) (ev : event) : Prop :=
  match ev with
  | EClosed fd => exists h1 id o h2, before = h1 ++ EOpen fd id o :: h2 /\ ~ In (EClosed fd) h2 /\ written fd h2 = fetched fd h2
  | _ => True
  end.
