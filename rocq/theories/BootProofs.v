(** Proofs about the descriptors of cinit from its start to its end. *)
From stdpp Require Import gmap strings.
From Coq Require Import ZArith List Bool Lia Permutation.
From Verif Require Import Base ConfigModel ProcessModel DepModel MainModel SetupModel SpecMain SpecSetup SetupProofs ManagerModel SysModel SpecRun RunStep RunInv RunFlow
  RunStream RunClaims RunHist RunThms RunFinal RunSteps4 ChildModel FdModel SpecChild FdProofs SpecBoot.
Import ListNotations.
Local Open Scope string_scope.
Local Open Scope list_scope.
Local Open Scope Z_scope.

(** * Start *)
Lemma run_on_run k a h configs an h' : fresh a h -> run_on k a h = (Ret (EntersLoop configs an), h') -> run (faultless k) = Ret (EntersLoop configs an).
Proof.
  intros F R. destruct (run_on_early k a h) as [(E & E2 & _)|(cs & ps & dep & cron & H)].
  - rewrite E2. rewrite E in R. inversion R as [[R1 R2]]. reflexivity.
  - assert (L := run_on_late k a h _ _ _ _ F H). rewrite R in L. simpl in L. inversion L; subst.
    rewrite (run_late (faultless k) _ _ _ _ H). reflexivity.
Qed.

Lemma four_open t s1 s2 s3 s4 : List.NoDup [s1; s2; s3; s4] -> (forall fd, In fd [s1; s2; s3; s4] -> t !! fd = None) ->
  own_fds t s1 s2 s3 s4 = Some (<[s4 := {| d_file := FOwn "epoll"; d_cloexec := true |}]> (<[s3 := {| d_file := FOwn "notify socket"; d_cloexec := true |}]>
    (<[s2 := {| d_file := FOwn "status socket"; d_cloexec := true |}]> (<[s1 := {| d_file := FOwn "signalfd"; d_cloexec := true |}]> t)))).
Proof.
  intros N F. inversion N as [|? ? N1 ND1]; subst. inversion ND1 as [|? ? N2 ND2]; subst. inversion ND2 as [|? ? N3 _]; subst. simpl in N1, N2, N3, F.
  unfold own_fds, FdModel.open.
  rewrite (F s1) by auto. cbn [opt_bind].
  rewrite lookup_insert_ne by (intros E; apply N1; auto). rewrite (F s2) by auto. cbn [opt_bind].
  rewrite !lookup_insert_ne by (intros E; first [solve [apply N1; auto]|solve [apply N2; auto]]). rewrite (F s3) by auto. cbn [opt_bind].
  rewrite !lookup_insert_ne by (intros E; first [solve [apply N1; auto]|solve [apply N2; auto]|solve [apply N3; auto]]). rewrite (F s4) by auto. reflexivity.
Qed.

Lemma started_table a h h' t0 t1 : fresh a h -> SpecSetup.ready a h h' -> same_table (SetupModel.h_fds h) t0 -> same_table (SetupModel.h_fds h') t1 ->
  own_fds t0 (f_signal a) (f_status a) (f_notify a) (f_epoll a) = Some t1.
Proof.
  intros [N F] R S0 S1. rewrite (four_open t0); auto.
  2:{ intros fd Hfd. rewrite (S0 fd), (F fd Hfd). reflexivity. }
  f_equal. apply map_eq. intros fd. rewrite (S1 fd).
  destruct R as ((s1 & R1 & T1 & _) & (s2 & R2 & T2 & _) & (l & R3 & _) & (m & R4 & _) & _ & _ & _ & R5).
  inversion N as [|? ? N1 ND1]; subst. inversion ND1 as [|? ? N2 ND2]; subst. inversion ND2 as [|? ? N3 _]; subst. simpl in N1, N2, N3.
  destruct (Z.eq_dec fd (f_epoll a)) as [->|Q4]; [rewrite lookup_insert, R4; reflexivity|]. rewrite lookup_insert_ne by congruence.
  destruct (Z.eq_dec fd (f_notify a)) as [->|Q3]; [rewrite lookup_insert, R2; cbn; rewrite T2; reflexivity|]. rewrite lookup_insert_ne by congruence.
  destruct (Z.eq_dec fd (f_status a)) as [->|Q2]; [rewrite lookup_insert, R1; cbn; rewrite T1; reflexivity|]. rewrite lookup_insert_ne by congruence.
  destruct (Z.eq_dec fd (f_signal a)) as [->|Q1]; [rewrite lookup_insert, R3; reflexivity|]. rewrite lookup_insert_ne by congruence.
  rewrite (S0 fd), R5; [reflexivity|]. simpl. intros [E|[E|[E|[E|[]]]]]; congruence.
Qed.

Lemma acts_app l : forall st l' st', acts st l = Some st' -> acts st (l ++ l') = acts st' l'.
Proof.
  induction l as [|x l IH]; cbn; intros st l' st' H; [inversion H; reflexivity|]. destruct (FdModel.act st x); [eauto|discriminate].
Qed.

(** * The table *)
Lemma starts_app h h' : starts (h ++ h') = (starts h + starts h')%nat.
Proof. induction h as [|ev h IH]; cbn; [reflexivity|]. destruct ev; cbn; rewrite IH; reflexivity. Qed.

Lemma snoc_split {A} (h : list A) x h1 y h2 : h ++ [x] = h1 ++ y :: h2 -> (h2 = [] /\ h1 = h /\ y = x) \/ exists h2', h2 = h2' ++ [x] /\ h = h1 ++ y :: h2'.
Proof.
  destruct h2 as [|z h2] using rev_ind; intros E.
  - left. apply app_inj_tail in E. destruct E as [-> ->]. auto.
  - right. exists h2. split.
    + rewrite app_comm_cons, app_assoc in E. apply app_inj_tail in E. destruct E as [_ ->]. reflexivity.
    + rewrite app_comm_cons, app_assoc in E. apply app_inj_tail in E. tauto.
Qed.

Lemma stream_snoc h ev fd d : stream_desc (h ++ [ev]) fd d <->
  (stream_desc h fd d /\ ev <> EClosed fd) \/
  (exists id out n, ev = EOpen fd id out /\ starts h = S n /\ d = {| d_file := FReader n out; d_cloexec := true |}).
Proof.
  split.
  - intros (h1 & id & out & h2 & n & E & N & S & D). apply snoc_split in E. destruct E as [(-> & -> & <-)|(h2' & -> & ->)].
    + right. eauto 10.
    + left. split.
      * exists h1, id, out, h2', n. split; [reflexivity|]. split; [intros K; apply N; apply in_or_app; auto|auto].
      * intros ->. apply N. apply in_or_app. right. left. reflexivity.
  - intros [((h1 & id & out & h2 & n & -> & N & S & D) & X)|(id & out & n & -> & S & D)].
    + exists h1, id, out, (h2 ++ [ev]), n. rewrite <- app_assoc. split; [reflexivity|]. split; [|auto].
      intros K. apply in_app_or in K. destruct K as [K|[K|[]]]; auto.
    + exists h, id, out, [], n. auto.
Qed.

Definition describes (a : SetupModel.answers) (t0 : table) (h : list event) (st : fdstate) : Prop :=
  f_count st = starts h /\ forall fd d, f_table st !! fd = Some d <-> t0 !! fd = Some d \/ own_desc a fd d \/ stream_desc h fd d.

Lemma describes_quiet a t0 h st ev : ~ about_descriptors ev \/ (exists id, ev = EStartFail id) \/ (exists text, ev = EReport text) ->
  describes a t0 h st -> describes a t0 (h ++ [ev]) st.
Proof.
  intros N [C T]. split.
  - rewrite C, starts_app. destruct ev; cbn in *; try lia.
    destruct N as [N|[[? N]|[? N]]]; [destruct N; exact Logic.I|discriminate|discriminate].
  - intros fd d. rewrite T, stream_snoc.
    assert (X : ev <> EClosed fd) by (intros ->; destruct N as [N|[[? N]|[? N]]]; [apply N; exact Logic.I|discriminate|discriminate]).
    assert (Y : forall id out, ev <> EOpen fd id out) by (intros id out ->; destruct N as [N|[[? N]|[? N]]]; [apply N; exact Logic.I|discriminate|discriminate]).
    split; [tauto|]. intros [K|[K|[[K _]|(id & out & n & K & _)]]]; auto. destruct (Y _ _ K).
Qed.

Lemma report_same st fd st' : FdModel.act st (AReport fd) = Some st' -> st' = st.
Proof.
  cbn. unfold FdModel.open. destruct (f_table st !! fd) eqn:E; [discriminate|]. intros H. apply Some_inj in H. subst st'.
  destruct st as [t c]. cbn in *. f_equal. rewrite delete_insert by exact E. apply delete_notin. exact E.
Qed.

Lemma describes_moves a t0 evs l : (forall fd x, t0 !! fd = Some x -> d_file x = FInherited fd) -> moves evs l ->
  forall h st st', describes a t0 h st -> acts st l = Some st' -> describes a t0 (h ++ evs) st'.
Proof.
  intros Inh M. induction M as [|id pid x evs l M IH|id evs l M IH|fd evs l M IH|text fd evs l M IH|ev evs l N M IH]; intros h st st' D A.
  - cbn in A. apply Some_inj in A. subst. rewrite app_nil_r. exact D.
  - cbn [acts] in A. destruct (FdModel.act st (AStart x)) as [st1|] eqn:E; [|discriminate].
    replace (h ++ EStart id pid :: EOpen (n_out x) id true :: EOpen (n_err x) id false :: evs)
      with ((((h ++ [EStart id pid]) ++ [EOpen (n_out x) id true]) ++ [EOpen (n_err x) id false]) ++ evs) by (rewrite <- !app_assoc; reflexivity).
    apply (IH _ st1); [|exact A]. clear IH M A. destruct D as [C T]. cbn in E.
    destruct (create_std_fds (f_table st) (f_count st) x) as [t|] eqn:G; [|discriminate]. apply Some_inj in E. subst st1.
    apply create_inv in G. destruct G as (F1 & F2 & F3 & F4 & (D1 & D2 & D3 & D4 & D5 & D6) & ->). split; cbn [f_table f_count].
    + rewrite !starts_app. cbn. lia.
    + intros fd d. rewrite !stream_snoc.
      assert (S1 : forall h', starts (h' ++ [EStart id pid]) = S (starts h')) by (intros h'; rewrite starts_app; cbn; lia).
      assert (S2 : forall h' f i o, starts (h' ++ [EOpen f i o]) = starts h') by (intros h' f i o; rewrite starts_app; cbn; lia).
      rewrite ?S2, ?S1.
      assert (Old : forall f, f_table st !! f = None -> forall d', ~ (t0 !! f = Some d' \/ own_desc a f d' \/ stream_desc h f d')).
      { intros f Hf d' K. apply T in K. congruence. }
      destruct (Z.eq_dec fd (n_err x)) as [->|Q1].
      { rewrite !lookup_delete_ne, lookup_insert by congruence. split.
        - intros K. apply Some_inj in K. subst d. right. right. right. exists id, false, (f_count st). rewrite C. auto.
        - intros [K|[K|[[[[[[K _]|K] _]|K] _]|K]]]; try solve [exfalso; eapply (Old _ F3); eauto].
          + destruct K as (? & ? & ? & K & _). discriminate.
          + destruct K as (? & ? & ? & K & _). injection K as K _ _. congruence.
          + destruct K as (? & ? & n & K & K2 & ->). injection K as <- <-. injection K2 as K2. rewrite C, K2. reflexivity. }
      destruct (Z.eq_dec fd (n_out x)) as [->|Q2].
      { rewrite !lookup_delete_ne, lookup_insert_ne, lookup_insert by congruence. split.
        - intros K. apply Some_inj in K. subst d. right. right. left. split; [|discriminate]. right. exists id, true, (f_count st). rewrite C. auto.
        - intros [K|[K|[[[[[[K _]|K] _]|K] _]|K]]]; try solve [exfalso; eapply (Old _ F1); eauto].
          + destruct K as (? & ? & ? & K & _). discriminate.
          + destruct K as (? & ? & n & K & K2 & ->). injection K as <- <-. injection K2 as K2. rewrite C, K2. reflexivity.
          + destruct K as (? & ? & ? & K & _). injection K as K _ _. congruence. }
      assert (L : delete (n_err' x) (delete (n_out' x)
        (<[n_err x := {| d_file := FReader (f_count st) false; d_cloexec := true |}]> (<[n_out x := {| d_file := FReader (f_count st) true; d_cloexec := true |}]>
        (<[n_err' x := {| d_file := FWriter (f_count st) false; d_cloexec := false |}]> (<[n_out' x := {| d_file := FWriter (f_count st) true; d_cloexec := false |}]> (f_table st)))))) !! fd
        = f_table st !! fd).
      { destruct (Z.eq_dec fd (n_err' x)) as [->|Q3]; [rewrite lookup_delete; congruence|]. rewrite lookup_delete_ne by congruence.
        destruct (Z.eq_dec fd (n_out' x)) as [->|Q4]; [rewrite lookup_delete; congruence|]. rewrite lookup_delete_ne by congruence.
        rewrite !lookup_insert_ne by congruence. reflexivity. }
      rewrite L, T. split.
      * intros [K|[K|K]]; auto. right. right. left. split; [|discriminate]. left. split; [|discriminate]. left. split; [exact K|discriminate].
      * intros [K|[K|[[[[[[K _]|K] _]|K] _]|K]]]; auto; destruct K as (? & ? & ? & K & _); [discriminate|injection K as K _ _; congruence|injection K as K _ _; congruence].
  - cbn [acts FdModel.act] in A. replace (h ++ EStartFail id :: evs) with ((h ++ [EStartFail id]) ++ evs) by (rewrite <- app_assoc; reflexivity).
    apply (IH _ st); [|exact A]. apply describes_quiet; eauto.
  - cbn [acts] in A. destruct (FdModel.act st (AHangup fd)) as [st1|] eqn:E; [|discriminate].
    replace (h ++ EClosed fd :: evs) with ((h ++ [EClosed fd]) ++ evs) by (rewrite <- app_assoc; reflexivity).
    apply (IH _ st1); [|exact A]. clear IH M A. destruct D as [C T]. cbn in E.
    destruct (f_table st !! fd) as [[[| |n out| |] c]|] eqn:G; try discriminate. apply Some_inj in E. subst st1. split; cbn [f_table f_count].
    + rewrite starts_app. cbn. lia.
    + intros fd' d. rewrite stream_snoc. destruct (Z.eq_dec fd' fd) as [->|Q].
      * rewrite lookup_delete. split; [discriminate|]. intros K. exfalso.
        assert (H : forall d', t0 !! fd = Some d' \/ own_desc a fd d' -> False).
        { intros d' K'. assert (K2 : f_table st !! fd = Some d') by (apply T; tauto). rewrite G in K2. apply Some_inj in K2. subst d'.
          destruct K' as [K'|(what & K' & _)]; [apply Inh in K'|]; discriminate. }
        destruct K as [K|[K|[[_ K]|(id & o & m & K & _)]]]; eauto. discriminate.
      * rewrite lookup_delete_ne by congruence. rewrite T. split.
        -- intros [K|[K|K]]; auto. right. right. left. split; [exact K|congruence].
        -- intros [K|[K|[[K _]|(id & o & m & K & _)]]]; auto. discriminate.
  - cbn [acts] in A. destruct (FdModel.act st (AReport fd)) as [st1|] eqn:E; [|discriminate]. apply report_same in E. subst st1.
    replace (h ++ EReport text :: evs) with ((h ++ [EReport text]) ++ evs) by (rewrite <- app_assoc; reflexivity).
    apply (IH _ st); [|exact A]. apply describes_quiet; eauto.
  - replace (h ++ ev :: evs) with ((h ++ [ev]) ++ evs) by (rewrite <- app_assoc; reflexivity).
    apply (IH _ st); [|exact A]. apply describes_quiet; eauto.
Qed.

(** Streams are opened for a start. *)
Definition led (h : list event) : Prop := forall h1 fd id out h2, h = h1 ++ EOpen fd id out :: h2 -> starts h1 <> 0%nat.
Lemma led_snoc h ev : led h -> (forall fd id out, ev = EOpen fd id out -> starts h <> 0%nat) -> led (h ++ [ev]).
Proof.
  intros L N h1 fd id out h2 E. apply snoc_split in E. destruct E as [(-> & -> & <-)|(h2' & -> & E)]; [eapply N; reflexivity|]. eapply L; exact E.
Qed.
Lemma led_moves evs l : moves evs l -> forall h, led h -> led (h ++ evs).
Proof.
  induction 1 as [|id pid x evs l M IH|id evs l M IH|fd evs l M IH|text fd evs l M IH|ev evs l N M IH]; intros h L.
  - rewrite app_nil_r. exact L.
  - replace (h ++ EStart id pid :: EOpen (n_out x) id true :: EOpen (n_err x) id false :: evs)
      with ((((h ++ [EStart id pid]) ++ [EOpen (n_out x) id true]) ++ [EOpen (n_err x) id false]) ++ evs) by (rewrite <- !app_assoc; reflexivity).
    apply IH. apply led_snoc; [apply led_snoc; [apply led_snoc; [exact L|discriminate]|]|]; intros; rewrite !starts_app; cbn; lia.
  - replace (h ++ EStartFail id :: evs) with ((h ++ [EStartFail id]) ++ evs) by (rewrite <- app_assoc; reflexivity). apply IH. apply led_snoc; [exact L|discriminate].
  - replace (h ++ EClosed fd :: evs) with ((h ++ [EClosed fd]) ++ evs) by (rewrite <- app_assoc; reflexivity). apply IH. apply led_snoc; [exact L|discriminate].
  - replace (h ++ EReport text :: evs) with ((h ++ [EReport text]) ++ evs) by (rewrite <- app_assoc; reflexivity). apply IH. apply led_snoc; [exact L|discriminate].
  - replace (h ++ ev :: evs) with ((h ++ [ev]) ++ evs) by (rewrite <- app_assoc; reflexivity). apply IH. apply led_snoc; [exact L|].
    intros fd id out ->. exfalso. apply N. exact Logic.I.
Qed.

Section booted.
Context {k : machine} {a : SetupModel.answers} {h : SetupModel.host} {e : env} {t0 : table} {configs : list proc_config}.
Context (Su : suits k a h e t0).

Theorem booted_reachable s st : booted k a h e configs s st -> reachable (faultless k) e configs s /\ fd_reachable t0 st.
Proof.
  destruct Su as (Ho & Fr & In0 & Sa & Ez & Eo & E1 & E2 & E3).
  induction 1 as [an h' others t1 R Pl S1|s st o s' evs l st' B [(s0 & ops & L & X) (x1 & x2 & x3 & x4 & t1 & l0 & O & A)] H Hh M A'].
  - split.
    + eexists _, []. split; [|reflexivity]. split; [exact Ho|]. split; [exact Ez|]. split; [exact Eo|].
      exists an, others. split; [eapply run_on_run; eauto|auto].
    + exists (f_signal a), (f_status a), (f_notify a), (f_epoll a), t1, []. split; [|reflexivity].
      eapply started_table; eauto. eapply run_on_ready; eauto.
  - split.
    + eapply reachable_snoc; [|exact H]. exists s0, ops. auto.
    + exists x1, x2, x3, x4, t1, (l0 ++ l). split; [exact O|]. rewrite (acts_app _ _ _ _ A). exact A'.
Qed.

Lemma booted_describes s st : booted k a h e configs s st -> describes a t0 (s_hist s) st.
Proof.
  destruct Su as (Ho & Fr & In0 & Sa & _).
  induction 1 as [an h' others t1 R Pl S1|s st o s' evs l st' B IH H Hh M A'].
  - assert (E := started_table _ _ _ _ _ Fr (run_on_ready _ _ _ _ _ _ Fr R) Sa S1). split; [reflexivity|]. cbn [f_table s_hist initial].
    destruct Fr as [N F]. assert (F0 : forall fd, In fd [f_signal a; f_status a; f_notify a; f_epoll a] -> t0 !! fd = None).
    { intros fd Hfd. rewrite (Sa fd), (F fd Hfd). reflexivity. }
    rewrite four_open in E; auto. apply Some_inj in E. subst t1.
    inversion N as [|? ? N1 ND1]; subst. inversion ND1 as [|? ? N2 ND2]; subst. inversion ND2 as [|? ? N3 _]; subst. simpl in N1, N2, N3, F0.
    intros fd d. assert (No : ~ stream_desc [] fd d) by (intros (h1 & ? & ? & ? & ? & E & _); destruct h1; discriminate).
    assert (G : forall x what, fd = x -> In x [f_signal a; f_status a; f_notify a; f_epoll a] ->
      (x = f_signal a /\ what = "signalfd") \/ (x = f_status a /\ what = "status socket") \/ (x = f_notify a /\ what = "notify socket") \/ (x = f_epoll a /\ what = "epoll") ->
      Some {| d_file := FOwn what; d_cloexec := true |} = Some d <-> t0 !! fd = Some d \/ own_desc a fd d \/ stream_desc [] fd d).
    { intros x what -> Hx Hw. split.
      - intros K. apply Some_inj in K. subst d. right. left. exists what. auto.
      - intros [K|[(w & -> & Hw')|K]]; [rewrite (F0 _ Hx) in K; discriminate| |contradiction]. f_equal. f_equal. f_equal. 
        destruct Hw as [[W1 W2]|[[W1 W2]|[[W1 W2]|[W1 W2]]]], Hw' as [[V1 V2]|[[V1 V2]|[[V1 V2]|[V1 V2]]]]; subst what w; try reflexivity;
          exfalso; rewrite W1 in V1; first [solve [apply N1; rewrite V1; auto]|solve [apply N1; rewrite <- V1; auto]|solve [apply N2; rewrite V1; auto]|
            solve [apply N2; rewrite <- V1; auto]|solve [apply N3; rewrite V1; auto]|solve [apply N3; rewrite <- V1; auto]]. }
    destruct (Z.eq_dec fd (f_epoll a)) as [Q|Q4]; [rewrite Q, lookup_insert, <- Q; apply (G _ _ Q); simpl; auto 10|]. rewrite lookup_insert_ne by congruence.
    destruct (Z.eq_dec fd (f_notify a)) as [Q|Q3]; [rewrite Q, lookup_insert, <- Q; apply (G _ _ Q); simpl; auto 10|]. rewrite lookup_insert_ne by congruence.
    destruct (Z.eq_dec fd (f_status a)) as [Q|Q2]; [rewrite Q, lookup_insert, <- Q; apply (G _ _ Q); simpl; auto 10|]. rewrite lookup_insert_ne by congruence.
    destruct (Z.eq_dec fd (f_signal a)) as [Q|Q1]; [rewrite Q, lookup_insert, <- Q; apply (G _ _ Q); simpl; auto 10|]. rewrite lookup_insert_ne by congruence.
    split; [auto|]. intros [K|[(w & -> & [[V1 _]|[[V1 _]|[[V1 _]|[V1 _]]]])|K]]; congruence || contradiction || exact K.
  - rewrite Hh. eapply describes_moves; eauto. apply In0.
Qed.

Lemma booted_led s st : booted k a h e configs s st -> led (s_hist s).
Proof.
  induction 1 as [an h' others t1 R Pl S1|s st o s' evs l st' B IH H Hh M A'].
  - intros h1 fd id out h2 E. destruct h1; discriminate.
  - rewrite Hh. eapply led_moves; eauto.
Qed.

Theorem booted_table s st fd d : booted k a h e configs s st ->
  f_table st !! fd = Some d <-> t0 !! fd = Some d \/ own_desc a fd d \/ stream_desc (s_hist s) fd d.
Proof. intros B. apply (booted_describes _ _ B). Qed.

Theorem booted_end s st code fd d : booted k a h e configs s st -> s_pc s = Finished code ->
  f_table st !! fd = Some d <-> t0 !! fd = Some d \/ own_desc a fd d.
Proof.
  intros B P. rewrite (booted_table _ _ _ _ B). destruct (booted_reachable _ _ B) as [Re _].
  assert (NP : ~ panicked s) by (unfold panicked; rewrite P; auto). assert (W := whole_of Re NP).
  assert (G := so_good _ _ _ (wh_sound _ _ _ W)). assert (St := so_stream _ _ _ (wh_sound _ _ _ W)).
  assert (L : has_running_processes (s_g s) = false) by (eapply lo_finished; [apply G|exact P]).
  unfold has_running_processes in L. apply negb_false_iff in L. apply andb_true_iff in L. destruct L as [L _]. apply andb_true_iff in L. destruct L as [L1 L2].
  apply bool_decide_eq_true in L1, L2. split; [|tauto]. intros [K|[K|(h1 & id & out & h2 & n & E & N & _)]]; auto. exfalso.
  assert (O : opened (s_hist s) fd id out) by (exists h1, h2; auto).
  destruct out; [apply (st_out _ St) in O; rewrite L1, lookup_empty in O|apply (st_err _ St) in O; rewrite L2, lookup_empty in O]; discriminate.
Qed.

(** * Nothing but the numbers handed out limits an execution *)
Lemma quiet_moves evs : (forall ev, In ev evs -> ~ about_descriptors ev) -> moves evs [].
Proof. induction evs as [|ev evs IH]; intros H; [constructor|]. apply mv_other; [apply H; left; auto|apply IH; intros; apply H; right; auto]. Qed.

Lemma two_fresh (t : table) (l : list Z) : exists x y, t !! x = None /\ t !! y = None /\ x <> y /\ ~ In x l /\ ~ In y l.
Proof.
  set (u := (dom t ∪ list_to_set l : gset Z)). set (x := base.fresh u : Z). set (y := base.fresh ({[x]} ∪ u) : Z).
  assert (X : x ∉ u) by apply is_fresh. assert (Y : y ∉ {[x]} ∪ u) by apply is_fresh.
  unfold u in X, Y. rewrite !elem_of_union in Y. rewrite elem_of_union in X. exists x, y.
  split; [apply not_elem_of_dom; tauto|]. split; [apply not_elem_of_dom; tauto|]. split; [intros E; apply Y; left; rewrite E; apply elem_of_singleton; reflexivity|].
  split; intros K; [apply X|apply Y]; right; [|right]; apply elem_of_list_to_set, elem_of_list_In; exact K.
Qed.

(** The kernel hands out four unused numbers for the streams, of which cinit keeps two. *)
Theorem booted_progress s ft o s' new : booted k a h e configs s ft -> sstep e s o = Some s' -> s_hist s' = s_hist s ++ new ->
  (forall fd id out, In (EOpen fd id out) new -> f_table ft !! fd = None) -> exists ft', booted k a h e configs s' ft'.
Proof.
  intros B H Hh Fr. destruct (booted_reachable _ _ B) as [Rc _]. assert (Su' := Su). destruct Su' as (_ & _ & _ & _ & _ & Eo & _).
  assert (Qt : (forall ev, In ev new -> ~ about_descriptors ev) -> exists ft', booted k a h e configs s' ft').
  { intros K. exists ft. eapply bt_step; eauto; [apply quiet_moves; exact K|reflexivity]. }
  destruct (booted_describes _ _ B) as [_ Tb].
  assert (T := sstep_trans e s o s' Eo H). revert H Hh. step_cases T; cbn [with_kernel mk_s s_hist]; intros H Hh.
  - rewrite <- (app_nil_r (s_hist s)) in Hh at 1. apply app_inv_head in Hh. subst new. apply Qt. intros ev [].
  - apply app_inv_head in Hh. subst new. apply Qt. intros ev [<-|[]]. cbn. tauto.
  - rewrite <- (app_nil_r (s_hist s)) in Hh at 1. apply app_inv_head in Hh. subst new. apply Qt. intros ev [].
  - apply app_inv_head in Hh. subst new. apply Qt. intros ev [<-|[]]. cbn. tauto.
  - rewrite <- (app_nil_r (s_hist s)) in Hh at 1. apply app_inv_head in Hh. subst new. apply Qt. intros ev [].
  - apply app_inv_head in Hh. subst new. apply Qt. intros ev [<-|[<-|[]]]; cbn; tauto.
  - apply app_inv_head in Hh. subst new. apply Qt. intros ev X. apply in_app_or in X.
    destruct X as [X|[<-|[]]]; [|cbn; tauto]. destruct O; [destruct X|destruct X as [<-|[]]; cbn; tauto].
  - apply app_inv_head in Hh. subst new. exists ft. eapply (bt_step _ _ _ _ _ _ _ _ _ _ [AStartFail]); [exact B|exact H|reflexivity| |reflexivity].
    destruct O; [|apply mv_other; [cbn; tauto|]]; apply mv_fail, mv_none.
  - apply app_inv_head in Hh. subst new.
    assert (F1 : f_table ft !! out = None) by (apply (Fr out id true), in_or_app; cbn; auto).
    assert (F2 : f_table ft !! err = None) by (apply (Fr err id false), in_or_app; cbn; auto).
    assert (NE : out <> err) by apply F.
    destruct (two_fresh (f_table ft) [out; err]) as (x & y & X1 & Y1 & XY & X2 & Y2). simpl in X2, Y2.
    set (n := {| n_out := out; n_out' := x; n_err := err; n_err' := y |}).
    assert (C : exists t, create_std_fds (f_table ft) (f_count ft) n = Some t).
    { unfold create_std_fds, FdModel.open, set_cloexec. cbn [n n_out n_out' n_err n_err'].
      rewrite F1. cbn [opt_bind]. rewrite lookup_insert_ne by (intros ->; tauto). rewrite X1. cbn [opt_bind].
      rewrite !lookup_insert_ne by (intros ->; tauto). rewrite F2. cbn [opt_bind].
      rewrite !lookup_insert_ne by (intros ->; tauto). rewrite Y1. cbn [opt_bind].
      rewrite !(lookup_insert_ne _ _ out) by (intros ->; tauto). rewrite lookup_insert. cbn [opt_bind].
      rewrite !(lookup_insert_ne _ _ err) by (intros ->; tauto). rewrite lookup_insert. eauto. }
    destruct C as [t C]. eexists. eapply (bt_step _ _ _ _ _ _ _ _ _ _ [AStart n]); [exact B|exact H|reflexivity| |].
    + destruct O; [|apply mv_other; [cbn; tauto|]]; exact (mv_start id pid n [] [] mv_none).
    + cbn. rewrite C. reflexivity.
  - apply app_inv_head in Hh. subst new. apply Qt. intros ev [<-|X]; [cbn; tauto|]. unfold kills in X. apply in_map_iff in X. destruct X as (z & <- & _). cbn. tauto.
  - apply app_inv_head in Hh. subst new. apply Qt. intros ev [<-|[]]. cbn. tauto.
  - apply app_inv_head in Hh. subst new. destruct (two_fresh (f_table ft) []) as (x & _ & X1 & _). exists ft.
    eapply (bt_step _ _ _ _ _ _ _ _ _ _ [AReport x]); [exact B|exact H|reflexivity|apply mv_report, mv_none|].
    cbn. unfold FdModel.open. rewrite X1. rewrite delete_insert by exact X1. rewrite delete_notin by exact X1. destruct ft; reflexivity.
  - apply app_inv_head in Hh. subst new. apply Qt. intros ev [<-|[]]. cbn. tauto.
  - apply app_inv_head in Hh. subst new. apply Qt. intros ev [<-|[]]. cbn. tauto.
  - apply app_inv_head in Hh. subst new. apply Qt. intros ev [<-|X]; [cbn; tauto|]. apply in_map_iff in X. destruct X as (z & <- & _). cbn. tauto.
  - apply app_inv_head in Hh. subst new.
    assert (NP : ~ panicked s) by (unfold panicked; rewrite P; auto). assert (W := whole_of Rc NP).
    assert (S := wh_sound _ _ _ W). assert (M := go_maps _ _ _ (so_good _ _ _ S)). assert (Bt := ma_batch _ _ _ M). rewrite P in Bt. destruct Bt as [_ Bt].
    specialize (Bt (EvHup fd) (or_introl eq_refl)). cbn in Bt. destruct Bt as (Bt & _). apply (ma_epoll _ _ _ M) in Bt.
    assert (Od : exists id out, opened (s_hist s) fd id out).
    { destruct Bt as [[id Bt]|[id Bt]]; exists id; [exists true; apply (st_out _ (so_stream _ _ _ S))|exists false; apply (st_err _ (so_stream _ _ _ S))]; auto. }
    destruct Od as (id & out & h1 & h2 & E & N).
    assert (X : exists d n b, f_table ft !! fd = Some d /\ d_file d = FReader n b).
    { destruct (starts h1) as [|n] eqn:Es.
      - exfalso. eapply (booted_led _ _ B); eauto.
      - exists {| d_file := FReader n out; d_cloexec := true |}, n, out. split; [|reflexivity]. apply Tb. right. right. exists h1, id, out, h2, n. auto. }
    destruct X as ([f c] & n & b & X & Ef). cbn in Ef. subst f. eexists. eapply (bt_step _ _ _ _ _ _ _ _ _ _ [AHangup fd]); [exact B|exact H|reflexivity|apply mv_closed, mv_none|].
    cbn. rewrite X. reflexivity.
  - apply app_inv_head in Hh. subst new. apply Qt. intros ev [<-|[<-|[]]]; cbn; tauto.
  - apply app_inv_head in Hh. subst new. apply Qt. intros ev [<-|[<-|[]]]; cbn; tauto.
  - apply app_inv_head in Hh. subst new. apply Qt. intros ev [<-|[<-|X]]; [cbn; tauto|cbn; tauto|]. unfold kills in X. apply in_map_iff in X. destruct X as (z & <- & _). cbn. tauto.
  - apply app_inv_head in Hh. subst new. apply Qt. intros ev X.
    assert (Kl : forall sg l, In ev (kills sg l) -> ~ about_descriptors ev).
    { intros sg l Y. unfold kills in Y. apply in_map_iff in Y. destruct Y as (z & <- & _). cbn. tauto. }
    clear H. destruct D; cbn [In] in X; repeat (destruct X as [X|X]); try solve [destruct X]; try (subst ev; cbn; tauto); eauto.
Qed.
End booted.
