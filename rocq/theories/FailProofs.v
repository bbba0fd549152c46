(** A program that cannot be executed is one that failed. *)
From stdpp Require Import gmap strings.
From Coq Require Import Ascii ZArith List Bool Lia Permutation Relations Operators_Properties.
From Verif Require Import Base RStr CronModel ConfigModel ProcessModel EnvModel DepModel NotifyModel ManagerModel SysModel
  MainModel SpecDep SpecRun SpecFail DepProofs CronTimerProofs RunStep RunInv RunFlow RunHist RunAlive RunClaims RunThms RunFinal RunView RunSteps4.
From Verif Require ChildModel SpecChild ChildThms.
Import ListNotations.
Local Open Scope string_scope.
Local Open Scope list_scope.
Local Open Scope Z_scope.

(** * Numbers of started processes are in use until they are reaped *)
Definition in_use (s : sys) : Prop := forall id x, alive (s_hist s) id x -> exists z, k_procs (s_k s) !! x = Some z /\ z <> KOther.
Definition number_claim (before : list event) (ev : event) : Prop :=
  match ev with EStart _ pid => forall id, ~ alive before id pid | _ => True end.

Lemma in_use_frame s s' evs : in_use s -> s_hist s' = s_hist s ++ evs -> (forall ev, In ev evs -> still ev) ->
  k_procs (s_k s') = k_procs (s_k s) -> in_use s'.
Proof.
  intros A E S K id x. rewrite E, K, alive_same; [apply A| |].
  - intros i y X. apply S in X. destruct X.
  - intros y st X. apply S in X. destruct X.
Qed.
Lemma in_use_reap s s' pid st evs : in_use s -> s_hist s' = s_hist s ++ EReap pid st :: evs -> (forall ev, In ev evs -> still ev) ->
  k_procs (s_k s') = delete pid (k_procs (s_k s)) -> in_use s'.
Proof.
  intros A E S K id x. rewrite E, K, alive_reap.
  - intros [H N]. rewrite lookup_delete_ne by auto. eauto.
  - intros i y X. apply S in X. destruct X.
  - intros y st' X. apply S in X. destruct X.
Qed.

Ltac in_frame A := eapply in_use_frame; [exact A|cbn [s_hist mk_s]; reflexivity| |reflexivity].
Ltac stills := intros ev X; cbn in X; repeat (destruct X as [<-|X]; [exact Logic.I|]); try contradiction.
Lemma still_app a b : (forall ev, In ev a -> still ev) -> (forall ev, In ev b -> still ev) -> forall ev, In ev (a ++ b) -> still ev.
Proof. intros A B ev K. apply in_app_or in K. destruct K; auto. Qed.
Lemma origin_still e s id g1 pre : origin e s id g1 pre -> forall ev, In ev pre -> still ev.
Proof. intros [d p A B C D|now c A B C]; stills. Qed.

Lemma in_use_step e s s' : in_use s -> trans e s s' -> panicked s' \/ in_use s'.
Proof.
  intros A T. destruct (panicked_dec s') as [PN|PN]; [auto|right].
  step_cases T.
  - intros i x H. cbn in H. destruct (A _ _ H) as (z & Hz & N). cbn [s_k with_kernel].
    destruct KM as [k pid V1 V2|k pid V|k pid V|k pid st V1 V2|k fd q V]; cbn in *; try (destruct (Z.eq_dec pid x) as [->|Ne]; [|rewrite ?lookup_insert_ne, ?lookup_delete_ne by auto; eauto]).
    + congruence.
    + congruence.
    + congruence.
    + rewrite lookup_insert. eexists. split; [reflexivity|discriminate].
    + eauto.
  - in_frame A. stills.
  - intros i x H. exact (A i x H).
  - in_frame A. stills.
  - intros i x H. exact (A i x H).
  - in_frame A. stills.
  - in_frame A. apply still_app; [eapply origin_still; eauto|stills].
  - in_frame A. apply still_app; [eapply origin_still; eauto|stills].
  - intros i x H. cbn in H. rewrite app_assoc in H. apply alive_app in H.
    cbn [s_k mk_s k_procs]. destruct (Z.eq_dec pid x) as [->|Ne]; [rewrite lookup_insert; eexists; split; [reflexivity|discriminate]|].
    rewrite lookup_insert_ne by auto. destruct H as [[H _]|(h1 & h2 & H & _)].
    + rewrite alive_same in H; [eauto| |]; intros y st K; apply (origin_still _ _ _ _ _ O) in K; destruct K.
    + exfalso. destruct h1 as [|? [|? [|? [|? ?]]]]; inversion H; congruence.
  - in_frame A. intros ev [<-|X]; [exact Logic.I|eapply still_kills; eauto].
  - in_frame A. stills.
  - in_frame A. stills.
  - in_frame A. stills.
  - in_frame A. stills.
  - in_frame A. intros ev [<-|X]; [exact Logic.I|]. apply in_map_iff in X. destruct X as (l & <- & _). exact Logic.I.
  - in_frame A. stills.
  - eapply in_use_reap; [exact A|reflexivity| |reflexivity]. stills.
  - eapply in_use_reap; [exact A|reflexivity| |reflexivity]. stills.
  - eapply in_use_reap; [exact A|reflexivity| |reflexivity]. intros ev [<-|X]; [exact Logic.I|eapply still_kills; eauto].
  - exfalso. apply PN. exact Logic.I.
Qed.

Lemma number_other h evs : each_time h number_claim -> (forall i y, ~ In (EStart i y) evs) -> each_time (h ++ evs) number_claim.
Proof. intros A N. apply each_other; [auto|]. intros h' ev X. destruct ev; cbn; auto. exfalso. eapply N; eauto. Qed.

Lemma number_step e s s' : in_use s -> each_time (s_hist s) number_claim -> trans e s s' -> each_time (s_hist s') number_claim.
Proof.
  intros A B T.
  assert (O : (exists evs, s_hist s' = s_hist s ++ evs /\ forall i y, ~ In (EStart i y) evs) \/
              exists pre id pid out err, s_hist s' = s_hist s ++ pre ++ [EStart id pid; EOpen out id true; EOpen err id false] /\
                (forall ev, In ev pre -> still ev) /\ k_procs (s_k s) !! pid = None).
  { assert (N0 : forall evs, (forall ev, In ev evs -> start_event ev = false) -> forall i y, ~ In (EStart i y) evs)
      by (intros evs K i y X; apply K in X; discriminate).
    step_cases T; cbn [s_hist mk_s with_kernel].
    all: try solve [left; exists []; rewrite app_nil_r; split; [reflexivity|auto]].
    all: try solve [left; eexists; split; [reflexivity|]; apply N0; intros ev X; cbn in X; repeat (destruct X as [<-|X]; [reflexivity|]); try contradiction;
      try (apply in_kills in X; destruct X as (? & -> & _); reflexivity); apply in_map_iff in X; destruct X as (? & <- & _); reflexivity].
    - left. eexists. split; [reflexivity|]. intros i y X. apply in_app_or in X. destruct X as [X|[X|[]]]; [|discriminate]. apply (origin_still _ _ _ _ _ O) in X. destruct X.
    - left. eexists. split; [reflexivity|]. intros i y X. apply in_app_or in X. destruct X as [X|[X|[]]]; [|discriminate]. apply (origin_still _ _ _ _ _ O) in X. destruct X.
    - right. exists pre, id, pid, out, err. split; [reflexivity|]. split; [eapply origin_still; eauto|apply F].
    - left. eexists. split; [reflexivity|]. apply N0. intros ev X.
      destruct D; cbn in X; repeat (destruct X as [<-|X]; [reflexivity|]); try contradiction;
        try (apply in_kills in X; destruct X as (? & -> & _); reflexivity). }
  destruct O as [(evs & E & N)|(pre & id & pid & out & err & E & S & K)]; rewrite E.
  - apply number_other; auto.
  - rewrite app_assoc. assert (B' : each_time (s_hist s ++ pre) number_claim).
    { apply number_other; [auto|]. intros i y X. apply S in X. destruct X. }
    replace ((s_hist s ++ pre) ++ [EStart id pid; EOpen out id true; EOpen err id false]) with (((s_hist s ++ pre) ++ [EStart id pid]) ++ [EOpen out id true; EOpen err id false])
      by (rewrite <- app_assoc; reflexivity).
    apply number_other; [|intros i y [X|[X|[]]]; discriminate]. apply each_last; [auto|]. intros j H.
    rewrite alive_same in H; [|intros i y X; apply S in X; destruct X|intros y st X; apply S in X; destruct X].
    destruct (A _ _ H) as (z & Hz & _). congruence.
Qed.

Lemma numbers k e configs s : reachable k e configs s -> each_time (s_hist s) number_claim.
Proof.
  intros R. enough (H : each_time (s_hist s) number_claim /\ (panicked s \/ in_use s)) by apply H. revert s R.
  apply (reachable_ind k e configs (fun s => each_time (s_hist s) number_claim /\ (panicked s \/ in_use s))).
  - intros s S. rewrite (ss_hist _ _ S). split; [apply each_nil|]. right. intros i x. rewrite (ss_hist _ _ S). intros (h1 & h2 & E & _). destruct h1; discriminate.
  - intros s s' R [H U] T. destruct (panicked_dec s) as [P|P].
    + destruct (panicked_step _ _ _ P T) as (P' & evs & -> & K). split; [|auto]. apply number_other; [auto|]. intros i y X. apply K in X. destruct X as (? & ? & X). discriminate.
    + destruct U as [U|U]; [contradiction|]. split; [eapply number_step; eauto|eapply in_use_step; eauto].
Qed.

Lemma first_reap pid h2 : (forall st, ~ In (EReap pid st) h2) \/ exists a st b, h2 = a ++ EReap pid st :: b /\ forall st', ~ In (EReap pid st') a.
Proof.
  induction h2 as [|ev h IH]; [left; intros st []|].
  destruct ev as [| | | | | | |x st| | | | | | | | | | | | ]; try (destruct IH as [IH|(a & st' & b & -> & N)];
    [left; intros st0 [K|K]; [discriminate|exact (IH _ K)]|right; eexists (_ :: a), st', b; split; [reflexivity|intros st0 [K|K]; [discriminate|exact (N _ K)]]]).
  destruct (Z.eq_dec x pid) as [->|Ne]; [right; exists [], st, h; split; [reflexivity|intros st' []]|].
  destruct IH as [IH|(a & st' & b & -> & N)].
  - left. intros st0 [K|K]; [inversion K; congruence|exact (IH _ K)].
  - right. exists (EReap x st :: a), st', b. split; [reflexivity|]. intros st0 [K|K]; [inversion K; congruence|exact (N _ K)].
Qed.

(** Who is the main process of a program was started for it or named by it. *)
Lemma main_started configs h x id : each_time h (heard_claim configs) -> main_of configs h x = Some id -> exists y, In (EStart id y) h.
Proof.
  revert x. induction h as [|ev h IH] using rev_ind; intros x C H; [discriminate|].
  assert (C' : each_time h (heard_claim configs)).
  { intros b z a K. apply (C b z (a ++ [ev])). rewrite K, <- app_assoc. reflexivity. }
  assert (G : forall x, main_of configs h x = Some id -> exists y, In (EStart id y) (h ++ [ev])).
  { intros x' K. destruct (IH x' C' K) as [y Y]. exists y. apply in_or_app. auto. }
  pose proof (C h ev [] eq_refl) as Cl. unfold main_of in H. rewrite book_app in H. cbn [fold_left] in H.
  destruct ev as [j y| | | | | | | |j y rc| | |j y vars| | | | | | | |]; cbn [book_step] in H; try (apply (G x); exact H); cbn [b_main] in H; unfold put in H.
  - destruct (Z.eqb_spec x y) as [->|]; [|apply (G x); exact H]. apply Some_inj in H. subst j. exists y. apply in_or_app. cbn. auto.
  - destruct (Z.eqb_spec x y) as [->|]; [discriminate|apply (G x); exact H].
  - destruct (new_pid vars) as [n|]; [|apply (G x); exact H]. destruct (Z.eqb_spec x n) as [->|].
    + apply Some_inj in H. subst j. apply (G y). apply Cl.
    + match type of H with (if ?b then _ else _) = _ => destruct b; [discriminate|] end. apply (G x). exact H.
Qed.

(** * The main process of a program that runs nothing *)
Section failing.
Context {k : machine} {e : env} {configs : list proc_config} {s : sys} (R : reachable k e configs s).
Context (h1 h2 : list event) (id : nat) (pid code : Z) (c : ChildModel.child).
Context (E : s_hist s = h1 ++ EStart id pid :: h2) (M : meets (ChildModel.Exits code c) pid h2) (U : unclaimed_number pid h2).

Lemma not_twice a b : h2 = a ++ b -> (forall st, ~ In (EReap pid st) a) -> forall j, ~ In (EStart j pid) a.
Proof.
  intros -> N j K. apply in_split in K. destruct K as (a1 & a2 & ->).
  assert (E2 : s_hist s = (h1 ++ EStart id pid :: a1) ++ EStart j pid :: a2 ++ b) by (rewrite E; lst).
  apply (numbers _ _ _ _ R _ _ _ E2 id). exists h1, a1. split; [auto|]. intros st K. apply (N st). apply in_or_app. auto.
Qed.
Lemma not_restarted a b : h2 = a ++ b -> (forall st, ~ In (EReap pid st) a) -> forall y, ~ In (EStart id y) a.
Proof.
  intros -> N y K. apply in_split in K. destruct K as (a1 & a2 & ->).
  assert (E2 : s_hist s = h1 ++ EStart id pid :: a1 ++ EStart id y :: a2 ++ b) by (rewrite E; lst).
  destruct (restart R _ _ _ _ _ _ E2) as (_ & h4 & h5 & ->). apply (N (XExit 0)). apply in_or_app. left. apply in_or_app. cbn. auto.
Qed.
Lemma not_ended a b j rc : h2 = a ++ EEnd j pid rc :: b -> exists st, In (EReap pid st) a.
Proof.
  intros ->. assert (E2 : s_hist s = (h1 ++ EStart id pid :: a) ++ EEnd j pid rc :: b) by (rewrite E; lst).
  destruct (end_status R _ _ _ _ _ E2) as (h & st & F & _). exists st.
  destruct (exists_last (l := EStart id pid :: a)) as (l & z & L); [discriminate|]. rewrite L, app_assoc in F. apply app_inj_tail in F. destruct F as [_ ->].
  destruct l as [|z l]; inversion L; subst. apply in_or_app. cbn. auto.
Qed.

Lemma main_still a b : h2 = a ++ b -> (forall st, ~ In (EReap pid st) a) ->
  main_of configs (h1 ++ EStart id pid :: a) pid = Some id /\ v_pid (view_of configs (h1 ++ EStart id pid :: a) id) = pid.
Proof.
  revert b. induction a as [|ev a IH] using rev_ind; intros b E2 N.
  - unfold main_of, view_of. rewrite book_app. cbn. unfold put. rewrite Z.eqb_refl, Nat.eqb_refl. auto.
  - rewrite <- app_assoc in E2. cbn in E2.
    assert (Na : forall st, ~ In (EReap pid st) a) by (intros st K; apply (N st); apply in_or_app; auto).
    destruct (IH _ E2 Na) as [I1 I2]. clear IH.
    replace (h1 ++ EStart id pid :: a ++ [ev]) with ((h1 ++ EStart id pid :: a) ++ [ev]) by (rewrite <- app_assoc; reflexivity).
    assert (E3 : s_hist s = (h1 ++ EStart id pid :: a) ++ ev :: b) by (rewrite E, E2; lst).
    pose proof (trans_books _ _ _ _ R _ _ _ E3) as C.
    assert (X2 : h2 = (a ++ [ev]) ++ b) by (rewrite <- app_assoc; exact E2).
    assert (In ev (a ++ [ev])) as Iev by (apply in_or_app; cbn; auto).
    unfold main_of, view_of in *. rewrite book_app. cbn [fold_left].
    destruct ev as [j x| | | | | | | |j x rc| | |j x vars| | | | | | | |]; cbn [book_step]; auto; cbn [b_main b_view]; unfold put.
    + assert (Nx : x <> pid) by (intros ->; exact (not_twice _ _ X2 N _ Iev)).
      assert (Nj : j <> id) by (intros ->; exact (not_restarted _ _ X2 N _ Iev)).
      destruct (Z.eqb_spec pid x); [congruence|]. destruct (Nat.eqb_spec id j); [congruence|]. auto.
    + assert (Nx : x <> pid). { intros ->. destruct (not_ended _ _ _ _ E2) as [st K]. exact (Na _ K). }
      destruct (Z.eqb_spec pid x); [congruence|]. split; [auto|]. destruct (Nat.eqb_spec id j) as [<-|]; [cbn; auto|auto].
    + destruct C as (C1 & C2 & _). unfold main_of, view_of in C1, C2. assert (Nj : j <> id).
      { intros ->. rewrite I2 in C2. subst x. destruct (proj2 (M code c eq_refl) _ _ _ _ E2) as [st K]. exact (Na _ K). }
      destruct (Nat.eqb_spec id j); [congruence|]. split; [|auto].
      destruct (new_pid vars) as [y|] eqn:Y; [|auto].
      destruct (Z.eqb_spec pid y) as [->|].
      { exfalso. eapply U; [rewrite X2; apply in_or_app; left; exact Iev|eauto]. }
      rewrite C2. destruct (Z.eqb_spec pid x) as [<-|]; [congruence|auto].
Qed.

(** How its end is seen. *)
Lemma end_seen a st b : h2 = a ++ EReap pid st :: b -> (forall st', ~ In (EReap pid st') a) ->
  st = XExit code /\ exists b', b = EEnd id pid code :: b'.
Proof.
  intros E2 N. assert (S : st = XExit code) by (eapply (proj1 (M code c eq_refl)); eauto). split; [auto|]. subst st.
  destruct (main_still _ _ E2 N) as [I1 I2].
  assert (E3 : s_hist s = (h1 ++ EStart id pid :: a) ++ EReap pid (XExit code) :: b) by (rewrite E, E2; lst).
  destruct (pa_follow _ _ (past_of R) _ _ _ _ E3) as (ev & b' & -> & K).
  assert (E4 : s_hist s = ((h1 ++ EStart id pid :: a) ++ [EReap pid (XExit code)]) ++ ev :: b') by (rewrite E3; lst).
  pose proof (trans_books _ _ _ _ R _ _ _ E4) as C. destruct ev; try contradiction.
  - destruct K as (-> & -> & _). destruct C as [C _]. rewrite main_unseen in C by exact Logic.I. rewrite I1 in C. apply Some_inj in C. subst. cbn. eauto.
  - destruct K as (-> & -> & _). cbn in C. rewrite main_unseen in C by exact Logic.I. congruence.
  - destruct K as (_ & n & K). discriminate.
Qed.

(** The exit of cinit comes after it. *)
Lemma reaped_before_exit a x b : h2 = a ++ EExit x :: b -> exists st, In (EReap pid st) a.
Proof.
  intros E2. destruct (existsb (fun ev => match ev with EReap y _ => y =? pid | _ => false end) a) eqn:X.
  - apply existsb_exists in X. destruct X as (ev & I & K). destruct ev; try discriminate. apply Z.eqb_eq in K. subst. eauto.
  - exfalso. assert (N : forall st, ~ In (EReap pid st) a).
    { intros st K. apply not_true_iff_false in X. apply X. apply existsb_exists. eexists. split; [exact K|]. apply Z.eqb_refl. }
    destruct (main_still _ _ E2 N) as [I1 _].
    assert (E3 : s_hist s = (h1 ++ EStart id pid :: a) ++ EExit x :: b) by (rewrite E, E2; lst).
    rewrite (no_main_left R _ _ _ E3) in I1. discriminate.
Qed.

(** Nothing that depends on the program is started. *)
Lemma dependents_wait v x : code <> 0 -> depends configs id v -> ~ In (EStart v x) (s_hist s).
Proof.
  intros Nz D K. apply in_split in K. destruct K as (b1 & b2 & B). destruct (start_order R _ _ _ _ _ B D) as (NC & S).
  assert (Z : exists z y, In z b1 /\ ((exists rc, z = EEnd id y rc) \/ exists vars, z = ENotify id y vars)).
  { destruct S as [[y S]|[_ (y & vars & S & _)]]; eauto 10. }
  destruct Z as (z & y & I & Hz). apply in_split in I. destruct I as (c1 & c2 & ->).
  assert (E1 : s_hist s = c1 ++ z :: c2 ++ EStart v x :: b2) by (rewrite B; lst).
  assert (C := trans_books _ _ _ _ R). pose proof (C _ _ _ E1) as Cz.
  assert (Cm : main_of configs c1 y = Some id /\ v_pid (view_of configs c1 id) = y).
  { destruct Hz as [(rc & ->)|(vars & ->)]; cbn in Cz; [exact Cz|destruct Cz as (? & ? & _); auto]. }
  destruct Cm as [Cm Cv]. destruct (main_started configs c1 y id) as (y' & Y).
  { intros b w a F. apply (C b w (a ++ z :: c2 ++ EStart v x :: b2)). rewrite E1, F. lst. }
  { exact Cm. }
  apply in_split in Y. destruct Y as (d1 & d2 & ->).
  assert (E2 : s_hist s = d1 ++ EStart id y' :: d2 ++ z :: c2 ++ EStart v x :: b2) by (rewrite E1; lst).
  assert (P : d1 = h1 /\ y' = pid /\ h2 = d2 ++ z :: c2 ++ EStart v x :: b2).
  { rewrite E in E2. apply split_app in E2. destruct E2 as [(h5 & F & F2)|([|w e1] & e2 & F1 & F & F2)].
    - exfalso. apply (proj1 (start_once R _ _ _ _ E NC y')). rewrite F2. apply in_or_app. cbn. auto.
    - cbn in F. injection F as F3 F4. split; [rewrite F1, app_nil_r; reflexivity|]. split; [auto|]. rewrite F4. symmetry. exact F2.
    - exfalso. cbn in F. inversion F; subst. apply (proj2 (start_once R _ _ _ _ E NC y')). apply in_or_app. cbn. auto. }
  destruct P as (-> & -> & P). destruct (first_reap pid d2) as [N|(a & st & a' & -> & N)].
  - destruct (main_still _ _ P N) as [_ V]. rewrite V in Cv. subst y. destruct Hz as [(rc & ->)|(vars & ->)].
    + destruct (not_ended _ _ _ _ P) as [st K]. exact (N _ K).
    + destruct (proj2 (M code c eq_refl) _ _ _ _ P) as [st K]. exact (N _ K).
  - assert (P2 : h2 = a ++ EReap pid st :: (a' ++ z :: c2 ++ EStart v x :: b2)) by (rewrite P; lst).
    destruct (end_seen _ _ _ P2 N) as (-> & b' & Eb).
    assert (E3 : s_hist s = (h1 ++ EStart id pid :: a ++ [EReap pid (XExit code)]) ++ EEnd id pid code :: b') by (rewrite E, P2, Eb; lst).
    refine (no_start_after R _ _ _ E3 Nz v x _).
    assert (I : In (EStart v x) (EEnd id pid code :: b')) by (rewrite <- Eb; apply in_or_app; right; right; apply in_or_app; cbn; auto).
    destruct I as [I|I]; [discriminate|exact I].
Qed.
End failing.

(** * A program that was started has all the programs before it started *)
Lemma before_started k e configs s u v x : reachable k e configs s -> depends configs u v -> In (EStart v x) (s_hist s) -> exists y, In (EStart u y) (s_hist s).
Proof.
  intros R D K. apply in_split in K. destruct K as (b1 & b2 & B). destruct (start_order R _ _ _ _ _ B D) as (_ & S).
  assert (Z : exists z y, In z b1 /\ ((exists rc, z = EEnd u y rc) \/ exists vars, z = ENotify u y vars)).
  { destruct S as [[y S]|[_ (y & vars & S & _)]]; eauto 10. }
  destruct Z as (z & y & I & Hz). apply in_split in I. destruct I as (c1 & c2 & ->).
  assert (E1 : s_hist s = c1 ++ z :: c2 ++ EStart v x :: b2) by (rewrite B; lst).
  assert (C := trans_books _ _ _ _ R). pose proof (C _ _ _ E1) as Cz.
  assert (Cm : main_of configs c1 y = Some u).
  { destruct Hz as [(rc & ->)|(vars & ->)]; cbn in Cz; apply Cz. }
  destruct (main_started configs c1 y u) as (y' & Y).
  { intros b w a F. apply (C b w (a ++ z :: c2 ++ EStart v x :: b2)). rewrite E1, F. lst. }
  { exact Cm. }
  exists y'. rewrite E1. apply in_or_app. auto.
Qed.
Lemma all_before_started k e configs s u v : reachable k e configs s -> clos_trans nat (depends configs) u v ->
  forall x, In (EStart v x) (s_hist s) -> exists y, In (EStart u y) (s_hist s).
Proof.
  intros R D. induction D as [u v D|u w v D1 IH1 D2 IH2]; intros x K.
  - eapply before_started; eauto.
  - destruct (IH2 _ K) as [y K2]. eauto.
Qed.

(** * Together with the fate of the child *)
Lemma not_executed k e configs s h1 id pid h2 q h fault t0 st x mask ign dir cr f :
  reachable k e configs s -> s_hist s = h1 ++ EStart id pid :: h2 ->
  SpecChild.inherited t0 -> SpecChild.fd_reachable t0 st -> SpecChild.launch h fault q st x mask ign dir cr f -> (forall ch, f <> ChildModel.Runs ch) ->
  meets f pid h2 -> unclaimed_number pid h2 ->
  (forall a status b, h2 = a ++ EReap pid status :: b -> (forall y, ~ In (EReap pid y) a) ->
     status = XExit 4 /\ exists b', b = EEnd id pid 4 :: b' /\ forall j y, ~ In (EStart j y) b') /\
  (forall a code b, h2 = a ++ EExit code :: b -> code = 6 /\ In (EReap pid (XExit 4)) a) /\
  forall v y, clos_trans nat (depends configs) id v -> ~ In (EStart v y) (s_hist s).
Proof.
  intros R E I F L N M U. destruct (ChildThms.launch_fate h fault q t0 st x mask ign dir cr f I F L) as [(ch & X)|(ch & -> & _)]; [exfalso; eapply N; eauto|].
  assert (A : forall a status b, h2 = a ++ EReap pid status :: b -> (forall y, ~ In (EReap pid y) a) ->
     status = XExit 4 /\ exists b', b = EEnd id pid 4 :: b' /\ forall j y, ~ In (EStart j y) b').
  { intros a status b E2 N2. destruct (end_seen R _ _ _ _ _ _ E M U _ _ _ E2 N2) as (-> & b' & ->). split; [auto|]. exists b'. split; [auto|].
    assert (E3 : s_hist s = (h1 ++ EStart id pid :: a ++ [EReap pid (XExit 4)]) ++ EEnd id pid 4 :: b') by (rewrite E, E2; lst).
    apply (no_start_after R _ _ _ E3). discriminate. }
  split; [exact A|]. split.
  - intros a code b E2. destruct (reaped_before_exit R _ _ _ _ _ _ E M U _ _ _ E2) as [status K].
    destruct (first_reap pid a) as [N2|(a1 & y & a2 & -> & N2)]; [exfalso; eapply N2; eauto|].
    assert (E3 : h2 = a1 ++ EReap pid y :: (a2 ++ EExit code :: b)) by (rewrite E2; lst).
    destruct (A _ _ _ E3 N2) as (-> & b' & Eb & _). split; [|apply in_or_app; cbn; auto].
    assert (E4 : s_hist s = (h1 ++ EStart id pid :: a1 ++ EReap pid (XExit 4) :: a2) ++ EExit code :: b) by (rewrite E, E2; lst).
    apply (proj2 (exit_code R _ _ _ E4)). exists id, pid, 4. split; [|discriminate].
    destruct a2 as [|z a2]; cbn in Eb; inversion Eb; subst. apply in_or_app. right. right. apply in_or_app. cbn. auto.
  - intros v y D. apply clos_trans_t1n in D. destruct D as [v D|w v D D2].
    + apply (dependents_wait R _ _ _ _ _ _ E M U); [discriminate|auto].
    + intros K. destruct (all_before_started _ _ _ _ w v R (clos_t1n_trans _ _ _ _ D2) _ K) as [y' K2].
      revert K2. apply (dependents_wait R _ _ _ _ _ _ E M U); [discriminate|auto].
Qed.
Lemma impossible k e configs s h1 id pid h2 q h fault t0 st x mask ign dir cr f :
  reachable k e configs s -> s_hist s = h1 ++ EStart id pid :: h2 ->
  SpecChild.inherited t0 -> SpecChild.fd_reachable t0 st -> SpecChild.launch h fault q st x mask ign dir cr f -> ~ SpecChild.can_dress h q ->
  meets f pid h2 -> unclaimed_number pid h2 ->
  (forall a code b, h2 = a ++ EExit code :: b -> code = 6 /\ In (EReap pid (XExit 4)) a) /\
  forall v y, clos_trans nat (depends configs) id v -> ~ In (EStart v y) (s_hist s).
Proof.
  intros R E I F L N M U. refine (proj2 (not_executed k e configs s h1 id pid h2 q h fault t0 st x mask ign dir cr f R E I F L _ M U)).
  destruct (ChildThms.cannot_dress h fault q t0 st x mask ign dir cr f I F L N) as (c & -> & _). discriminate.
Qed.
