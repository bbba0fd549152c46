(** Proofs about forker. *)
From Coq Require Import String ZArith List Bool Lia Permutation.
From Verif Require Import ForkerModel SpecForker.
Import ListNotations.
Local Open Scope string_scope.
Local Open Scope Z_scope.

Lemma happen_app b l1 l2 : forall s, happen b s (l1 ++ l2) = match happen b s l1 with Some s' => happen b s' l2 | None => None end.
Proof. induction l1 as [|e l1 IH]; intros s; cbn; [reflexivity|]. destruct (next b s e); [apply IH|reflexivity]. Qed.
Lemma happen_end b l e s s' : happen b s (l ++ [e]) = Some s' -> exists m, happen b s l = Some m /\ next b m e = Some s'.
Proof.
  rewrite happen_app. destruct (happen b s l) as [m|]; [|discriminate]. cbn. destruct (next b m e) as [x|] eqn:N; [|discriminate]. intros [= <-]. eauto.
Qed.
Lemma leads_ind b n (P : list event -> forker -> Prop) : P [] (begin true true n) ->
  (forall l s e s', leads b n l s -> P l s -> next b s e = Some s' -> P (l ++ [e])%list s') -> forall l s, leads b n l s -> P l s.
Proof.
  intros B I l. induction l as [|e l IH] using rev_ind; intros s H; [injection H as <-; exact B|].
  destruct (happen_end _ _ _ _ _ H) as (m & Hm & N). exact (I l m e s Hm (IH m Hm) N).
Qed.

Local Ltac cases s e N := destruct s as [k st lk i p out]; destruct e, k, st as [ticks|code]; cbn in N; try discriminate N;
  repeat match type of N with context [match ?x with _ => _ end] => destruct x eqn:?; try discriminate N end; injection N as <-.

(** ** The state alone *)
Definition state_ok (b : bool) (s : forker) : Prop :=
  (f_lock s = true -> f_kid s = KCollected) /\ (running s = false -> f_inside s = false /\ f_stage s = Over (if f_lock s then 0 else 255)) /\
  (b = true -> f_lock s = false /\ f_inside s = false).
Lemma leads_state b n l s : leads b n l s -> state_ok b s.
Proof.
  revert l s. apply (leads_ind b n (fun _ s => state_ok b s)).
  - repeat split; discriminate.
  - intros _ s e s' _ (I1 & I2 & I3) N.
    cases s e N; unfold state_ok; cbn in *; try destruct i; try destruct lk; try destruct b; try destruct p; cbn in *; try discriminate;
      repeat split; intros; try discriminate; try reflexivity;
      try (specialize (I1 eq_refl); discriminate); try (specialize (I3 eq_refl); destruct I3; discriminate);
      try (specialize (I2 eq_refl); destruct I2 as [X Y]; first [discriminate X|exact Y]).
Qed.

(** ** What has happened *)
Lemma in_end (x e : event) l : In x (l ++ [e]) <-> In x l \/ x = e.
Proof. rewrite in_app_iff. cbn. intuition. Qed.
Lemma times_end x e l : times x (l ++ [e]) = (times x l + if event_eq e x then 1 else 0)%nat.
Proof. unfold times. rewrite count_occ_app. cbn. destruct (event_eq e x); reflexivity. Qed.
Definition dead (k : kid) : bool := match k with KDead | KCollected => true | _ => false end.
Definition silent (k : kid) : bool := match k with KFresh => true | _ => false end.
Lemma leads_dead b n l s : leads b n l s -> (In KidEnds l <-> dead (f_kid s) = true).
Proof.
  revert l s. apply leads_ind; [split; [intros []|discriminate]|]. intros l s e s' _ I N. rewrite in_end.
  cases s e N; cbn in *; (split; [intros [X|X]; [first [apply I; exact X|apply I in X; discriminate X|reflexivity]|try discriminate X; reflexivity]|
    intros X; try discriminate X; first [left; apply I; reflexivity|right; reflexivity]]).
Qed.
Lemma leads_says b n l s : leads b n l s -> (In KidSays l <-> silent (f_kid s) = false).
Proof.
  revert l s. apply leads_ind; [split; [intros []|discriminate]|]. intros l s e s' _ I N. rewrite in_end.
  cases s e N; cbn in *; (split; [intros [X|X]; [first [apply I; exact X|apply I in X; discriminate X|reflexivity]|try discriminate X; reflexivity]|
    intros X; try discriminate X; first [left; apply I; reflexivity|right; reflexivity]]).
Qed.
Lemma leads_ticks b n l s : leads b n l s -> match f_stage s with Asleep k => (times Tick l + k = n)%nat | Over _ => times Tick l = n end.
Proof.
  revert l s. apply leads_ind; [reflexivity|]. intros l s e s' _ I N. rewrite times_end. cases s e N; cbn in *; lia.
Qed.
Lemma leads_seen b n l s : leads b n l s -> running s = true -> (reason l <-> f_lock s || f_inside s || f_pending s = true).
Proof.
  revert l s. apply (leads_ind b n (fun l s => running s = true -> (reason l <-> f_lock s || f_inside s || f_pending s = true))).
  - intros _. split; [intros [[]|[]]|discriminate].
  - intros l s e s' _ I N. unfold reason in *. rewrite !in_end.
    cases s e N; cbn in *; intros R; try discriminate R; try specialize (I eq_refl);
      destruct lk, i, p; cbn in *; try discriminate; (split; [intros X|intros Y; try discriminate Y]); try reflexivity;
      try (destruct X as [[X|X]|[X|X]]; try discriminate X; apply I; auto; fail);
      try (destruct (proj2 I eq_refl) as [X|X]; auto; fail); auto.
Qed.

(** ** The theorems *)
Lemma sleeps b n l s c : leads b n l s -> f_stage s = Over c -> times Tick l = n.
Proof. intros L E. pose proof (leads_ticks b n l s L) as T. rewrite E in T. exact T. Qed.
Lemma code_cases b n l s c : leads b n l s -> f_stage s = Over c -> c = 0 \/ c = 255.
Proof.
  intros L E. destruct (leads_state b n l s L) as (_ & I & _). unfold running in I. rewrite E in I. destruct (I eq_refl) as [_ Q].
  destruct (f_lock s); injection Q as ->; auto.
Qed.
Lemma collected b n l s : leads b n l s -> f_stage s = Over 0 -> f_kid s = KCollected /\ In KidSays l /\ In KidEnds l.
Proof.
  intros L E. destruct (leads_state b n l s L) as (I1 & I2 & _). unfold running in I2. rewrite E in I2. destruct (I2 eq_refl) as [_ Q].
  destruct (f_lock s); [|discriminate Q]. specialize (I1 eq_refl). split; [exact I1|].
  split; [apply (leads_says _ _ _ _ L)|apply (leads_dead _ _ _ _ L)]; rewrite I1; reflexivity.
Qed.
Lemma over_stays b s e s' c : next b s e = Some s' -> f_stage s = Over c -> f_stage s' = Over c.
Proof. intros N E. cases s e N; cbn in *; congruence. Qed.
Lemma over_stays_all b l : forall s s' c, happen b s l = Some s' -> f_stage s = Over c -> f_stage s' = Over c.
Proof.
  induction l as [|e l IH]; intros s s' c H E; [injection H as <-; exact E|]. cbn in H. destruct (next b s e) as [m|] eqn:N; [|discriminate].
  exact (IH m s' c H (over_stays _ _ _ _ _ N E)).
Qed.
Lemma looked n l1 l2 s : leads false n (l1 ++ Looks :: l2) s -> (f_stage s = Over 0 /\ reason l1) \/ (f_stage s = Over 255 /\ ~ reason l1).
Proof.
  unfold leads. rewrite happen_app. destruct (happen false (begin true true n) l1) as [m|] eqn:H1; [|discriminate]. cbn [happen].
  destruct (next false m Looks) as [m'|] eqn:N; [|discriminate]. intros H2. pose proof (leads_seen false n l1 m H1) as S.
  destruct m as [k st lk i p out]. destruct st as [[|ticks]|code]; try discriminate N. cbn in N, S. specialize (S eq_refl).
  destruct i; [discriminate N|]. destruct p; [discriminate N|]. cbn in N. injection N as <-. destruct lk; cbn in S.
  - left. split; [exact (over_stays_all _ _ _ _ _ H2 eq_refl)|]. apply S. reflexivity.
  - right. split; [exact (over_stays_all _ _ _ _ _ H2 eq_refl)|]. intros R. apply S in R. discriminate.
Qed.
Lemma looked_blocked n l s c : leads true n l s -> f_stage s = Over c -> c = 255.
Proof.
  intros L E. destruct (leads_state _ _ _ _ L) as (_ & I2 & I3). unfold running in I2. rewrite E in I2. destruct (I2 eq_refl) as [_ Q].
  destruct (I3 eq_refl) as [K _]. rewrite K in Q. injection Q as ->. reflexivity.
Qed.

(** The output. *)
Lemma leads_out b n l s : leads b n l s ->
  Permutation (f_out s) ((if silent (f_kid s) then [] else ["Grandchild exitted"]) ++ match f_stage s with Over 255 => ["Timeout waiting for child"] | _ => [] end)%list.
Proof.
  revert l s. apply leads_ind; [constructor|]. intros l s e s' L I N. destruct (leads_state _ _ _ _ L) as (_ & I2 & _).
  cases s e N; cbn in *; try exact I; try (rewrite I; reflexivity); try (destruct (I2 eq_refl) as [_ Q]; destruct lk; injection Q as ->; cbn in *; try exact I).
  all: try (rewrite I; cbn; first [reflexivity|constructor]).
Qed.

(** ** It ends *)
Definition weight (s : forker) : nat :=
  (match f_kid s with KFresh => 5 | KSaid => 4 | KDead => 1 | KCollected => 0 end + (if f_pending s then 2 else 0) + (if f_inside s then 1 else 0) +
   match f_stage s with Asleep k => S k | Over _ => 0 end)%nat.
Lemma weight_step b s e s' : next b s e = Some s' -> (weight s' + 1 <= weight s + if event_eq e Sent then 3 else 0)%nat.
Proof. intros N. cases s e N; unfold weight; cbn; try destruct p; try destruct i; cbn; try lia; cbn in *; try discriminate. Qed.
Lemma leads_length b n l s : leads b n l s -> (length l + weight s <= n + 6 + 3 * times Sent l)%nat.
Proof.
  revert l s. apply leads_ind; [cbn; lia|]. intros l s e s' _ I N. pose proof (weight_step _ _ _ _ N) as W.
  rewrite app_length, times_end. cbn [length]. destruct (event_eq e Sent); lia.
Qed.
Lemma not_stuck b n l s : leads b n l s -> running s = true -> exists e s', e <> Sent /\ next b s e = Some s'.
Proof.
  intros L R. destruct s as [k st lk i p out]. destruct st as [ticks|code]; [|discriminate R].
  destruct k; [exists KidSays; eexists; split; [discriminate|reflexivity]|exists KidEnds; eexists; split; [discriminate|reflexivity]| |].
  - destruct i; [exists Collects; eexists; split; [discriminate|reflexivity]|]. destruct p, b.
    + destruct ticks; [exists Looks|exists Tick]; eexists; (split; [discriminate|reflexivity]).
    + exists Enters. eexists. split; [discriminate|reflexivity].
    + destruct ticks; [exists Looks|exists Tick]; eexists; (split; [discriminate|reflexivity]).
    + destruct ticks; [exists Looks|exists Tick]; eexists; (split; [discriminate|reflexivity]).
  - destruct i; [exists Returns; eexists; split; [discriminate|reflexivity]|]. destruct p, b.
    + destruct ticks; [exists Looks|exists Tick]; eexists; (split; [discriminate|reflexivity]).
    + exists Enters. eexists. split; [discriminate|reflexivity].
    + destruct ticks; [exists Looks|exists Tick]; eexists; (split; [discriminate|reflexivity]).
    + destruct ticks; [exists Looks|exists Tick]; eexists; (split; [discriminate|reflexivity]).
Qed.
Lemma setup n installs forks :
  (f_stage (begin installs forks n) = Asleep n /\ f_out (begin installs forks n) = [] /\ installs = true /\ forks = true) \/
  (f_stage (begin installs forks n) = Over 255 /\ f_out (begin installs forks n) = ["Could not setup signal handler: "] /\ installs = false) \/
  (f_stage (begin installs forks n) = Over 255 /\ f_out (begin installs forks n) = ["Forking failed!"] /\ installs = true /\ forks = false).
Proof. destruct installs, forks; [left|right; right|right; left|right; left]; repeat split; reflexivity. Qed.
Lemma anyone_sends b n l s : leads b n l s -> (exists k, f_stage s = Asleep k) ->
  exists s', leads b n (l ++ [Sent]) s' /\ f_stage s' = f_stage s /\ f_out s' = f_out s.
Proof.
  unfold leads. intros L [k K]. rewrite happen_app, L. cbn [happen]. destruct s as [kd st lk i p out]. cbn in K. subst st. cbn [next running f_stage].
  eexists. split; [reflexivity|]. split; reflexivity.
Qed.
