(** Proofs about the streams programs are started with. *)
From stdpp Require Import gmap strings.
From Coq Require Import Ascii ZArith List Bool Lia.
From Verif Require Import Base RStr ProcessModel ChildModel FdModel PtyModel SpecChild SpecPty FdProofs ChildThms.
Import ListNotations.
Local Open Scope string_scope.
Local Open Scope list_scope.
Local Open Scope Z_scope.

(** [w'] is [w] with the descriptors [l] opened and possibly terminals for them. *)
Record opened (w : world) (l : list (Z * file)) (w' : world) : Prop := {
  oe_once : List.NoDup (map fst l);
  oe_new : forall fd f, In (fd, f) l -> w_fds w !! fd = None /\ exists b, w_fds w' !! fd = Some {| d_file := f; d_cloexec := b |};
  oe_rest : forall fd, ~ In fd (map fst l) -> w_fds w' !! fd = w_fds w !! fd;
  oe_count : w_count w' = w_count w;
  oe_term : forall n o, (forall fd, ~ In (fd, FReader n o) l) -> w_term w' !! (n, o) = w_term w !! (n, o);
  oe_name : forall fd n o, In (fd, FReader n o) l -> w_term w !! (n, o) = None
}.

Lemma opened_nil w : opened w [] w.
Proof. constructor; cbn; auto; try tauto. constructor. Qed.
Lemma opened_perm w l l' w' : Permutation l l' -> opened w l w' -> opened w l' w'.
Proof.
  intros P [A B C D E F]. assert (I : forall x, In x l' -> In x l) by (intros x; apply Permutation_in; symmetry; exact P).
  assert (J : forall x, In x l -> In x l') by (intros x; apply Permutation_in; exact P).
  constructor; auto.
  - eapply Permutation_NoDup; [apply Permutation_map; exact P|exact A].
  - intros fd H. apply C. intros K. apply H. eapply Permutation_in; [apply Permutation_map; exact P|exact K].
  - intros n o H. apply E. intros fd K. apply (H fd). auto.
  - intros fd n o H. eapply F. apply I. exact H.
Qed.
Lemma opened_close w fd f l w' : opened w ((fd, f) :: l) w' -> opened w l (close fd w').
Proof.
  intros [A B C D E F]. inversion A; subst. destruct (B fd f (or_introl eq_refl)) as (N & b & Hf). constructor; cbn; auto.
  - intros fd' f' K. destruct (B fd' f' (or_intror K)) as (N' & b' & Hf'). split; [auto|]. exists b'. rewrite lookup_delete_ne; [auto|].
    intros ->. apply H1. apply in_map_iff. exists (fd', f'). auto.
  - intros z K. destruct (Z.eq_dec z fd) as [->|Q]; [rewrite lookup_delete; auto|]. rewrite lookup_delete_ne by congruence. apply C. cbn. intros [X|X]; [congruence|auto].
  - intros n o K. rewrite Hf.
    assert (G : (forall g, f <> FReader n o -> ~ In (g, FReader n o) ((fd, f) :: l))) by (intros g Q [X|X]; [congruence|exact (K _ X)]).
    destruct f; try (apply E; intros g; apply G; discriminate).
    destruct (decide ((n0, out) = (n, o))) as [Q|Q].
    + rewrite Q, lookup_delete. symmetry. inversion Q; subst. eapply F. left. reflexivity.
    + rewrite lookup_delete_ne by auto. apply E. intros g. apply G. intros X. inversion X; subst. auto.
  - intros z n o K. eapply F. right. exact K.
Qed.
Lemma opened_undo w l : forall w', opened w l w' -> close_all (map fst l) w' = w.
Proof.
  induction l as [|[fd f] l IH]; intros w' H; cbn.
  - destruct H as [A B C D E F]. destruct w as [a b c], w' as [a' b' c']. cbn in *. f_equal; [|exact D|].
    + apply map_eq. intros i. apply C. auto.
    + apply map_eq. intros [n o]. apply E. auto.
  - apply IH. eapply opened_close. exact H.
Qed.

Lemma opened_pair w l w' fd fd' o w'' : opened w l w' -> open_pair fd fd' o w' = Some w'' -> w_term w !! (w_count w, o) = None ->
  opened w ((fd, FReader (w_count w) o) :: (fd', FWriter (w_count w) o) :: l) w''.
Proof.
  intros [A B C D E F] H T. unfold open_pair in H. apply opt_bind_inv in H. destruct H as (t1 & O1 & H). apply opt_bind_inv in H. destruct H as (t2 & O2 & H).
  apply open_inv in O1, O2. destruct O1 as (N1 & ->), O2 as (N2 & ->). apply Some_inj in H. subst w''. apply lookup_insert_None in N2. destruct N2 as [N2 Q].
  assert (G : forall z, w_fds w' !! z = None -> ~ In z (map fst l)).
  { intros z K X. apply in_map_iff in X. destruct X as ([z' f] & <- & X). destruct (B _ _ X) as (_ & b & Y). cbn in K. congruence. }
  constructor; cbn.
  - constructor; [intros [X|X]; [congruence|exact (G _ N1 X)]|]. constructor; [apply G; auto|auto].
  - intros z f [X|[X|X]].
    + inversion X; subst. split; [rewrite <- C by (apply G; auto); auto|]. exists false. rewrite lookup_insert_ne, lookup_insert, D by auto. reflexivity.
    + inversion X; subst. split; [rewrite <- C by (apply G; auto); auto|]. exists false. rewrite lookup_insert, D. reflexivity.
    + destruct (B _ _ X) as (Y & b & Z). split; [auto|]. exists b. rewrite !lookup_insert_ne; [auto|intros ->; congruence|intros ->; congruence].
  - intros z K. rewrite !lookup_insert_ne by tauto. apply C. tauto.
  - exact D.
  - intros n o' K. apply E. intros g X. apply (K g). auto.
  - intros z n o' [X|[X|X]]; [inversion X; subst; auto|discriminate|eauto].
Qed.
Lemma opened_term w l w' n o t fd : opened w l w' -> In (fd, FReader n o) l -> opened w l (with_term w' (<[(n, o) := t]> (w_term w'))).
Proof.
  intros [A B C D E F] I. constructor; cbn; auto. intros m q K. rewrite lookup_insert_ne; [auto|]. intros X. inversion X; subst. exact (K _ I).
Qed.
Lemma opened_cloexec w l w' fd w'' : opened w l w' -> In fd (map fst l) -> cloexec fd w' = Some w'' -> opened w l w''.
Proof.
  intros [A B C D E F] I H. unfold cloexec, set_cloexec in H. destruct (w_fds w' !! fd) as [x|] eqn:Q; [|discriminate]. apply Some_inj in H. subst w''.
  constructor; cbn; auto.
  - intros z f K. destruct (B _ _ K) as (N & b & Y). split; [auto|]. destruct (Z.eq_dec z fd) as [->|]; [rewrite lookup_insert; rewrite Q in Y; inversion Y; subst; cbn; eauto|].
    rewrite lookup_insert_ne by congruence. eauto.
  - intros z K. rewrite lookup_insert_ne by (intros ->; auto). auto.
Qed.

(** ** Streams *)
(** The four descriptors and their files. *)
Definition four (x : numbers) (n : nat) : list (Z * file) :=
  [(n_out x, FReader n true); (n_out' x, FWriter n true); (n_err x, FReader n false); (n_err' x, FWriter n false)].
Definition fresh (w : world) : Prop := forall n o, (w_count w <= n)%nat -> w_term w !! (n, o) = None.

(** The terminals asked for. *)
Definition the_size (k : kernel) : winsize := match k_size k with Some s => s | None => fallback_size end.
Definition the_flags (k : kernel) : termios := match k_flags k with Some f => cooked f | None => tm_flags (k_new k) end.
Definition the_terminal (k : kernel) (p : process) : terminal :=
  {| tm_size := the_size k; tm_flags := the_flags k; tm_uid := p_uid p; tm_gid := p_gid p; tm_mode := 400 |}.
Definition raw_terminal (k : kernel) : terminal :=
  {| tm_size := the_size k; tm_flags := the_flags k; tm_uid := tm_uid (k_new k); tm_gid := tm_gid (k_new k); tm_mode := tm_mode (k_new k) |}.

Lemma pty_pair k o fd fd' w w' : openpty (k_new k) (the_size k) (option_map cooked (k_flags k)) fd fd' o w = Some w' ->
  exists w1, open_pair fd fd' o w = Some w1 /\ w' = with_term w1 (<[(w_count w1, o) := raw_terminal k]> (w_term w1)).
Proof.
  unfold openpty. intros H. apply opt_bind_inv in H. destruct H as (w1 & O & H). apply Some_inj in H. exists w1. split; [auto|]. subst w'.
  unfold raw_terminal, the_flags. destruct (k_flags k); reflexivity.
Qed.
Lemma pair_frame fd fd' o w w' : open_pair fd fd' o w = Some w' -> w_count w' = w_count w /\ w_term w' = w_term w.
Proof. unfold open_pair. intros H. apply opt_bind_inv in H. destruct H as (t & _ & H). apply opt_bind_inv in H. destruct H as (t' & _ & H). apply Some_inj in H. subst w'. auto. Qed.

Lemma attempt_ok {A B} k s owned w (call : world -> option (A * world)) (next : A -> world -> option (done B)) a w' : call w = Some (a, w') ->
  attempt k s owned w call next = if k_fault k s then Some (Failed (close_all owned w)) else next a w'.
Proof. intros H. unfold attempt. rewrite H. reflexivity. Qed.
Lemma attempt_open {B} k o owned w (f : world -> option world) (next : unit -> world -> option (done B)) r :
  attempt k (SOpen o) owned w (plain f) next = Some r ->
  (k_fault k (SOpen o) = true /\ r = Failed (close_all owned w)) \/ (k_fault k (SOpen o) = false /\ exists w', f w = Some w' /\ next tt w' = Some r).
Proof.
  unfold attempt, plain. destruct (k_fault k (SOpen o)); [intros H; apply Some_inj in H; auto|]. destruct (f w) as [w'|] eqn:E; [|discriminate]. eauto.
Qed.
Lemma with_term_twice w m m' : with_term (with_term w m) m' = with_term w m'.
Proof. reflexivity. Qed.

Definition good_start (k : kernel) (p : process) (w : world) (r : done numbers) : Prop :=
  match r with
  | Failed w' => w' = w /\ exists st, needs p st /\ st <> SFork /\ (forall o, st <> SCloexec o) /\ k_fault k st = true
  | Done x w' => x = k_numbers k /\ opened w (four x (w_count w)) w' /\ w_count w' = w_count w /\
      (forall o, k_fault k (SOpen o) = false) /\
      (p_pty p = true -> forall o, k_fault k (STtyname o) = false /\ k_fault k (SChown o) = false /\ k_fault k (SChmod o) = false) /\
      opt_bind (open (w_fds w) (n_out x) (FReader (w_count w) true) false) (fun t =>
      opt_bind (open t (n_out' x) (FWriter (w_count w) true) false) (fun t =>
      opt_bind (open t (n_err x) (FReader (w_count w) false) false) (fun t =>
      open t (n_err' x) (FWriter (w_count w) false) false))) = Some (w_fds w') /\
      w_term w' = if p_pty p then <[(w_count w, true) := the_terminal k p]> (<[(w_count w, false) := the_terminal k p]> (w_term w)) else w_term w
  end.

Lemma opens w fd fd' o w' : open_pair fd fd' o w = Some w' ->
  opt_bind (open (w_fds w) fd (FReader (w_count w) o) false) (fun t => open t fd' (FWriter (w_count w) o) false) = Some (w_fds w').
Proof.
  unfold open_pair. intros H. apply opt_bind_inv in H. destruct H as (t & -> & H). cbn. apply opt_bind_inv in H. destruct H as (t' & -> & H). apply Some_inj in H. subst w'. reflexivity.
Qed.

Lemma pipes_good k p w r : p_pty p = false -> fresh w -> create_pipes k w = Some r -> good_start k p w r.
Proof.
  intros Pt Fr H. unfold create_pipes in H. apply attempt_open in H. destruct H as [[K ->]|(K & w1 & O1 & H)].
  { cbn. split; [reflexivity|]. exists (SOpen true). repeat split; auto; discriminate. }
  assert (T : forall o, w_term w !! (w_count w, o) = None) by (intros o; apply Fr; lia).
  assert (P1 := opened_pair w [] w _ _ _ _ (opened_nil w) O1 (T true)). destruct (pair_frame _ _ _ _ _ O1) as [C1 T1].
  apply attempt_open in H. destruct H as [[K' ->]|(K' & w2 & O2 & H)].
  { cbn. split; [exact (opened_undo _ _ _ P1)|]. exists (SOpen false). repeat split; auto; discriminate. }
  assert (P2 := opened_pair w _ w1 _ _ _ _ P1 O2 (T false)). destruct (pair_frame _ _ _ _ _ O2) as [C2 T2]. apply Some_inj in H. subst r. cbn.
  split; [reflexivity|]. split; [eapply opened_perm; [|exact P2]; apply (Permutation_app_comm [_; _] [_; _])|]. split; [congruence|].
  split; [intros []; auto|]. split; [congruence|]. split; [|rewrite Pt; congruence].
  apply opens in O1, O2. apply opt_bind_inv in O1. destruct O1 as (t & -> & O1). cbn. rewrite O1. cbn. rewrite <- C1. exact O2.
Qed.

(** Both terminals exist. *)
Record staged (w : world) (x : numbers) (fds : table) (a b : terminal) (w' : world) : Prop := {
  sg_open : opened w (four x (w_count w)) w';
  sg_fds : w_fds w' = fds;
  sg_term : w_term w' = <[(w_count w, true) := a]> (<[(w_count w, false) := b]> (w_term w))
}.
Definition owned_by (u g : Z) (t : terminal) : terminal :=
  {| tm_size := tm_size t; tm_flags := tm_flags t; tm_uid := u; tm_gid := g; tm_mode := tm_mode t |}.
Definition with_mode (m : Z) (t : terminal) : terminal :=
  {| tm_size := tm_size t; tm_flags := tm_flags t; tm_uid := tm_uid t; tm_gid := tm_gid t; tm_mode := m |}.
Lemma staged_tty w x fds a b w' : staged w x fds a b w' -> ttyname (n_out' x) w' = Some (w_count w, true) /\ ttyname (n_err' x) w' = Some (w_count w, false).
Proof.
  intros [O F T]. unfold ttyname. destruct (oe_new _ _ _ O (n_out' x) (FWriter (w_count w) true)) as (_ & b1 & ->); [cbn; auto|].
  destruct (oe_new _ _ _ O (n_err' x) (FWriter (w_count w) false)) as (_ & b2 & ->); [cbn; auto|]. cbn. rewrite T.
  rewrite lookup_insert, lookup_insert_ne, lookup_insert by congruence. auto.
Qed.
Lemma staged_set w x fds a b w' (o : bool) t : staged w x fds a b w' ->
  staged w x fds (if o then t else a) (if o then b else t) (with_term w' (<[(w_count w, o) := t]> (w_term w'))).
Proof.
  intros [O F T]. constructor; cbn; auto.
  - apply (opened_term _ _ _ _ _ _ (if o then n_out x else n_err x) O). destruct o; cbn; auto.
  - rewrite T. destruct o; [apply insert_insert|]. rewrite insert_commute by congruence. rewrite insert_insert. reflexivity.
Qed.
Lemma staged_get w x fds a b w' (o : bool) : staged w x fds a b w' -> w_term w' !! (w_count w, o) = Some (if o then a else b).
Proof. intros [O F T]. rewrite T. destruct o; [rewrite lookup_insert; reflexivity|rewrite lookup_insert_ne, lookup_insert by congruence; reflexivity]. Qed.
Lemma staged_chown w x fds a b w' (o : bool) u g : staged w x fds a b w' ->
  exists w'', chown (w_count w, o) u g w' = Some w'' /\ staged w x fds (if o then owned_by u g a else a) (if o then b else owned_by u g b) w''.
Proof.
  intros S. unfold chown. rewrite (staged_get _ _ _ _ _ _ o S). eexists. split; [reflexivity|].
  pose proof (staged_set _ _ _ _ _ _ o (owned_by u g (if o then a else b)) S) as Q. destruct o; exact Q.
Qed.
Lemma staged_chmod w x fds a b w' (o : bool) m : staged w x fds a b w' ->
  exists w'', fchmod (if o then n_out' x else n_err' x) m w' = Some w'' /\ staged w x fds (if o then with_mode m a else a) (if o then b else with_mode m b) w''.
Proof.
  intros S. unfold fchmod. assert (E : ttyname (if o then n_out' x else n_err' x) w' = Some (w_count w, o)) by (destruct (staged_tty _ _ _ _ _ _ S); destruct o; assumption).
  rewrite E, (staged_get _ _ _ _ _ _ o S). eexists. split; [reflexivity|].
  pose proof (staged_set _ _ _ _ _ _ o (with_mode m (if o then a else b)) S) as Q. destruct o; exact Q.
Qed.

Lemma ptys_good k p w r : p_pty p = true -> fresh w -> create_ptys k p w = Some r -> good_start k p w r.
Proof.
  intros Pt Fr H. unfold create_ptys in H. fold (the_size k) in H. cbv zeta in H. apply attempt_open in H. destruct H as [[K ->]|(K & w1 & O1 & H)].
  { cbn. split; [reflexivity|]. exists (SOpen true). repeat split; auto; discriminate. }
  assert (T : forall o, w_term w !! (w_count w, o) = None) by (intros o; apply Fr; lia).
  apply pty_pair in O1. destruct O1 as (u1 & O1 & E1). destruct (pair_frame _ _ _ _ _ O1) as [C1 T1]. rewrite C1, T1 in E1.
  assert (P1 : opened w [(n_out (k_numbers k), FReader (w_count w) true); (n_out' (k_numbers k), FWriter (w_count w) true)] w1).
  { rewrite E1, <- T1. eapply opened_term; [exact (opened_pair w [] w _ _ _ _ (opened_nil w) O1 (T true))|left; reflexivity]. }
  apply attempt_open in H. destruct H as [[K' ->]|(K' & w2 & O2 & H)].
  { cbn. split; [exact (opened_undo _ _ _ P1)|]. exists (SOpen false). repeat split; auto; discriminate. }
  apply pty_pair in O2. destruct O2 as (u2 & O2 & E2). destruct (pair_frame _ _ _ _ _ O2) as [C2 T2].
  assert (D1 : w_count w1 = w_count w) by (rewrite E1; exact C1). assert (M1 : w_term w1 = <[(w_count w, true) := raw_terminal k]> (w_term w)) by (rewrite E1; reflexivity).
  rewrite C2, D1, T2, M1 in E2.
  assert (P2 : opened w (four (k_numbers k) (w_count w)) w2).
  { eapply opened_perm; [apply (Permutation_app_comm [_; _] [_; _])|]. rewrite E2, <- M1, <- T2. eapply opened_term; [exact (opened_pair w _ w1 _ _ _ _ P1 O2 (T false))|left; reflexivity]. }
  set (x := k_numbers k) in *.
  assert (S : staged w x (w_fds w2) (raw_terminal k) (raw_terminal k) w2).
  { constructor; [exact P2|reflexivity|]. rewrite E2. cbn. apply insert_commute. congruence. }
  assert (Sx : opt_bind (open (w_fds w) (n_out x) (FReader (w_count w) true) false) (fun t =>
      opt_bind (open t (n_out' x) (FWriter (w_count w) true) false) (fun t =>
      opt_bind (open t (n_err x) (FReader (w_count w) false) false) (fun t =>
      open t (n_err' x) (FWriter (w_count w) false) false))) = Some (w_fds w2)).
  { apply opens in O1, O2. apply opt_bind_inv in O1. destruct O1 as (t & -> & O1). cbn. rewrite O1. cbn. rewrite D1 in O2.
    replace (w_fds w2) with (w_fds u2) by (rewrite E2; reflexivity). rewrite <- O2. rewrite E1. reflexivity. }
  clear E1 E2 O1 O2 P1 P2 M1 D1 C1 C2 T1 T2. destruct (staged_tty _ _ _ _ _ _ S) as [N1 N2].
  assert (U : forall a b w' st, staged w x (w_fds w2) a b w' -> needs p st -> (st <> SFork) -> (forall o, st <> SCloexec o) -> k_fault k st = true ->
    good_start k p w (Failed (close_all [n_out x; n_out' x; n_err x; n_err' x] w'))).
  { intros a b w' st Q A1 A2 A3 A4. cbn. split; [exact (opened_undo _ _ _ (sg_open _ _ _ _ _ _ Q))|]. exists st. auto. }
  erewrite attempt_ok in H by (rewrite N1; reflexivity).
  destruct (k_fault k (STtyname true)) eqn:K1; [apply Some_inj in H; subst r; eapply (U _ _ _ (STtyname true)); eauto; discriminate|].
  erewrite attempt_ok in H by (rewrite N2; reflexivity).
  destruct (k_fault k (STtyname false)) eqn:K2; [apply Some_inj in H; subst r; eapply (U _ _ _ (STtyname false)); eauto; discriminate|].
  destruct (staged_chown _ _ _ _ _ _ true (p_uid p) (p_gid p) S) as (w3 & X3 & S3). cbn iota in S3.
  erewrite attempt_ok in H by (unfold plain; rewrite X3; reflexivity).
  destruct (k_fault k (SChown true)) eqn:K3; [apply Some_inj in H; subst r; eapply (U _ _ _ (SChown true)); eauto; discriminate|].
  destruct (staged_chown _ _ _ _ _ _ false (p_uid p) (p_gid p) S3) as (w4 & X4 & S4). cbn iota in S4.
  erewrite attempt_ok in H by (unfold plain; rewrite X4; reflexivity).
  destruct (k_fault k (SChown false)) eqn:K4; [apply Some_inj in H; subst r; eapply (U _ _ _ (SChown false)); eauto; discriminate|].
  destruct (staged_chmod _ _ _ _ _ _ true 400 S4) as (w5 & X5 & S5). cbn iota in S5, X5. change (Z.lor S_IRUSR (Z.lor S_IWUSR S_IWGRP)) with 400 in H.
  erewrite attempt_ok in H by (unfold plain; rewrite X5; reflexivity).
  destruct (k_fault k (SChmod true)) eqn:K5; [apply Some_inj in H; subst r; eapply (U _ _ _ (SChmod true)); eauto; discriminate|].
  destruct (staged_chmod _ _ _ _ _ _ false 400 S5) as (w6 & X6 & S6). cbn iota in S6, X6.
  erewrite attempt_ok in H by (unfold plain; rewrite X6; reflexivity).
  destruct (k_fault k (SChmod false)) eqn:K6; [apply Some_inj in H; subst r; eapply (U _ _ _ (SChmod false)); eauto; discriminate|].
  apply Some_inj in H. subst r. cbn. split; [reflexivity|]. split; [exact (sg_open _ _ _ _ _ _ S6)|]. split; [exact (oe_count _ _ _ (sg_open _ _ _ _ _ _ S6))|].
  split; [intros []; auto|]. split; [intros _ []; auto|]. split; [rewrite (sg_fds _ _ _ _ _ _ S6); exact Sx|]. rewrite Pt. exact (sg_term _ _ _ _ _ _ S6).
Qed.

(** ** The start of a program *)
Definition started_well (k : kernel) (p : process) (w : world) (r : done numbers) : Prop :=
  match r with
  | Failed w' => w' = w /\ exists st, needs p st /\ st <> SFork /\ k_fault k st = true
  | Done x w' => x = k_numbers k /\ opened w (four x (w_count w)) w' /\
      (forall st, needs p st -> st <> SFork -> k_fault k st = false) /\
      create_std_fds (w_fds w) (w_count w) x = Some (w_fds w') /\
      w_term w' = if p_pty p then <[(w_count w, true) := the_terminal k p]> (<[(w_count w, false) := the_terminal k p]> (w_term w)) else w_term w
  end.
Lemma cloexec_ok w x w' fd f : opened w (four x (w_count w)) w' -> In (fd, f) (four x (w_count w)) ->
  exists w'', cloexec fd w' = Some w'' /\ opened w (four x (w_count w)) w'' /\ set_cloexec (w_fds w') fd = Some (w_fds w'') /\ w_term w'' = w_term w'.
Proof.
  intros O I. destruct (oe_new _ _ _ O _ _ I) as (_ & b & E). assert (X : exists w'', cloexec fd w' = Some w'') by (unfold cloexec, set_cloexec; rewrite E; eauto).
  destruct X as [w'' X]. exists w''. split; [exact X|]. split; [eapply opened_cloexec; eauto; apply (in_map fst) in I; exact I|].
  unfold cloexec in X. destruct (set_cloexec (w_fds w') fd) as [t|]; [|discriminate]. apply Some_inj in X. subst w''. auto.
Qed.
Lemma std_good k p w r : fresh w -> std_fds k p w = Some r -> started_well k p w r.
Proof.
  intros Fr H. unfold std_fds in H.
  destruct (if p_pty p then create_ptys k p w else create_pipes k w) as [[x w1|w1]|] eqn:E; [| |discriminate].
  - assert (G : good_start k p w (Done x w1)) by (destruct (p_pty p) eqn:Pt; [apply ptys_good|apply pipes_good]; auto).
    destruct G as (-> & O & C & A1 & A2 & A3 & A4). set (x := k_numbers k) in *.
    destruct (cloexec_ok _ _ _ (n_out x) _ O (or_introl eq_refl)) as (w2 & X2 & O2 & F2 & T2).
    destruct (cloexec_ok _ _ _ (n_err x) _ O2 (or_intror (or_intror (or_introl eq_refl)))) as (w3 & X3 & O3 & F3 & T3).
    erewrite attempt_ok in H by (unfold plain; rewrite X2; reflexivity).
    destruct (k_fault k (SCloexec true)) eqn:K1.
    { apply Some_inj in H. subst r. cbn. split; [exact (opened_undo _ _ _ O)|]. exists (SCloexec true). repeat split; auto; discriminate. }
    erewrite attempt_ok in H by (unfold plain; rewrite X3; reflexivity).
    destruct (k_fault k (SCloexec false)) eqn:K2.
    { apply Some_inj in H. subst r. cbn. split; [exact (opened_undo _ _ _ O2)|]. exists (SCloexec false). repeat split; auto; discriminate. }
    apply Some_inj in H. subst r. cbn. split; [reflexivity|]. split; [exact O3|]. split.
    { intros [o|o|o|o|o|] Nd Nf; cbn in Nd; [apply A1|apply A2; auto|apply A2; auto|apply A2; auto|destruct o; auto|congruence]. }
    split; [|rewrite T3, T2; exact A4]. unfold create_std_fds.
    apply opt_bind_inv in A3. destruct A3 as (t1 & -> & A3). cbn. apply opt_bind_inv in A3. destruct A3 as (t2 & -> & A3). cbn.
    apply opt_bind_inv in A3. destruct A3 as (t3 & -> & A3). cbn. rewrite A3. cbn. rewrite F2. cbn. exact F3.
  - apply Some_inj in H. subst r. assert (G : good_start k p w (Failed w1)) by (destruct (p_pty p) eqn:Pt; [apply ptys_good|apply pipes_good]; auto).
    destruct G as (-> & st & A1 & A2 & _ & A3). cbn. eauto.
Qed.

Lemma close_writer w l w' fd n o b : opened w l w' -> w_fds w' !! fd = Some {| d_file := FWriter n o; d_cloexec := b |} ->
  close fd w' = with_fds w' (delete fd (w_fds w')).
Proof. intros _ H. unfold close, with_fds. rewrite H. reflexivity. Qed.

Theorem start_good k p w r : fresh w -> start k p w = Some r ->
  match r with
  | Failed w' => w' = w /\ exists st, needs p st /\ k_fault k st = true
  | Done t w' => (forall st, needs p st -> k_fault k st = false) /\
      create_std_fds (w_fds w) (w_count w) (k_numbers k) = Some t /\
      w_fds w' = delete (n_err' (k_numbers k)) (delete (n_out' (k_numbers k)) t) /\ w_count w' = S (w_count w) /\
      w_term w' = if p_pty p then <[(w_count w, true) := the_terminal k p]> (<[(w_count w, false) := the_terminal k p]> (w_term w)) else w_term w
  end.
Proof.
  intros Fr H. unfold start in H. destruct (std_fds k p w) as [[x w1|w1]|] eqn:E; [| |discriminate]; apply std_good in E; auto.
  - destruct E as (-> & O & A1 & A2 & A3). set (x := k_numbers k) in *. destruct (k_fault k SFork) eqn:K; apply Some_inj in H; subst r.
    + split; [exact (opened_undo _ _ _ O)|]. exists SFork. cbn. auto.
    + split. { intros st N. destruct st; try (apply A1; auto; discriminate). exact K. }
      split; [exact A2|]. cbn.
      destruct (oe_new _ _ _ O (n_out' x) (FWriter (w_count w) true)) as (_ & b1 & X1); [cbn; auto|].
      destruct (oe_new _ _ _ O (n_err' x) (FWriter (w_count w) false)) as (_ & b2 & X2); [cbn; auto|].
      assert (Ne : n_out' x <> n_err' x) by (pose proof (oe_once _ _ _ O) as N; cbn in N; inversion N as [|? ? _ N1]; inversion N1 as [|? ? Q _]; intros X; apply Q; cbn; auto).
      rewrite X1, lookup_delete_ne, X2 by congruence. split; [reflexivity|]. rewrite (oe_count _ _ _ O). auto.
  - apply Some_inj in H. subst r. destruct E as (-> & st & A1 & _ & A2). eauto.
Qed.

(** ** Runs *)
Lemma fresh_close w fd : fresh w -> fresh (close fd w).
Proof.
  intros F n o L. unfold close. cbn in *. destruct (w_fds w !! fd) as [[[] ?]|]; try (apply F; exact L).
  destruct (decide ((n0, out) = (n, o))) as [->|]; [apply lookup_delete|rewrite lookup_delete_ne by auto; apply F; exact L].
Qed.
Lemma moved_fresh w m w' : fresh w -> moved w m = Some w' -> fresh w'.
Proof.
  intros F H. destruct m as [k p|fd|fd]; cbn in H.
  - destruct (start k p w) as [[t u|u]|] eqn:E; [| |discriminate]; apply Some_inj in H; subst u; apply start_good in E; auto.
    + destruct E as (_ & _ & _ & C & T). intros n o L. rewrite T, C in *. destruct (p_pty p); [rewrite !lookup_insert_ne by (intros X; inversion X; lia)|]; apply F; lia.
    + destruct E as (-> & _). exact F.
  - destruct (w_fds w !! fd) as [[[] ?]|]; try discriminate. apply Some_inj in H. subst. apply fresh_close; auto.
  - destruct (open (w_fds w) fd FReport false) as [t|]; [|discriminate]. apply Some_inj in H. subst. do 2 apply fresh_close. exact F.
Qed.
Definition as_fd (w : world) : fdstate := {| f_table := w_fds w; f_count := w_count w |}.
Lemma moved_act w m w' : fresh w -> moved w m = Some w' -> exists a, act (as_fd w) a = Some (as_fd w').
Proof.
  intros F H. destruct m as [k p|fd|fd]; cbn in H.
  - destruct (start k p w) as [[t u|u]|] eqn:E; [| |discriminate]; apply Some_inj in H; subst u; apply start_good in E; auto.
    + destruct E as (_ & C & D & N & _). exists (AStart (k_numbers k)). cbn. rewrite C. unfold as_fd. rewrite D, N. reflexivity.
    + destruct E as (-> & _). exists AStartFail. reflexivity.
  - exists (AHangup fd). cbn. destruct (w_fds w !! fd) as [[[] ?]|] eqn:E; try discriminate. apply Some_inj in H. subst. unfold as_fd, close. cbn. rewrite ?E. reflexivity.
  - exists (AReport fd). cbn. destruct (open (w_fds w) fd FReport false) as [t|] eqn:E; [|discriminate]. apply Some_inj in H. subst. reflexivity.
Qed.
Lemma moves_acts l : forall w w', fresh w -> moves w l = Some w' -> fresh w' /\ exists a, acts (as_fd w) a = Some (as_fd w').
Proof.
  induction l as [|m l IH]; intros w w' F H; cbn in H.
  - apply Some_inj in H. subst. split; [auto|]. exists []. reflexivity.
  - destruct (moved w m) as [u|] eqn:E; [|discriminate]. destruct (moved_act _ _ _ F E) as [a A]. destruct (IH u w' (moved_fresh _ _ _ F E) H) as (G & l' & B).
    split; [auto|]. exists (a :: l'). cbn. rewrite A. exact B.
Qed.
Theorem pty_refines t0 w : pty_reachable t0 w -> fresh w /\ fd_reachable t0 (as_fd w).
Proof.
  intros (a & b & c & d & t1 & l & O & H). apply moves_acts in H; [|intros n o _; apply lookup_empty]. destruct H as (F & l' & A).
  split; [auto|]. exists a, b, c, d, t1, l'. auto.
Qed.

(** ** The kernel can answer *)
Lemma open_pair_ok fd fd' o w : w_fds w !! fd = None -> w_fds w !! fd' = None -> fd <> fd' ->
  exists w', open_pair fd fd' o w = Some w' /\ forall z, z <> fd -> z <> fd' -> w_fds w' !! z = w_fds w !! z.
Proof.
  intros A B N. unfold open_pair, open. rewrite A. cbn. rewrite lookup_insert_ne, B by auto. cbn. eexists. split; [reflexivity|].
  intros z N1 N2. cbn. rewrite !lookup_insert_ne by auto. reflexivity.
Qed.
Lemma attempt_some {A B} k s owned w (call : world -> option (A * world)) (next : A -> world -> option (done B)) :
  (forall o, s <> SOpen o) -> (forall a w', next a w' <> None) -> attempt k s owned w call next <> None.
Proof.
  intros N H. unfold attempt. destruct (k_fault k s); [discriminate|]. destruct (call w) as [[a w']|]; [auto|]. destruct s; try discriminate. exfalso. exact (N out eq_refl).
Qed.
Lemma attempt_open_some {B} k o owned w (f : world -> option world) (next : unit -> world -> option (done B)) w' :
  f w = Some w' -> next tt w' <> None -> attempt k (SOpen o) owned w (plain f) next <> None.
Proof. intros E H. unfold attempt, plain. rewrite E. destruct (k_fault k (SOpen o)); [discriminate|exact H]. Qed.
Theorem start_answers k p w : unused w (k_numbers k) -> exists r, start k p w = Some r.
Proof.
  intros [N U]. set (x := k_numbers k) in *. inversion N as [|? ? A1 N1]; subst. inversion N1 as [|? ? A2 N2]; subst. inversion N2 as [|? ? A3 N3]; subst.
  cbn in A1, A2, A3. assert (U' : forall z, In z [n_out x; n_out' x; n_err x; n_err' x] -> w_fds w !! z = None) by exact U. cbn in U'.
  destruct (open_pair_ok (n_out x) (n_out' x) true w) as (w1 & O1 & F1); [auto|auto|intros E; apply A1; auto|].
  assert (O2 : forall v, w_fds v = w_fds w1 -> exists w2, open_pair (n_err x) (n_err' x) false v = Some w2).
  { intros v E. destruct (open_pair_ok (n_err x) (n_err' x) false v) as (w2 & O2 & _); [| | |eauto].
    - rewrite E, F1; [auto 10|intros Z; apply A1; auto|intros Z; apply A2; auto].
    - rewrite E, F1; [auto 10|intros Z; apply A1; auto|intros Z; apply A2; auto].
    - intros Z. apply A3. auto. }
  assert (S : std_fds k p w <> None).
  { unfold std_fds. assert (C : (if p_pty p then create_ptys k p w else create_pipes k w) <> None).
    { destruct (p_pty p).
      - unfold create_ptys. fold x. cbv zeta. eapply attempt_open_some; [unfold openpty; rewrite O1; cbn; reflexivity|].
        edestruct O2 as [w2 E2]; [|eapply attempt_open_some; [unfold openpty; rewrite E2; cbn; reflexivity|]; repeat (apply attempt_some; [discriminate|intros ? ?]); discriminate]. reflexivity.
      - unfold create_pipes. fold x. cbv zeta. eapply attempt_open_some; [exact O1|]. destruct (O2 w1 eq_refl) as [w2 E2]. eapply attempt_open_some; [exact E2|]. discriminate. }
    destruct (if p_pty p then create_ptys k p w else create_pipes k w) as [[y v|v]|]; [|discriminate|congruence].
    repeat (apply attempt_some; [discriminate|intros ? ?]). discriminate. }
  unfold start. destruct (std_fds k p w) as [[y v|v]|]; [|eauto|congruence]. destruct (k_fault k SFork); eauto.
Qed.

(** ** Statements *)
Lemma terminals t0 w k p t w' : pty_reachable t0 w -> start k p w = Some (Done t w') -> p_pty p = true -> forall o,
  w_term w !! (w_count w, o) = None /\
  exists tm, w_term w' !! (w_count w, o) = Some tm /\ expected_size k (tm_size tm) /\ expected_flags k (tm_flags tm) /\
    tm_uid tm = p_uid p /\ tm_gid tm = p_gid p /\ tm_mode tm = 6 * 64 + 2 * 8.
Proof.
  intros R H Pt o. destruct (pty_refines _ _ R) as [F _]. split; [apply F; lia|]. apply start_good in H; [|exact F]. destruct H as (_ & _ & _ & _ & T).
  rewrite Pt in T. exists (the_terminal k p). split; [rewrite T; destruct o; [apply lookup_insert|rewrite lookup_insert_ne by congruence; apply lookup_insert]|].
  cbn. repeat split; [|]; unfold expected_size, expected_flags, the_size, the_flags; [destruct (k_size k)|destruct (k_flags k)]; cbn; auto.
Qed.
Lemma others t0 w k p t w' : pty_reachable t0 w -> start k p w = Some (Done t w') ->
  (forall n o, n <> w_count w -> w_term w' !! (n, o) = w_term w !! (n, o)) /\ (p_pty p = false -> w_term w' = w_term w).
Proof.
  intros R H. destruct (pty_refines _ _ R) as [F _]. apply start_good in H; [|exact F]. destruct H as (_ & _ & _ & _ & T). split.
  - intros n o N. rewrite T. destruct (p_pty p); [|reflexivity]. rewrite !lookup_insert_ne by congruence. reflexivity.
  - intros E. rewrite E in T. exact T.
Qed.
Lemma failed t0 w k p w' : pty_reachable t0 w -> start k p w = Some (Failed w') -> w' = w.
Proof. intros R H. destruct (pty_refines _ _ R) as [F _]. apply start_good in H; [tauto|exact F]. Qed.
Lemma starts_iff t0 w k p r : pty_reachable t0 w -> start k p w = Some r ->
  (exists t w', r = Done t w') <-> forall st, needs p st -> k_fault k st = false.
Proof.
  intros R H. destruct (pty_refines _ _ R) as [F _]. apply start_good in H; [|exact F]. destruct r as [t w'|w'].
  - split; [intros _; apply H|eauto].
  - destruct H as (_ & st & N & K). split; [intros (? & ? & X); discriminate|]. intros A. rewrite (A st N) in K. discriminate.
Qed.
Lemma succeeded t0 w k p t w' : pty_reachable t0 w -> start k p w = Some (Done t w') -> forall fd, w_fds w' !! fd =
  if fd =? n_out (k_numbers k) then Some {| d_file := FReader (w_count w) true; d_cloexec := true |}
  else if fd =? n_err (k_numbers k) then Some {| d_file := FReader (w_count w) false; d_cloexec := true |}
  else w_fds w !! fd.
Proof.
  intros R H fd. destruct (pty_refines _ _ R) as [F _]. apply start_good in H; [|exact F]. destruct H as (_ & C & D & _).
  apply create_inv in C. destruct C as (N1 & N2 & N3 & N4 & Q & ->). rewrite D. set (x := k_numbers k) in *.
  destruct (Z.eqb_spec fd (n_out x)) as [->|Q1]; [|].
  { destruct Q as (Q1 & Q2 & Q3 & Q4 & Q5 & Q6). rewrite !lookup_delete_ne by congruence. rewrite lookup_insert_ne by congruence. apply lookup_insert. }
  destruct (Z.eqb_spec fd (n_err x)) as [->|Q2]; [|].
  { destruct Q as (Q2 & Q3 & Q4 & Q5 & Q6 & Q7). rewrite !lookup_delete_ne by congruence. apply lookup_insert. }
  destruct (Z.eq_dec fd (n_err' x)) as [->|Q3]; [rewrite lookup_delete; symmetry; exact N4|]. rewrite lookup_delete_ne by congruence.
  destruct (Z.eq_dec fd (n_out' x)) as [->|Q4]; [rewrite lookup_delete; symmetry; exact N2|]. rewrite lookup_delete_ne by congruence.
  rewrite !lookup_insert_ne by congruence. reflexivity.
Qed.
Lemma starts_launch t0 w k p t w' h fault mask ign dir cr f : pty_reachable t0 w -> start k p w = Some (Done t w') ->
  child_side h fault p (n_out' (k_numbers k)) (n_err' (k_numbers k)) (fresh_child t mask ign dir cr) = f ->
  fd_reachable t0 (as_fd w) /\ launch h fault p (as_fd w) (k_numbers k) mask ign dir cr f.
Proof.
  intros R H E. destruct (pty_refines _ _ R) as [F G]. split; [exact G|]. apply start_good in H; [|exact F]. destruct H as (_ & C & _). exists t. auto.
Qed.
Lemma unchanged t0 w k p t w' o tm text : pty_reachable t0 w -> start k p w = Some (Done t w') -> p_pty p = true -> k_flags k <> None ->
  w_term w' !! (w_count w, o) = Some tm -> through (tm_flags tm) text = text.
Proof.
  intros R H Pt N E. destruct (terminals _ _ _ _ _ _ R H Pt o) as (_ & tm' & E' & _ & F & _). rewrite E in E'. apply Some_inj in E'. subst tm'.
  unfold expected_flags in F. destruct (k_flags k); [|congruence]. destruct F as (_ & F & _). unfold through. rewrite F. reflexivity.
Qed.
Lemma on_it t0 w k p t w' h fault mask ign dir cr c : inherited t0 -> pty_reachable t0 w -> start k p w = Some (Done t w') ->
  child_side h fault p (n_out' (k_numbers k)) (n_err' (k_numbers k)) (fresh_child t mask ign dir cr) = Runs c ->
  ch_fds c !! 1 = Some {| d_file := FWriter (w_count w) true; d_cloexec := false |} /\
  ch_fds c !! 2 = Some {| d_file := FWriter (w_count w) false; d_cloexec := false |}.
Proof.
  intros I R H E. destruct (starts_launch _ _ _ _ _ _ _ _ _ _ _ _ _ R H E) as [G L]. pose proof (descriptors h fault p t0 _ _ mask ign dir cr (Runs c) I G L c eq_refl) as D.
  split; [exact (D 1)|exact (D 2)].
Qed.
