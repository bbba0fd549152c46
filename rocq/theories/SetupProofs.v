(** Lemmas about cinit's set-up. *)
From stdpp Require Import gmap strings.
From Coq Require Import Ascii ZArith List Bool Lia.
From Verif Require Import Base RStr ConfigModel ProcessModel EnvModel DepModel MainModel SetupModel SpecMain SpecSetup SpecConfig SpecDep
  ConfigProofs DepProofs MainProofs.
Import ListNotations.
Local Open Scope string_scope.
Local Open Scope list_scope.
Local Open Scope Z_scope.

Definition a_socket (h : host) (p : string) (t : sock_type) : sock :=
  {| k_id := h_sockets h; k_type := t; k_path := Some p; k_passcred := true; k_listen := is_stream t |}.
Definition socket_up (h : host) (p : string) (t : sock_type) (fd : Z) : host :=
  {| h_files := <[p := ESocket (h_sockets h) MODE]> (h_files h); h_fds := <[fd := (OSock (a_socket h p t), true)]> (h_fds h);
     h_mask := h_mask h; h_subreaper := h_subreaper h; h_sockets := S (h_sockets h) |}.

Lemma files_eta h : with_files h (h_files h) = h. Proof. destruct h. reflexivity. Qed.
Lemma delete_none {V} (m : gmap string V) p : m !! p = None -> delete p m = m.
Proof. apply delete_notin. Qed.

(** Removing an old socket. *)
Lemma remove_old_cases a p h :
  (remove_old a p h = (Ok tt, with_files h (delete p (h_files h))) /\ removable a h p) \/
  (exists h', remove_old a p h = (Ok tt, h') /\ h' = h /\ h_files h !! p <> None /\ ~ removable a h p) \/
  (exists e, remove_old a p h = (Err e, h) /\ ~ removable a h p).
Proof.
  unfold remove_old, try_call, ask, removable, sys_unlink.
  destruct (f_fault a (KUnlink p)) as [[]|] eqn:F.
  - destruct (h_files h !! p) eqn:E; [right; left; exists h; repeat split; congruence|].
    left. rewrite delete_none by auto. rewrite files_eta. auto.
  - right. right. exists EOTHER. auto.
  - destruct (h_files h !! p) as [[]|] eqn:E; try (left; split; [reflexivity|congruence]).
    + right. right. exists EOTHER. split; [reflexivity|]. intros H. apply H. reflexivity.
    + left. rewrite delete_none by auto. rewrite files_eta. split; [reflexivity|congruence].
Qed.

Definition touched (p : string) (fd : Z) (h h' : host) : Prop :=
  (forall q, q <> p -> h_files h' !! q = h_files h !! q) /\ (h_files h !! p = Some EDir -> h_files h' !! p = Some EDir) /\
  (forall x, x <> fd -> h_fds h' !! x = h_fds h !! x) /\ h_mask h' = h_mask h /\ h_subreaper h' = h_subreaper h.
Lemma touched_refl p fd h : touched p fd h h. Proof. repeat split; auto. Qed.

Local Ltac frame :=
  unfold touched; simpl; (split; [intros q Hq; rewrite ?lookup_insert_ne, ?lookup_delete_ne, ?lookup_insert_ne by congruence; reflexivity|]);
  split; [|split; [intros x Hx; rewrite ?lookup_insert_ne by congruence; reflexivity|split; reflexivity]].

Lemma setup_unix_socket_cases a p t fd h : h_fds h !! fd = None ->
  (socket_possible a h p t /\ setup_unix_socket a p t fd h = (Ok fd, socket_up h p t fd)) \/
  (~ socket_possible a h p t /\ exists e h', setup_unix_socket a p t fd h = (Err e, h') /\ touched p fd h h').
Proof.
  intros Hfd. unfold setup_unix_socket, socket_possible.
  destruct (remove_old_cases a p h) as [(R & Y)|[(h1 & R & -> & Y & N)|(e & R & N)]]; rewrite R; simpl.
  2:{ right. split; [tauto|]. unfold try_call, ask.
      destruct (f_fault a (KSocket p)); simpl; [eauto using touched_refl|].
      unfold sys_socket, sys_open. rewrite Hfd. simpl.
      set (h2 := {| h_files := _ |}).
      assert (T : touched p fd h h2). { unfold h2. frame. auto. }
      destruct (f_fault a (KBind p)); simpl; [eauto|]. unfold sys_bind. simpl. rewrite lookup_insert.
      destruct (h_files h !! p); [|congruence]. simpl. eauto. }
  2:{ right. split; [tauto|]. eauto using touched_refl. }
  set (h1 := with_files h (delete p (h_files h))).
  assert (D : h_files h !! p <> Some EDir).
  { unfold removable in Y. destruct (f_fault a (KUnlink p)) as [[]|]; [congruence|contradiction|exact Y]. }
  unfold try_call, ask.
  destruct (f_fault a (KSocket p)) eqn:F1; simpl.
  { right. split; [intros (_ & H & _); congruence|]. exists e, h1. split; [reflexivity|]. unfold h1. frame. congruence. }
  unfold sys_socket, sys_open. simpl. rewrite Hfd. simpl.
  set (h2 := {| h_files := _ |}).
  assert (T2 : touched p fd h h2). { unfold h2. frame. congruence. }
  destruct (f_fault a (KBind p)) eqn:F2; simpl.
  { right. split; [intros (_ & _ & H & _); congruence|]. eauto. }
  unfold sys_bind. simpl. rewrite lookup_insert, lookup_delete. simpl.
  set (h3 := with_fds _ _).
  assert (T3 : touched p fd h h3). { unfold h3. frame. congruence. }
  destruct (f_fault a (KChmod p)) eqn:F3; simpl.
  { right. split; [intros (_ & _ & _ & H & _); congruence|]. eauto. }
  unfold sys_chmod. simpl. rewrite lookup_insert. simpl.
  set (h4 := with_files _ _).
  assert (T4 : touched p fd h h4). { unfold h4. frame. congruence. }
  destruct (f_fault a (KPasscred p)) eqn:F4; simpl.
  { right. split; [intros (_ & _ & _ & _ & H & _); congruence|]. eauto. }
  unfold sys_passcred, on_sock. simpl. rewrite lookup_insert. simpl.
  set (h5 := with_fds _ _).
  assert (T5 : touched p fd h h5). { unfold h5. frame. congruence. }
  destruct t; simpl.
  - destruct (f_fault a (KListen p)) eqn:F5; simpl.
    { right. split; [intros (_ & _ & _ & _ & _ & H); specialize (H eq_refl); congruence|]. eauto. }
    unfold sys_listen, on_sock. simpl. rewrite lookup_insert. simpl. left. split; [intuition|].
    f_equal. unfold socket_up, h5, h4, h3, with_fds, with_files. simpl. f_equal.
    + rewrite insert_insert, insert_delete_insert. reflexivity.
    + rewrite !insert_insert. reflexivity.
  - left. split; [intuition; discriminate|].
    f_equal. unfold socket_up, h5, h4, h3, with_fds, with_files. simpl. f_equal.
    + rewrite insert_insert, insert_delete_insert. reflexivity.
    + rewrite !insert_insert. reflexivity.
Qed.

Lemma path_differ : SOCKET_PATH <> NOTIFY_PATH. Proof. discriminate. Qed.

Lemma try_fault a c f h e : f_fault a c = Some e -> try_call a c f h = (Err e, h).
Proof. intros H. unfold try_call, ask. rewrite H. reflexivity. Qed.
Lemma try_ok a c f h h' : f_fault a c = None -> f h = Ok h' -> try_call a c f h = (Ok tt, h').
Proof. intros H E. unfold try_call, ask. rewrite H, E. reflexivity. Qed.

(** The signal handler. *)
Definition masked (h : host) : host :=
  {| h_files := h_files h; h_fds := h_fds h; h_mask := h_mask h ++ signals; h_subreaper := h_subreaper h; h_sockets := h_sockets h |}.
Definition signalled (a : answers) (h : host) : host :=
  with_fds (masked h) (<[f_signal a := (OSignals signals, true)]> (h_fds h)).
Definition sockets_up (a : answers) (h : host) : host :=
  socket_up (socket_up (signalled a h) SOCKET_PATH Stream (f_status a)) NOTIFY_PATH Datagram (f_notify a).

Lemma confined_refl a h : confined a h h. Proof. repeat split; auto. Qed.
Lemma confined_trans a h1 h2 h3 : confined a h1 h2 -> confined a h2 h3 -> confined a h1 h3.
Proof.
  intros (A1 & A2 & A3 & A4) (B1 & B2 & B3 & B4). repeat split; intros.
  - rewrite B1, A1 by auto. reflexivity.
  - auto.
  - rewrite B3, A3 by auto. reflexivity.
  - auto.
Qed.
Lemma touched_confined a p fd h h' : (p = SOCKET_PATH \/ p = NOTIFY_PATH) ->
  In fd [f_signal a; f_status a; f_notify a; f_epoll a] -> touched p fd h h' -> confined a h h'.
Proof.
  intros Hp Hfd (A1 & A2 & A3 & A4 & A5). repeat split.
  - intros q H1 H2. apply A1. unfold SOCKET_PATH, NOTIFY_PATH in Hp. destruct Hp as [-> | ->]; auto.
  - intros q H. destruct (decide (q = p)) as [->|Hq]; [auto|]. rewrite A1; auto.
  - intros x H. apply A3. intros ->. auto.
  - rewrite A4. auto.
Qed.
Lemma socket_up_confined a h p t fd : (p = SOCKET_PATH \/ p = NOTIFY_PATH) ->
  In fd [f_signal a; f_status a; f_notify a; f_epoll a] -> h_files h !! p <> Some EDir -> confined a h (socket_up h p t fd).
Proof.
  intros Hp Hfd D. apply (touched_confined a p fd); auto. unfold socket_up. frame. congruence.
Qed.

Lemma possible_nodir a h p t : socket_possible a h p t -> h_files h !! p <> Some EDir.
Proof.
  intros (Y & _). unfold removable in Y. destruct (f_fault a (KUnlink p)) as [[]|]; [congruence|contradiction|exact Y].
Qed.
Lemma possible_ext a h h' p t : h_files h' !! p = h_files h !! p -> socket_possible a h' p t <-> socket_possible a h p t.
Proof. intros E. unfold socket_possible, removable. rewrite E. tauto. Qed.

Lemma masked_confined a h : confined a h (masked h).
Proof. repeat split; auto. intros s Hs. simpl. apply in_or_app. auto. Qed.
Lemma signalled_confined a h : confined a h (signalled a h).
Proof.
  repeat split; auto.
  - intros fd Hfd. simpl. apply lookup_insert_ne. intros <-. apply Hfd. simpl. auto.
  - intros s Hs. simpl. apply in_or_app. auto.
Qed.

Lemma setup_file_descriptors_cases a h : fresh a h ->
  (sockets_possible a h /\ setup_file_descriptors a h = (Ok (f_signal a, f_status a, f_notify a), sockets_up a h) /\ confined a h (sockets_up a h)) \/
  (~ sockets_possible a h /\ exists e h', setup_file_descriptors a h = (Err e, h') /\ confined a h h').
Proof.
  intros (ND & FR). unfold sockets_possible, setup_file_descriptors, setup_signal_handler.
  assert (Fs : h_fds h !! f_signal a = None) by (apply FR; simpl; auto).
  inversion ND as [|? ? N1 ND1]; subst. inversion ND1 as [|? ? N2 ND2]; subst. simpl in N1, N2.
  destruct (f_fault a KMask) eqn:F1; [rewrite (try_fault _ _ _ _ _ F1)|rewrite (try_ok _ _ _ _ (masked h) F1) by reflexivity]; simpl.
  { right. split; [intros (H & _); congruence|]. eexists _, _. split; [reflexivity|]. apply confined_refl. }
  destruct (f_fault a KSignalfd) eqn:F2;
    [rewrite (try_fault _ _ _ _ _ F2)|rewrite (try_ok _ _ _ _ (signalled a h) F2) by (unfold sys_open; simpl; rewrite Fs; reflexivity)]; simpl.
  { right. split; [intros (_ & H & _); congruence|]. eexists _, _. split; [reflexivity|]. apply masked_confined. }
  assert (E1 : h_fds (signalled a h) !! f_status a = None).
  { simpl. rewrite lookup_insert_ne by (intros E; apply N1; auto). apply FR. simpl; auto. }
  destruct (setup_unix_socket_cases a SOCKET_PATH Stream (f_status a) (signalled a h) E1) as [(P1 & ->)|(P1 & e & h1 & -> & T1)]; simpl.
  2:{ right. split; [intros (_ & _ & H & _); apply P1; apply possible_ext with (h := h); [reflexivity|exact H]|].
      exists e, h1. split; [reflexivity|]. eapply confined_trans; [apply signalled_confined|].
      eapply touched_confined; [left; reflexivity| |exact T1]. simpl; auto. }
  set (h1 := socket_up _ _ _ _).
  assert (C1 : confined a h h1).
  { eapply confined_trans; [apply signalled_confined|]. apply socket_up_confined; [auto|simpl; auto|]. eapply possible_nodir; eauto. }
  assert (E2 : h_fds h1 !! f_notify a = None).
  { unfold h1. simpl. rewrite lookup_insert_ne by (intros E; apply N2; auto).
    rewrite lookup_insert_ne by (intros E; apply N1; auto). apply FR. simpl; auto. }
  assert (E3 : h_files h1 !! NOTIFY_PATH = h_files h !! NOTIFY_PATH) by (unfold h1; simpl; apply lookup_insert_ne; discriminate).
  destruct (setup_unix_socket_cases a NOTIFY_PATH Datagram (f_notify a) h1 E2) as [(P2 & ->)|(P2 & e & h2 & -> & T2)]; simpl.
  - left. split; [|split; [reflexivity|]].
    + split; [auto|]. split; [auto|]. split; [apply possible_ext with (h := signalled a h); [reflexivity|exact P1]|].
      apply (possible_ext a h h1) in P2; [exact P2|exact E3].
    + eapply confined_trans; [exact C1|]. apply socket_up_confined; [auto|simpl; auto|]. eapply possible_nodir; eauto.
  - right. split.
    + intros (_ & _ & _ & H). apply P2. apply (possible_ext a h h1); [exact E3|exact H].
    + exists e, h2. split; [reflexivity|]. eapply confined_trans; [exact C1|].
      eapply touched_confined; [right; reflexivity| |exact T2]. simpl; auto.
Qed.

(** Registration and the subreaper attribute. *)
Definition epoll_made (a : answers) (h : host) : host := with_fds h (<[f_epoll a := (OEpoll ∅, true)]> (h_fds h)).
Definition watched (a : answers) : gmap Z (Z * Z) :=
  <[f_notify a := (EPOLLIN, f_notify a)]> (<[f_status a := (EPOLLIN, f_status a)]> (<[f_signal a := (EPOLLIN, f_signal a)]> ∅)).
Definition in_charge (a : answers) (h : host) : host :=
  {| h_files := h_files h; h_fds := <[f_epoll a := (OEpoll (watched a), true)]> (h_fds h); h_mask := h_mask h;
     h_subreaper := true; h_sockets := h_sockets h |}.

Lemma epoll_confined a h x : confined a h (with_fds h (<[f_epoll a := x]> (h_fds h))).
Proof.
  repeat split; auto. intros fd Hfd. simpl. apply lookup_insert_ne. intros <-. apply Hfd. simpl. auto.
Qed.

Lemma setup_cases a h c : List.NoDup [f_signal a; f_status a; f_notify a; f_epoll a] ->
  h_fds h !! f_epoll a = Some (OEpoll ∅, c) ->
  (forall fd, In fd [f_signal a; f_status a; f_notify a] -> h_fds h !! fd <> None) -> c = true ->
  (watch_possible a /\ setup a (f_epoll a) (f_signal a) (f_status a) (f_notify a) h = (Ok tt, in_charge a h)) \/
  (~ watch_possible a /\ exists e h', setup a (f_epoll a) (f_signal a) (f_status a) (f_notify a) h = (Err e, h') /\ confined a h h').
Proof.
  intros ND HE HF ->. inversion ND as [|? ? N1 ND1]; subst. inversion ND1 as [|? ? N2 ND2]; subst.
  inversion ND2 as [|? ? N3 ND3]; subst. simpl in N1, N2, N3.
  assert (A : forall fd m h0, f_fault a (KAdd fd) = None -> h_fds h0 !! f_epoll a = Some (OEpoll m, true) -> h_fds h0 !! fd <> None -> m !! fd = None ->
    try_call a (KAdd fd) (sys_add (f_epoll a) fd EPOLLIN fd) h0 = (Ok tt, with_fds h0 (<[f_epoll a := (OEpoll (<[fd := (EPOLLIN, fd)]> m), true)]> (h_fds h0)))).
  { intros fd m h0 H1 H2 H3 H4. unfold try_call, ask, sys_add. rewrite H1, H2. destruct (h_fds h0 !! fd); [|congruence]. rewrite H4. reflexivity. }
  assert (B : forall fd h0 e, f_fault a (KAdd fd) = Some e ->
    try_call a (KAdd fd) (sys_add (f_epoll a) fd EPOLLIN fd) h0 = (Err e, h0)).
  { intros fd h0 e H. unfold try_call, ask. rewrite H. reflexivity. }
  unfold setup, setup_epoll_fd, watch_possible.
  destruct (f_fault a (KAdd (f_signal a))) eqn:F1.
  { right. split; [intros (H & _); congruence|]. rewrite (B _ _ _ F1). simpl. eauto using confined_refl. }
  rewrite (A _ ∅ h F1 HE); [|apply HF; simpl; auto|apply lookup_empty]. cbn [then_].
  set (h1 := with_fds h _).
  assert (E1 : h_fds h1 !! f_epoll a = Some (OEpoll (<[f_signal a := (EPOLLIN, f_signal a)]> ∅), true)) by (unfold h1; simpl; apply lookup_insert).
  assert (K1 : forall fd, In fd [f_signal a; f_status a; f_notify a] -> h_fds h1 !! fd <> None).
  { intros fd H. unfold h1. simpl. destruct (decide (fd = f_epoll a)) as [->|Hn]; [rewrite lookup_insert; discriminate|].
    rewrite lookup_insert_ne by auto. auto. }
  destruct (f_fault a (KAdd (f_status a))) eqn:F2.
  { right. split; [intros (_ & H & _); congruence|]. rewrite (B _ _ _ F2). simpl. exists e, h1. split; [reflexivity|apply epoll_confined]. }
  rewrite (A _ _ h1 F2 E1); [|apply K1; simpl; auto|rewrite lookup_insert_ne by (intros E; apply N1; auto); apply lookup_empty]. cbn [then_].
  set (h2 := with_fds h1 _).
  assert (E2 : h_fds h2 !! f_epoll a = Some (OEpoll (<[f_status a := (EPOLLIN, f_status a)]> (<[f_signal a := (EPOLLIN, f_signal a)]> ∅)), true)) by (unfold h2; simpl; apply lookup_insert).
  assert (K2 : forall fd, In fd [f_signal a; f_status a; f_notify a] -> h_fds h2 !! fd <> None).
  { intros fd H. unfold h2. simpl. destruct (decide (fd = f_epoll a)) as [->|Hn]; [rewrite lookup_insert; discriminate|].
    rewrite lookup_insert_ne by auto. apply K1; auto. }
  assert (C2 : h2 = with_fds h (<[f_epoll a := (OEpoll (<[f_status a := (EPOLLIN, f_status a)]> (<[f_signal a := (EPOLLIN, f_signal a)]> ∅)), true)]> (h_fds h))).
  { unfold h2, h1, with_fds. simpl. rewrite insert_insert. reflexivity. }
  destruct (f_fault a (KAdd (f_notify a))) eqn:F3.
  { right. split; [intros (_ & _ & H & _); congruence|]. rewrite (B _ _ _ F3). simpl. exists e, h2. split; [reflexivity|]. rewrite C2. apply epoll_confined. }
  rewrite (A _ _ h2 F3 E2); [|apply K2; simpl; auto|rewrite !lookup_insert_ne by (intros E; first [solve [apply N1; auto]|solve [apply N2; auto]]); apply lookup_empty]. cbn [then_].
  set (h3 := with_fds h2 _).
  assert (C3 : h3 = with_fds h (<[f_epoll a := (OEpoll (watched a), true)]> (h_fds h))).
  { unfold h3. rewrite C2. unfold with_fds. simpl. rewrite insert_insert. reflexivity. }
  unfold try_call, ask. destruct (f_fault a KSubreaper) eqn:F4.
  { right. split; [intros (_ & _ & _ & H); congruence|]. exists e, h3. split; [reflexivity|]. rewrite C3. apply epoll_confined. }
  left. split; [auto|]. rewrite C3. reflexivity.
Qed.

Lemma sockets_up_serve a h : fresh a h -> forall x y z n,
  let h' := {| h_files := h_files (sockets_up a h); h_fds := x; h_mask := y; h_subreaper := z; h_sockets := n |} in
  (forall fd, In fd [f_signal a; f_status a; f_notify a] -> x !! fd = h_fds (sockets_up a h) !! fd) ->
  serves h' "/run/cinit.socket" (f_status a) Stream /\ serves h' "/run/cinit-notify.socket" (f_notify a) Datagram /\
  (exists l, h_fds h' !! f_signal a = Some (OSignals l, true) /\ forall s, In s l <-> termination s).
Proof.
  intros (ND & FR) x y z n h' HX. inversion ND as [|? ? N1 ND1]; subst. inversion ND1 as [|? ? N2 ND2]; subst. simpl in N1, N2.
  assert (X1 := HX (f_signal a) ltac:(simpl; auto)). assert (X2 := HX (f_status a) ltac:(simpl; auto)). assert (X3 := HX (f_notify a) ltac:(simpl; auto)).
  unfold sockets_up, socket_up, signalled, with_fds, masked in X1, X2, X3. simpl in X1, X2, X3.
  rewrite lookup_insert in X3. rewrite lookup_insert_ne, lookup_insert in X2 by (intros E; apply N2; auto).
  rewrite lookup_insert_ne, lookup_insert_ne, lookup_insert in X1 by (intros E; apply N1; auto).
  split; [|split].
  - eexists. split; [exact X2|]. simpl. split; [auto|]. split; [auto|]. split; [auto|]. split; [tauto|].
    rewrite lookup_insert_ne by discriminate. apply lookup_insert.
  - eexists. split; [exact X3|]. simpl. split; [auto|]. split; [auto|]. split; [auto|]. split; [split; discriminate|].
    apply lookup_insert.
  - eexists. split; [exact X1|]. intros s. unfold termination, signals, SIGCHLD, SIGINT, SIGTERM, SIGQUIT. simpl. intuition.
Qed.

Lemma sockets_up_ready a h : fresh a h -> sockets_possible a h -> ready a h (in_charge a (epoll_made a (sockets_up a h))).
Proof.
  intros F P. destruct (setup_file_descriptors_cases a h F) as [(_ & _ & C)|(N & _)]; [|contradiction].
  assert (F' := F). destruct F as (ND & FR). inversion ND as [|? ? N1 ND1]; subst. inversion ND1 as [|? ? N2 ND2]; subst.
  inversion ND2 as [|? ? N3 ND3]; subst. simpl in N1, N2, N3.
  assert (G := fun x y z n => sockets_up_serve a h F' x y z n).
  specialize (G (h_fds (in_charge a (epoll_made a (sockets_up a h)))) (h_mask (sockets_up a h)) true (h_sockets (sockets_up a h))).
  destruct G as (G1 & G2 & G3).
  { intros fd Hfd. simpl in Hfd. unfold in_charge, epoll_made, with_fds. cbn [h_fds]. rewrite insert_insert. apply lookup_insert_ne.
    intros <-. intuition. }
  split; [exact G1|]. split; [exact G2|]. split; [exact G3|]. split.
  { exists (watched a). split; [apply lookup_insert|]. intros x v. unfold watched.
    destruct (decide (x = f_notify a)) as [->|H1]; [rewrite lookup_insert; unfold EPOLLIN; split; [intros E; inversion E; auto|intros (_ & ->); auto]|].
    rewrite lookup_insert_ne by auto.
    destruct (decide (x = f_status a)) as [->|H2]; [rewrite lookup_insert; unfold EPOLLIN; split; [intros E; inversion E; auto|intros (_ & ->); auto]|].
    rewrite lookup_insert_ne by auto.
    destruct (decide (x = f_signal a)) as [->|H3]; [rewrite lookup_insert; unfold EPOLLIN; split; [intros E; inversion E; auto|intros (_ & ->); auto]|].
    rewrite lookup_insert_ne by auto. rewrite lookup_empty. split; [discriminate|tauto]. }
  split.
  { intros s. simpl. rewrite in_app_iff. unfold termination, signals, SIGCHLD, SIGINT, SIGTERM, SIGQUIT. simpl. intuition. }
  split; [reflexivity|]. destruct C as (C1 & _ & C3 & _). split.
  - intros p H1 H2. exact (C1 p H1 H2).
  - intros fd H. rewrite <- (C3 fd H). unfold in_charge, epoll_made, with_fds. cbn [h_fds]. rewrite insert_insert. apply lookup_insert_ne.
    intros <-. apply H. simpl. auto.
Qed.

Lemma epoll_cases a h : fresh a h ->
  (epoll_possible a /\ try_call a KEpoll (sys_open (f_epoll a) (OEpoll ∅)) (sockets_up a h) = (Ok tt, epoll_made a (sockets_up a h))) \/
  (~ epoll_possible a /\ exists e, try_call a KEpoll (sys_open (f_epoll a) (OEpoll ∅)) (sockets_up a h) = (Err e, sockets_up a h)).
Proof.
  intros (ND & FR). unfold epoll_possible. destruct (f_fault a KEpoll) eqn:F.
  - right. split; [congruence|]. exists e. apply try_fault. exact F.
  - left. split; [reflexivity|]. apply try_ok; [exact F|]. unfold sys_open.
    inversion ND as [|? ? N1 ND1]; subst. inversion ND1 as [|? ? N2 ND2]; subst. inversion ND2 as [|? ? N3 ND3]; subst. simpl in N1, N2, N3.
    assert (E : h_fds (sockets_up a h) !! f_epoll a = None).
    { unfold sockets_up, socket_up, signalled, with_fds, masked. simpl.
      rewrite !lookup_insert_ne by (intros E; first [solve [apply N1; auto]|solve [apply N2; auto]|solve [apply N3; auto]]).
      apply FR. simpl. auto. }
    rewrite E. reflexivity.
Qed.

Lemma setup_after a h : fresh a h ->
  (watch_possible a /\ setup a (f_epoll a) (f_signal a) (f_status a) (f_notify a) (epoll_made a (sockets_up a h)) =
     (Ok tt, in_charge a (epoll_made a (sockets_up a h)))) \/
  (~ watch_possible a /\ exists e h', setup a (f_epoll a) (f_signal a) (f_status a) (f_notify a) (epoll_made a (sockets_up a h)) = (Err e, h') /\
     h_files h' = h_files (sockets_up a h) /\ confined a (epoll_made a (sockets_up a h)) h' /\
     (forall fd, In fd [f_signal a; f_status a; f_notify a] -> h_fds h' !! fd = h_fds (sockets_up a h) !! fd)).
Proof.
  intros F. assert (F' := F). destruct F as (ND & FR).
  inversion ND as [|? ? N1 ND1]; subst. inversion ND1 as [|? ? N2 ND2]; subst. inversion ND2 as [|? ? N3 ND3]; subst. simpl in N1, N2, N3.
  assert (Q : forall fd, In fd [f_signal a; f_status a; f_notify a] -> h_fds (epoll_made a (sockets_up a h)) !! fd = h_fds (sockets_up a h) !! fd).
  { intros fd Hfd. unfold epoll_made. simpl. apply lookup_insert_ne. simpl in Hfd. intros <-. intuition. }
  destruct (setup_cases a (epoll_made a (sockets_up a h)) true ND) as [(W & E)|(W & e & h' & E & C)].
  - unfold epoll_made. simpl. apply lookup_insert.
  - intros fd Hfd. rewrite Q by auto.
    destruct (sockets_up_serve a h F' (h_fds (sockets_up a h)) (h_mask h) true 0%nat) as ((s1 & S1 & _) & (s2 & S2 & _) & (l & S3 & _)); [auto|].
    simpl in S1, S2, S3, Hfd. destruct Hfd as [<-|[<-|[<-|[]]]].
    + unfold sockets_up. simpl. rewrite S3. discriminate.
    + unfold sockets_up. simpl. rewrite S1. discriminate.
    + unfold sockets_up. simpl. rewrite S2. discriminate.
  - reflexivity.
  - left. auto.
  - right. split; [auto|]. exists e, h'. split; [exact E|].
    assert (K : h_files h' = h_files (sockets_up a h) /\ forall fd, fd <> f_epoll a -> h_fds h' !! fd = h_fds (epoll_made a (sockets_up a h)) !! fd).
    { clear -E. revert E. unfold setup, setup_epoll_fd.
      assert (A : forall fd h0, match try_call a (KAdd fd) (sys_add (f_epoll a) fd EPOLLIN fd) h0 with
                  (r, h1) => h_files h1 = h_files h0 /\ forall x, x <> f_epoll a -> h_fds h1 !! x = h_fds h0 !! x end).
      { intros fd h0. unfold try_call, ask, sys_add. destruct (f_fault a (KAdd fd)); [auto|].
        destruct (h_fds h0 !! f_epoll a) as [[[] c]|]; auto. destruct (h_fds h0 !! fd); auto. destruct (watched0 !! fd); auto.
        simpl. split; [reflexivity|]. intros x Hx. apply lookup_insert_ne. auto. }
      set (g := epoll_made a (sockets_up a h)). assert (A1 := A (f_signal a) g).
      destruct (try_call a (KAdd (f_signal a)) _ g) as [[]h1]; cbn [then_]; [|intros E; inversion E; subst; exact A1].
      assert (A2 := A (f_status a) h1).
      destruct (try_call a (KAdd (f_status a)) _ h1) as [[]h2]; cbn [then_].
      2:{ intros E; inversion E; subst. destruct A1 as [P1 P2], A2 as [Q1 Q2]. split; [rewrite Q1, P1; reflexivity|]. intros x Hx. rewrite Q2, P2; auto. }
      assert (A3 := A (f_notify a) h2).
      destruct (try_call a (KAdd (f_notify a)) _ h2) as [[]h3]; cbn [then_].
      2:{ intros E; inversion E; subst. destruct A1 as [P1 P2], A2 as [Q1 Q2], A3 as [R1 R2]. split; [rewrite R1, Q1, P1; reflexivity|]. intros x Hx. rewrite R2, Q2, P2; auto. }
      unfold try_call, ask. destruct (f_fault a KSubreaper); [|discriminate]. intros E; inversion E; subst.
      destruct A1 as [P1 P2], A2 as [Q1 Q2], A3 as [R1 R2]. split; [rewrite R1, Q1, P1; reflexivity|]. intros x Hx. rewrite R2, Q2, P2; auto. }
    destruct K as [K1 K2]. split; [exact K1|]. split; [exact C|]. intros fd Hfd. rewrite K2, Q; auto. simpl in Hfd. intros ->. intuition.
Qed.

(** * The whole run *)
(** Either the run ends before the first call of the set-up ... *)
Definition reaches (k : machine) (configs : list proc_config) ps dep cron : Prop :=
  do_startup_checks (m_release k) (m_uid k) = Ok tt /\ parse_config (m_yaml k) (m_drain k) (m_files k) = Ret (Ok configs) /\
  build_processes (m_world k) configs = Ret (Ok ps) /\ build_dependency_manager (m_order k) (m_toposort k) configs = Ret dep /\
  build_cron (m_zone k) (m_clock k) configs = Ret cron.

Lemma run_on_early k a h :
  (run_on k a h = (run k, h) /\ run (faultless k) = run k /\ (forall configs ps dep cron, ~ reaches k configs ps dep cron)) \/
  (exists configs ps dep cron, reaches k configs ps dep cron).
Proof.
  unfold run_on, manager_on, run, manager_from, reaches. cbn [faultless m_release m_uid m_yaml m_drain m_files m_world m_order m_toposort m_zone m_clock].
  destruct (do_startup_checks (m_release k) (m_uid k)) as [[]|e];
    [|left; split; [reflexivity|split; [reflexivity|intros ? ? ? ? (H & _); discriminate]]].
  destruct (parse_config (m_yaml k) (m_drain k) (m_files k)) as [[configs|e]|m]; cbn [obind];
    try (left; split; [reflexivity|split; [reflexivity|intros ? ? ? ? (_ & H & _); discriminate]]).
  destruct (build_processes (m_world k) configs) as [[ps|e]|m] eqn:EP; cbn [obind];
    try (left; split; [reflexivity|split; [reflexivity|intros ? ? ? ? (_ & H1 & H2 & _); inversion H1; subst; congruence]]).
  destruct (build_dependency_manager (m_order k) (m_toposort k) configs) as [dep|m] eqn:ED; cbn [obind];
    try (left; split; [reflexivity|split; [reflexivity|intros ? ? ? ? (_ & H1 & _ & H2 & _); inversion H1; subst; congruence]]).
  destruct (build_cron (m_zone k) (m_clock k) configs) as [cron|m] eqn:EC; cbn [obind];
    try (left; split; [reflexivity|split; [reflexivity|intros ? ? ? ? (_ & H1 & _ & _ & H2); inversion H1; subst; congruence]]).
  right. exists configs, ps, dep, cron. auto.
Qed.

(** ... or it goes through the set-up. *)
Inductive late (k : machine) (a : answers) (h : host) (configs : list proc_config) (ps : list process) (dep : result dep_manager Z) (cron : result CronModel.cron Z)
  : outcome boot -> host -> Prop :=
| late_sockets h' : ~ sockets_possible a h -> confined a h h' -> late k a h configs ps dep cron (Ret (Exits 2)) h'
| late_refused e : sockets_possible a h -> dep = Err e \/ ((exists d, dep = Ok d) /\ cron = Err e) ->
    late k a h configs ps dep cron (Ret (Exits e)) (sockets_up a h)
| late_epoll d c m : sockets_possible a h -> dep = Ok d -> cron = Ok c -> ~ epoll_possible a ->
    late k a h configs ps dep cron (Panic m) (sockets_up a h)
| late_watch d c h' : sockets_possible a h -> dep = Ok d -> cron = Ok c -> epoll_possible a -> ~ watch_possible a ->
    h_files h' = h_files (sockets_up a h) -> confined a (epoll_made a (sockets_up a h)) h' ->
    (forall fd, In fd [f_signal a; f_status a; f_notify a] -> h_fds h' !! fd = h_fds (sockets_up a h) !! fd) ->
    late k a h configs ps dep cron (Ret (Exits 3)) h'
| late_loop d c : sockets_possible a h -> dep = Ok d -> cron = Ok c -> epoll_possible a -> watch_possible a ->
    late k a h configs ps dep cron (Ret (EntersLoop configs {| a_processes := ps; a_dep := d; a_cron := c |}))
      (in_charge a (epoll_made a (sockets_up a h))).

Lemma run_on_late k a h configs ps dep cron : fresh a h -> reaches k configs ps dep cron ->
  late k a h configs ps dep cron (fst (run_on k a h)) (snd (run_on k a h)).
Proof.
  intros F (E1 & E2 & E3 & E4 & E5). unfold run_on, manager_on. rewrite E1, E2, E3, E4, E5.
  destruct (setup_file_descriptors_cases a h F) as [(S & -> & C)|(S & e & h' & -> & C)]; [|simpl; apply late_sockets; auto].
  destruct dep as [d|e]; [|simpl; apply late_refused; auto]. destruct cron as [c|e]; [|simpl; apply late_refused; eauto].
  destruct (epoll_cases a h F) as [(P & ->)|(P & e & ->)]; [|simpl; eapply late_epoll; eauto].
  destruct (setup_after a h F) as [(W & ->)|(W & e & h' & -> & A & B & D)]; simpl; [eapply late_loop; eauto|eapply late_watch; eauto].
Qed.

Lemma run_late k configs ps dep cron : reaches k configs ps dep cron ->
  run k = (if negb (m_sockets k) then Ret (Exits 2) else match dep, cron with
    | Err e, _ => Ret (Exits e)
    | Ok _, Err e => Ret (Exits e)
    | Ok d, Ok c => if m_epoll k then if m_setup k then Ret (EntersLoop configs {| a_processes := ps; a_dep := d; a_cron := c |}) else Ret (Exits 3)
                    else Panic "Could not create epoll fd"
    end).
Proof.
  intros (E1 & E2 & E3 & E4 & E5). unfold run, manager_from. rewrite E1, E2. cbn [obind]. rewrite E3. cbn [obind]. rewrite E4. cbn [obind].
  rewrite E5. cbn [obind]. destruct (m_sockets k); [|reflexivity]. cbn [negb]. destruct dep; [|reflexivity]. destruct cron; [|reflexivity].
  destruct (m_epoll k); reflexivity.
Qed.

(** MainModel is right about the outcome. *)
Theorem run_on_refines k a h : fresh a h -> agrees k a h -> forall b, run k = Ret b -> fst (run_on k a h) = Ret b.
Proof.
  intros F (A1 & A2 & A3) b R. destruct (run_on_early k a h) as [(-> & _)|(configs & ps & dep & cron & H)]; [exact R|].
  rewrite (run_late _ _ _ _ _ H) in R. destruct (run_on_late k a h _ _ _ _ F H) as [h' S C|e S D|d c m S D C P|d c h' S D C P W|d c S D C P W].
  - destruct (m_sockets k); [destruct S; apply A1; reflexivity|]. simpl in R. congruence.
  - apply A1 in S. rewrite S in R. simpl in R. destruct D as [-> |((d & ->) & ->)]; congruence.
  - apply A1 in S. rewrite S in R. simpl in R. subst. destruct (m_epoll k); [destruct P; apply A2; reflexivity|discriminate].
  - apply A1 in S. rewrite S in R. simpl in R. subst. apply A2 in P. rewrite P in R. destruct (m_setup k); [destruct W; apply A3; reflexivity|congruence].
  - apply A1 in S. rewrite S in R. simpl in R. subst. apply A2 in P. rewrite P in R. apply A3 in W. rewrite W in R. congruence.
Qed.
Theorem run_on_crashes k a h : fresh a h -> agrees k a h -> (exists m, run k = Panic m) <-> (exists m, fst (run_on k a h) = Panic m).
Proof.
  intros F (A1 & A2 & A3). destruct (run_on_early k a h) as [(-> & _)|(configs & ps & dep & cron & H)]; [reflexivity|].
  rewrite (run_late _ _ _ _ _ H). destruct (run_on_late k a h _ _ _ _ F H) as [h' S C|e S D|d c m S D C P|d c h' S D C P W|d c S D C P W].
  - destruct (m_sockets k); [destruct S; apply A1; reflexivity|]. simpl. split; intros (m & E); discriminate.
  - apply A1 in S. rewrite S. simpl. destruct D as [-> |((d & ->) & ->)]; split; intros (m & E); discriminate.
  - apply A1 in S. rewrite S. simpl. subst. destruct (m_epoll k); [destruct P; apply A2; reflexivity|]. split; eauto.
  - apply A1 in S. rewrite S. simpl. subst. apply A2 in P. rewrite P. destruct (m_setup k); [destruct W; apply A3; reflexivity|]. split; intros (m & E); discriminate.
  - apply A1 in S. rewrite S. simpl. subst. apply A2 in P. rewrite P. apply A3 in W. rewrite W. split; intros (m & E); discriminate.
Qed.

Lemma faultless_reaches k configs ps dep cron : reaches (faultless k) configs ps dep cron <-> reaches k configs ps dep cron.
Proof. reflexivity. Qed.

(** A configuration that is fine: only the calls decide. *)
Theorem run_on_calls k a h configs an : fresh a h -> run (faultless k) = Ret (EntersLoop configs an) ->
  (~ sockets_possible a h /\ fst (run_on k a h) = Ret (Exits 2)) \/
  (sockets_possible a h /\ ~ epoll_possible a /\ exists m, fst (run_on k a h) = Panic m) \/
  (sockets_possible a h /\ epoll_possible a /\ ~ watch_possible a /\ fst (run_on k a h) = Ret (Exits 3)) \/
  (sockets_possible a h /\ epoll_possible a /\ watch_possible a /\ fst (run_on k a h) = Ret (EntersLoop configs an)).
Proof.
  intros F R. destruct (run_on_early k a h) as [(E & E2 & N)|(cs & ps & dep & cron & H)].
  { exfalso. destruct (run_on_early (faultless k) a h) as [(_ & _ & N')|(cs & ps & dep & cron & H)].
    - clear E E2 N. unfold run, manager_from in R. cbn [faultless m_release m_uid m_yaml m_drain m_files m_world m_order m_toposort m_zone m_clock] in *.
      destruct (do_startup_checks (m_release k) (m_uid k)) as [[]|e] eqn:Q1; [|discriminate].
      destruct (parse_config (m_yaml k) (m_drain k) (m_files k)) as [[cs|e]|m] eqn:Q2; cbn [obind] in R; try discriminate.
      destruct (build_processes (m_world k) cs) as [[ps|e]|m] eqn:Q3; cbn [obind] in R; try discriminate.
      destruct (build_dependency_manager (m_order k) (m_toposort k) cs) as [dep|m] eqn:Q4; cbn [obind] in R; try discriminate.
      destruct (build_cron (m_zone k) (m_clock k) cs) as [cron|m] eqn:Q5; cbn [obind] in R; try discriminate.
      apply (N' cs ps dep cron). repeat split; auto.
    - apply (N cs ps dep cron). exact H. }
  assert (R' := run_late (faultless k) cs ps dep cron H). cbn [faultless m_sockets m_epoll m_setup negb] in R'. rewrite R in R'.
  destruct (run_on_late k a h _ _ _ _ F H) as [h' S C|e S D|d c m S D C P|d c h' S D C P W|d c S D C P W].
  - left. auto.
  - exfalso. destruct D as [-> |((d & ->) & ->)]; discriminate.
  - right. left. eauto.
  - right. right. left. auto.
  - subst. inversion R'; subst. right. right. right. auto.
Qed.

Theorem run_on_ready k a h configs an h' : fresh a h -> run_on k a h = (Ret (EntersLoop configs an), h') -> ready a h h'.
Proof.
  intros F R. destruct (run_on_early k a h) as [(E & _ & N)|(cs & ps & dep & cron & H)].
  - rewrite E in R. inversion R as [[R1 R2]]. exfalso. clear -R1 N.
    unfold run, manager_from in R1. unfold reaches in N.
    destruct (do_startup_checks (m_release k) (m_uid k)) as [[]|e] eqn:Q1; [|discriminate].
    destruct (parse_config (m_yaml k) (m_drain k) (m_files k)) as [[cs|e]|m] eqn:Q2; cbn [obind] in R1; try discriminate.
    destruct (build_processes (m_world k) cs) as [[ps|e]|m] eqn:Q3; cbn [obind] in R1; try discriminate.
    destruct (build_dependency_manager (m_order k) (m_toposort k) cs) as [dep|m] eqn:Q4; cbn [obind] in R1; try discriminate.
    destruct (build_cron (m_zone k) (m_clock k) cs) as [cron|m] eqn:Q5; cbn [obind] in R1; try discriminate.
    apply (N cs ps dep cron). repeat split; auto.
  - assert (L := run_on_late k a h _ _ _ _ F H). rewrite R in L. simpl in L.
    inversion L; subst. apply sockets_up_ready; auto.
Qed.

Lemma sockets_up_confined a h : fresh a h -> sockets_possible a h -> confined a h (sockets_up a h).
Proof. intros F P. destruct (setup_file_descriptors_cases a h F) as [(_ & _ & C)|(N & _)]; [exact C|contradiction]. Qed.

Theorem run_on_confined k a h : fresh a h -> confined a h (snd (run_on k a h)).
Proof.
  intros F. destruct (run_on_early k a h) as [(-> & _)|(configs & ps & dep & cron & H)]; [apply confined_refl|].
  destruct (run_on_late k a h _ _ _ _ F H) as [h' S C|e S D|d c m S D C P|d c h' S D C P W FE CO FD|d c S D C P W].
  - exact C.
  - apply sockets_up_confined; auto.
  - apply sockets_up_confined; auto.
  - eapply confined_trans; [apply sockets_up_confined; auto|]. eapply confined_trans; [apply epoll_confined|exact CO].
  - eapply confined_trans; [apply sockets_up_confined; auto|]. eapply confined_trans; [apply epoll_confined|].
    repeat split; auto. intros fd Hfd. simpl. apply lookup_insert_ne. intros <-. apply Hfd. simpl. auto.
Qed.

(** Where cinit refuses to run, and what has become of the sockets by then. *)
Theorem run_on_refusal k a h c h' : honest k -> fresh a h -> run_on k a h = (Ret (Exits c), h') ->
  (precondition_fails k /\ c = 5 /\ h' = h) \/
  (~ precondition_fails k /\
   ((unloadable k /\ c = 1 /\ h' = h) \/
    (~ unloadable k /\ exists parsed, read_as k parsed /\
     ((unmergeable (concat parsed) /\ c = 1 /\ h' = h) \/
      (~ unmergeable (concat parsed) /\ exists configs, merged (concat parsed) configs /\
       (((exists x, In x configs /\ program_fault (m_world k) x) /\ c = 2 /\ h' = h) \/
        ((forall x, In x configs -> ~ program_fault (m_world k) x) /\ (c = 2 \/ c = 3) /\
         (~ sockets_possible a h -> c = 2) /\
         (sockets_possible a h -> serves h' "/run/cinit.socket" (f_status a) Stream /\
            serves h' "/run/cinit-notify.socket" (f_notify a) Datagram)))))))).
Proof.
  intros Hh F E. unfold precondition_fails.
  destruct (run_on_early k a h) as [(E1 & _ & N)|(cs & ps & dep & cron & H)].
  - rewrite E1 in E. inversion E as [[R R2]]; subst h'. clear E.
    destruct (startup_exact (m_release k) (m_uid k)) as [[P Q1]|[P Q1]].
    { left. unfold run in R. rewrite Q1 in R. inversion R. auto. }
    right. split; [exact P|].
    destruct (load_cases k Hh) as [[L EL]|[L (parsed & RA & EL)]].
    { left. unfold run in R. rewrite Q1, EL in R. inversion R. auto. }
    right. split; [auto|]. exists parsed. split; [auto|].
    destruct (merge_dropins_total (m_drain k) (concat parsed) (proj1 Hh)) as [(configs & EM)|[EM (n & e & Hn & He)]].
    2:{ left. unfold run in R. rewrite Q1, EL, EM in R. inversion R. split; [exists n, e; auto|auto]. }
    right. pose proof (merge_dropins_spec _ _ _ (proj1 Hh) EM) as M. split.
    { intros (n & e & Hn & He). destruct M as (_ & M2 & M3). apply M2, in_map_iff in Hn. destruct Hn as (x & <- & Hx).
      apply M3 in Hx. congruence. }
    exists configs. split; [exact M|]. left.
    unfold run in R. rewrite Q1, EL, EM in R. cbn [obind] in R. unfold manager_from in R. unfold reaches in N.
    destruct (build_processes_spec (m_world k) configs) as [[PF EB]|[NF (ps & EB & FF)]].
    { intros m Hm. rewrite Hm in R. discriminate. }
    { rewrite EB in R. cbn [obind] in R. inversion R. auto. }
    exfalso. rewrite EB in R. cbn [obind] in R.
    destruct (build_dependency_manager (m_order k) (m_toposort k) configs) as [dep|m] eqn:ED; cbn [obind] in R; [|discriminate].
    destruct (build_cron (m_zone k) (m_clock k) configs) as [cron|m] eqn:EC; cbn [obind] in R; [|discriminate].
    apply (N configs ps dep cron). rewrite EL, EM. auto.
  - assert (L := run_on_late k a h _ _ _ _ F H). destruct H as (Q1 & Q2 & Q3 & Q4 & Q5).
    destruct (startup_exact (m_release k) (m_uid k)) as [[P Q]|[P _]]; [congruence|].
    right. split; [exact P|].
    destruct (load_cases k Hh) as [[L' EL]|[L' (parsed & RA & EL)]]; [congruence|].
    right. split; [auto|]. exists parsed. split; [auto|]. right.
    assert (EM : merge_dropins (m_drain k) (concat parsed) = Ret (Ok cs)) by congruence.
    pose proof (merge_dropins_spec _ _ _ (proj1 Hh) EM) as M. split.
    { intros (n & e & Hn & He). destruct M as (_ & M2 & M3). apply M2, in_map_iff in Hn. destruct Hn as (x & <- & Hx).
      apply M3 in Hx. congruence. }
    exists cs. split; [exact M|]. right.
    split.
    { destruct (build_processes_spec (m_world k) cs) as [[_ EB]|[NF _]]; [intros m Hm; congruence|congruence|exact NF]. }
    assert (SV : forall x, h_files x = h_files (sockets_up a h) ->
      (forall fd, In fd [f_signal a; f_status a; f_notify a] -> h_fds x !! fd = h_fds (sockets_up a h) !! fd) ->
      serves x "/run/cinit.socket" (f_status a) Stream /\ serves x "/run/cinit-notify.socket" (f_notify a) Datagram).
    { intros [xf xd xm xs xn] X1 X2. cbn [h_files h_fds] in X1, X2. subst xf.
      destruct (sockets_up_serve a h F xd xm xs xn X2) as (S1 & S2 & _). auto. }
    rewrite E in L. cbn [fst snd] in L. inversion L; subst.
    + split; [auto|]. split; [auto|]. intros; contradiction.
    + split.
      { left. destruct (build_dep_spec (m_order k) (m_toposort k) cs (proj1 M) (proj1 (proj2 Hh)) (proj1 (proj2 (proj2 Hh)))) as [[_ EB]|[_ (d' & EB & _)]].
        - match goal with D : _ \/ _ |- _ => destruct D as [K|((d & K) & _)]; [|congruence] end. assert (K3 : @Err dep_manager Z c = Err ANALYSE_EXIT) by congruence. inversion K3. reflexivity.
        - match goal with D : _ \/ _ |- _ => destruct D as [K|((d & K) & K2)]; [congruence|] end.
          destruct (build_cron_spec (m_zone k) (m_clock k) cs) as [[_ EC]|[_ (cr & EC)]]; [intros m Hm; congruence| |congruence].
          assert (K3 : @Err CronModel.cron Z c = Err ANALYSE_EXIT) by congruence. inversion K3. reflexivity. }
      split; [intros; contradiction|]. intros _. apply SV; auto.
    + split; [auto|]. split; [intros; contradiction|]. intros _. apply SV; auto.
Qed.
