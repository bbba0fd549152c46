(** Iteration order of hash maps has no influence. *)
From stdpp Require Import gmap strings.
From Coq Require Import Ascii ZArith List Bool Lia Permutation Relations.
From Verif Require Import Base RStr CronModel ConfigModel ProcessModel EnvModel DepModel NotifyModel ManagerModel SysModel
  MainModel SpecDep SpecRun RunStep RunInv.
Import ListNotations.
Local Open Scope string_scope.
Local Open Scope list_scope.
Local Open Scope Z_scope.

Inductive similar_act : act -> act -> Prop :=
| sa_go g evs evs' : Forall2 similar_event evs evs' -> similar_act (Go g evs) (Go g evs')
| sa_die m evs evs' : Forall2 similar_event evs evs' -> similar_act (Die m evs) (Die m evs').

Lemma similar_events l : Forall2 similar_event l l.
Proof. induction l; constructor; auto. constructor. Qed.
Lemma similar_acts a : similar_act a a.
Proof. destruct a; constructor; apply similar_events. Qed.

Lemma perm_notified p v1 v2 : List.NoDup (map fst v1) -> Permutation v1 v2 -> notified_process p v1 = notified_process p v2.
Proof. intros N P. unfold notified_process, mainpid. rewrite !(var_perm v1 v2 _ N P). reflexivity. Qed.
Lemma perm_pids id pid m v1 v2 : List.NoDup (map fst v1) -> Permutation v1 v2 -> notified_pids id pid m v1 = notified_pids id pid m v2.
Proof. intros N P. unfold notified_pids, mainpid. rewrite !(var_perm v1 v2 _ N P). reflexivity. Qed.

Lemma message_order o1 o2 g text sender : (forall l, Permutation (o1 l) l) -> (forall l, Permutation (o2 l) l) ->
  similar_act (process_message o1 g text sender) (process_message o2 g text sender).
Proof.
  intros P1 P2. unfold process_message. destruct (g_pids g !! sender) as [id|]; [|apply similar_acts].
  destruct (g_procs g !! id) as [p|]; [|apply similar_acts]. destruct (p_type p); try apply similar_acts.
  set (v1 := o1 (parse text)). set (v2 := o2 (parse text)).
  assert (P : Permutation v1 v2) by (unfold v1, v2; rewrite P1, P2; reflexivity).
  assert (N1 : List.NoDup (map fst v1)). { eapply Permutation_NoDup; [apply Permutation_map; symmetry; apply P1|apply parse_nodup]. }
  assert (N2 : List.NoDup (map fst v2)). { eapply Permutation_NoDup; [apply Permutation_map; symmetry; apply P2|apply parse_nodup]. }
  rewrite !fold_notified by auto. rewrite (perm_notified p v1 v2) by auto.
  assert (M1 := manager_notified id (p_pid p) v1 (update g id (notified_process p v2)) N1).
  assert (M2 := manager_notified id (p_pid p) v2 (update g id (notified_process p v2)) N2).
  rewrite (var_perm v1 v2 _ N1 P) in M1. rewrite (perm_pids _ _ _ v1 v2) in M1 by auto. cbn [then_].
  destruct (if is_one (var v2 "READY") then _ else _); rewrite M1, M2; constructor; (constructor; [constructor; auto|constructor]).
Qed.

Lemma goes_similar s s' a a' k next : similar s s' -> similar_act a a' -> similar (goes s a k next) (goes s' a' k next).
Proof.
  intros (Hg & Hk & Hp & Hs & Hh) A. destruct A; unfold similar, goes; cbn; rewrite ?Hg, ?Hs; repeat split; auto; apply Forall2_app; auto.
Qed.
Lemma pc_similar s s' p : similar s s' -> similar (with_pc s p) (with_pc s' p).
Proof. intros (Hg & Hk & Hp & Hs & Hh). unfold similar, with_pc; cbn; auto. Qed.
Lemma kernel_similar s s' p : similar s s' -> similar (with_kernel s p) (with_kernel s' p).
Proof. intros (Hg & Hk & Hp & Hs & Hh). unfold similar, with_kernel; cbn; auto. Qed.

Lemma step_similar e order s s' o t : (forall l, Permutation (e_order e l) l) -> (forall l, Permutation (order l) l) ->
  similar s s' -> sstep e s o = Some t -> exists t', sstep (with_order e order) s' o = Some t' /\ similar t t'.
Proof.
  intros P1 P2 S H. assert (S0 := S). destruct S as (Hg & Hk & Hp & Hs & Hh).
  destruct o; cbn in *; rewrite <- ?Hg, <- ?Hk, <- ?Hp.
  - destruct (_ && _); inversion H; subst. eauto using kernel_similar.
  - destruct (k_procs (s_k s) !! pid) as [[]|]; inversion H; subst. eauto using kernel_similar.
  - destruct (k_procs (s_k s) !! pid) as [[]|]; inversion H; subst. eauto using kernel_similar.
  - destruct (k_procs (s_k s) !! pid) as [[]|]; try discriminate. destruct (valid_status st); inversion H; subst. eauto using kernel_similar.
  - destruct (k_pipes (s_k s) !! fd) as [q|]; try discriminate. destruct (pp_open q); inversion H; subst. eexists. split; [reflexivity|].
    unfold similar; cbn. repeat split; auto. apply Forall2_app; auto. apply similar_events.
  - destruct (k_pipes (s_k s) !! fd) as [q|]; inversion H; subst. eauto using kernel_similar.
  - destruct (s_pc s); inversion H; subst. eexists. split; [reflexivity|]. unfold step_head. rewrite <- Hs, <- Hg, <- Hk.
    destruct (s_shut s); [destruct (has_running_processes (s_g s))|destruct (_ && _)]; try (apply pc_similar; auto);
      unfold similar; cbn; repeat split; auto. apply Forall2_app; auto. apply similar_events.
  - destruct (s_pc s); inversion H; subst. destruct (spawn_dep (s_g s) r) as [a|]; [|inversion H1; subst; eauto using pc_similar].
    destruct (forks a).
    + change (fork_fits (with_order e order)) with (fork_fits e). destruct (fork_fits e (s_k s) r); inversion H1; subst. eauto using goes_similar, similar_acts.
    + inversion H1; subst. eauto using goes_similar, similar_acts.
  - destruct (s_pc s); inversion H; subst. destruct (spawn_cron (e_zone e) (s_g s) now r) as [a|]; [|inversion H1; subst; eauto using pc_similar].
    destruct (forks a).
    + change (fork_fits (with_order e order)) with (fork_fits e). destruct (fork_fits e (s_k s) r); inversion H1; subst. eauto using goes_similar, similar_acts.
    + inversion H1; subst. eauto using goes_similar, similar_acts.
  - destruct (s_pc s); inversion H; subst. destruct evs as [l|]; [|inversion H1; subst; eauto using pc_similar].
    replace (forallb (ready (with_order e order) s') l) with (forallb (ready e s) l).
    2: { clear H H1. induction l as [|x l IH]; cbn [forallb]; auto. rewrite IH. f_equal. destruct x; cbn; rewrite <- Hg, <- ?Hk; reflexivity. }
    destruct (_ && _ && _); inversion H1; subst; eauto using pc_similar.
  - destruct (s_pc s) as [| | | |[|ev rest]| | |]; inversion H; subst; [eauto using pc_similar|]. clear H. rename H1 into H.
    destruct ev as [fd|fd|fd]; cbn [step_event] in *; rewrite <- ?Hg, <- ?Hk.
    2: { apply Some_inj in H. subst t. eexists. split; [reflexivity|]. apply goes_similar; auto. apply similar_acts. }
    2: { apply Some_inj in H. subst t. eexists. split; [reflexivity|]. apply pc_similar; auto. }
    cbn [with_order e_signal e_status e_notify e_order e_rfc3339].
    destruct (fd =? e_signal e); [destruct a; inversion H; subst; eauto using goes_similar, similar_acts|].
    destruct (fd =? e_status e); [destruct a as [|[]| |]; inversion H; subst; eauto using goes_similar, similar_acts, pc_similar|].
    destruct (fd =? e_notify e).
    + destruct a as [| |[[dg sender]|]|]; inversion H; subst; eauto using pc_similar. eexists. split; [reflexivity|]. apply goes_similar; auto.
      unfold receive. destruct (read_text dg) as [[]|]; try apply similar_acts. apply message_order; auto.
    + destruct a as [| | |[n|]]; try (inversion H; subst; eauto using pc_similar; fail).
      destruct (k_pipes (s_k s) !! fd); [|discriminate]. destruct (_ && _ && _); inversion H; subst. eauto using goes_similar, similar_acts.
  - destruct pid as [pid|].
    + destruct (s_pc s); inversion H; subst. destruct (k_procs (s_k s) !! pid) as [[]|]; try discriminate. destruct (child_ended _ _ _ _).
      inversion H1; subst. eauto using goes_similar, similar_acts.
    + destruct (s_pc s); inversion H; subst. destruct (forallb _ _); inversion H1; subst. eauto using pc_similar.
Qed.

Lemma execute_similar e order ops : (forall l, Permutation (e_order e l) l) -> (forall l, Permutation (order l) l) ->
  forall s s' t, similar s s' -> execute e s ops = Some t -> exists t', execute (with_order e order) s' ops = Some t' /\ similar t t'.
Proof.
  intros P1 P2. induction ops as [|o ops IH]; intros s s' t S H; cbn in *.
  - inversion H; subst. eauto.
  - destruct (sstep e s o) as [u|] eqn:E; [|discriminate]. destruct (step_similar _ _ _ _ _ _ P1 P2 S E) as (u' & -> & S'). eauto.
Qed.
