(** Proofs about the child between fork and exec. *)
From stdpp Require Import gmap strings.
From Coq Require Import ZArith List Bool Lia.
From Verif Require Import Base ProcessModel ChildModel FdModel SpecChild.
Import ListNotations.
Local Open Scope string_scope.
Local Open Scope list_scope.
Local Open Scope Z_scope.

Lemma has_spec s x : has s x = true <-> x ∈ s.
Proof. apply bool_decide_eq_true. Qed.
Lemma has_false s x : has s x = false <-> x ∉ s.
Proof. apply bool_decide_eq_false. Qed.
Lemma within_spec s t : within s t = true <-> s ⊆ t.
Proof. apply bool_decide_eq_true. Qed.

(** ** Names *)
Lemma index_of_spec x l : forall n r, index_of x l n = Some r -> exists i, nth_error l i = Some x /\ r = n + Z.of_nat i.
Proof.
  induction l as [|y l IH]; cbn; intros n r H; [discriminate|]. destruct (String.eqb_spec x y) as [->|].
  - inversion H; subst. exists 0%nat. split; [reflexivity|lia].
  - destruct (IH _ _ H) as (i & E & ->). exists (S i). split; [auto|lia].
Qed.
Lemma index_of_total x l : forall n, In x l -> exists r, index_of x l n = Some r.
Proof.
  induction l as [|y l IH]; cbn; intros n H; [tauto|]. destruct (String.eqb_spec x y); [eauto|]. apply IH. destruct H; congruence.
Qed.
Lemma cap_from_str_spec name x : cap_from_str name = Some x <-> In (name, x) linux_caps.
Proof.
  assert (T : map (fun n => (n, cap_from_str n)) cap_names = map (fun y => (fst y, Some (snd y))) linux_caps) by (vm_compute; reflexivity).
  split; intros H.
  - unfold cap_from_str in H. assert (I : In name cap_names) by (apply index_of_spec in H; destruct H as (i & E & _); eapply nth_error_In; eauto).
    assert (K : In (name, cap_from_str name) (map (fun n => (n, cap_from_str n)) cap_names)) by (apply in_map_iff; eauto).
    rewrite T in K. apply in_map_iff in K. destruct K as ([n z] & E & K). inversion E; subst. unfold cap_from_str in *. cbn in *. congruence.
  - assert (K : In (name, Some x) (map (fun y => (fst y, Some (snd y))) linux_caps)) by (apply in_map_iff; exists (name, x); auto).
    rewrite <- T in K. apply in_map_iff in K. destruct K as (n & E & _). inversion E; subst. reflexivity.
Qed.
Lemma actual_spec p : exactly_configured p (actual_caps p).
Proof.
  intros x. unfold actual_caps, configured. rewrite elem_of_list_to_set, elem_of_list_In, in_flat_map. split.
  - intros (name & Hn & Hx). destruct (cap_from_str name) as [y|] eqn:E; [|destruct Hx]. destruct Hx as [->|[]].
    apply cap_from_str_spec in E. eauto.
  - intros (name & Hn & E). exists name. split; [auto|]. rewrite (proj2 (cap_from_str_spec name x)) by exact E. left. reflexivity.
Qed.
Lemma temporary_spec p x : x ∈ temporary_caps p <-> configured p x \/ needed x.
Proof.
  unfold temporary_caps, needed, CAP_SETUID, CAP_SETGID, CAP_SETPCAP, CAP_SETFCAP. rewrite !elem_of_union, !elem_of_singleton, (actual_spec p x). tauto.
Qed.
Lemma all_caps_spec x : In x all_caps <-> 0 <= x < 41.
Proof.
  unfold all_caps. rewrite in_map_iff. split.
  - intros (n & <- & H). apply in_seq in H. cbn in H. lia.
  - intros H. exists (Z.to_nat x). split; [lia|]. apply in_seq. cbn. lia.
Qed.
Lemma configured_range p x : configured p x -> 0 <= x < 41.
Proof.
  intros (name & _ & E). assert (T : Forall (fun y => 0 <= snd y < 41) linux_caps) by (repeat (constructor; [cbn; lia|]); constructor).
  rewrite List.Forall_forall in T. apply (T _ E).
Qed.

(** ** Running calls *)
Definition strict (x : call) : Prop := match x with CDup2 _ _ => False | _ => True end.

Lemma perform_cons h fault w n x rest c c' : perform h fault w n (x :: rest) c = Runs c' ->
  exists c1, do_call h x c = Some c1 /\ perform h fault w (S n) rest c1 = Runs c'.
Proof.
  cbn [perform]. destruct x; try (destruct (fault n); [discriminate|]); destruct (do_call _ _ _) as [c1|]; try discriminate; eauto.
Qed.
Lemma perform_app h fault w l1 : forall n l2 c c', perform h fault w n (l1 ++ l2) c = Runs c' ->
  exists c1, perform h fault w n l1 c = Runs c1 /\ perform h fault w (n + length l1) l2 c1 = Runs c'.
Proof.
  induction l1 as [|x l1 IH]; intros n l2 c c' H.
  - exists c. cbn. rewrite Nat.add_0_r. auto.
  - cbn [app] in H. assert (K := H). apply perform_cons in H. destruct H as (c1 & E & H). destruct (IH _ _ _ _ H) as (c2 & H1 & H2).
    exists c2. cbn [length]. replace (n + S (length l1))%nat with (S n + length l1)%nat by lia. split; [|auto].
    cbn [perform] in K |- *. destruct x; try (destruct (fault n); [discriminate|]); rewrite E; auto.
Qed.

(** A child that gives up: everything up to some call went well. *)
Lemma perform_exits h fault w calls : forall n c code c', perform h fault w n calls c = Exits code c' ->
  exists l1 x l2 c1, calls = l1 ++ x :: l2 /\ perform h fault w n l1 c = Runs c1 /\ give_up w x c1 = Exits code c' /\ strict x /\
    (fault (n + length l1)%nat = true \/ do_call h x c1 = None).
Proof.
  induction calls as [|x calls IH]; intros n c code c' H; [discriminate|].
  assert (G : strict x -> (fault n = true \/ do_call h x c = None) -> give_up w x c = Exits code c' ->
     exists l1 x' l2 c1, x :: calls = l1 ++ x' :: l2 /\ perform h fault w n l1 c = Runs c1 /\ give_up w x' c1 = Exits code c' /\ strict x' /\
       (fault (n + length l1)%nat = true \/ do_call h x' c1 = None)).
  { intros S F K. exists [], x, calls, c. cbn. rewrite Nat.add_0_r. auto 10. }
  assert (N : forall c1, do_call h x c = Some c1 -> fault n = false \/ match x with CDup2 _ _ | CClose _ | CPrint _ => True | _ => False end ->
     perform h fault w (S n) calls c1 = Exits code c' ->
     exists l1 x' l2 c1, x :: calls = l1 ++ x' :: l2 /\ perform h fault w n l1 c = Runs c1 /\ give_up w x' c1 = Exits code c' /\ strict x' /\
       (fault (n + length l1)%nat = true \/ do_call h x' c1 = None)).
  { intros c1 E F K. destruct (IH _ _ _ _ K) as (l1 & y & l2 & c2 & -> & R & U & St & V). exists (x :: l1), y, l2, c2. cbn [length app].
    replace (n + S (length l1))%nat with (S n + length l1)%nat by lia. split; [reflexivity|]. split; [|auto].
    cbn [perform]. destruct x; try (destruct F as [F|[]]; rewrite F); rewrite E; auto. }
  cbn [perform] in H. clear IH.
  destruct x; try (destruct (fault n) eqn:F; [apply G; [exact Logic.I|auto|exact H]|]);
    destruct (do_call h _ c) as [c1|] eqn:E; try discriminate H; try (eapply N; eauto; fail); apply G; auto; exact Logic.I.
Qed.
Lemma perform_strict h fault w calls : (forall x, In x calls -> strict x) -> forall n c, perform h fault w n calls c <> Stuck.
Proof.
  intros S. induction calls as [|x calls IH]; intros n c; [discriminate|]. cbn [perform].
  assert (Sx := S x (or_introl eq_refl)). assert (IH' := IH (fun y Hy => S y (or_intror Hy))).
  unfold give_up. destruct x; cbv zeta; try (destruct Sx; fail); try (destruct (fault n); [discriminate|]); cbn [do_call]; try apply IH';
    match goal with |- context [match ?o with Some _ => _ | None => _ end] => destruct o end; first [discriminate|apply IH'].
Qed.
Lemma perform_ok h fault w x rest n c c1 : no_fault fault -> do_call h x c = Some c1 -> perform h fault w n (x :: rest) c = perform h fault w (S n) rest c1.
Proof. intros F E. cbn [perform]. destruct x; rewrite ?F, E; reflexivity. Qed.

Lemma perform_faultless h fault w l : forall n c c', perform h fault w n l c = Runs c' ->
  forall i x, nth_error l i = Some x -> fallible x -> fault (n + i)%nat = false.
Proof.
  induction l as [|y l IH]; intros n c c' H i x E F; [destruct i; discriminate|]. destruct i as [|i]; cbn in E.
  - apply Some_inj in E. subst y. rewrite Nat.add_0_r. cbn [perform] in H. destruct x; try (destruct F); destruct (fault n); try discriminate H; reflexivity.
  - apply perform_cons in H. destruct H as (c1 & _ & H). replace (n + S i)%nat with (S n + i)%nat by lia. exact (IH _ _ _ H i x E F).
Qed.
Lemma complaint_in p x : In x (complaints p) -> exists name, x = CPrint (UnknownCapability name).
Proof. unfold complaints. rewrite in_flat_map. intros (name & _ & H). destruct (cap_from_str name); [destruct H|]. destruct H as [<-|[]]. eauto. Qed.
Lemma ambient_in s x : In x (ambient_set s) -> exists y, x = CAmbientRaise y \/ x = CAmbientLower y.
Proof. unfold ambient_set. rewrite in_map_iff. intros (y & <- & _). destruct (has s y); eauto. Qed.
Lemma setup_strict p x : In x (set_user_and_caps p ++ [CExec (p_path p) (p_args p) (p_env p)]) -> strict x.
Proof.
  unfold set_user_and_caps. rewrite !in_app_iff. intros [[H|[H|[H|H]]]|H].
  - apply complaint_in in H. destruct H as [n ->]. exact Logic.I.
  - cbn in H. repeat (destruct H as [<-|H]; [exact Logic.I|]). destruct H.
  - apply ambient_in in H. destruct H as [y [->| ->]]; exact Logic.I.
  - cbn in H. repeat (destruct H as [<-|H]; [exact Logic.I|]). destruct H.
  - destruct H as [<-|[]]. exact Logic.I.
Qed.

(** ** Complaints about unknown capabilities *)
Definition unknown (p : process) : list string := List.filter (fun name => match cap_from_str name with Some _ => false | None => true end) (p_caps p).
Definition say (f : file) (l : list string) : list (file * words) := map (fun name => (f, UnknownCapability name)) l.
Lemma complaints_run h fault w rest l : forall n c f b, ch_fds c !! 1 = Some {| d_file := f; d_cloexec := b |} ->
  perform h fault w n (flat_map (fun name => match cap_from_str name with Some _ => [] | None => [CPrint (UnknownCapability name)] end) l ++ rest) c =
  perform h fault w (n + length (List.filter (fun name => match cap_from_str name with Some _ => false | None => true end) l)) rest
    (set_said c (ch_said c ++ say f (List.filter (fun name => match cap_from_str name with Some _ => false | None => true end) l))).
Proof.
  induction l as [|name l IH]; intros n c f b H; cbn [flat_map List.filter].
  - cbn. rewrite app_nil_r, Nat.add_0_r. destruct c; reflexivity.
  - destruct (cap_from_str name); [apply (IH _ _ _ _ H)|]. cbn [app perform do_call]. unfold print at 1. rewrite H. cbn [d_file].
    rewrite (IH _ _ f b) by exact H. cbn [length]. rewrite <- plus_n_Sm. cbn. rewrite <- app_assoc. reflexivity.
Qed.

(** ** The ambient set *)
Definition same_ids (a b : cred) : Prop :=
  c_ruid a = c_ruid b /\ c_euid a = c_euid b /\ c_suid a = c_suid b /\ c_rgid a = c_rgid b /\ c_egid a = c_egid b /\ c_sgid a = c_sgid b /\
  c_groups a = c_groups b /\ c_bnd a = c_bnd b.
Definition same_rest (a b : child) : Prop :=
  ch_fds a = ch_fds b /\ ch_mask a = ch_mask b /\ ch_dir a = ch_dir b /\ ch_ignored a = ch_ignored b /\ ch_image a = ch_image b /\ ch_said a = ch_said b.

Lemma ambient_run h fault w (s : gset Z) l : forall n c c',
  perform h fault w n (map (fun x => if has s x then CAmbientRaise x else CAmbientLower x) l) c = Runs c' ->
  same_rest c' c /\ same_ids (ch_cred c') (ch_cred c) /\ c_prm (ch_cred c') = c_prm (ch_cred c) /\ c_eff (ch_cred c') = c_eff (ch_cred c) /\
  c_inh (ch_cred c') = c_inh (ch_cred c) /\ c_keep (ch_cred c') = c_keep (ch_cred c) /\
  (forall x, In x l -> x <= h_last h) /\
  (forall x, x ∈ c_amb (ch_cred c') <-> (In x l /\ x ∈ s) \/ (~ In x l /\ x ∈ c_amb (ch_cred c))).
Proof.
  induction l as [|y l IH]; intros n c c' H.
  - cbn in H. inversion H; subst. unfold same_rest, same_ids. do 6 (split; [repeat split; reflexivity|]). split; [intros x []|]. intros x. cbn. tauto.
  - cbn [map] in H. apply perform_cons in H. destruct H as (c1 & E & H). apply IH in H. clear IH.
    destruct H as ((R1 & R2 & R3 & R4 & R5 & R6) & (I1 & I2 & I3 & I4 & I5 & I6 & I7 & I8) & P & F & J & K & L & A).
    assert (E' : y <= h_last h /\ exists a, c1 = set_cred c (with_sets (ch_cred c) (c_prm (ch_cred c)) (c_eff (ch_cred c)) (c_inh (ch_cred c)) a) /\
      forall x, x ∈ a <-> (x = y /\ x ∈ s) \/ (x <> y /\ x ∈ c_amb (ch_cred c))).
    { destruct (has s y) eqn:Hy; cbn in E; unfold ambient_raise, ambient_lower in E.
      - apply has_spec in Hy. destruct (_ && _) eqn:B; [|discriminate]. rewrite !andb_true_iff in B. split; [lia|].
        inversion E; subst. eexists. split; [reflexivity|].
        intros x. rewrite elem_of_union, elem_of_singleton. destruct (Z.eq_dec x y) as [->|]; tauto.
      - apply has_false in Hy. destruct (_ && _) eqn:B; [|discriminate]. rewrite !andb_true_iff in B. split; [lia|].
        inversion E; subst. eexists. split; [reflexivity|].
        intros x. rewrite elem_of_difference, elem_of_singleton. destruct (Z.eq_dec x y) as [->|]; tauto. }
    destruct E' as (Hl & a & -> & Ea). cbn in *. unfold same_rest, same_ids. repeat (split; [tauto|]).
    split; [intros x [<-|Hx]; auto|]. intros x. rewrite A, Ea.
    destruct (Z.eq_dec x y) as [->|N]; destruct (in_dec Z.eq_dec y l); try tauto; intuition congruence.
Qed.

Lemma capset_inv h wh v c c' : capset h wh v c = Some c' ->
  same_ids c' c /\ c_prm c' = c_prm c /\ c_keep c' = c_keep c /\ c_amb c' = c_amb c ∩ (c_prm c ∩ c_inh c') /\
  (match wh with
   | Effective => c_inh c' = c_inh c /\ c_eff c' = base.filter (fun x => x <= h_last h) v
   | Inheritable => c_eff c' = c_eff c /\ c_inh c' = base.filter (fun x => x <= h_last h) v /\ c_inh c' ⊆ c_inh c ∪ c_bnd c
   end) /\ c_eff c' ⊆ c_prm c.
Proof.
  unfold capset. intros H. destruct (_ && _); [discriminate|]. destruct (negb (within _ (c_inh c ∪ c_bnd c))) eqn:E1; [discriminate|].
  destruct (negb (within _ (c_prm c))) eqn:E2; [discriminate|]. apply negb_false_iff, within_spec in E1, E2. inversion H; subst. clear H.
  unfold same_ids. destruct wh; cbn; (split; [repeat split; reflexivity|]); auto 10.
Qed.
Lemma fixup_ids h old new : same_ids (fixup h old new) new /\ c_inh (fixup h old new) = c_inh new /\ c_keep (fixup h old new) = c_keep new.
Proof.
  unfold fixup, same_ids. cbv zeta. repeat match goal with |- context [if ?b then with_sets _ _ _ _ _ else _] => destruct b | |- context [if ?b then new else _] => destruct b end; cbn; auto 20.
Qed.

(** ** What the program finds *)

(** The streams of the program are open, and not under the numbers 1 and 2. *)
Definition ready (c : child) (o e : Z) (x y : file) : Prop :=
  (exists b, ch_fds c !! o = Some {| d_file := x; d_cloexec := b |}) /\ (exists b, ch_fds c !! e = Some {| d_file := y; d_cloexec := b |}) /\
  o <> 1 /\ o <> 2 /\ e <> 1 /\ e <> 2.
Definition streams (t : table) (o e : Z) (x y : file) : table :=
  delete e (delete o (<[2 := {| d_file := y; d_cloexec := false |}]> (<[1 := {| d_file := x; d_cloexec := false |}]> t))).

Lemma dup2_ok o n x t b : t !! o = Some {| d_file := x; d_cloexec := b |} -> o <> n ->
  dup2 o n t = Some (<[n := {| d_file := x; d_cloexec := false |}]> t).
Proof. unfold dup2. intros -> H. rewrite (proj2 (Z.eqb_neq o n) H). reflexivity. Qed.

(** The first steps, up to entering the working directory. *)
Definition moved (c : child) (o e : Z) (x y : file) : child := set_mask (set_fds c (streams (ch_fds c) o e x y)) [].
Definition later (p : process) : list call := set_user_and_caps p ++ [CExec (p_path p) (p_args p) (p_env p)].
Lemma child_side_moved h fault p o e c x y : ready c o e x y ->
  child_side h fault p o e c =
  if fault 2%nat then give_up (p_name p) (CSetMask []) (set_fds c (<[2 := {| d_file := y; d_cloexec := false |}]> (<[1 := {| d_file := x; d_cloexec := false |}]> (ch_fds c))))
  else perform h fault (p_name p) 5 (CChdir (p_workdir p) :: later p) (moved c o e x y).
Proof.
  intros ((b & Ho) & (b' & He) & N1 & N2 & N3 & N4). unfold child_side, setup_child. cbn [app perform do_call].
  rewrite (dup2_ok o 1 x _ b Ho N1). cbn [ch_fds set_fds].
  rewrite (dup2_ok e 2 y _ b'); [|rewrite lookup_insert_ne by congruence; exact He|exact N4]. destruct (fault 2%nat); reflexivity.
Qed.
Lemma streams_1 t o e x y : o <> 1 -> e <> 1 -> streams t o e x y !! 1 = Some {| d_file := x; d_cloexec := false |}.
Proof. intros. unfold streams. rewrite !lookup_delete_ne, lookup_insert_ne, lookup_insert by congruence. reflexivity. Qed.
Lemma streams_2 t o e x y : o <> 2 -> e <> 2 -> streams t o e x y !! 2 = Some {| d_file := y; d_cloexec := false |}.
Proof. intros. unfold streams. rewrite !lookup_delete_ne, lookup_insert by congruence. reflexivity. Qed.

Lemma child_runs h fault p o e c c' x y : ready c o e x y -> child_side h fault p o e c = Runs c' ->
  dressed p c' /\ exactly_configured p (c_amb (ch_cred c')) /\ exactly_configured p (c_inh (ch_cred c')) /\
  ch_fds c' = exec_fds (streams (ch_fds c) o e x y) /\
  c_bnd (ch_cred c') = c_bnd (ch_cred c) /\
  c_prm (ch_cred c') = (if negb (h_noroot h) && (p_uid p =? 0) then c_bnd (ch_cred c) ∪ c_inh (ch_cred c') else ∅) ∪ c_amb (ch_cred c') /\
  c_eff (ch_cred c') = (if negb (h_noroot h) && (p_uid p =? 0) then c_prm (ch_cred c') else c_amb (ch_cred c')) /\
  40 <= h_last h /\
  (forall x, configured p x \/ needed x -> x ∈ c_prm (ch_cred c) /\ x ∈ c_inh (ch_cred c) ∪ c_bnd (ch_cred c)) /\
  c_keep (ch_cred c') = false /\ ch_ignored c' = ch_ignored c /\ ch_said c' = ch_said c ++ say x (unknown p) /\ can_dress h p.
Proof.
  intros Rd H. rewrite (child_side_moved _ _ _ _ _ _ _ _ Rd) in H. destruct (fault 2%nat); [discriminate|].
  destruct Rd as (_ & _ & N1 & N2 & N3 & N4).
  apply perform_cons in H. destruct H as (c1 & E1 & H). cbn [do_call] in E1. destruct (h_dir h (p_workdir p)) eqn:Cd; [|discriminate]. apply Some_inj in E1. subst c1.
  unfold later, set_user_and_caps in H. set (w := p_name p) in H. clearbody w.
  rewrite <- !app_assoc in H. unfold complaints in H.
  rewrite (complaints_run h fault w _ _ _ (set_dir (moved c o e x y) (p_workdir p)) x false) in H by (apply streams_1; auto). cbn [app] in H.
  set (c0 := set_said _ _) in H.
  assert (C0 : ch_cred c0 = ch_cred c) by reflexivity. assert (G0 : ch_ignored c0 = ch_ignored c) by reflexivity.
  assert (S0 : ch_said c0 = ch_said c ++ say x (unknown p)) by reflexivity.
  assert (F0 : ch_fds c0 = streams (ch_fds c) o e x y) by reflexivity. assert (M0 : ch_mask c0 = []) by reflexivity.
  assert (W0 : ch_dir c0 = p_workdir p) by reflexivity.
  clearbody c0.
  apply perform_cons in H. destruct H as (c1 & E1 & H). cbn in E1. rewrite C0 in E1.
  destruct (capset h Inheritable (temporary_caps p) (ch_cred c)) as [k1|] eqn:K1; [|discriminate]. apply Some_inj in E1. subst c1.
  apply perform_cons in H. destruct H as (c1 & E1 & H). cbn in E1.
  destruct (capset h Effective (temporary_caps p) k1) as [k2|] eqn:K2; [|discriminate]. apply Some_inj in E1. subst c1.
  apply perform_cons in H. destruct H as (c1 & E1 & H). cbn in E1. unfold keepcaps in E1. destruct (h_keep_locked h) eqn:KL; [discriminate|]. apply Some_inj in E1. subst c1.
  apply perform_cons in H. destruct H as (c1 & E1 & H). cbn in E1. destruct (setgid h (p_gid p) (with_keep k2 true)) as [k3|] eqn:K3; [|discriminate]. apply Some_inj in E1. subst c1.
  apply perform_cons in H. destruct H as (c1 & E1 & H). cbn in E1. destruct (setgroups h [p_gid p] k3) as [k4|] eqn:K4; [|discriminate]. apply Some_inj in E1. subst c1.
  apply perform_cons in H. destruct H as (c1 & E1 & H). cbn in E1. destruct (setuid h (p_uid p) k4) as [k5|] eqn:K5; [|discriminate]. apply Some_inj in E1. subst c1.
  apply perform_cons in H. destruct H as (c1 & E1 & H). cbn in E1. unfold keepcaps in E1. rewrite KL in E1. apply Some_inj in E1. subst c1.
  apply perform_cons in H. destruct H as (c1 & E1 & H). cbn in E1.
  destruct (capset h Inheritable (temporary_caps p) (with_keep k5 false)) as [k6|] eqn:K6; [|discriminate]. apply Some_inj in E1. subst c1.
  apply perform_cons in H. destruct H as (c1 & E1 & H). cbn in E1.
  destruct (capset h Effective (temporary_caps p) k6) as [k7|] eqn:K7; [|discriminate]. apply Some_inj in E1. subst c1.
  apply perform_cons in H. destruct H as (c1 & E1 & H). cbn in E1. apply Some_inj in E1. subst c1.
  apply perform_app in H. destruct H as (c8 & H8 & H). apply ambient_run in H8.
  destruct H8 as ((R1 & R2 & R3 & R4 & R5 & R6) & I8 & P8 & F8 & J8 & U8 & L8 & A8). cbn in R1, R2, R3, R4, R5, R6, I8, P8, F8, J8, U8, A8.
  cbn [app] in H.
  apply perform_cons in H. destruct H as (c1 & E1 & H). cbn in E1.
  destruct (capset h Inheritable (actual_caps p) (ch_cred c8)) as [k9|] eqn:K9; [|discriminate]. apply Some_inj in E1. subst c1.
  apply perform_cons in H. destruct H as (c1 & E1 & H). cbn in E1.
  destruct (capset h Effective (actual_caps p) k9) as [k10|] eqn:K10; [|discriminate]. apply Some_inj in E1. subst c1.
  apply perform_cons in H. destruct H as (c1 & E1 & H). cbn in E1. destruct (h_exec h (p_path p)) eqn:Ce; [|discriminate]. apply Some_inj in E1. subst c1.
  cbn in H. inversion H; subst c'. clear H. cbn.
  assert (L : 40 <= h_last h) by (apply L8, all_caps_spec; lia).
  apply capset_inv in K1, K2, K6, K7, K9, K10.
  destruct K1 as (S1 & P1 & U1 & A1 & (X1 & Y1 & Z1) & E1). destruct K2 as (S2 & P2 & U2 & A2 & (X2 & Y2) & E2).
  destruct K6 as (S6 & P6 & U6 & A6 & (X6 & Y6 & Z6) & E6). destruct K7 as (S7 & P7 & U7 & A7 & (X7 & Y7) & E7).
  destruct K9 as (S9 & P9 & U9 & A9 & (X9 & Y9 & Z9) & E9). destruct K10 as (S10 & P10 & U10 & A10 & (X10 & Y10) & E10).
  assert (T : forall z, configured p z \/ needed z -> z <= h_last h).
  { intros z [Hx|Hx]; [apply configured_range in Hx; lia|unfold needed in Hx; lia]. }
  assert (B2 : forall x, needed x -> has (c_eff k2) x = true).
  { intros z Hx. apply has_spec. rewrite Y2. apply elem_of_filter. split; [auto|]. apply temporary_spec. auto. }
  unfold setgid in K3. destruct (h_gid h (p_gid p)) eqn:Cg; cbn [negb] in K3; [|discriminate]. change (c_eff (with_keep k2 true)) with (c_eff k2) in K3.
  rewrite B2 in K3 by (unfold needed, CAP_SETGID; auto). apply Some_inj in K3. subst k3.
  unfold setgroups in K4. destruct (h_setgroups h) eqn:Cs; [|rewrite andb_false_r in K4; discriminate]. destruct (_ && _); [|discriminate]. apply Some_inj in K4. subst k4.
  unfold setuid in K5. destruct (h_uid h (p_uid p)) eqn:Cu; cbn [negb] in K5; [|discriminate]. cbn [c_eff with_groups with_gids with_keep] in K5.
  rewrite B2 in K5 by (unfold needed, CAP_SETUID; auto). apply Some_inj in K5. subst k5.
  match type of S6 with same_ids _ (with_keep (fixup _ ?a ?b) _) => destruct (fixup_ids h a b) as (SF & IF & UF); set (fx := fixup h a b) in * end.
  clearbody fx. unfold same_ids in *. cbn in SF, IF, UF, I8, S6, X6, Y6, Z6, P6, U6.
  destruct SF as (f1 & f2 & f3 & f4 & f5 & f6 & f7 & f8). destruct S1 as (a1 & a2 & a3 & a4 & a5 & a6 & a7 & a8).
  destruct S2 as (b1 & b2 & b3 & b4 & b5 & b6 & b7 & b8). destruct S6 as (d1 & d2 & d3 & d4 & d5 & d6 & d7 & d8).
  destruct S7 as (g1 & g2 & g3 & g4 & g5 & g6 & g7 & g8). destruct I8 as (i1 & i2 & i3 & i4 & i5 & i6 & i7 & i8).
  destruct S9 as (j1 & j2 & j3 & j4 & j5 & j6 & j7 & j8). destruct S10 as (m1 & m2 & m3 & m4 & m5 & m6 & m7 & m8).
  assert (UID : c_ruid k10 = p_uid p /\ c_euid k10 = p_uid p /\ c_suid k10 = p_uid p) by (repeat split; congruence).
  assert (INH : exactly_configured p (c_inh k10)).
  { intros z. rewrite X10, Y9, elem_of_filter, (actual_spec p z). split; [tauto|]. intros Hx. split; [auto|exact Hx]. }
  assert (EFF : forall x, configured p x -> x ∈ c_prm (ch_cred c8)).
  { intros z Hx. rewrite <- P9. apply E10. rewrite Y10. apply elem_of_filter. split; [auto|]. apply (actual_spec p z). exact Hx. }
  assert (AMB : exactly_configured p (c_amb k10)).
  { intros z. rewrite A10, A9, !elem_of_intersection, P9, A8, (INH z). rewrite (actual_spec p z). rewrite <- X10, (INH z). split; [tauto|]. intros Hx.
    assert (R := configured_range p z Hx). split; [split|]; [left|split|split]; try (split; [apply all_caps_spec; auto|auto]); auto. }
  split; [|split; [|split; [|split; [|split; [|split; [|split; [|split; [|split; [|split; [|split; [|split]]]]]]]]]]]; auto; try congruence.
  - unfold dressed. cbn. repeat split; try congruence; tauto.
  - destruct UID as (-> & -> & _). rewrite orb_diag. replace (c_bnd k10) with (c_bnd (ch_cred c)) by congruence. reflexivity.
  - destruct UID as (-> & -> & _). rewrite orb_diag. replace (c_bnd k10) with (c_bnd (ch_cred c)) by congruence. reflexivity.
  - intros z Hx. assert (Ht : z ∈ base.filter (fun x => x <= h_last h) (temporary_caps p)) by (apply elem_of_filter; split; [auto|apply temporary_spec; auto]).
    split; [rewrite <- P1; apply E2; rewrite Y2; exact Ht|apply Z1; rewrite Y1; exact Ht].
  - unfold can_dress. auto 10.
Qed.

(** ** Giving up *)
Definition no_exec (x : call) : Prop := match x with CExec _ _ _ => False | CPrint (UnknownCapability _) => True | CPrint _ => False | _ => True end.
Lemma do_call_quiet h x c c1 : no_exec x -> do_call h x c = Some c1 ->
  ch_image c1 = ch_image c /\ forall f n, In (f, CouldNotExec n) (ch_said c1) -> In (f, CouldNotExec n) (ch_said c).
Proof.
  intros N E. destruct x as [a b|a|a|a|wh v|b|g|l|u| |x|x|a b d|w]; cbn in E; unfold on_cred in E; try (destruct N);
    repeat match type of E with context [match ?o with _ => _ end] => destruct o; try discriminate E end;
    apply Some_inj in E; subst c1; cbn; auto.
  unfold print. destruct (ch_fds c !! 1); [|auto]. split; [reflexivity|]. cbn. intros f n. rewrite in_app_iff. intros [H|[H|[]]]; [auto|].
  injection H as _ ->. destruct N.
Qed.
Lemma perform_quiet h fault w l : forall n c c1, (forall x, In x l -> no_exec x) -> perform h fault w n l c = Runs c1 ->
  ch_image c1 = ch_image c /\ forall f n, In (f, CouldNotExec n) (ch_said c1) -> In (f, CouldNotExec n) (ch_said c).
Proof.
  induction l as [|x l IH]; intros n c c1 N H.
  - cbn in H. inversion H; subst. auto.
  - apply perform_cons in H. destruct H as (c2 & E & H). apply IH in H; [|intros; apply N; cbn; auto].
    apply do_call_quiet in E; [|apply N; cbn; auto]. destruct E as [E1 E2], H as [H1 H2]. split; [congruence|eauto].
Qed.
Lemma setup_quiet p x : In x (CChdir (p_workdir p) :: set_user_and_caps p) -> no_exec x.
Proof.
  intros [<-|H]; [exact Logic.I|]. unfold set_user_and_caps in H. rewrite !in_app_iff in H. destruct H as [H|[H|[H|H]]].
  - apply complaint_in in H. destruct H as [n ->]. exact Logic.I.
  - cbn in H. repeat (destruct H as [<-|H]; [exact Logic.I|]). destruct H.
  - apply ambient_in in H. destruct H as [y [->| ->]]; exact Logic.I.
  - cbn in H. repeat (destruct H as [<-|H]; [exact Logic.I|]). destruct H.
Qed.
Lemma print_closed w c : ch_fds c !! 1 = None -> print w c = c.
Proof. unfold print. intros ->. reflexivity. Qed.
Lemma give_up_spec w x c code c' : give_up w x c = Exits code c' ->
  code = EXIT_CODE /\ ch_image c' = ch_image c /\ (forall f n, In (f, CouldNotExec n) (ch_said c') -> In (f, CouldNotExec n) (ch_said c)) /\
  ch_fds c' !! 1 = None /\ ch_fds c' !! 2 = None.
Proof.
  unfold give_up. cbv zeta. rewrite print_closed by (cbn; rewrite lookup_delete_ne by congruence; apply lookup_delete).
  intros H. injection H as <- <-. cbn.
  assert (K : ch_image (if is_cap_call x then print CapabilityError c else c) = ch_image c /\
    forall f n, In (f, CouldNotExec n) (ch_said (if is_cap_call x then print CapabilityError c else c)) -> In (f, CouldNotExec n) (ch_said c)).
  { destruct (is_cap_call x); [|auto]. unfold print. destruct (ch_fds c !! 1); [|auto]. split; [reflexivity|]. cbn. intros f n.
    rewrite in_app_iff. intros [H|[H|[]]]; [auto|discriminate]. }
  destruct K as [K1 K2]. split; [reflexivity|]. split; [exact K1|]. split; [exact K2|]. split; [rewrite lookup_delete_ne by congruence|]; apply lookup_delete.
Qed.

Lemma child_exits h fault p o e c x y code c' : ready c o e x y -> child_side h fault p o e c = Exits code c' ->
  code = EXIT_CODE /\ ch_image c' = ch_image c /\ (forall f n, In (f, CouldNotExec n) (ch_said c') -> In (f, CouldNotExec n) (ch_said c)) /\
  ch_fds c' !! 1 = None /\ ch_fds c' !! 2 = None.
Proof.
  intros Rd H. rewrite (child_side_moved _ _ _ _ _ _ _ _ Rd) in H. destruct (fault 2%nat); [apply give_up_spec in H; exact H|].
  apply perform_exits in H. destruct H as (l1 & z & l2 & c1 & E & R & G & _ & _). apply give_up_spec in G. destruct G as (G1 & G2 & G3 & G4 & G5).
  assert (Q : forall y, In y l1 -> no_exec y).
  { intros q Hq. apply (setup_quiet p). unfold later in E. rewrite app_comm_cons in E.
    destruct (exists_last (l := z :: l2)) as (l3 & z' & E'); [discriminate|]. rewrite E', app_assoc in E. apply app_inj_tail in E. destruct E as [E _].
    rewrite E. apply in_app_iff. auto. }
  apply perform_quiet in R; [|exact Q]. destruct R as [R1 R2]. rewrite R1 in G2. split; [auto|]. split; [exact G2|]. split; [|auto]. intros f n K. apply (R2 f n), G3, K.
Qed.
Lemma child_fate h fault p o e c x y : ready c o e x y ->
  (exists c', child_side h fault p o e c = Runs c') \/ (exists c', child_side h fault p o e c = Exits EXIT_CODE c').
Proof.
  intros Rd. destruct (child_side h fault p o e c) as [c'|code c'|] eqn:E; [eauto| |].
  - right. exists c'. destruct (child_exits _ _ _ _ _ _ _ _ _ _ Rd E) as [-> _]. reflexivity.
  - exfalso. rewrite (child_side_moved _ _ _ _ _ _ _ _ Rd) in E. destruct (fault 2%nat); [discriminate E|].
    eapply perform_strict; [|exact E]. intros q [<-|Hq]; [exact Logic.I|]. eapply setup_strict, Hq.
Qed.

(** ** Succeeding *)
Lemma capset_ok h wh v c :
  (match wh with Effective => base.filter (fun x => x <= h_last h) v | Inheritable => c_eff c end) ⊆ c_prm c ->
  (match wh with Effective => c_inh c | Inheritable => base.filter (fun x => x <= h_last h) v end) ⊆ c_inh c ∪ c_bnd c ->
  (CAP_SETPCAP ∈ c_eff c \/ (match wh with Effective => c_inh c | Inheritable => base.filter (fun x => x <= h_last h) v end) ⊆ c_inh c ∪ c_prm c) ->
  exists c', capset h wh v c = Some c'.
Proof.
  intros H1 H2 H3. unfold capset. apply within_spec in H1, H2. cbv zeta. rewrite H1, H2.
  assert (K : negb (has (c_eff c) CAP_SETPCAP) && negb (within (match wh with Effective => c_inh c | Inheritable => base.filter (fun x => x <= h_last h) v end) (c_inh c ∪ c_prm c)) = false).
  { destruct H3 as [H3|H3]; [apply has_spec in H3|apply within_spec in H3]; rewrite H3; [reflexivity|]. apply andb_false_r. }
  rewrite K. cbn. eauto.
Qed.
Lemma fixup_keep h old new : c_keep old = true -> c_prm (fixup h old new) = c_prm new /\ (c_eff new ⊆ c_prm new -> c_eff (fixup h old new) ⊆ c_prm new).
Proof.
  intros K. unfold fixup. rewrite K. cbv zeta.
  repeat match goal with |- context [if ?b then with_sets _ _ _ _ _ else _] => destruct b | |- context [if ?b then new else _] => destruct b end; cbn; split; auto; intros; set_solver.
Qed.
Lemma ambient_ok h fault w (s : gset Z) rest l : no_fault fault -> forall n c,
  (forall x, In x l -> 0 <= x <= h_last h) -> (forall x, In x l -> x ∈ s -> x ∈ c_prm (ch_cred c) /\ x ∈ c_inh (ch_cred c) /\ h_no_raise h = false) ->
  exists n' c', perform h fault w n (map (fun x => if has s x then CAmbientRaise x else CAmbientLower x) l ++ rest) c = perform h fault w n' rest c' /\
    c_prm (ch_cred c') = c_prm (ch_cred c) /\ c_inh (ch_cred c') = c_inh (ch_cred c) /\ c_eff (ch_cred c') = c_eff (ch_cred c) /\ c_bnd (ch_cred c') = c_bnd (ch_cred c).
Proof.
  intros NF. induction l as [|y l IH]; intros n c R A; [cbn; eauto 10|]. cbn [map app].
  assert (Ry := R y (or_introl eq_refl)).
  assert (E : exists a, do_call h (if has s y then CAmbientRaise y else CAmbientLower y) c =
    Some (set_cred c (with_sets (ch_cred c) (c_prm (ch_cred c)) (c_eff (ch_cred c)) (c_inh (ch_cred c)) a))).
  { destruct (has s y) eqn:Hy; cbn [do_call]; unfold ambient_raise, ambient_lower.
    - apply has_spec in Hy. destruct (A y (or_introl eq_refl) Hy) as (P & Q & ->). apply has_spec in P, Q. rewrite P, Q.
      replace (0 <=? y) with true by (symmetry; apply Z.leb_le; lia). replace (y <=? h_last h) with true by (symmetry; apply Z.leb_le; lia). cbn. eauto.
    - replace (0 <=? y) with true by (symmetry; apply Z.leb_le; lia). replace (y <=? h_last h) with true by (symmetry; apply Z.leb_le; lia). cbn. eauto. }
  destruct E as [a E]. rewrite (perform_ok _ _ _ _ _ _ _ _ NF E).
  destruct (IH (S n) _ (fun x Hx => R x (or_intror Hx)) (fun x Hx Hs => A x (or_intror Hx) Hs : x ∈ c_prm (ch_cred (set_cred c (with_sets (ch_cred c) (c_prm (ch_cred c)) (c_eff (ch_cred c)) (c_inh (ch_cred c)) a))) /\ x ∈ c_inh _ /\ _))
    as (n' & c' & E' & K). exists n', c'. split; [exact E'|exact K].
Qed.

Lemma child_completes h fault p o e c x y : ready c o e x y -> no_fault fault -> can_dress h p -> 40 <= h_last h ->
  c_eff (ch_cred c) ⊆ c_prm (ch_cred c) -> (h_no_raise h = true -> forall z, ~ configured p z) ->
  (forall z, configured p z \/ needed z -> z ∈ c_prm (ch_cred c) /\ z ∈ c_inh (ch_cred c) ∪ c_bnd (ch_cred c)) ->
  exists c', child_side h fault p o e c = Runs c'.
Proof.
  intros Rd NF (Cd & Ce & Cu & Cg & Cs & Ck) L EP NR AV. rewrite (child_side_moved _ _ _ _ _ _ _ _ Rd). rewrite NF. destruct Rd as (_ & _ & N1 & N2 & N3 & N4).
  set (T := base.filter (fun x => x <= h_last h) (temporary_caps p)).
  assert (HT : forall z, z ∈ T <-> configured p z \/ needed z).
  { intros z. unfold T. rewrite elem_of_filter, temporary_spec. split; [tauto|]. intros Hz. split; [|exact Hz].
    destruct Hz as [Hz|Hz]; [apply configured_range in Hz; lia|unfold needed in Hz; lia]. }
  set (A := base.filter (fun x => x <= h_last h) (actual_caps p)).
  assert (HA : forall z, z ∈ A <-> configured p z).
  { intros z. unfold A. rewrite elem_of_filter, (actual_spec p z). split; [tauto|]. intros Hz. split; [|exact Hz]. apply configured_range in Hz. lia. }
  assert (TP : T ⊆ c_prm (ch_cred c)) by (intros z Hz; apply AV, HT, Hz). assert (TB : T ⊆ c_inh (ch_cred c) ∪ c_bnd (ch_cred c)) by (intros z Hz; apply AV, HT, Hz).
  assert (AT : A ⊆ T) by (intros z Hz; apply HT; left; apply HA, Hz).
  assert (Hneed : forall z, needed z -> z ∈ T) by (intros z Hz; apply HT; auto).
  erewrite perform_ok; [|exact NF|cbn [do_call]; rewrite Cd; reflexivity].
  unfold later, set_user_and_caps. set (w := p_name p). clearbody w. rewrite <- !app_assoc. unfold complaints.
  rewrite (complaints_run h fault w _ _ _ (set_dir (moved c o e x y) (p_workdir p)) x false) by (apply streams_1; auto). cbn [app].
  set (c0 := set_said _ _). assert (C0 : ch_cred c0 = ch_cred c) by reflexivity. clearbody c0.
  destruct (capset_ok h Inheritable (temporary_caps p) (ch_cred c)) as [k1 K1]; [exact EP|exact TB|right; fold T; transitivity (c_prm (ch_cred c)); [exact TP|apply union_subseteq_r]|].
  erewrite perform_ok; [|exact NF|cbn [do_call]; rewrite C0, K1; reflexivity].
  apply capset_inv in K1. destruct K1 as (S1 & P1 & U1 & A1 & (X1 & Y1 & Z1) & E1). fold T in Y1.
  destruct (capset_ok h Effective (temporary_caps p) k1) as [k2 K2]; [fold T; rewrite P1; exact TP|apply union_subseteq_l|right; apply union_subseteq_l|].
  erewrite perform_ok; [|exact NF|cbn [do_call set_cred ch_cred]; rewrite K2; reflexivity].
  apply capset_inv in K2. destruct K2 as (S2 & P2 & U2 & A2 & (X2 & Y2) & E2). fold T in Y2.
  erewrite perform_ok; [|exact NF|cbn [do_call set_cred ch_cred]; unfold keepcaps; rewrite Ck; reflexivity].
  assert (has2 : forall z, needed z -> has (c_eff k2) z = true) by (intros z Hz; apply has_spec; rewrite Y2; auto).
  erewrite perform_ok; [|exact NF|cbn [do_call set_cred ch_cred]; unfold setgid; rewrite Cg; cbn [negb c_eff with_keep]; rewrite has2 by (unfold needed, CAP_SETGID; auto); reflexivity].
  erewrite perform_ok; [|exact NF|cbn [do_call set_cred ch_cred]; unfold setgroups; cbn [c_eff with_gids with_keep forallb]; rewrite has2, Cs, Cg by (unfold needed, CAP_SETGID; auto); reflexivity].
  erewrite perform_ok; [|exact NF|cbn [do_call set_cred ch_cred]; unfold setuid; rewrite Cu; cbn [negb c_eff with_groups with_gids with_keep]; rewrite has2 by (unfold needed, CAP_SETUID; auto); reflexivity].
  match goal with |- context [fixup h ?a ?b] => destruct (fixup_ids h a b) as (SF & IF & UF); destruct (fixup_keep h a b eq_refl) as (PF & EF); set (fx := fixup h a b) in * end.
  clearbody fx. unfold same_ids in SF. destruct SF as (_ & _ & _ & _ & _ & _ & _ & SF). cbn in SF, IF, PF, EF.
  assert (B1 : c_bnd k1 = c_bnd (ch_cred c)) by apply S1. assert (B2 : c_bnd k2 = c_bnd k1) by apply S2.
  assert (PF' : c_prm fx = c_prm (ch_cred c)) by congruence. assert (EF' : c_eff fx ⊆ c_prm fx) by (rewrite PF; apply EF; rewrite P2; exact E2).
  erewrite perform_ok; [|exact NF|cbn [do_call set_cred ch_cred]; unfold keepcaps; rewrite Ck; reflexivity].
  assert (IF' : c_inh fx = T) by congruence.
  destruct (capset_ok h Inheritable (temporary_caps p) (with_keep fx false)) as [k6 K6]; cbn [c_eff c_prm c_inh c_bnd with_keep]; fold T; [exact EF'|rewrite IF'; apply union_subseteq_l|right; rewrite IF'; apply union_subseteq_l|].
  erewrite perform_ok; [|exact NF|cbn [do_call set_cred ch_cred]; rewrite K6; reflexivity].
  apply capset_inv in K6. destruct K6 as (S6 & P6 & U6 & A6 & (X6 & Y6 & Z6) & E6). fold T in Y6. cbn in P6.
  destruct (capset_ok h Effective (temporary_caps p) k6) as [k7 K7]; [fold T; rewrite P6, PF'; exact TP|apply union_subseteq_l|right; apply union_subseteq_l|].
  erewrite perform_ok; [|exact NF|cbn [do_call set_cred ch_cred]; rewrite K7; reflexivity].
  apply capset_inv in K7. destruct K7 as (S7 & P7 & U7 & A7 & (X7 & Y7) & E7). fold T in Y7.
  erewrite perform_ok; [|exact NF|cbn [do_call set_cred ch_cred]; reflexivity].
  unfold ambient_set.
  match goal with |- context [perform h fault w ?n (map ?f all_caps ++ ?r) ?c8] => destruct (ambient_ok h fault w (actual_caps p) r all_caps NF n c8) as (n' & c9 & E9 & P9 & I9 & F9 & B9) end.
  { intros z Hz. apply all_caps_spec in Hz. lia. }
  { intros z _ Hz. apply (actual_spec p z) in Hz. cbn. assert (Tz : z ∈ T) by (apply HT; auto). split; [rewrite P7, P6, PF'; auto|]. split; [congruence|].
    destruct (h_no_raise h) eqn:Q; [|reflexivity]. destruct (NR eq_refl z Hz). }
  rewrite E9. clear E9. cbn in P9, I9, F9, B9.
  destruct (capset_ok h Inheritable (actual_caps p) (ch_cred c9)) as [k9 K9]; [rewrite F9, P9, P7; exact E7|fold A; rewrite I9, X7, Y6; transitivity T; [exact AT|apply union_subseteq_l]|right; fold A; rewrite I9, X7, Y6; transitivity T; [exact AT|apply union_subseteq_l]|].
  erewrite perform_ok; [|exact NF|cbn [do_call set_cred ch_cred]; rewrite K9; reflexivity].
  apply capset_inv in K9. destruct K9 as (S9 & P9' & U9 & A9 & (X9 & Y9 & Z9) & E9).
  destruct (capset_ok h Effective (actual_caps p) k9) as [k10 K10]; [fold A; rewrite P9', P9, P7, P6, PF'; transitivity T; [exact AT|exact TP]|apply union_subseteq_l|right; apply union_subseteq_l|].
  erewrite perform_ok; [|exact NF|cbn [do_call set_cred ch_cred]; rewrite K10; reflexivity].
  erewrite perform_ok; [|exact NF|cbn [do_call]; rewrite Ce; reflexivity]. cbn. eauto.
Qed.
