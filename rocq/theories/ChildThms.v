(** What programs find when they are executed, for all states of cinit. *)
From stdpp Require Import gmap strings.
From Coq Require Import ZArith List Bool Lia.
From Verif Require Import Base ProcessModel ChildModel FdModel SpecChild ChildProofs FdProofs.
Import ListNotations.
Local Open Scope string_scope.
Local Open Scope list_scope.
Local Open Scope Z_scope.

Section Launch.
  Context (h : host) (fault : nat -> bool) (p : process) (t0 : table) (s : fdstate) (x : numbers).
  Context (mask : list Z) (ign : gset Z) (dir : string) (k : cred) (f : fate).
  Context (inh : inherited t0) (reach : fd_reachable t0 s) (go : launch h fault p s x mask ign dir k f).

  Lemma launch_ready : exists t, forked s x = Some t /\ child_side h fault p (n_out' x) (n_err' x) (fresh_child t mask ign dir k) = f /\
    ready (fresh_child t mask ign dir k) (n_out' x) (n_err' x) (FWriter (f_count s) true) (FWriter (f_count s) false).
  Proof. destruct go as (t & F & C). exists t. split; [exact F|]. split; [exact C|]. eapply forked_ready; eauto. Qed.

  Lemma launch_runs c : f = Runs c ->
    dressed p c /\ exactly_configured p (c_amb (ch_cred c)) /\ exactly_configured p (c_inh (ch_cred c)) /\
    c_bnd (ch_cred c) = c_bnd k /\
    c_prm (ch_cred c) = (if negb (h_noroot h) && (p_uid p =? 0) then c_bnd k ∪ c_inh (ch_cred c) else ∅) ∪ c_amb (ch_cred c) /\
    c_eff (ch_cred c) = (if negb (h_noroot h) && (p_uid p =? 0) then c_prm (ch_cred c) else c_amb (ch_cred c)) /\
    (forall z, configured p z \/ needed z -> z ∈ c_prm k /\ z ∈ c_inh k ∪ c_bnd k) /\
    ch_ignored c = ign ∪ {[SIGPIPE]} /\ ch_said c = say (FWriter (f_count s) true) (unknown p) /\ can_dress h p /\ 40 <= h_last h /\
    (forall i y, nth_error (setup_child p (n_out' x) (n_err' x)) i = Some y -> fallible y -> fault i = false).
  Proof.
    intros E. destruct launch_ready as (t & F & C & R). rewrite E in C. assert (Q := child_runs _ _ _ _ _ _ _ _ _ R C). cbn in Q.
    destruct Q as (Q1 & Q2 & Q3 & Q4 & Q5 & Q6 & Q7 & Q8 & Q9 & Q10 & Q11 & Q12 & Q13).
    split; [exact Q1|]. split; [exact Q2|]. split; [exact Q3|]. split; [exact Q5|]. split; [exact Q6|]. split; [exact Q7|]. split; [exact Q9|].
    split; [exact Q11|]. split; [exact Q12|]. split; [exact Q13|]. split; [exact Q8|]. exact (perform_faultless _ _ _ _ _ _ _ C).
  Qed.

  Lemma launch_fate : (exists c, f = Runs c) \/ gave_up f.
  Proof.
    destruct launch_ready as (t & F & C & R). destruct (child_fate h fault p _ _ _ _ _ R) as [[c E]|[c E]]; [left; exists c; congruence|right].
    exists c. split; [rewrite <- C; exact E|]. apply (child_exits _ _ _ _ _ _ _ _ _ _ R E).
  Qed.

  Lemma launch_unless (P : Prop) : (forall c, f = Runs c -> P) -> ~ P -> gave_up f.
  Proof. intros H N. destruct launch_fate as [[c E]|E]; [|exact E]. destruct (N (H c E)). Qed.

  Lemma caps_nonroot c : f = Runs c -> p_uid p <> 0 ->
    exactly_configured p (c_eff (ch_cred c)) /\ exactly_configured p (c_prm (ch_cred c)) /\
    exactly_configured p (c_inh (ch_cred c)) /\ exactly_configured p (c_amb (ch_cred c)) /\ c_bnd (ch_cred c) = c_bnd k.
  Proof.
    intros E U. destruct (launch_runs c E) as (_ & A & I & B & P & F & _). rewrite (proj2 (Z.eqb_neq _ _) U), andb_false_r in P, F.
    assert (P' : c_prm (ch_cred c) = c_amb (ch_cred c)) by (rewrite P; apply union_empty_l_L). rewrite F, P'. auto.
  Qed.
  Lemma caps_root c : f = Runs c -> p_uid p = 0 -> h_noroot h = false ->
    (forall z, z ∈ c_prm (ch_cred c) <-> z ∈ c_bnd k \/ configured p z) /\ c_eff (ch_cred c) = c_prm (ch_cred c) /\
    exactly_configured p (c_inh (ch_cred c)) /\ exactly_configured p (c_amb (ch_cred c)) /\ c_bnd (ch_cred c) = c_bnd k.
  Proof.
    intros E U N. destruct (launch_runs c E) as (_ & A & I & B & P & F & _). rewrite U, N in P, F. cbn in P, F.
    split; [|auto]. intros z. rewrite P, !elem_of_union, (I z), (A z). tauto.
  Qed.
  Lemma not_granted z : configured p z \/ needed z -> z ∉ c_prm k \/ z ∉ c_inh k ∪ c_bnd k -> gave_up f.
  Proof.
    intros C N. apply (launch_unless (z ∈ c_prm k /\ z ∈ c_inh k ∪ c_bnd k)); [|tauto]. intros c E.
    destruct (launch_runs c E) as (_ & _ & _ & _ & _ & _ & H & _). apply H, C.
  Qed.
  Lemma cannot_dress : ~ can_dress h p -> gave_up f.
  Proof. apply launch_unless. intros c E. apply (launch_runs c E). Qed.
  Lemma any_fault i y : nth_error (setup_child p (n_out' x) (n_err' x)) i = Some y -> fallible y -> fault i = true -> gave_up f.
  Proof.
    intros Y F T. apply (launch_unless (fault i = false)); [|congruence]. intros c E. destruct (launch_runs c E) as (_ & _ & _ & _ & _ & _ & _ & _ & _ & _ & _ & H). eauto.
  Qed.
  Lemma descriptors c : f = Runs c -> forall fd, ch_fds c !! fd =
    if fd =? 1 then Some {| d_file := FWriter (f_count s) true; d_cloexec := false |}
    else if fd =? 2 then Some {| d_file := FWriter (f_count s) false; d_cloexec := false |}
    else match t0 !! fd with Some d => if d_cloexec d then None else Some d | None => None end.
  Proof.
    intros E fd. destruct launch_ready as (t & F & C & R). rewrite E in C. assert (Q := child_runs _ _ _ _ _ _ _ _ _ R C). cbn in Q.
    destruct Q as (_ & _ & _ & -> & _). eapply program_holds; eauto.
  Qed.
  Lemma grants : no_fault fault -> can_dress h p -> 40 <= h_last h -> c_eff k ⊆ c_prm k -> (h_no_raise h = true -> forall z, ~ configured p z) ->
    (forall z, configured p z \/ needed z -> z ∈ c_prm k /\ z ∈ c_inh k ∪ c_bnd k) -> exists c, f = Runs c.
  Proof.
    intros NF D L EP NR AV. destruct launch_ready as (t & F & C & R).
    destruct (child_completes h fault p _ _ _ _ _ R NF D L EP NR AV) as [c E]. exists c. rewrite <- C. exact E.
  Qed.
  Lemma unknown_same : unknown p = unknown_names p.
  Proof.
    unfold unknown, unknown_names. apply filter_ext. intros name. destruct (cap_from_str name) eqn:E.
    - apply cap_from_str_spec in E. symmetry. apply negb_false_iff, existsb_exists. eexists. split; [exact E|apply String.eqb_refl].
    - symmetry. apply negb_true_iff. destruct (existsb _ _) eqn:X; [|reflexivity]. apply existsb_exists in X. destruct X as ([y z] & Hy & X). cbn in X. apply String.eqb_eq in X. subst y.
      apply cap_from_str_spec in Hy. congruence.
  Qed.
  Lemma complains c : f = Runs c -> ch_said c = map (fun name => (FWriter (f_count s) true, UnknownCapability name)) (unknown_names p).
  Proof. intros E. destruct (launch_runs c E) as (_ & _ & _ & _ & _ & _ & _ & _ & H & _). rewrite <- unknown_same. exact H. Qed.
  Lemma silent code c : f = Exits code c -> forall w n, ~ In (w, CouldNotExec n) (ch_said c).
  Proof.
    intros E w n. destruct launch_ready as (t & F & C & R). rewrite E in C. destruct (child_exits _ _ _ _ _ _ _ _ _ _ R C) as (_ & _ & H & _). intros K. exact (H w n K).
  Qed.
  Lemma executed_iff : no_fault fault -> c_eff k ⊆ c_prm k -> h_no_raise h = false ->
    (exists c, f = Runs c) <-> can_dress h p /\ 40 <= h_last h /\ forall z, configured p z \/ needed z -> z ∈ c_prm k /\ z ∈ c_inh k ∪ c_bnd k.
  Proof.
    intros NF EP NR. split.
    - intros [c E]. destruct (launch_runs c E) as (_ & _ & _ & _ & _ & _ & H & _ & _ & D & L & _). auto.
    - intros (D & L & AV). apply grants; auto. congruence.
  Qed.
  Lemma ignores c : f = Runs c -> forall z, z ∈ ch_ignored c <-> z ∈ ign \/ z = 13.
  Proof. intros E z. destruct (launch_runs c E) as (_ & _ & _ & _ & _ & _ & _ & -> & _). rewrite elem_of_union, elem_of_singleton. reflexivity. Qed.
End Launch.
