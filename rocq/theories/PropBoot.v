(** Property C71: the descriptors of cinit from its start to its end. *)
From stdpp Require Import gmap strings.
From Coq Require Import ZArith List Bool Lia Permutation.
From Verif Require Import Base ConfigModel ProcessModel DepModel MainModel SetupModel SpecMain SpecSetup ManagerModel SysModel SpecRun RunStep RunClaims
  ChildModel FdModel SpecChild SpecBoot BootProofs PropDep PropMain PropSetup RunExamples.
Import ListNotations.
Local Open Scope string_scope.
Local Open Scope list_scope.
Local Open Scope Z_scope.

(** * C71: no descriptor is leaked *)
(** The states of the combined system are states of its parts, so that all properties
    of executions and of started programs hold in them. *)
Theorem C71_states k a h e t0 configs s st : suits k a h e t0 -> booted k a h e configs s st ->
  reachable (faultless k) e configs s /\ fd_reachable t0 st.
Proof. intros Su. exact (booted_reachable Su s st). Qed.
Print Assumptions C71_states.

Theorem C71_descriptors k a h e t0 configs s st fd d : suits k a h e t0 -> booted k a h e configs s st ->
  f_table st !! fd = Some d <-> t0 !! fd = Some d \/ own_desc a fd d \/ stream_desc (s_hist s) fd d.
Proof. intros Su. exact (booted_table Su s st fd d). Qed.
Print Assumptions C71_descriptors.

Theorem C71_no_leak k a h e t0 configs s st code fd d : suits k a h e t0 -> booted k a h e configs s st -> s_pc s = Finished code ->
  f_table st !! fd = Some d <-> t0 !! fd = Some d \/ own_desc a fd d.
Proof. intros Su. exact (booted_end Su s st code fd d). Qed.
Print Assumptions C71_no_leak.

(** The combined system allows everything the event loop does, if the kernel hands out
    unused descriptors. *)
Theorem C71_nothing_lost k a h e t0 configs s st o s' evs : suits k a h e t0 -> booted k a h e configs s st ->
  sstep e s o = Some s' -> s_hist s' = s_hist s ++ evs ->
  (forall fd id out, In (EOpen fd id out) evs -> f_table st !! fd = None) -> exists st', booted k a h e configs s' st'.
Proof. intros Su. exact (booted_progress Su s st o s' evs). Qed.
Print Assumptions C71_nothing_lost.

(** ** Example *)
(** Programs' ends get the numbers 90 and 91, connections 90. *)
Fixpoint interpret (evs : list event) : option (list action) :=
  match evs with
  | [] => Some []
  | EStart id _ :: EOpen o i true :: EOpen r j false :: rest =>
      if Nat.eqb i id && Nat.eqb j id then option_map (cons (AStart {| n_out := o; n_out' := 90; n_err := r; n_err' := 91 |})) (interpret rest) else None
  | EStartFail _ :: rest => option_map (cons AStartFail) (interpret rest)
  | EClosed fd :: rest => option_map (cons (AHangup fd)) (interpret rest)
  | EReport _ :: rest => option_map (cons (AReport 90)) (interpret rest)
  | EStart _ _ :: _ | EOpen _ _ _ :: _ => None
  | _ :: rest => interpret rest
  end.
Lemma interpret_moves evs l : interpret evs = Some l -> moves evs l.
Proof.
  remember (length evs) as n eqn:E. assert (L : (length evs <= n)%nat) by lia. clear E. revert evs l L.
  induction n as [|n IH]; intros [|ev evs] l L H; cbn in L; try lia; try (cbn in H; apply Some_inj in H; subst l; constructor).
  assert (G : forall rest x (k : list action -> list action), option_map k x = Some l -> interpret rest = x -> (length rest <= n)%nat ->
    exists l', l = k l' /\ moves rest l').
  { intros rest [l'|] k E Hr Lr; [|discriminate]. cbn in E. apply Some_inj in E. exists l'. split; [auto|]. apply IH; auto. }
  destruct ev; try (cbn in H; apply mv_other; [cbn; tauto|apply IH; [lia|exact H]]).
  - cbn in H. destruct evs as [|[] evs]; try discriminate. destruct out; [|discriminate]. destruct evs as [|[] evs]; try discriminate. destruct out; [discriminate|].
    cbn in L. destruct (Nat.eqb_spec id0 id) as [->|]; [|discriminate]. destruct (Nat.eqb_spec id1 id) as [->|]; [|discriminate]. cbn [andb] in H.
    destruct (G _ _ _ H eq_refl) as (l' & -> & M); [lia|]. exact (mv_start id pid {| n_out := fd; n_out' := 90; n_err := fd0; n_err' := 91 |} evs l' M).
  - cbn in H. destruct (G _ _ _ H eq_refl) as (l' & -> & M); [lia|]. apply mv_fail. exact M.
  - discriminate.
  - cbn in H. destruct (G _ _ _ H eq_refl) as (l' & -> & M); [lia|]. apply mv_closed. exact M.
  - cbn in H. destruct (G _ _ _ H eq_refl) as (l' & -> & M); [lia|]. apply mv_report. exact M.
Qed.

Fixpoint follow (e : env) (s : sys) (st : fdstate) (ops : list op) : option (sys * fdstate) :=
  match ops with
  | [] => Some (s, st)
  | o :: rest =>
      match sstep e s o with
      | Some s' =>
          match interpret (skipn (length (s_hist s)) (s_hist s')) with
          | Some l => match acts st l with Some st' => follow e s' st' rest | None => None end
          | None => None
          end
      | None => None
      end
  end.
Lemma follow_booted k a h e configs ops : (forall l, Permutation (e_order e l) l) ->
  forall s st r, booted k a h e configs s st -> follow e s st ops = Some r -> booted k a h e configs (fst r) (snd r).
Proof.
  intros OK. induction ops as [|o ops IH]; intros s st r B F; cbn in F.
  - apply Some_inj in F. subst r. exact B.
  - destruct (sstep e s o) as [s'|] eqn:H; [|discriminate]. destruct (trans_hist _ _ _ (sstep_trans _ _ _ _ OK H)) as [evs E].
    rewrite E in F. rewrite drop_app in F.
    destruct (interpret evs) as [l|] eqn:Il; [|discriminate]. destruct (acts st l) as [st'|] eqn:A; [|discriminate].
    apply (IH s' st' r); [|exact F]. eapply bt_step; eauto using interpret_moves.
Qed.

Definition old_table : table :=
  list_to_map (map (fun x => (x, {| d_file := FInherited x; d_cloexec := false |})) [0; 1; 2] ++ [(7, {| d_file := FInherited 7; d_cloexec := true |})]).
Definition new_table : table :=
  match own_fds old_table 3 4 5 6 with Some t => t | None => ∅ end.
Definition no_fault (c : SetupModel.call) : option SetupModel.errno := None.

Lemma by_keys (m : gmap Z (object * bool)) (t : table) :
  forallb (fun fd => bool_decide (t !! fd = match m !! fd with Some (o, b) => Some {| d_file := file_of fd o; d_cloexec := b |} | None => None end))
    (elements (dom m ∪ dom t : gset Z)) = true -> same_table m t.
Proof.
  intros H fd. rewrite forallb_forall in H. destruct (decide (fd ∈ (dom m ∪ dom t : gset Z))) as [D|D].
  - specialize (H fd). apply bool_decide_eq_true in H; [exact H|]. apply elem_of_list_In, elem_of_elements. exact D.
  - rewrite elem_of_union in D. rewrite (proj1 (not_elem_of_dom m fd)), (proj1 (not_elem_of_dom t fd)) by tauto. reflexivity.
Qed.
Lemma old_inherited : inherited old_table.
Proof.
  split; [|split; eexists; reflexivity]. intros fd x H. apply elem_of_list_to_map_2 in H. apply elem_of_list_In in H.
  destruct H as [H|[H|[H|[H|[]]]]]; injection H as <- <-; reflexivity.
Qed.
Lemma demo_suits programs : suits (demo_machine programs) (example_answers no_fault) example_host demo_env old_table.
Proof.
  split; [apply example_honest|]. split; [apply example_fresh|]. split; [exact old_inherited|]. split; [apply by_keys; vm_compute; reflexivity|].
  split; [reflexivity|]. split; [intros l; apply Permutation_refl|]. auto.
Qed.

Definition at_start (programs : list proc_config) : option sys :=
  match run_on (demo_machine programs) (example_answers no_fault) example_host with
  | (Ret (EntersLoop _ an), _) => Some (initial (a_processes an) (a_dep an) (a_cron an) demo_others)
  | _ => None
  end.
Definition demo_both (programs : list proc_config) (ops : list op) : option (sys * fdstate) :=
  match at_start programs with Some s => follow demo_env s {| f_table := new_table; f_count := 0 |} ops | None => None end.
Definition same_keys (programs : list proc_config) : bool :=
  match run_on (demo_machine programs) (example_answers no_fault) example_host with
  | (Ret (EntersLoop _ an), h') =>
      forallb (fun fd => bool_decide (new_table !! fd = match SetupModel.h_fds h' !! fd with Some (o, b) => Some {| d_file := file_of fd o; d_cloexec := b |} | None => None end))
        (elements (dom (SetupModel.h_fds h') ∪ dom new_table : gset Z))
  | _ => false
  end.
Definition run_configs (programs : list proc_config) : list proc_config :=
  match run_on (demo_machine programs) (example_answers no_fault) example_host with (Ret (EntersLoop c _), _) => c | _ => [] end.
Lemma demo_booted programs ops s st : same_keys programs = true -> demo_both programs ops = Some (s, st) ->
  booted (demo_machine programs) (example_answers no_fault) example_host demo_env (run_configs programs) s st.
Proof.
  unfold same_keys, demo_both, at_start, run_configs.
  destruct (run_on (demo_machine programs) (example_answers no_fault) example_host) as [[[c|configs an]|m] h'] eqn:E; try discriminate. intros K F.
  apply (follow_booted _ _ _ demo_env _ _ (fun l => Permutation_refl l) _ _ _ (bt_start _ _ _ _ _ an h' demo_others new_table E demo_plausible (by_keys _ _ K)) F).
Qed.

(** With two programs running, four streams are open; at the end none is. *)
Definition keys (r : option (sys * fdstate)) : list Z := match r with Some (_, st) => elements (dom (f_table st) : gset Z) | None => [] end.
Definition spot (r : option (sys * fdstate)) : option pc := match r with Some (s, _) => Some (s_pc s) | None => None end.
Example C71_example : same_keys chain = true /\ spot (demo_both chain chain_ops) = Some (Finished 0) /\
  (forall fd, In fd (keys (demo_both chain chain_ops)) <-> In fd [0; 1; 2; 3; 4; 5; 6; 7]) /\
  (forall fd, In fd (keys (demo_both chain (firstn 37 chain_ops))) <-> In fd [0; 1; 2; 3; 4; 5; 6; 7; 20; 21; 22; 23]) /\
  match demo_both chain (firstn 37 chain_ops) with
  | Some (_, st) => f_table st !! 21 = Some {| d_file := FReader 2 true; d_cloexec := true |}
  | None => False
  end.
Proof.
  split; [vm_compute; reflexivity|]. split; [vm_compute; reflexivity|].
  assert (Q : forall l l' : list Z, forallb (fun x => existsb (Z.eqb x) l') l && forallb (fun x => existsb (Z.eqb x) l) l' = true -> forall fd, In fd l <-> In fd l').
  { intros l l' H fd. apply andb_true_iff in H. destruct H as [H1 H2]. rewrite forallb_forall in H1, H2.
    split; intros K; [apply H1 in K|apply H2 in K]; apply existsb_exists in K; destruct K as (x & K & Kx); apply Z.eqb_eq in Kx; subst x; exact K. }
  split; [apply Q; vm_compute; reflexivity|]. split; [apply Q; vm_compute; reflexivity|]. vm_compute. reflexivity.
Qed.
Example C71_example_end : exists s st, suits (demo_machine chain) (example_answers no_fault) example_host demo_env old_table /\
  booted (demo_machine chain) (example_answers no_fault) example_host demo_env (run_configs chain) s st /\ s_pc s = Finished 0.
Proof.
  destruct (demo_both chain chain_ops) as [[s st]|] eqn:E.
  - exists s, st. split; [apply demo_suits|]. split; [apply (demo_booted _ chain_ops); [vm_compute; reflexivity|exact E]|].
    assert (X := proj1 (proj2 C71_example)). rewrite E in X. cbn in X. congruence.
  - exfalso. assert (X := proj1 (proj2 C71_example)). rewrite E in X. discriminate.
Qed.
