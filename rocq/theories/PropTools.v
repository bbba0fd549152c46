(** Properties C103 and C104: the test programs harness and forker. *)
From stdpp Require Import gmap strings.
From Coq Require Import ZArith List Bool Lia Permutation.
From Verif Require Import Base RStr ProcessModel ChildModel FdModel SpecStr SpecText SpecChild HarnessModel SpecHarness HarnessProofs
  HarnessLifeModel SpecHarnessLife HarnessLifeProofs SpecTools ForkerModel SpecForker ForkerProofs ToolsProofs.
From Verif Require ChildExamples NotifyProofs.
Import ListNotations.
Local Open Scope string_scope.
Local Open Scope list_scope.
Local Open Scope Z_scope.

(** * C103: the life of the harness *)
Theorem C103_course o l acts e : harness o l = (acts, e) -> course o l acts.
Proof. exact (fun H => proj1 (harness_course o l acts e H)). Qed.
Print Assumptions C103_course.

Theorem C103_ends o l acts c : harness o l = (acts, Ends c) -> ~ fault o l ->
  exists n k, own_code o c /\ u64_text (o_sleep o) n /\ whole o l k acts /\ Z.of_nat k <= n /\ (Z.of_nat k = n \/ exists s t, waits l s /\ In s (l_arrives l t)).
Proof. exact (harness_ends o l acts c). Qed.
Print Assumptions C103_ends.

Theorem C103_fault o l acts c : harness o l = (acts, Ends c) -> fault o l -> c = 101.
Proof. exact (harness_fault o l acts c). Qed.
Print Assumptions C103_fault.

Theorem C103_killed o l acts s : harness o l = (acts, Killed s) -> exists t, In s (l_arrives l t) /\ kills l s.
Proof. exact (harness_killed o l acts s). Qed.
Print Assumptions C103_killed.

Theorem C103_undisturbed o l n c : ~ fault o l -> (forall s t, In s (l_arrives l t) -> ~ kills l s /\ ~ waits l s) ->
  u64_text (o_sleep o) n -> own_code o c -> exists acts, harness o l = (acts, Ends c) /\ whole o l (Z.to_nat n) acts.
Proof. exact (harness_undisturbed o l n c). Qed.
Print Assumptions C103_undisturbed.

(** The file is the one of C101. *)
Theorem C103_file o l acts c order s : harness o l = (acts, Ends c) -> ~ fault o l -> Permutation order all_caps -> l_pieces l = pieces order s ->
  page s (content acts).
Proof. exact (harness_content o l acts c order s). Qed.
Print Assumptions C103_file.

(** Started by cinit, it waits for the whole time or is killed. *)
Theorem C103_started_by_cinit h fault' p t0 st x mask ign dir cr ch o l acts e : inherited t0 -> fd_reachable t0 st ->
  launch h fault' p st x mask ign dir cr (Runs ch) -> finds ch l -> harness o l = (acts, e) -> ~ fault o l ->
  (exists n c, e = Ends c /\ own_code o c /\ u64_text (o_sleep o) n /\ whole o l (Z.to_nat n) acts) \/
  (exists s t, e = Killed s /\ In s (l_arrives l t) /\ (s = 9 \/ ~ In s [17; 18; 19; 20; 21; 22; 23; 28] /\ s <> 13 /\ s ∉ ign)).
Proof. exact (harness_launched h fault' p t0 st x mask ign dir cr ch o l acts e). Qed.
Print Assumptions C103_started_by_cinit.

Definition asked (code : string) : options := {| o_ready := true; o_status := Some "up"; o_output := "out.yml"; o_sleep := "3"; o_code := code |}.
Definition lucky (blocked ignored : list Z) (arrives : nat -> list Z) : luck :=
  {| l_socket := fun _ => 4%nat; l_create := true; l_pieces := [Ret "programs"; Ret ":"]; l_signalfd := true;
     l_blocked := fun s => existsb (Z.eqb s) blocked; l_ignored := fun s => existsb (Z.eqb s) ignored; l_arrives := arrives |}.
Definition all_done (k : nat) : list act := [Sends "READY=1"; Sends "STATUS=up"; Opens "out.yml"; Writes "programs"; Writes ":"] ++ repeat Second k.
Lemma lucky_enough code blocked ignored arrives : ~ fault (asked code) (lucky blocked ignored arrives).
Proof.
  intros [(i & _ & X)|[X|[(why & X)|[X|X]]]]; try discriminate X.
  - cbn in X. lia.
  - cbn in X. intuition discriminate.
  - apply (X 3). apply parse_u64_spec. vm_compute. reflexivity.
Qed.
(** SIGCHLD does nothing; the return code 256 looks like success. *)
Example C103_example : harness (asked "256") (lucky [] [] (fun t => if (t =? 7)%nat then [17] else [])) = (all_done 3, Ends 0) /\
  own_code (asked "256") 0 /\ own_code (asked "-1") 255 /\ own_code (asked "no") 101 /\ u64_text (o_sleep (asked "256")) 3 /\
  (forall s t, In s (l_arrives (lucky [] [] (fun t => if (t =? 7)%nat then [17] else [])) t) ->
     ~ kills (lucky [] [] (fun t => if (t =? 7)%nat then [17] else [])) s /\ ~ waits (lucky [] [] (fun t => if (t =? 7)%nat then [17] else [])) s).
Proof.
  split; [vm_compute; reflexivity|].
  split; [left; exists 256; split; [apply NotifyProofs.parse_i32_spec; vm_compute; reflexivity|reflexivity]|].
  split; [left; exists (-1); split; [apply NotifyProofs.parse_i32_spec; vm_compute; reflexivity|reflexivity]|].
  split; [right; split; [|reflexivity]; intros x X; apply NotifyProofs.parse_i32_spec in X; vm_compute in X; discriminate|].
  split; [apply parse_u64_spec; vm_compute; reflexivity|]. intros s t I. cbn in I. destruct (t =? 7)%nat; [|destruct I]. destruct I as [<-|[]].
  split; [intros (_ & [X|(X & _)]); [discriminate|apply X; left; reflexivity]|intros (X & _); discriminate].
Qed.
(** Two calls of four: the message has not been sent; three: it has, but the program ends. *)
Example C103_example_fault : forall k, (k < 4)%nat -> let l := {| l_socket := fun _ => k; l_create := true; l_pieces := []; l_signalfd := true;
     l_blocked := fun _ => false; l_ignored := fun _ => false; l_arrives := fun _ => [] |} in
  fault (asked "0") l /\ harness (asked "0") l = (if (k =? 3)%nat then [Sends "READY=1"] else [], Ends 101).
Proof. intros k L l. split; [left; exists 0%nat; split; [cbn; lia|exact L]|]. do 4 (destruct k as [|k]; [reflexivity|]). lia. Qed.
(** A signal that is blocked ends the wait: the seventh and eighth step are the first second. *)
Example C103_example_blocked : harness (asked "7") (lucky [15] [] (fun t => if (t =? 6)%nat then [15] else [])) = (all_done 1, Ends 7) /\
  waits (lucky [15] [] (fun _ => [])) 15.
Proof. split; [vm_compute; reflexivity|split; [reflexivity|lia]]. Qed.

Definition tool : process := ChildExamples.demo_program "/bin/harness" 33 [].
(** The loop looks for signals in order to end with the return code when it is asked to
    stop.  As a program of cinit it is killed instead, because nothing is blocked. *)
Theorem C103_stops_refuted : exists h fault' p t0 st x mask ign dir cr ch o l acts, inherited t0 /\ fd_reachable t0 st /\
  launch h fault' p st x mask ign dir cr (Runs ch) /\ finds ch l /\ ~ fault o l /\ own_code o 0 /\
  (forall s t, In s (l_arrives l t) -> s = 15) /\ harness o l = (acts, Killed 15).
Proof.
  exists ChildExamples.demo_host, ChildExamples.nofault, tool, ChildExamples.demo_table, ChildExamples.demo_state, ChildExamples.demo_numbers, [1; 15], ∅, "/",
    (ChildExamples.demo_cred ChildExamples.demo_caps), (ChildExamples.demo_runs tool ChildExamples.demo_caps),
    (asked "0"), (lucky [] [13] (fun t => if (t =? 8)%nat then [15] else [])), (all_done 2).
  split; [apply ChildExamples.demo_inherited|]. split; [apply ChildExamples.demo_reachable|].
  split; [apply ChildExamples.demo_runs_launch; vm_compute; reflexivity|].
  split.
  { split; intros s.
    - assert (E : ch_mask (ChildExamples.demo_runs tool ChildExamples.demo_caps) = []) by (vm_compute; reflexivity).
      rewrite E. cbn. split; [discriminate|intros []].
    - assert (E : ch_ignored (ChildExamples.demo_runs tool ChildExamples.demo_caps) = {[13]}) by (apply (bool_decide_unpack _); vm_compute; exact Logic.I).
      rewrite E, elem_of_singleton. cbn. rewrite orb_false_r, Z.eqb_eq. reflexivity. }
  split; [apply lucky_enough|].
  split; [left; exists 0; split; [apply NotifyProofs.parse_i32_spec; vm_compute; reflexivity|reflexivity]|].
  split; [|vm_compute; reflexivity]. intros s t I. cbn in I. destruct (t =? 8)%nat; [|destruct I]. destruct I as [<-|[]]. reflexivity.
Qed.
Print Assumptions C103_stops_refuted.

(** * C104: forker *)
Theorem C104_setup n installs forks :
  (f_stage (begin installs forks n) = Asleep n /\ f_out (begin installs forks n) = [] /\ installs = true /\ forks = true) \/
  (f_stage (begin installs forks n) = Over 255 /\ f_out (begin installs forks n) = ["Could not setup signal handler: "] /\ installs = false) \/
  (f_stage (begin installs forks n) = Over 255 /\ f_out (begin installs forks n) = ["Forking failed!"] /\ installs = true /\ forks = false).
Proof. exact (setup n installs forks). Qed.
Print Assumptions C104_setup.

Theorem C104_result n l1 l2 s : leads false n (l1 ++ Looks :: l2) s -> (f_stage s = Over 0 /\ reason l1) \/ (f_stage s = Over 255 /\ ~ reason l1).
Proof. exact (looked n l1 l2 s). Qed.
Print Assumptions C104_result.

Theorem C104_started_by_cinit h fault' p t0 st x mask ign dir cr ch n l1 l2 s : inherited t0 -> fd_reachable t0 st ->
  launch h fault' p st x mask ign dir cr (Runs ch) -> leads (existsb (Z.eqb 17) (ch_mask ch)) n (l1 ++ Looks :: l2) s ->
  (f_stage s = Over 0 /\ reason l1) \/ (f_stage s = Over 255 /\ ~ reason l1).
Proof. exact (forker_launched h fault' p t0 st x mask ign dir cr ch n l1 l2 s). Qed.
Print Assumptions C104_started_by_cinit.

Theorem C104_blocked n l s c : leads true n l s -> f_stage s = Over c -> c = 255.
Proof. exact (looked_blocked n l s c). Qed.
Print Assumptions C104_blocked.

(** Success means that the child is no longer there, not even as a zombie. *)
Theorem C104_collected b n l s : leads b n l s -> f_stage s = Over 0 -> f_kid s = KCollected /\ In KidSays l /\ In KidEnds l.
Proof. exact (collected b n l s). Qed.
Print Assumptions C104_collected.

Theorem C104_output b n l s : leads b n l s -> exists a t, Permutation (f_out s) (a ++ t) /\
  (a = ["Grandchild exitted"] /\ In KidSays l \/ a = [] /\ ~ In KidSays l) /\
  (t = ["Timeout waiting for child"] /\ f_stage s = Over 255 \/ t = [] /\ f_stage s <> Over 255).
Proof. exact (forker_out b n l s). Qed.
Print Assumptions C104_output.

(** It sleeps for the whole time and then ends; others cannot keep it from ending. *)
Theorem C104_sleeps b n l s c : leads b n l s -> f_stage s = Over c -> times Tick l = n.
Proof. exact (sleeps b n l s c). Qed.
Print Assumptions C104_sleeps.
Theorem C104_not_stuck b n l s : leads b n l s -> running s = true -> exists e s', e <> Sent /\ next b s e = Some s'.
Proof. exact (not_stuck b n l s). Qed.
Print Assumptions C104_not_stuck.
(** Anybody may send SIGCHLD at any time; by itself this changes nothing that is seen. *)
Theorem C104_sent b n l s : leads b n l s -> (exists k, f_stage s = Asleep k) ->
  exists s', leads b n (l ++ [Sent]) s' /\ f_stage s' = f_stage s /\ f_out s' = f_out s.
Proof. exact (anyone_sends b n l s). Qed.
Print Assumptions C104_sent.
Theorem C104_bounded b n l s : leads b n l s -> (length l <= n + 6 + 3 * times Sent l)%nat.
Proof. exact (fun L => Nat.le_trans _ _ _ (Nat.le_add_r _ _) (leads_length b n l s L)). Qed.
Print Assumptions C104_bounded.

(** The child ends in time, and too late. *)
Definition in_time : list event := [Tick; KidSays; KidEnds; Enters; Collects; Returns; Tick; Looks].
Definition too_late : list event := [Tick; KidSays; Tick; Looks; KidEnds].
Example C104_example : (exists s, leads false 2 in_time s /\ f_stage s = Over 0 /\ f_out s = ["Grandchild exitted"]) /\
  (exists s, leads false 2 too_late s /\ f_stage s = Over 255 /\ f_kid s = KDead /\ f_out s = ["Grandchild exitted"; "Timeout waiting for child"]) /\
  (exists s, leads true 1 [KidSays; KidEnds; Tick; Looks] s /\ f_stage s = Over 255).
Proof. split; [|split]; eexists; (split; [vm_compute; reflexivity|]); auto. Qed.
(** A SIGCHLD from someone else: the handler waits for the child, however long that takes. *)
Example C104_example_sent : exists s, leads false 1 [Sent; Enters; KidSays; KidEnds; Collects; Returns; Enters; Returns; Tick; Looks] s /\ f_stage s = Over 0.
Proof. eexists. split; [vm_compute; reflexivity|reflexivity]. Qed.
