(** Property C105 for a harness started by cinit. *)
From stdpp Require Import gmap strings.
From Coq Require Import ZArith List Bool Lia.
From Verif Require Import Base RStr ChildModel ProcessModel FdModel SpecCli SpecChild SpecStr SpecText HarnessLifeModel SpecHarnessLife SpecTools.
From Verif Require HarnessCliModel SpecHarnessCli ChildExamples HarnessStart.
Import ListNotations.
Local Open Scope string_scope.
Local Open Scope list_scope.
Local Open Scope Z_scope.

(** cinit hands the arguments over as they are; the harness does what they say to the end,
    or a signal kills it.  Wrong of the intended program only in that readiness comes first
    always ([C105_ready_refuted]). *)
Theorem C105_started_by_cinit_partial h fault' p t0 st x mask ign dir cr ch w name args l others written sl n cd c file :
  inherited t0 -> fd_reachable t0 st -> launch h fault' p st x mask ign dir cr (Runs ch) -> finds ch w ->
  p_args p = name :: args -> SpecHarnessCli.asks args l others ->
  (forall i, (4 <= l_socket w i)%nat) -> l_create w = true -> l_signalfd w = true -> l_pieces w = map Ret written ->
  SpecHarnessCli.chosen l HarnessCliModel.Sleep "0" sl -> u64_text sl n -> SpecHarnessCli.chosen l HarnessCliModel.Code "0" cd -> int_text cd c ->
  SpecHarnessCli.chosen l HarnessCliModel.Output "test-output/harness.txt" file ->
  ch_image ch = Some (p_path p, name :: args, p_env p) /\
  (HarnessCliModel.main args w = (map Sends ("READY=1" :: map (fun v => "STATUS=" +:+ v) (SpecHarnessCli.values HarnessCliModel.Status l)) ++
      Opens file :: map Writes written ++ repeat Second (Z.to_nat n), Ends (c mod 256)) \/
   exists acts s t, HarnessCliModel.main args w = (acts, Killed s) /\ In s (l_arrives w t) /\ (s = 9 \/ ~ In s [17; 18; 19; 20; 21; 22; 23; 28] /\ s <> 13 /\ s ∉ ign)).
Proof. exact (HarnessStart.started h fault' p t0 st x mask ign dir cr ch w name args l others written sl n cd c file). Qed.
Print Assumptions C105_started_by_cinit_partial.

(** A harness that cinit starts with a status, a return code and two seconds. *)
Definition words : list string := ["-r"; "7"; "--sleep=2"; "-Sup"].
Definition told : process :=
  {| p_name := "web"; p_path := "/bin/harness"; p_args := "/bin/harness" :: words; p_workdir := "/srv"; p_uid := 33; p_gid := 33; p_pty := false; p_caps := [];
     p_env := ["HOME=/srv"]; p_state := Blocked; p_type := ROneshot; p_pid := 0; p_status := "" |}.
Definition quiet : luck := {| l_socket := fun _ => 4%nat; l_create := true; l_pieces := [Ret "a"; Ret "b"]; l_signalfd := true;
  l_blocked := fun _ => false; l_ignored := fun s => s =? 13; l_arrives := fun t => if (t =? 3)%nat then [17] else [] |}.
Definition said : list SpecHarnessCli.item :=
  [SpecHarnessCli.Give HarnessCliModel.Code "7"; SpecHarnessCli.Give HarnessCliModel.Sleep "2"; SpecHarnessCli.Give HarnessCliModel.Status "up"].
Lemma said_asked : SpecHarnessCli.asks words said [].
Proof.
  exists words, []. split; [reflexivity|]. split.
  - apply (SpecHarnessCli.SShortOpt 0 HarnessCliModel.Code "7" ["--sleep=2"; "-Sup"]); [right; intros v; discriminate|].
    apply (SpecHarnessCli.SLongIs HarnessCliModel.Sleep "2" ["-Sup"]). apply (SpecHarnessCli.SShortWith 0 HarnessCliModel.Status "up" [] []); [discriminate|intros v; discriminate|constructor].
  - split; [split; [cbn; lia|]; intros []; cbn; [right; exists "7"|right; exists "2"|left|right; exists "up"]; auto|]. split; [left; auto|constructor].
Qed.
Example C105_example_started :
  HarnessCliModel.main words quiet = ([Sends "READY=1"; Sends "STATUS=up"; Opens "test-output/harness.txt"; Writes "a"; Writes "b"; Second; Second], Ends 7).
Proof.
  destruct (C105_started_by_cinit_partial ChildExamples.demo_host ChildExamples.nofault told ChildExamples.demo_table ChildExamples.demo_state ChildExamples.demo_numbers [1; 15] ∅ "/"
    (ChildExamples.demo_cred ChildExamples.demo_caps) (ChildExamples.demo_runs told ChildExamples.demo_caps) quiet "/bin/harness" words said [] ["a"; "b"] "2" 2 "7" 7 "test-output/harness.txt")
    as (_ & [E|(acts & s & t & _ & J & X)]).
  - apply ChildExamples.demo_inherited.
  - apply ChildExamples.demo_reachable.
  - apply ChildExamples.demo_runs_launch; vm_compute; reflexivity.
  - split; intros s.
    + assert (E : ch_mask (ChildExamples.demo_runs told ChildExamples.demo_caps) = []) by (vm_compute; reflexivity).
      rewrite E. cbn. split; [discriminate|intros []].
    + assert (E : ch_ignored (ChildExamples.demo_runs told ChildExamples.demo_caps) = {[13]}) by (apply (bool_decide_unpack _); vm_compute; exact Logic.I).
      rewrite E, elem_of_singleton. cbn. rewrite Z.eqb_eq. reflexivity.
  - reflexivity.
  - exact said_asked.
  - intros i. cbn. lia.
  - reflexivity.
  - reflexivity.
  - reflexivity.
  - right. reflexivity.
  - exists "2". split; [split; [discriminate|intros a [<-|[]]; discriminate]|]. split; [left; reflexivity|]. split; [reflexivity|lia].
  - right. reflexivity.
  - exists "7". split; [split; [discriminate|intros a [<-|[]]; discriminate]|]. split; [left; split; [left; reflexivity|reflexivity]|lia].
  - left. split; reflexivity.
  - exact E.
  - exfalso. cbn in J. destruct (t =? 3)%nat; [|destruct J]. destruct J as [<-|[]]. destruct X as [X|(X & _)]; [discriminate X|]. apply X. left. reflexivity.
Qed.
