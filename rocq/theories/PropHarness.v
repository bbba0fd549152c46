(** Properties C101 and C102: the file the harness writes about itself. *)
From stdpp Require Import gmap strings.
From Coq Require Import Ascii ZArith List Bool Lia Permutation.
From Verif Require Import Base RStr ConfigModel ProcessModel EnvModel DepModel ManagerModel SysModel MainModel ChildModel FdModel
  SpecStr SpecConfig SpecEnv SpecMain SpecRun SpecChild RunExamples.
From Verif Require ChildExamples.
From Verif Require Import YamlModel SpecYaml PropYaml SpecEnd PropEnd SpecDropin PropDropin HarnessModel SpecHarness HarnessProofs SpecHarnessRun HarnessRun.
Import ListNotations.
Local Open Scope string_scope.
Local Open Scope list_scope.
Local Open Scope Z_scope.

(** * C101: the file *)
Theorem C101_completes order s : snd (dump order s) = true <-> readable s.
Proof. exact (dump_complete order s). Qed.
Print Assumptions C101_completes.

Theorem C101_page order s : Permutation order all_caps -> readable s -> exists text, dump order s = (text, true) /\ page s text.
Proof. exact (dump_page order s). Qed.
Print Assumptions C101_page.

(** Otherwise the file ends before the first thing that is not UTF-8. *)
Theorem C101_breaks_off order s : Permutation order all_caps -> snd (dump order s) = false -> broken s (fst (dump order s)).
Proof. exact (dump_broken order s). Qed.
Print Assumptions C101_breaks_off.

Theorem C101_reads_back_partial order order' s s' text : Permutation order all_caps -> Permutation order' all_caps -> tame_self s -> tame_self s' ->
  dump order s = (text, true) -> dump order' s' = (text, true) -> alike s s'.
Proof. exact (dump_reads_back order order' s s' text). Qed.
Print Assumptions C101_reads_back_partial.

Definition one_self (args : list string) : self :=
  {| se_args := args; se_dir := "/srv"; se_uid := 7; se_gid := 9; se_groups := [9; 27]; se_tty := true;
     se_eff := {[10]}; se_prm := {[10; 13]}; se_inh := {[10]}; se_amb := ∅; se_env := ["HOME=/root"; "=x=y"; "nothing"; "A=b=c"; "=z"] |}.
(** An argument with a quote and a line feed looks like two. *)
Definition two_in_one : string := "a'" +:+ String LF "      - 'b".
Theorem C101_reads_back_refuted : exists order s s' text, Permutation order all_caps /\ dump order s = (text, true) /\ dump order s' = (text, true) /\ se_args s <> se_args s'.
Proof.
  exists all_caps, (one_self ["a"; "b"]), (one_self [two_in_one]), (fst (dump all_caps (one_self ["a"; "b"]))).
  split; [apply Permutation_refl|]. split; [vm_compute; reflexivity|]. split; [vm_compute; reflexivity|]. discriminate.
Qed.
Print Assumptions C101_reads_back_refuted.

(** Strings of the environment that are not variables are left out; the name of a variable may start with "=". *)
Example C101_example : readable (one_self ["/bin/harness"; "-o"]) /\ tame_self (one_self ["/bin/harness"; "-o"]) /\
  fst (dump all_caps (one_self ["/bin/harness"; "-o"])) = unlines ["programs:"; "  - args:"; "      - '/bin/harness'"; "      - '-o'";
    "    workdir: '/srv'"; "    uid: 7"; "    gid: 9"; "    groups:"; "      - 9"; "      - 27"; "    pty: true";
    "    capabilities:"; "      CAP_NET_BIND_SERVICE: epi"; "      CAP_NET_RAW: p";
    "    env:"; "      HOME: '/root'"; "      =x: 'y'"; "      A: 'b=c'"; ""].
Proof.
  assert (V : forall e k v, In e (se_env (one_self ["/bin/harness"; "-o"])) -> is_variable e k v -> In (k, v) [("HOME", "/root"); ("=x", "y"); ("A", "b=c")]).
  { intros e k v I W. apply variable_iff in W.
    destruct I as [<-|[<-|[<-|[<-|[<-|[]]]]]]; vm_compute in W; try discriminate; injection W as <- <-; simpl; auto. }
  split; [|split].
  - split; [|split].
    + intros a [<-|[<-|[]]]; vm_compute; reflexivity.
    + vm_compute. reflexivity.
    + intros e k v I W. destruct (V e k v I W) as [E|[E|[E|[]]]]; injection E as <- <-; vm_compute; auto.
  - split; [|split].
    + intros a [<-|[<-|[]]]; split; vm_compute; intuition discriminate.
    + split; vm_compute; intuition discriminate.
    + intros e k v I W. destruct (V e k v I W) as [E|[E|[E|[]]]]; injection E as <- <-; (split; split; vm_compute; intuition discriminate).
  - vm_compute. reflexivity.
Qed.
(** An argument that is not UTF-8: the file ends before it. *)
Example C101_example_breaks : dump all_caps (one_self ["/bin/harness"; String "255" ""]) = (unlines ["programs:"; "  - args:"; "      - '/bin/harness'"], false).
Proof. vm_compute. reflexivity. Qed.

(** * C102: the harness as a program of cinit *)
Theorem C102_file_as_entries_say k lib syntax e configs s ls id q h fault t0 st x mask ign dir cr ch place order :
  SpecYaml.any_order lib -> m_yaml k = read_yaml lib syntax -> ordinary k syntax -> SpecEnv.any_order (m_world k) -> consistent (m_world k) ->
  reachable k e configs s -> g_procs (s_g s) !! id = Some q -> entries_of k syntax (p_name q) ls ->
  inherited t0 -> fd_reachable t0 st -> launch h fault q st x mask ign dir cr (Runs ch) ->
  Permutation order all_caps -> readable (self_of place (p_pty q) ch) ->
  exists text self, dump order (self_of place (p_pty q) ch) = (text, true) /\ page self text /\ as_entries lib (m_world k) place ls self.
Proof. exact (harness_file k lib syntax e configs s ls id q h fault t0 st x mask ign dir cr ch place order). Qed.
Print Assumptions C102_file_as_entries_say.

(** The program with a drop-in from the example for C100. *)
Definition www_self : self := self_of (fun d => d) (p_pty www) (ChildExamples.demo_runs www ChildExamples.demo_caps).
Example C102_example :
  (exists s, reachable (drop_files ["one"; "two"]) demo_env drop_configs s /\ g_procs (s_g s) !! 0%nat = Some www) /\
  entries_of (drop_files ["one"; "two"]) drop_syntax (p_name www) [main_entry; more_entry] /\
  launch ChildExamples.demo_host ChildExamples.nofault www ChildExamples.demo_state ChildExamples.demo_numbers [1; 15] ∅ "/"
    (ChildExamples.demo_cred ChildExamples.demo_caps) (Runs (ChildExamples.demo_runs www ChildExamples.demo_caps)) /\
  readable www_self /\ fst (dump all_caps www_self) =
    unlines ["programs:"; "  - args:"; "      - '/bin/web'"; "      - '-v'"; "      - '80'"; "    workdir: '/srv'"; "    uid: 7"; "    gid: 0";
      "    groups:"; "      - 0"; "    pty: false"; "    capabilities:"; "      CAP_NET_BIND_SERVICE: epia"; "    env:"; "      SHELL: '/bin/sh'";
      "      USER: 'web'"; "      LOGNAME: 'web'"; "      LANGUAGE: ''"; "      LANG: ''"; "      TERM: ''"; "      X: '80'"; "      HOME: '/srv/web'";
      "      PWD: '/srv/web'"; "      PATH: ''"; ""].
Proof.
  split; [|split; [exact drop_entries|split; [apply ChildExamples.demo_runs_launch; vm_compute; reflexivity|split]]].
  - destruct drop_reachable as (s & a & R & E & X). exists s. split; [exact R|]. rewrite E. vm_compute. reflexivity.
  - apply (dump_complete all_caps). vm_compute. reflexivity.
  - vm_compute. reflexivity.
Qed.
