(** Properties C13 and C14: startup, loading and analysis. *)
From stdpp Require Import gmap strings.
From Coq Require Import Ascii ZArith List Bool Lia.
From Verif Require Import Base RStr CronModel ConfigModel ProcessModel EnvModel DepModel MainModel
  SpecStr SpecConfig SpecEnv SpecSched SpecDep SpecMain ConfigProofs DepProofs MainProofs PropEnv PropDep.
Import ListNotations.
Local Open Scope string_scope.
Local Open Scope list_scope.

(** * C14: the startup check *)
Theorem C14_startup_check release uid :
  ((uid <> 0%Z \/ too_old release) /\ do_startup_checks release uid = Err 5%Z) \/
  (~ (uid <> 0%Z \/ too_old release) /\ do_startup_checks release uid = Ok tt).
Proof. exact (startup_exact release uid). Qed.
Print Assumptions C14_startup_check.

Example C14_example :
  too_old (Some "4.2.0-16-generic") /\ version "5.10.0" 5 10 /\
  do_startup_checks (Some "4.2.0-16-generic") 0 = Err 5%Z /\ do_startup_checks (Some "3.18") 0 = Err 5%Z /\
  do_startup_checks (Some "4.3") 0 = Ok tt /\ do_startup_checks (Some "5.10.0") 1000 = Err 5%Z /\
  do_startup_checks (Some "3.x") 0 = Ok tt /\ do_startup_checks None 0 = Ok tt.
Proof.
  assert (N : forall d n, numeral d -> value d = n -> (n <= 4294967295)%Z -> number_text d n).
  { intros d n H1 H2 H3. exists d. auto. }
  assert (A : forall d, d <> "" -> forallb (fun a => is_some (digit_of a)) (chars d) = true -> numeral d).
  { intros d H1 H2. split; [auto|]. intros a Ha. rewrite forallb_forall in H2. apply H2 in Ha. destruct (digit_of a); [discriminate|discriminate]. }
  split; [|split; [|repeat split; vm_compute; reflexivity]].
  - exists "4.2.0-16-generic", 4%Z, 2%Z. split; [reflexivity|]. split; [|lia].
    exists "4", "2". split; [apply N; [apply A; [discriminate|reflexivity]|reflexivity|lia]|].
    split; [apply N; [apply A; [discriminate|reflexivity]|reflexivity|lia]|]. right. exists "0-16-generic". vm_compute. reflexivity.
  - exists "5", "10". split; [apply N; [apply A; [discriminate|reflexivity]|reflexivity|lia]|].
    split; [apply N; [apply A; [discriminate|reflexivity]|reflexivity|lia]|]. right. exists "0". reflexivity.
Qed.

(** * C13: the exit code tells the phase, nothing is started *)
(** Missing from the full claim: the inputs on which cinit crashes ([C13_crash_causes]). *)
Theorem C13_exit_codes_partial k r : honest k -> run k = Ret r ->
  (precondition_fails k /\ r = Exits 5) \/
  (~ precondition_fails k /\
   ((unloadable k /\ r = Exits 1) \/
    (~ unloadable k /\ exists parsed, read_as k parsed /\
     ((unmergeable (concat parsed) /\ r = Exits 1) \/
      (~ unmergeable (concat parsed) /\ exists configs, merged (concat parsed) configs /\
       ((analysis_fails k configs /\ r = Exits 2) \/
        (~ analysis_fails k configs /\ m_setup k = false /\ r = Exits 3) \/
        (~ analysis_fails k configs /\ m_setup k = true /\ exists a, r = EntersLoop configs a /\
           Forall2 (fun c p => process_from (m_world k) c = Ret (Ok p)) configs (a_processes a) /\
           dep_inv configs (fun _ => False) [] (a_dep a) /\
           build_cron (m_zone k) (m_clock k) configs = Ret (Ok (a_cron a))))))))).
Proof. exact (run_exact k r). Qed.
Print Assumptions C13_exit_codes_partial.

Theorem C13_crash_causes k m : honest k -> run k = Panic m ->
  exists parsed configs, read_as k parsed /\ merged (concat parsed) configs /\ crash_cause k configs m.
Proof. exact (run_crashes k m). Qed.
Print Assumptions C13_crash_causes.

Definition example_machine (uid : Z) (programs : list proc_config) (sockets setup : bool) : machine :=
  {| m_release := Some "5.10.0"; m_uid := uid; m_yaml := fun s => if String.eqb s "good" then Some programs else None;
     m_drain := fun d => d; m_files := File (Some "good"); m_world := example_world (fun _ => None);
     m_order := fun l => l; m_toposort := find_cycle; m_zone := fixed 0; m_clock := repeat (18687 * 86400 * NS)%Z 10;
     m_sockets := sockets; m_epoll := true; m_setup := setup |}.
Lemma example_honest uid programs s t : honest (example_machine uid programs s t).
Proof.
  split; [intros d; apply Permutation_refl|]. split; [intros l; apply Permutation_refl|].
  split; [exact find_cycle_ok|]. intros (p & es & n & H & _). inversion H.
Qed.
Definition timed (name timer : string) : proc_config :=
  {| pc_name := name; pc_path := Some "/bin/true"; pc_args := []; pc_workdir := None; pc_type := CronJob timer;
     pc_uid := None; pc_gid := None; pc_user := None; pc_group := None; pc_before := []; pc_after := [];
     pc_pty := false; pc_caps := []; pc_env := [] |}.

Example C13_example :
  run (example_machine 1 diamond true true) = Ret (Exits 5) /\
  run (example_machine 0 [simple "a" [] []; simple "a" [] []] true true) = Ret (Exits 1) /\
  run (example_machine 0 [simple "a" [] ["a"]] true true) = Ret (Exits 2) /\
  run (example_machine 0 [timed "a" "61 * * * *"] true true) = Ret (Exits 2) /\
  run (example_machine 0 diamond false true) = Ret (Exits 2) /\
  run (example_machine 0 diamond true false) = Ret (Exits 3) /\
  match run (example_machine 0 diamond true true) with
  | Ret (EntersLoop configs a) => configs = rev diamond /\ map p_name (a_processes a) = ["d"; "c"; "b"; "a"]
  | _ => False
  end.
Proof. do 6 (split; [vm_compute; reflexivity|]). vm_compute. split; reflexivity. Qed.

(** A NUL byte in the path of a program, or a timer with step zero, is an invalid
    configuration for which cinit crashes instead of exiting with 2. *)
Theorem C13_crash_refuted : exists k k' m m', honest k /\ honest k' /\ run k = Panic m /\ run k' = Panic m' /\
  m <> m'.
Proof.
  exists (example_machine 0 [timed "a" "*/0 * * * *"] true true).
  exists (example_machine 0 [{| pc_name := "a"; pc_path := Some (String "000" ""); pc_args := []; pc_workdir := None; pc_type := Oneshot;
     pc_uid := None; pc_gid := None; pc_user := None; pc_group := None; pc_before := []; pc_after := [];
     pc_pty := false; pc_caps := []; pc_env := [] |}] true true).
  eexists. eexists. split; [apply example_honest|]. split; [apply example_honest|].
  split; [vm_compute; reflexivity|]. split; [vm_compute; reflexivity|]. discriminate.
Qed.
Print Assumptions C13_crash_refuted.
