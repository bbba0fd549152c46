(** The errors with which cinit refuses to start. *)
From stdpp Require Import gmap strings.
From Coq Require Import Ascii ZArith List Bool.
From Verif Require Import Base RStr CronModel ConfigModel ProcessModel EnvModel DepModel MainModel LogModel TemplModel StartModel
  SpecConfig SpecEnv SpecDep SpecMain SpecSched SpecStart SpecRefuse StartProofs StartProofs2 RefuseProofs PropEnv PropDep PropMain PropStart.
Import ListNotations.
Local Open Scope string_scope.
Local Open Scope list_scope.

(** ** C92: a refused start gives its reason and nothing else *)
Theorem C92_exact_reason t path root k code : honest k -> m_files k = nameless root -> run k = Ret (Exits code) ->
  exists errors echo, grounds t path root k code errors echo /\
    texts_of LError (fst (start_says t path root k)) = errors /\
    exists said, texts_of LTrace (fst (start_says t path root k)) = said ++ echo /\ incl said (texts_of LWarn (fst (start_says t path root k))).
Proof. exact (start_refuse t path root k code). Qed.
Print Assumptions C92_exact_reason.

Definition without_sockets (k : machine) : machine :=
  {| m_release := m_release k; m_uid := m_uid k; m_yaml := m_yaml k; m_drain := m_drain k; m_files := m_files k; m_world := m_world k;
     m_order := m_order k; m_toposort := m_toposort k; m_zone := m_zone k; m_clock := m_clock k; m_sockets := false;
     m_epoll := m_epoll k; m_setup := m_setup k |}.
Definition unset_up (k : machine) : machine :=
  {| m_release := m_release k; m_uid := m_uid k; m_yaml := m_yaml k; m_drain := m_drain k; m_files := m_files k; m_world := m_world k;
     m_order := m_order k; m_toposort := m_toposort k; m_zone := m_zone k; m_clock := m_clock k; m_sockets := m_sockets k;
     m_epoll := m_epoll k; m_setup := false |}.
(** Here the hash map hands out the programs in reverse: the second is the first with a
    fault, and everything that is wrong behind it stays unsaid. The three later faults are all told, but only the first two twice. *)
Definition many_faults : machine := one_file [simple "a" [] []; without_path "b"; without_path "c"; simple "d" [] ["e"]].
Definition three_faults : machine := without_sockets (one_file [simple "a" [] ["b"]; timed "c" "61 * * * *"; timed "d" "x"]).
Example C92_example :
  (honest many_faults /\ run many_faults = Ret (Exits 2) /\
   says_of (TFile (Some "good")) many_faults = ["Program c contains error: Missing 'path' attribute"]) /\
  (honest three_faults /\ run three_faults = Ret (Exits 2) /\
   fst (start_says demo_texts "/etc/cinit.d" (TFile (Some "good")) three_faults) =
     [(LInfo, "Starting up"); (LInfo, "Config is at /etc/cinit.d"); (LInfo, "Parsing config"); (LInfo, "Perform analysis on programs");
      (LError, "Unknown 'after' dependency 'b' of program a"); (LTrace, "Unknown 'after' dependency 'b' of program a");
      (LError, "Timer parse error for program 'd': Invalid number");
      (LTrace, "Timer parse error for program 'd': Invalid number");
      (LError, "Could not setup sockets: EACCES")]) /\
  (honest (unset_up (one_file [simple "a" [] []])) /\ run (unset_up (one_file [simple "a" [] []])) = Ret (Exits 3) /\
   says_of (TFile (Some "good")) (unset_up (one_file [simple "a" [] []])) = ["Failed to register with epoll: ENOMEM"]) /\
  says_of (folder "a" "b" (TFile (Some "x")) (folder "c" "d" (TFile None) TMissing))
    (configured (folder "a" "b" (TFile (Some "x")) (folder "c" "d" (TFile None) TMissing)) (fun _ => None)) =
    ["Failed to read file /etc/cinit.d/b/c: Permission denied"].
Proof.
  split; [split; [exact (one_file_honest _)|]|split; [split; [exact (one_file_honest _)|]|split; [split; [exact (one_file_honest _)|]|]]];
    vm_compute; try apply conj; reflexivity.
Qed.
