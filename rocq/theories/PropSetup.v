(** Properties C63 to C65: set-up of sockets, signals and epoll. *)
From stdpp Require Import gmap strings.
From Coq Require Import Ascii ZArith List Bool Lia.
From Verif Require Import Base RStr ConfigModel ProcessModel EnvModel DepModel MainModel SetupModel
  SpecDep SpecMain SpecSetup SetupProofs PropDep PropMain.
Import ListNotations.
Local Open Scope string_scope.
Local Open Scope list_scope.
Local Open Scope Z_scope.

(** * C63: the machine when the event loop starts *)
Theorem C63_ready k a h configs an h' : fresh a h ->
  run_on k a h = (Ret (EntersLoop configs an), h') -> ready a h h'.
Proof. exact (run_on_ready k a h configs an h'). Qed.
Print Assumptions C63_ready.

Theorem C63_confined k a h : fresh a h -> confined a h (snd (run_on k a h)).
Proof. exact (run_on_confined k a h). Qed.
Print Assumptions C63_confined.

(** An old socket, a file or nothing at the paths; umask 077. *)
Definition example_host : host :=
  {| h_files := {[ "/run/cinit.socket" := ESocket 3 511; "/run/cinit-notify.socket" := EFile; "/run/other" := EFile; "/run" := EDir ]};
     h_fds := {[ 0 := (OOther, false); 1 := (OOther, false); 2 := (OOther, false); 7 := (OOther, true) ]};
     h_mask := [10]; h_subreaper := false; h_sockets := 4 |}.
Definition example_answers (fault : call -> option errno) : answers :=
  {| f_fault := fault; f_signal := 3; f_status := 4; f_notify := 5; f_epoll := 6; f_umask := 63 |}.
Lemma example_fresh fault : fresh (example_answers fault) example_host.
Proof.
  split.
  - repeat constructor; simpl; intuition discriminate.
  - intros fd Hfd. simpl in Hfd. destruct Hfd as [<-|[<-|[<-|[<-|[]]]]]; vm_compute; reflexivity.
Qed.

Example C63_example : fresh (example_answers (fun _ => None)) example_host /\
  match run_on (example_machine 0 diamond true true) (example_answers (fun _ => None)) example_host with
  | (Ret (EntersLoop configs _), h') =>
      length configs = 4%nat /\ h_files h' !! "/run/cinit.socket" = Some (ESocket 4 511) /\
      h_files h' !! "/run/cinit-notify.socket" = Some (ESocket 5 511) /\
      h_files h' !! "/run/other" = Some EFile /\ h_mask h' = [10; 17; 2; 15; 3]
  | _ => False
  end.
Proof. split; [apply example_fresh|]. vm_compute. repeat split; reflexivity. Qed.

(** * C64: failing calls *)
(** MainModel, on which C13 is stated, takes the right answers from these calls. *)
Theorem C64_outcome k a h : fresh a h -> agrees k a h -> forall b, run k = Ret b -> fst (run_on k a h) = Ret b.
Proof. exact (run_on_refines k a h). Qed.
Print Assumptions C64_outcome.

(** Missing from the full claim: cinit crashes if epoll_create fails. *)
Theorem C64_calls_decide_partial k a h configs an : fresh a h -> run (faultless k) = Ret (EntersLoop configs an) ->
  (~ sockets_possible a h /\ fst (run_on k a h) = Ret (Exits 2)) \/
  (sockets_possible a h /\ ~ epoll_possible a /\ exists m, fst (run_on k a h) = Panic m) \/
  (sockets_possible a h /\ epoll_possible a /\ ~ watch_possible a /\ fst (run_on k a h) = Ret (Exits 3)) \/
  (sockets_possible a h /\ epoll_possible a /\ watch_possible a /\ fst (run_on k a h) = Ret (EntersLoop configs an)).
Proof. exact (run_on_calls k a h configs an). Qed.
Print Assumptions C64_calls_decide_partial.

Definition failing (c : call) (e : errno) (x : call) : option errno :=
  match c, x with
  | KEpoll, KEpoll => Some e
  | KSubreaper, KSubreaper => Some e
  | KUnlink p, KUnlink q => if String.eqb p q then Some e else None
  | KListen p, KListen q => if String.eqb p q then Some e else None
  | KAdd p, KAdd q => if Z.eqb p q then Some e else None
  | _, _ => None
  end.
Definition outcome_with (c : call) (e : errno) : outcome boot :=
  fst (run_on (example_machine 0 diamond true true) (example_answers (failing c e)) example_host).
Example C64_example :
  (exists configs an, run (faultless (example_machine 0 diamond true true)) = Ret (EntersLoop configs an)) /\
  outcome_with (KListen SOCKET_PATH) EOTHER = Ret (Exits 2) /\
  outcome_with (KUnlink NOTIFY_PATH) EOTHER = Ret (Exits 2) /\
  outcome_with (KAdd 5) EOTHER = Ret (Exits 3) /\ outcome_with KSubreaper EOTHER = Ret (Exits 3) /\
  match outcome_with (KListen NOTIFY_PATH) EOTHER with Ret (EntersLoop configs _) => length configs = 4%nat | _ => False end.
Proof. split; [do 2 eexists; vm_compute; reflexivity|]. do 4 (split; [vm_compute; reflexivity|]). vm_compute; reflexivity. Qed.

Theorem C64_epoll_refuted : exists k a h m, fresh a h /\ (exists configs an, run (faultless k) = Ret (EntersLoop configs an)) /\
  fst (run_on k a h) = Panic m.
Proof.
  exists (example_machine 0 diamond true true), (example_answers (failing KEpoll EOTHER)), example_host.
  eexists. split; [apply example_fresh|]. split; [do 2 eexists; vm_compute; reflexivity|]. vm_compute. reflexivity.
Qed.
Print Assumptions C64_epoll_refuted.

(** * C65: a cinit that refuses to run and the sockets of another one *)
(** Missing from the full claim: dependencies and timers that are refused. *)
Theorem C65_refusal_partial k a h c h' : honest k -> fresh a h -> run_on k a h = (Ret (Exits c), h') ->
  (precondition_fails k /\ c = 5 /\ h' = h) \/
  (~ precondition_fails k /\
   ((unloadable k /\ c = 1 /\ h' = h) \/
    (~ unloadable k /\ exists parsed, read_as k parsed /\
     ((unmergeable (concat parsed) /\ c = 1 /\ h' = h) \/
      (~ unmergeable (concat parsed) /\ exists configs, merged (concat parsed) configs /\
       (((exists x, In x configs /\ program_fault (m_world k) x) /\ c = 2 /\ h' = h) \/
        ((forall x, In x configs -> ~ program_fault (m_world k) x) /\ (c = 2 \/ c = 3) /\
         (~ sockets_possible a h -> c = 2) /\
         (sockets_possible a h -> serves h' "/run/cinit.socket" (f_status a) Stream /\
            serves h' "/run/cinit-notify.socket" (f_notify a) Datagram)))))))).
Proof. exact (run_on_refusal k a h c h'). Qed.
Print Assumptions C65_refusal_partial.

Example C65_example : honest (example_machine 0 [simple "a" [] []; simple "a" [] []] true true) /\
  run_on (example_machine 0 [simple "a" [] []; simple "a" [] []] true true) (example_answers (fun _ => None)) example_host = (Ret (Exits 1), example_host).
Proof. split; [apply example_honest|]. vm_compute. reflexivity. Qed.

(** A program that depends on itself is refused, but socket 3, which belongs to someone
    else, is no longer found under the path. *)
Theorem C65_refusal_refuted : exists k a h h' i j m, honest k /\ fresh a h /\ run_on k a h = (Ret (Exits 2), h') /\
  h_files h !! "/run/cinit.socket" = Some (ESocket i m) /\ h_files h' !! "/run/cinit.socket" = Some (ESocket j m) /\ i <> j.
Proof.
  set (k := example_machine 0 [simple "a" [] ["a"]] true true). set (a := example_answers (fun _ => None)).
  exists k, a, example_host, (snd (run_on k a example_host)), 3%nat, 4%nat, 511.
  split; [apply example_honest|]. split; [apply example_fresh|].
  assert (E : fst (run_on k a example_host) = Ret (Exits 2)) by (vm_compute; reflexivity).
  split; [rewrite <- E; apply surjective_pairing|]. split; [vm_compute; reflexivity|].
  split; [vm_compute; reflexivity|discriminate].
Qed.
Print Assumptions C65_refusal_refuted.
