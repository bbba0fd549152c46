(** Property C75: the command line. *)
From Coq Require Import String Ascii ZArith List Bool Lia.
From Verif Require Import Base RStr CliModel SpecCli CliProofs.
Import ListNotations.
Local Open Scope string_scope.
Local Open Scope list_scope.
Local Open Scope Z_scope.

Theorem C75_understood args path verbose : parse_arguments args = Begins path verbose <-> asks_to_run args path verbose.
Proof. exact (runs_iff args path verbose). Qed.
Print Assumptions C75_understood.

Theorem C75_one_meaning args path verbose path' verbose' : asks_to_run args path verbose -> asks_to_run args path' verbose' -> path = path' /\ verbose = verbose'.
Proof. exact (one_meaning args path verbose path' verbose'). Qed.
Print Assumptions C75_one_meaning.

Theorem C75_what_happens args m :
  (forall path verbose, asks_to_run args path verbose -> main args m = MainModel.run (m path)) /\
  (asks_for_text args -> main args m = Ret (MainModel.Exits 0)) /\
  (~ asks_for_text args -> (forall path verbose, ~ asks_to_run args path verbose) -> main args m = Ret (MainModel.Exits 2)).
Proof. exact (main_cases args m). Qed.
Print Assumptions C75_what_happens.

(** Several ways to say it. *)
Example C75_example_says : asks_to_run ["-vvc"; "/etc/cinit.d"; "--verbose"; "--"] "/etc/cinit.d" 3.
Proof.
  exists [Verbose; Verbose; Config "/etc/cinit.d"; Verbose]. split.
  - right. exists ["-vvc"; "/etc/cinit.d"; "--verbose"]. split; [reflexivity|].
    apply (SShortConfig 2 "/etc/cinit.d" ["--verbose"] [Verbose]); [right; intros w; discriminate|repeat constructor].
  - split; [right; split; vm_compute; reflexivity|reflexivity].
Qed.
Example C75_example_same : parse_arguments ["-c/etc/cinit.d"; "-vvv"] = Begins "/etc/cinit.d" 3 /\ parse_arguments ["-vc=/etc/cinit.d"; "-vv"] = Begins "/etc/cinit.d" 3 /\
  parse_arguments ["--config=/etc/cinit.d"; "-v"; "-v"; "-v"] = Begins "/etc/cinit.d" 3 /\ parse_arguments [] = Begins "/etc/cinit.yml" 0 /\
  parse_arguments (repeat "-vv" 200) = Begins "/etc/cinit.yml" 255.
Proof. vm_compute. auto. Qed.
Example C75_example_text : asks_for_text ["-c"; "x"; "-vh"; "nonsense"].
Proof.
  exists ["-c"; "x"], "-vh", ["nonsense"], [Config "x"], "x". split; [reflexivity|]. split.
  - apply (SShortConfig 0 "x" [] []); [right; intros w; discriminate|constructor].
  - split; [right; split; vm_compute; reflexivity|]. right. right. exists 1%nat, "". left. reflexivity.
Qed.
(** A path twice, an option as path, a path without option, no path. *)
Example C75_example_refused : forall args, In args [["-c"; "a"; "--config"; "b"]; ["-c"; "-v"]; ["/etc/cinit.yml"]; ["-vc"]; ["--verbose=2"]; ["-c"; "a"; "--"; "b"]; ["-"]] ->
  ~ asks_for_text args /\ (forall path verbose, ~ asks_to_run args path verbose) /\ parse_arguments args = Stops 2.
Proof.
  intros args H. assert (E : parse_arguments args = Stops 2) by (repeat destruct H as [<-|H]; try (vm_compute; reflexivity); destruct H).
  split; [rewrite <- text_iff; congruence|]. split; [|exact E]. intros p v. rewrite <- runs_iff. congruence.
Qed.
