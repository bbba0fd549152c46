(** Property C105: the command line of the harness. *)
From Coq Require Import String Ascii ZArith List Bool Lia.
From Verif Require Import Base RStr SpecStr SpecText SpecCli HarnessLifeModel SpecHarnessLife HarnessCliModel SpecHarnessCli HarnessCliProofs.
Import ListNotations.
Local Open Scope string_scope.
Local Open Scope list_scope.
Local Open Scope Z_scope.

(** Full statement: the harness takes what the command line says, and [o_ready o = true] if
    and only if [In Ready l].  The last part is wrong ([C105_ready_refuted]): the flag is
    taken for given always. *)
Theorem C105_understood_partial args o others : parse args = Runs o others <-> exists l, asks args l others /\ means l o /\ o_ready o = true.
Proof. exact (runs_iff args o others). Qed.
Print Assumptions C105_understood_partial.

Theorem C105_one_meaning args l others l' others' o o' : asks args l others -> asks args l' others' -> means l o -> means l' o' -> o_ready o = o_ready o' -> o = o' /\ others = others'.
Proof. exact (one_meaning args l others l' others' o o'). Qed.
Print Assumptions C105_one_meaning.

Theorem C105_what_happens_partial args w :
  (forall l others, asks args l others -> exists o, means l o /\ o_ready o = true /\ main args w = harness o w) /\
  (asks_for_help args -> main args w = ([], Ends 0)) /\
  (~ asks_for_help args -> (forall l others, ~ asks args l others) -> main args w = ([], Ends 2)).
Proof. exact (main_cases args w). Qed.
Print Assumptions C105_what_happens_partial.

(** From the command line to the end, if nothing goes wrong: all that others see of it.
    Wrong of the intended program only in that readiness comes first always. *)
Theorem C105_undisturbed_partial args l others w written sl n cd x file :
  asks args l others -> (forall i, (4 <= l_socket w i)%nat) -> l_create w = true -> l_signalfd w = true -> l_pieces w = map Ret written ->
  (forall s t, In s (l_arrives w t) -> ~ kills w s /\ ~ waits w s) ->
  chosen l Sleep "0" sl -> u64_text sl n -> chosen l Code "0" cd -> int_text cd x -> chosen l Output "test-output/harness.txt" file ->
  main args w = (map Sends ("READY=1" :: map (fun v => "STATUS=" ++ v)%string (values Status l)) ++ Opens file :: map Writes written ++ repeat Second (Z.to_nat n), Ends (x mod 256)).
Proof. exact (undisturbed args l others w written sl n cd x file). Qed.
Print Assumptions C105_undisturbed_partial.

(** A consequence of the flag: where cinit's socket cannot be reached the harness fails,
    whether it was asked to send anything or not. *)
Theorem C105_no_socket args l others w : asks args l others -> (l_socket w 0 < 3)%nat ->
  fst (main args w) = [] /\ (snd (main args w) = Ends 101 \/ exists s, snd (main args w) = Killed s).
Proof. exact (no_socket args l others w). Qed.
Print Assumptions C105_no_socket.

Definition calm : luck := {| l_socket := fun _ => 4%nat; l_create := true; l_pieces := []; l_signalfd := true;
  l_blocked := fun _ => false; l_ignored := fun _ => false; l_arrives := fun _ => [] |}.

(** No option at all, and still it says that it is ready. *)
Theorem C105_ready_refuted : exists args l others w, asks args l others /\ ~ In Ready l /\ In (Sends "READY=1") (fst (main args w)).
Proof.
  exists ["-s"; "2"], [Give Sleep "2"], [], calm. split; [|split].
  - exists ["-s"; "2"], []. split; [reflexivity|]. split; [apply (SShortOpt 0 Sleep "2" [] []); [right; intros x; discriminate|constructor]|].
    split; [split; [cbn; lia|]; intros []; cbn; [left|right; exists "2"|left|left]; auto|]. split; [left; auto|constructor].
  - intros [X|[]]. discriminate X.
  - vm_compute. auto.
Qed.
Print Assumptions C105_ready_refuted.

(** Several ways to say it; arguments after the first other one are not options. *)
Example C105_example_says : asks ["-nr5"; "--output=x"; "-S"; "fine"; "cmd"; "-r"; "6"] [Ready; Give Code "5"; Give Output "x"; Give Status "fine"] ["cmd"; "-r"; "6"].
Proof.
  exists ["-nr5"; "--output=x"; "-S"; "fine"], ["cmd"; "-r"; "6"]. split; [reflexivity|]. split.
  - apply (SShortWith 1 Code "5" ["--output=x"; "-S"; "fine"] [Give Output "x"; Give Status "fine"]); [discriminate|intros w; discriminate|].
    apply (SLongIs Output "x" ["-S"; "fine"] [Give Status "fine"]). apply (SShortOpt 0 Status "fine" [] []); [right; intros w; discriminate|constructor].
  - split; [split; [cbn; lia|]; intros []; cbn; [right; exists "5"|left|right; exists "x"|right; exists "fine"]; auto|].
    split; [right; right; exists "cmd", ["-r"; "6"]; split; [reflexivity|]; split; [right; intros w; discriminate|reflexivity]|repeat constructor].
Qed.
(** The same command line to its end. *)
Example C105_example_end : main ["-nr5"; "--output=x"; "-S"; "fine"; "cmd"; "-r"; "6"] calm = ([Sends "READY=1"; Sends "STATUS=fine"; Opens "x"], Ends 5).
Proof.
  assert (N0 : numeral "0") by (split; [discriminate|intros a [<-|[]]; discriminate]). assert (N5 : numeral "5") by (split; [discriminate|intros a [<-|[]]; discriminate]).
  apply (C105_undisturbed_partial _ _ _ calm [] "0" 0 "5" 5 "x" C105_example_says); try reflexivity; try (cbn; intros; lia); try (cbn; tauto).
  - left. split; reflexivity.
  - exists "0". split; [exact N0|]. split; [left; reflexivity|]. split; [reflexivity|lia].
  - right. reflexivity.
  - exists "5". split; [exact N5|]. split; [left; split; [left; reflexivity|reflexivity]|lia].
  - right. reflexivity.
Qed.
Definition five : options := {| o_ready := true; o_status := Some "fine"; o_output := "x"; o_sleep := "0"; o_code := "5" |}.
Example C105_example_same :
  parse ["-nr5"; "--output=x"; "-S"; "fine"; "cmd"; "-r"; "6"] = Runs five ["cmd"; "-r"; "6"] /\
  parse ["-r=5"; "-ox"; "--status"; "fine"; "--"; "--help"] = Runs five ["--help"] /\
  parse ["--return-code"; "5"; "-o"; "x"; "--status=fine"; "--ready"] = Runs five [] /\
  fst (main ["-r"; "5"; "-ox"; "-Sfine"] calm) = [Sends "READY=1"; Sends "STATUS=fine"; Opens "x"] /\ snd (main ["-r"; "5"; "-ox"; "-Sfine"] calm) = Ends 5.
Proof. vm_compute. auto. Qed.
Example C105_example_help : asks_for_help ["-r"; "1"; "-nh"; "nonsense"; "-x"].
Proof.
  exists ["-r"; "1"], "-nh", ["nonsense"; "-x"], [Give Code "1"]. split; [reflexivity|]. split.
  - apply (SShortOpt 0 Code "1" [] []); [right; intros w; discriminate|constructor].
  - right. exists 1%nat, "". split; [reflexivity|]. split; [cbn; lia|]. intros []; cbn; [right; exists "1"|left..]; auto.
Qed.
(** Twice the same, an option as value, a value for the flag, no value, an unknown option. *)
Example C105_example_refused : forall args, In args [["-r"; "1"; "--return-code=2"]; ["-s"; "-n"]; ["--ready=yes"]; ["-nn"]; ["-no"]; ["--version"]; ["-5"]; ["-nnh"]; ["-s"; "--"; "1"]] ->
  ~ asks_for_help args /\ (forall l others, ~ asks args l others) /\ main args calm = ([], Ends 2).
Proof.
  intros args H. assert (E : parse args = Stops 2) by (repeat destruct H as [<-|H]; try (vm_compute; reflexivity); destruct H).
  split; [rewrite <- help_iff; congruence|]. split; [|unfold main; rewrite E; reflexivity]. intros l others A. destruct (asks_runs _ _ _ A) as (o & X & _). congruence.
Qed.
Example C105_example_no_socket : main ["-r"; "3"] {| l_socket := fun _ => 1%nat; l_create := true; l_pieces := []; l_signalfd := true;
  l_blocked := fun _ => false; l_ignored := fun _ => false; l_arrives := fun _ => [] |} = ([], Ends 101).
Proof. vm_compute. reflexivity. Qed.
