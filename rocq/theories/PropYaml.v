(** Properties C66 to C68: reading the configuration from YAML. *)
From Coq Require Import String Ascii ZArith List Bool Permutation Lia.
From Verif Require Import Base ConfigModel YamlModel SpecStr SpecYaml YamlProofs.
Import ListNotations.
Local Open Scope string_scope.
Local Open Scope list_scope.

(** * C66: a document means what the manual says *)
Theorem C66_program_sound lib l c : any_order lib -> decode_program lib (YMap l) = Some c -> says lib l c.
Proof. exact (decode_program_says lib l c). Qed.
Print Assumptions C66_program_sound.

Theorem C66_program_complete lib l c : any_order lib -> says lib l c ->
  exists c', decode_program lib (YMap l) = Some c' /\ same_program c c'.
Proof. exact (program_complete lib l c). Qed.
Print Assumptions C66_program_complete.

Theorem C66_document_sound lib syntax s cs : any_order lib -> read_yaml lib syntax s = Some cs ->
  exists y, syntax s = Some y /\ a_config lib y cs.
Proof. exact (read_yaml_sound lib syntax s cs). Qed.
Print Assumptions C66_document_sound.

Theorem C66_document_complete lib syntax s y cs : any_order lib -> syntax s = Some y -> a_config lib y cs ->
  exists cs', read_yaml lib syntax s = Some cs' /\ Forall2 same_program cs cs'.
Proof. exact (read_yaml_complete lib syntax s y cs). Qed.
Print Assumptions C66_document_complete.

(** The order of the options does not matter. *)
Theorem C66_option_order lib l l' : Permutation l l' -> decode_program lib (YMap l) = decode_program lib (YMap l').
Proof. exact (decode_program_perm lib l l'). Qed.
Print Assumptions C66_option_order.

Definition plain (t : string) : yaml := YScalar Plain t.
Definition example_library : library :=
  {| l_empty := true; l_program := fun _ => None; l_config := fun _ => None; l_timer := fun _ => None; l_order := @rev _ |}.
Lemma example_any_order : any_order example_library.
Proof. intros m. symmetry. apply Permutation_rev. Qed.

(** The full list of options in the manual (doc/README.md:23-70). *)
Definition manual_entry : list (yaml * yaml) :=
  [(plain "name", plain "Some descriptive name"); (plain "path", plain "/the/path");
   (plain "args", YSeq [YScalar Quoted "-e"; YScalar Quoted "hello world\n"; YScalar Quoted "{{ NAME }}_arg"]);
   (plain "workdir", plain "/some/path");
   (plain "type", YMap [(plain "cronjob", YMap [(plain "timer", plain "1 2 3 4 5")])]);
   (plain "uid", plain "0"); (plain "gid", plain "0x10"); (plain "user", plain "root"); (plain "group", plain "root");
   (plain "before", YSeq [plain "other-program"]); (plain "after", YSeq [plain "other-program"]);
   (plain "pty", plain "false"); (plain "capabilities", YSeq []);
   (plain "env", YSeq [YMap [(plain "PWD", YScalar Quoted "/home/user")]; YMap [(plain "PASSWORD", plain "")];
                       YMap [(plain "A", plain "1"); (plain "B", plain "2"); (plain "A", plain "3")]])].
Example C66_example :
  decode_program example_library (YMap manual_entry) = Some
    {| pc_name := "Some descriptive name"; pc_path := Some "/the/path"; pc_args := ["-e"; "hello world\n"; "{{ NAME }}_arg"];
       pc_workdir := Some "/some/path"; pc_type := CronJob "1 2 3 4 5"; pc_uid := Some 0%Z; pc_gid := Some 16%Z; pc_user := Some "root";
       pc_group := Some "root"; pc_before := ["other-program"]; pc_after := ["other-program"]; pc_pty := false; pc_caps := [];
       pc_env := [[("PWD", Some "/home/user")]; [("PASSWORD", None)]; [("B", Some "2"); ("A", Some "3")]] |}.
Proof. vm_compute. reflexivity. Qed.
(** A minimal entry, and the defaults. *)
Example C66_minimal_example :
  decode_program example_library (YMap [(plain "path", plain "/bin/true"); (plain "name", plain "a")]) = Some
    {| pc_name := "a"; pc_path := Some "/bin/true"; pc_args := []; pc_workdir := None; pc_type := Oneshot; pc_uid := None; pc_gid := None;
       pc_user := None; pc_group := None; pc_before := []; pc_after := []; pc_pty := false; pc_caps := []; pc_env := [] |}.
Proof. vm_compute. reflexivity. Qed.
Example C66_says_example : exists c, says example_library manual_entry c.
Proof. eexists. apply C66_program_sound; [exact example_any_order|exact C66_example]. Qed.

(** * C67: an option that the manual does not know *)
(** Missing from the full claim: such an option is not reported. *)
Theorem C67_no_effect_partial lib st k v l1 l2 : ~ In k options ->
  decode_program lib (YMap (l1 ++ (YScalar st k, v) :: l2)) = decode_program lib (YMap (l1 ++ l2)).
Proof. exact (decode_program_unknown lib st k v l1 l2). Qed.
Print Assumptions C67_no_effect_partial.
Example C67_example : ~ In "usr" options.
Proof. vm_compute. intuition discriminate. Qed.

(** A misspelt [user] is dropped: the program has no user, i.e. runs as root. *)
Theorem C67_reported_refuted : exists l k v c, entry l k v /\ ~ In k options /\
  (forall lib, decode_program lib (YMap l) = Some c) /\ pc_user c = None /\ pc_uid c = None.
Proof.
  exists [(plain "name", plain "a"); (plain "path", plain "/bin/server"); (plain "usr", plain "nobody")], "usr", (plain "nobody").
  eexists. split; [exists Plain; simpl; auto|]. split; [vm_compute; intuition discriminate|].
  split; [intros lib; vm_compute; reflexivity|]. split; reflexivity.
Qed.
Print Assumptions C67_reported_refuted.

(** * C68: documents that are refused *)
Theorem C68_no_name lib l : (forall v, ~ entry l "name" v) -> decode_program lib (YMap l) = None.
Proof. exact (decode_program_no_name lib l). Qed.
Print Assumptions C68_no_name.
Theorem C68_twice lib l k : In k options -> ~ once l k -> decode_program lib (YMap l) = None.
Proof. exact (decode_program_twice lib l k). Qed.
Print Assumptions C68_twice.
Theorem C68_no_programs lib l : (forall v, ~ entry l "programs" v) -> decode_config lib (YMap l) = None.
Proof. exact (decode_config_none lib l). Qed.
Print Assumptions C68_no_programs.
(** One bad program spoils the document. *)
Theorem C68_one_bad lib st l1 ps l2 y : In y ps -> decode_program lib y = None ->
  decode_config lib (YMap (l1 ++ (YScalar st "programs", YSeq ps) :: l2)) = None.
Proof. exact (decode_config_bad lib st l1 ps l2 y). Qed.
Print Assumptions C68_one_bad.
(** A user or group number is taken if and only if it is one. *)
Theorem C68_numbers lib l c n : any_order lib -> decode_program lib (YMap l) = Some c -> pc_uid c = Some n ->
  exists v, entry l "uid" v /\ number v n.
Proof. exact (decode_program_uid lib l c n). Qed.
Print Assumptions C68_numbers.
Theorem C68_not_a_number lib l v : entry l "uid" v -> ~ null v -> (forall n, ~ number v n) -> decode_program lib (YMap l) = None.
Proof. exact (decode_program_bad_uid lib l v). Qed.
Print Assumptions C68_not_a_number.

Example C68_twice_example : ~ once [(plain "name", plain "a"); (plain "user", plain "b"); (YScalar Quoted "user", plain "c")] "user".
Proof. intros O. apply (O [(plain "name", plain "a")] _ _ [] _ _ [] eq_refl); unfold text, plain; eauto. Qed.
Example C68_numbers_example :
  map (fun t => decode_u32 (plain t)) ["0"; "1000"; "+7"; "0x1F"; "0o17"; "0b101"; "4294967295"; "4294967296"; "007"; "-1"; "root"; ""; "1.0"; "1_000"] =
  [Some 0; Some 1000; Some 7; Some 31; Some 15; Some 5; Some 4294967295; None; None; None; None; None; None; None]%Z.
Proof. vm_compute. reflexivity. Qed.
Example C68_quoted_number_example : number (plain "65534") 65534 /\ forall n, ~ number (YScalar Quoted "65534") n.
Proof.
  split.
  - apply u32_means. vm_compute. reflexivity.
  - intros n H. apply u32_means in H. discriminate.
Qed.
