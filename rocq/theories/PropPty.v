(** Properties C60 to C62: the streams programs are started with. *)
From stdpp Require Import gmap strings.
From Coq Require Import Ascii ZArith List Bool Lia.
From Verif Require Import Base RStr ProcessModel ChildModel FdModel PtyModel SpecStr SpecText SpecChild SpecPty ChildThms ChildExamples PtyProofs PtyLines.
Import ListNotations.
Local Open Scope string_scope.
Local Open Scope list_scope.
Local Open Scope Z_scope.

(** A container with a terminal, and one without. *)
Definition demo_flags : termios := {| t_iflag := 17664; t_oflag := 5; t_cflag := 191; t_lflag := 35387; t_rest := 38400 |}.
Definition demo_kernel (tty : bool) (fault : step -> bool) (x : numbers) : kernel :=
  {| k_flags := if tty then Some demo_flags else None;
     k_size := if tty then Some {| ws_row := 50; ws_col := 132; ws_xpixel := 0; ws_ypixel := 0 |} else None;
     k_new := {| tm_size := {| ws_row := 0; ws_col := 0; ws_xpixel := 0; ws_ypixel := 0 |}; tm_flags := {| t_iflag := 1280; t_oflag := 5; t_cflag := 191; t_lflag := 35387; t_rest := 38400 |};
                 tm_uid := 0; tm_gid := 5; tm_mode := 400 |};
     k_fault := fault; k_numbers := x |}.
Definition fine (s : step) : bool := false.
Definition on_terminal (uid : Z) : process :=
  {| p_name := "shell"; p_path := "/bin/sh"; p_args := ["/bin/sh"]; p_workdir := "/"; p_uid := uid; p_gid := uid; p_pty := true; p_caps := [];
     p_env := []; p_state := Blocked; p_type := ROneshot; p_pid := 0; p_status := "" |}.
(** One program on a terminal is running, one on pipes has closed its output. *)
Definition pty_moves : list move :=
  [MStart (demo_kernel true fine {| n_out := 7; n_out' := 8; n_err := 10; n_err' := 11 |}) (on_terminal 0);
   MStart (demo_kernel true fine {| n_out := 8; n_out' := 11; n_err := 12; n_err' := 13 |}) (demo_program "/bin/web" 33 []); MHangup 8; MReport 8].
Definition empty_world : world := {| w_fds := ∅; w_count := 0; w_term := ∅ |}.
Definition demo_world : world :=
  match own_fds demo_table 3 4 5 6 with
  | Some t => match moves {| w_fds := t; w_count := 0; w_term := ∅ |} pty_moves with Some w => w | None => empty_world end
  | None => empty_world
  end.
Lemma demo_world_reachable : pty_reachable demo_table demo_world.
Proof.
  destruct (own_fds demo_table 3 4 5 6) as [t|] eqn:E; [|vm_compute in E; discriminate].
  exists 3, 4, 5, 6, t, pty_moves. split; [exact E|]. unfold demo_world. rewrite E.
  destruct (moves {| w_fds := t; w_count := 0; w_term := ∅ |} pty_moves) as [s|] eqn:A; [reflexivity|].
  exfalso. revert A. vm_compute in E. apply Some_inj in E. subst t. vm_compute. discriminate.
Qed.
Definition pty_numbers : numbers := {| n_out := 8; n_out' := 11; n_err := 13; n_err' := 14 |}.
Definition outcome_of (r : option (done table)) : option bool :=
  match r with Some (Done _ _) => Some true | Some (Failed _) => Some false | None => None end.

(** * C60: terminals *)
(** Both streams of a program with [pty] are terminals of their own, owned by the
    user and group of the program, writable by the group (mode 0620), of the size of
    cinit's terminal or 24 by 80, with the flags [expected_flags]. *)
Theorem C60_terminals t0 w k p t w' : pty_reachable t0 w -> start k p w = Some (Done t w') -> p_pty p = true -> forall o,
  w_term w !! (w_count w, o) = None /\
  exists tm, w_term w' !! (w_count w, o) = Some tm /\ expected_size k (tm_size tm) /\ expected_flags k (tm_flags tm) /\
    tm_uid tm = p_uid p /\ tm_gid tm = p_gid p /\ tm_mode tm = 6 * 64 + 2 * 8.
Proof. exact (terminals t0 w k p t w'). Qed.
Print Assumptions C60_terminals.

(** Terminals of other programs stay as they are; without [pty] there is none. *)
Theorem C60_other_terminals t0 w k p t w' : pty_reachable t0 w -> start k p w = Some (Done t w') ->
  (forall n o, n <> w_count w -> w_term w' !! (n, o) = w_term w !! (n, o)) /\ (p_pty p = false -> w_term w' = w_term w).
Proof. exact (others t0 w k p t w'). Qed.
Print Assumptions C60_other_terminals.

(** The streams a program is executed with are those terminals (or pipes). *)
Theorem C60_program_is_on_it t0 w k p t w' h fault mask ign dir cr c : inherited t0 -> pty_reachable t0 w -> start k p w = Some (Done t w') ->
  child_side h fault p (n_out' (k_numbers k)) (n_err' (k_numbers k)) (fresh_child t mask ign dir cr) = Runs c ->
  ch_fds c !! 1 = Some {| d_file := FWriter (w_count w) true; d_cloexec := false |} /\
  ch_fds c !! 2 = Some {| d_file := FWriter (w_count w) false; d_cloexec := false |}.
Proof. exact (on_it t0 w k p t w' h fault mask ign dir cr c). Qed.
Print Assumptions C60_program_is_on_it.

Example C60_example : pty_reachable demo_table demo_world /\
  outcome_of (start (demo_kernel true fine pty_numbers) (on_terminal 33) demo_world) = Some true /\
  outcome_of (start (demo_kernel false fine pty_numbers) (on_terminal 33) demo_world) = Some true /\
  w_count demo_world = 2%nat /\ dom (w_term demo_world) = (list_to_set [(0%nat, true); (0%nat, false)] : gset (nat * bool)).
Proof. split; [exact demo_world_reachable|]. split; [vm_compute; reflexivity|]. split; [vm_compute; reflexivity|]. split; [vm_compute; reflexivity|]. apply (bool_decide_unpack _). vm_compute. exact Logic.I. Qed.

(** * C61: starting is all or nothing for cinit *)
(** If any call fails, descriptors and terminals are what they were before. *)
Theorem C61_failure_leaves_nothing t0 w k p w' : pty_reachable t0 w -> start k p w = Some (Failed w') -> w' = w.
Proof. exact (failed t0 w k p w'). Qed.
Print Assumptions C61_failure_leaves_nothing.

Theorem C61_success_leaves_two t0 w k p t w' : pty_reachable t0 w -> start k p w = Some (Done t w') -> forall fd, w_fds w' !! fd =
  if fd =? n_out (k_numbers k) then Some {| d_file := FReader (w_count w) true; d_cloexec := true |}
  else if fd =? n_err (k_numbers k) then Some {| d_file := FReader (w_count w) false; d_cloexec := true |}
  else w_fds w !! fd.
Proof. exact (succeeded t0 w k p t w'). Qed.
Print Assumptions C61_success_leaves_two.

(** A child is forked exactly if no call that is needed fails. *)
Theorem C61_forked_iff t0 w k p r : pty_reachable t0 w -> start k p w = Some r ->
  (exists t w', r = Done t w') <-> forall st, needs p st -> k_fault k st = false.
Proof. exact (starts_iff t0 w k p r). Qed.
Print Assumptions C61_forked_iff.

(** The kernel can answer in every way: new numbers suffice. *)
Theorem C61_every_answer k p w : unused w (k_numbers k) -> exists r, start k p w = Some r.
Proof. exact (start_answers k p w). Qed.
Print Assumptions C61_every_answer.

(** The description with one step per program, on which C47 to C53 rest, is exact. *)
Theorem C61_refines t0 w : pty_reachable t0 w -> fd_reachable t0 {| f_table := w_fds w; f_count := w_count w |}.
Proof. exact (fun R => proj2 (pty_refines t0 w R)). Qed.
Print Assumptions C61_refines.

(** The last call fails for one program, a call only terminals need for another. *)
Definition no_chmod (s : step) : bool := match s with SChmod false => true | _ => false end.
Example C61_example : pty_reachable demo_table demo_world /\
  outcome_of (start (demo_kernel true no_chmod pty_numbers) (on_terminal 33) demo_world) = Some false /\
  outcome_of (start (demo_kernel true no_chmod pty_numbers) (demo_program "/bin/web" 33 []) demo_world) = Some true /\
  unused demo_world pty_numbers /\ needs (on_terminal 33) (SChmod false) /\ ~ needs (demo_program "/bin/web" 33 []) (SChmod false).
Proof.
  split; [exact demo_world_reachable|]. split; [vm_compute; reflexivity|]. split; [vm_compute; reflexivity|]. split; [|split; [reflexivity|discriminate]].
  split; [repeat constructor; cbn; intuition discriminate|]. intros fd [<-|[<-|[<-|[<-|[]]]]]; vm_compute; reflexivity.
Qed.

(** * C62: what is logged of a terminal *)
(** If cinit has a terminal, what a program writes to its own is read unchanged. *)
Theorem C62_unchanged t0 w k p t w' o tm text : pty_reachable t0 w -> start k p w = Some (Done t w') -> p_pty p = true -> k_flags k <> None ->
  w_term w' !! (w_count w, o) = Some tm -> through (tm_flags tm) text = text.
Proof. exact (unchanged t0 w k p t w' o tm text). Qed.
Print Assumptions C62_unchanged.

(** If not, line feeds are expanded by Linux.  Read in any pieces, the entries in the
    log are those the same text on a pipe could give, except that some may have a
    carriage return at the end or consist of one. *)
Theorem C62_same_entries_partial t text cs ls : t_oflag t = 1 + 4 -> free_of carriage_return text ->
  joined cs = through t text -> entries cs ls ->
  exists ds ls', joined ds = text /\ entries ds ls' /\ trimmed ls ls'.
Proof. exact (expanded t text cs ls). Qed.
Print Assumptions C62_same_entries_partial.

(** Such carriage returns do occur, and not on pipes. *)
Theorem C62_same_entries_refuted : exists t text cs ls, t_oflag t = 1 + 4 /\ free_of carriage_return text /\ joined cs = through t text /\ entries cs ls /\
  forall ds ls', joined ds = text -> entries ds ls' -> ls' <> ls.
Proof.
  exists (tm_flags (k_new (demo_kernel false fine pty_numbers))), ("a" +:+ String line_feed ""), ["a" +:+ String carriage_return ""; String line_feed ""], ["a" +:+ String carriage_return ""].
  split; [reflexivity|]. split; [intros [X|[X|[]]]; discriminate X|]. split; [vm_compute; reflexivity|]. split.
  - change ["a" +:+ String carriage_return ""] with (List.filter (fun l => negb (String.eqb l "")) ["a" +:+ String carriage_return ""] ++ (List.filter (fun l => negb (String.eqb l "")) [""] ++ [])).
    eapply (en_chunk _ ("a" +:+ String carriage_return "")).
    + apply (sv_char 97 [13] [13]); [left; lia|]. apply (sv_char 13 [] []); [left; lia|constructor].
    + apply la_last; [discriminate|]. intros [X|[X|[]]]; discriminate X.
    + eapply (en_chunk _ (String line_feed "")); [apply (sv_char 10 [] []); [left; lia|constructor]| |constructor].
      apply (la_lf "" "" []); [intros []|intros l' X; destruct l'; discriminate|constructor].
  - intros ds ls' J E X. subst ls'. apply (entries_no_cr _ _ E) with (l := "a" +:+ String carriage_return ""); [rewrite J; intros [X|[X|[]]]; discriminate X|left; reflexivity|].
    right. left. reflexivity.
Qed.
Print Assumptions C62_same_entries_refuted.

Example C62_example : exists tm, t_oflag tm = 1 + 4 /\ through tm ("one" +:+ String line_feed "two") = "one" +:+ String carriage_return (String line_feed "two").
Proof. exists (tm_flags (k_new (demo_kernel false fine pty_numbers))). split; vm_compute; reflexivity. Qed.
