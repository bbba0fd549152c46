(** Model of src/runtime/process.rs:148-187 (cinit's side of starting a program),
    265-283 (create_std_fds), 383-450 (create_ptys), 452-456 (create_pipes) and
    src/util/libc_helpers.rs:29-49, call by call; any call may fail.  FdModel describes
    the same with one step per program. *)
From stdpp Require Import gmap strings.
From Coq Require Import Ascii ZArith List Bool.
From Verif Require Import Base RStr ProcessModel ChildModel FdModel.
Import ListNotations.
Local Open Scope string_scope.
Local Open Scope list_scope.
Local Open Scope Z_scope.

(** * Terminals, see termios(3), ioctl_tty(2), pts(4) *)
Record winsize := { ws_row : Z; ws_col : Z; ws_xpixel : Z; ws_ypixel : Z }.
(** Flags are bit masks; control characters and speeds are one abstract number. *)
Record termios := { t_iflag : Z; t_oflag : Z; t_cflag : Z; t_lflag : Z; t_rest : Z }.
Record terminal := { tm_size : winsize; tm_flags : termios; tm_uid : Z; tm_gid : Z; tm_mode : Z }.

(** The descriptors of cinit, the number of stream pairs so far, and the terminals
    that have a name; terminal (n, true) carries stdout of the n-th pair. *)
Record world := { w_fds : table; w_count : nat; w_term : gmap (nat * bool) terminal }.

(** The calls that can fail; [true] is the one for stdout. *)
Inductive step := SOpen (out : bool) | STtyname (out : bool) | SChown (out : bool) | SChmod (out : bool) | SCloexec (out : bool) | SFork.

(** What the kernel answers: flags and size of cinit's standard input if it is a
    terminal, how a new terminal looks (flags, owner, mode), which calls fail, and the
    numbers of new descriptors. *)
Record kernel := {
  k_flags : option termios;
  k_size : option winsize;
  k_new : terminal;
  k_fault : step -> bool;
  k_numbers : numbers
}.

(** * System calls *)
Definition with_fds (w : world) (t : table) : world := {| w_fds := t; w_count := w_count w; w_term := w_term w |}.
Definition with_term (w : world) (m : gmap (nat * bool) terminal) : world := {| w_fds := w_fds w; w_count := w_count w; w_term := m |}.

(** close(2): the name of a terminal disappears with cinit's end, pts(4). *)
Definition close (fd : Z) (w : world) : world :=
  let m := match w_fds w !! fd with
           | Some {| d_file := FReader n out |} => delete (n, out) (w_term w)
           | _ => w_term w
           end in
  {| w_fds := delete fd (w_fds w); w_count := w_count w; w_term := m |}.
Definition close_all (l : list Z) (w : world) : world := fold_left (fun w fd => close fd w) l w.

(** pipe(2) and openpty(3): two new descriptors without the close-on-exec flag; a
    terminal gets the size, and the flags if there are any. *)
Definition open_pair (fd fd' : Z) (out : bool) (w : world) : option world :=
  opt_bind (open (w_fds w) fd (FReader (w_count w) out) false) (fun t =>
  opt_bind (open t fd' (FWriter (w_count w) out) false) (fun t => Some (with_fds w t))).
Definition openpty (fresh : terminal) (size : winsize) (flags : option termios) (fd fd' : Z) (out : bool) (w : world) : option world :=
  opt_bind (open_pair fd fd' out w) (fun w =>
  Some (with_term w (<[(w_count w, out) := {| tm_size := size; tm_flags := match flags with Some f => f | None => tm_flags fresh end;
                                              tm_uid := tm_uid fresh; tm_gid := tm_gid fresh; tm_mode := tm_mode fresh |}]> (w_term w)))).

(** The terminal a descriptor of a program's end refers to; src/util/libc_helpers.rs:39-49
    copies the name out of the buffer libc reuses. *)
Definition ttyname (fd : Z) (w : world) : option (nat * bool) :=
  match w_fds w !! fd with
  | Some {| d_file := FWriter n out |} => match w_term w !! (n, out) with Some _ => Some (n, out) | None => None end
  | _ => None
  end.
Definition chown (name : nat * bool) (uid gid : Z) (w : world) : option world :=
  match w_term w !! name with
  | Some t => Some (with_term w (<[name := {| tm_size := tm_size t; tm_flags := tm_flags t; tm_uid := uid; tm_gid := gid; tm_mode := tm_mode t |}]> (w_term w)))
  | None => None
  end.
Definition fchmod (fd : Z) (mode : Z) (w : world) : option world :=
  match ttyname fd w with
  | Some name =>
      match w_term w !! name with
      | Some t => Some (with_term w (<[name := {| tm_size := tm_size t; tm_flags := tm_flags t; tm_uid := tm_uid t; tm_gid := tm_gid t; tm_mode := mode |}]> (w_term w)))
      | None => None
      end
  | None => None
  end.

(** * cinit *)
(** What a call leads to: it went well, or it failed and the descriptors that were
    owned are dropped.  [None]: the kernel does not answer like this. *)
Inductive done A := Done (a : A) (w : world) | Failed (w : world).
Arguments Done {A}. Arguments Failed {A}.

(** The operator [?]: [owned] are the descriptors dropped on the way out. *)
Definition attempt {A B} (k : kernel) (s : step) (owned : list Z) (w : world) (call : world -> option (A * world))
    (next : A -> world -> option (done B)) : option (done B) :=
  if k_fault k s then Some (Failed (close_all owned w))
  else match call w with
       | Some (a, w') => next a w'
       | None => match s with SOpen _ => None | _ => Some (Failed (close_all owned w)) end
       end.
Definition plain {A} (f : world -> option A) (w : world) : option (unit * A) :=
  match f w with Some x => Some (tt, x) | None => None end.

Definition BRKINT : Z := 2.
Definition ICRNL : Z := 256.
Definition INPCK : Z := 16.
Definition ISTRIP : Z := 32.
Definition IXON : Z := 1024.
Definition OPOST : Z := 1.
Definition ONLCR : Z := 4.
Definition ECHO : Z := 8.
Definition ICANON : Z := 2.
Definition IEXTEN : Z := 32768.
Definition ISIG : Z := 1.
Definition S_IRUSR : Z := 256.
Definition S_IWUSR : Z := 128.
Definition S_IWGRP : Z := 16.

(** src/runtime/process.rs:398-420: the flags of cinit's own terminal with input,
    output and local flags replaced; control flags, characters and speeds stay. *)
Definition cooked (t : termios) : termios :=
  {| t_iflag := Z.lor BRKINT (Z.lor ICRNL (Z.lor INPCK (Z.lor ISTRIP IXON))); t_oflag := OPOST; t_cflag := t_cflag t;
     t_lflag := Z.lor ECHO (Z.lor ICANON (Z.lor IEXTEN ISIG)); t_rest := t_rest t |}.

(** src/runtime/process.rs:422-430 *)
Definition fallback_size : winsize := {| ws_row := 24; ws_col := 80; ws_xpixel := 0; ws_ypixel := 0 |}.

(** src/runtime/process.rs:383-450; returns (cinit's, program's) end twice.  The log
    messages are left out. *)
Definition create_ptys (k : kernel) (p : process) (w : world) : option (done numbers) :=
  let x := k_numbers k in
  let flags := option_map cooked (k_flags k) in
  let size := match k_size k with Some s => s | None => fallback_size end in
  attempt k (SOpen true) [] w (plain (openpty (k_new k) size flags (n_out x) (n_out' x) true)) (fun _ w =>
  attempt k (SOpen false) [n_out x; n_out' x] w (plain (openpty (k_new k) size flags (n_err x) (n_err' x) false)) (fun _ w =>
  let owned := [n_out x; n_out' x; n_err x; n_err' x] in
  attempt k (STtyname true) owned w (fun w => option_map (fun n => (n, w)) (ttyname (n_out' x) w)) (fun stdout_name w =>
  attempt k (STtyname false) owned w (fun w => option_map (fun n => (n, w)) (ttyname (n_err' x) w)) (fun stderr_name w =>
  attempt k (SChown true) owned w (plain (chown stdout_name (p_uid p) (p_gid p))) (fun _ w =>
  attempt k (SChown false) owned w (plain (chown stderr_name (p_uid p) (p_gid p))) (fun _ w =>
  let mode := Z.lor S_IRUSR (Z.lor S_IWUSR S_IWGRP) in
  attempt k (SChmod true) owned w (plain (fchmod (n_out' x) mode)) (fun _ w =>
  attempt k (SChmod false) owned w (plain (fchmod (n_err' x) mode)) (fun _ w =>
  Some (Done x w))))))))).

(** src/runtime/process.rs:452-456 *)
Definition create_pipes (k : kernel) (w : world) : option (done numbers) :=
  let x := k_numbers k in
  attempt k (SOpen true) [] w (plain (open_pair (n_out x) (n_out' x) true)) (fun _ w =>
  attempt k (SOpen false) [n_out x; n_out' x] w (plain (open_pair (n_err x) (n_err' x) false)) (fun _ w =>
  Some (Done x w))).

Definition cloexec (fd : Z) (w : world) : option world :=
  match set_cloexec (w_fds w) fd with Some t => Some (with_fds w t) | None => None end.

(** src/runtime/process.rs:265-283 *)
Definition std_fds (k : kernel) (p : process) (w : world) : option (done numbers) :=
  match (if p_pty p then create_ptys k p w else create_pipes k w) with
  | Some (Done x w) =>
      let owned := [n_out x; n_out' x; n_err x; n_err' x] in
      attempt k (SCloexec true) owned w (plain (cloexec (n_out x))) (fun _ w =>
      attempt k (SCloexec false) owned w (plain (cloexec (n_err x))) (fun _ w =>
      Some (Done x w)))
  | other => other
  end.

(** src/runtime/process.rs:148-187: cinit's side.  On success the result is the
    descriptor table the child starts with, the number of pairs is advanced and the
    program's ends are dropped. *)
Definition start (k : kernel) (p : process) (w : world) : option (done table) :=
  match std_fds k p w with
  | Some (Done x w) =>
      if k_fault k SFork then Some (Failed (close_all [n_out x; n_out' x; n_err x; n_err' x] w))
      else
        let after := close_all [n_out' x; n_err' x] w in
        Some (Done (w_fds w) {| w_fds := w_fds after; w_count := S (w_count after); w_term := w_term after |})
  | Some (Failed w) => Some (Failed w)
  | None => None
  end.

(** * A run of cinit, as far as descriptors and terminals are concerned *)
(** src/runtime/process_map.rs:88-92 and status_reporter.rs:43-51, as in FdModel. *)
Inductive move := MStart (k : kernel) (p : process) | MHangup (fd : Z) | MReport (fd : Z).
Definition moved (w : world) (m : move) : option world :=
  match m with
  | MStart k p => match start k p w with Some (Done _ w') | Some (Failed w') => Some w' | None => None end
  | MHangup fd =>
      match w_fds w !! fd with
      | Some {| d_file := FReader _ _ |} => Some (close fd w)
      | _ => None
      end
  | MReport fd =>
      match open (w_fds w) fd FReport false with
      | Some t => Some (close fd (close fd (with_fds w t)))
      | None => None
      end
  end.
Fixpoint moves (w : world) (l : list move) : option world :=
  match l with
  | [] => Some w
  | m :: rest => match moved w m with Some w' => moves w' rest | None => None end
  end.

(** * What a program writes to its terminal *)
(** Linux drivers/tty/n_tty.c do_output_char, for output flags among OPOST and ONLCR;
    the others (ONOCR, OCRNL, ONLRET, OLCUC, delays, tabs) are not modelled. *)
Fixpoint expand (s : string) : string :=
  match s with
  | EmptyString => EmptyString
  | String c r => if Ascii.eqb c LF then String CR (String LF (expand r)) else String c (expand r)
  end.
Definition through (t : termios) (s : string) : string :=
  if negb (Z.land (t_oflag t) OPOST =? 0) && negb (Z.land (t_oflag t) ONLCR =? 0) then expand s else s.
