(** Model of src/runtime/process.rs:148-187, 265-381, 452-462: what happens between
    fork and exec, with the parts of Linux it relies on: credentials, capabilities,
    signal mask, working directory and descriptor table of one process. *)
From stdpp Require Import gmap strings.
From Coq Require Import ZArith List Bool.
From Verif Require Import Base ProcessModel.
Import ListNotations.
Local Open Scope string_scope.
Local Open Scope list_scope.
Local Open Scope Z_scope.

(** * Linux *)

(** Credentials, see capabilities(7) and credentials(7): real, effective and saved
    ids, supplementary groups, and the permitted, effective, inheritable, ambient and
    bounding capability sets.  Capabilities are numbers.  File system ids follow the
    effective ids and are left out. *)
Record cred := {
  c_ruid : Z; c_euid : Z; c_suid : Z;
  c_rgid : Z; c_egid : Z; c_sgid : Z;
  c_groups : list Z;
  c_prm : gset Z; c_eff : gset Z; c_inh : gset Z; c_amb : gset Z; c_bnd : gset Z;
  c_keep : bool
}.

(** What a descriptor refers to. *)
Inductive file :=
| FInherited (n : Z)           (* was open when cinit was started *)
| FOwn (what : string)         (* cinit's signalfd, epoll instance and sockets *)
| FReader (n : nat) (out : bool)   (* cinit's end of the n-th stream pair *)
| FWriter (n : nat) (out : bool)   (* the program's end *)
| FReport.                     (* a connection on the status socket *)
Record desc := { d_file : file; d_cloexec : bool }.
Global Instance file_eq_dec : EqDecision file.
Proof. solve_decision. Defined.
Global Instance desc_eq_dec : EqDecision desc.
Proof. solve_decision. Defined.
Notation table := (gmap Z desc).

(** What the child prints before it executes the program; the text of errors is left
    out (src/runtime/process.rs:177, 355, 459). *)
Inductive words := UnknownCapability (name : string) | CapabilityError | CouldNotExec (name : string).

(** A process: descriptors, signal mask, ignored signals, working directory,
    credentials, the program it executes with arguments and environment (none for a
    copy of cinit), and what it has written where. *)
Record child := {
  ch_fds : table; ch_mask : list Z; ch_ignored : gset Z; ch_dir : string; ch_cred : cred;
  ch_image : option (string * list string * list string);
  ch_said : list (file * words)
}.

(** The rest of the system: the last capability the kernel knows, the ids that exist
    in the user namespace, whether it permits setgroups, directories that can be
    entered, files that can be executed, and the securebits. *)
Record host := {
  h_last : Z;
  h_uid : Z -> bool;
  h_gid : Z -> bool;
  h_setgroups : bool;
  h_dir : string -> bool;
  h_exec : string -> bool;
  h_noroot : bool;
  h_no_fixup : bool;
  h_keep_locked : bool;
  h_no_raise : bool
}.

Inductive which := Effective | Inheritable.

(** The system calls of the child. *)
Inductive call :=
| CDup2 (old new : Z)
| CClose (fd : Z)
| CSetMask (signals : list Z)
| CChdir (dir : string)
| CCapset (w : which) (value : gset Z)
| CKeepCaps (b : bool)
| CSetgid (gid : Z)
| CSetgroups (groups : list Z)
| CSetuid (uid : Z)
| CAmbientClear
| CAmbientRaise (cap : Z)
| CAmbientLower (cap : Z)
| CExec (path : string) (args env : list string)
| CPrint (w : words).

Definition CAP_SETGID : Z := 6.
Definition CAP_SETUID : Z := 7.
Definition CAP_SETPCAP : Z := 8.
Definition CAP_SETFCAP : Z := 31.

Definition has (s : gset Z) (x : Z) : bool := bool_decide (x ∈ s).
Definition within (s t : gset Z) : bool := bool_decide (s ⊆ t).

Definition with_sets (c : cred) (p e i a : gset Z) : cred :=
  {| c_ruid := c_ruid c; c_euid := c_euid c; c_suid := c_suid c; c_rgid := c_rgid c; c_egid := c_egid c; c_sgid := c_sgid c;
     c_groups := c_groups c; c_prm := p; c_eff := e; c_inh := i; c_amb := a; c_bnd := c_bnd c; c_keep := c_keep c |}.
Definition with_keep (c : cred) (b : bool) : cred :=
  {| c_ruid := c_ruid c; c_euid := c_euid c; c_suid := c_suid c; c_rgid := c_rgid c; c_egid := c_egid c; c_sgid := c_sgid c;
     c_groups := c_groups c; c_prm := c_prm c; c_eff := c_eff c; c_inh := c_inh c; c_amb := c_amb c; c_bnd := c_bnd c; c_keep := b |}.
Definition with_gids (c : cred) (r e s : Z) : cred :=
  {| c_ruid := c_ruid c; c_euid := c_euid c; c_suid := c_suid c; c_rgid := r; c_egid := e; c_sgid := s;
     c_groups := c_groups c; c_prm := c_prm c; c_eff := c_eff c; c_inh := c_inh c; c_amb := c_amb c; c_bnd := c_bnd c; c_keep := c_keep c |}.
Definition with_groups (c : cred) (l : list Z) : cred :=
  {| c_ruid := c_ruid c; c_euid := c_euid c; c_suid := c_suid c; c_rgid := c_rgid c; c_egid := c_egid c; c_sgid := c_sgid c;
     c_groups := l; c_prm := c_prm c; c_eff := c_eff c; c_inh := c_inh c; c_amb := c_amb c; c_bnd := c_bnd c; c_keep := c_keep c |}.
Definition with_uids (c : cred) (r e s : Z) : cred :=
  {| c_ruid := r; c_euid := e; c_suid := s; c_rgid := c_rgid c; c_egid := c_egid c; c_sgid := c_sgid c;
     c_groups := c_groups c; c_prm := c_prm c; c_eff := c_eff c; c_inh := c_inh c; c_amb := c_amb c; c_bnd := c_bnd c; c_keep := c_keep c |}.

(** capset(2), Linux security/commoncap.c cap_capset: bits above the last capability
    are ignored; the ambient set is cut down to permitted and inheritable. *)
Definition capset (h : host) (w : which) (value : gset Z) (c : cred) : option cred :=
  let v := base.filter (fun x => x <= h_last h) value in
  let e := match w with Effective => v | Inheritable => c_eff c end in
  let i := match w with Effective => c_inh c | Inheritable => v end in
  if negb (has (c_eff c) CAP_SETPCAP) && negb (within i (c_inh c ∪ c_prm c)) then None
  else if negb (within i (c_inh c ∪ c_bnd c)) then None
  else if negb (within e (c_prm c)) then None
  else Some (with_sets c (c_prm c) e i (c_amb c ∩ (c_prm c ∩ i))).

(** setgid(2) *)
Definition setgid (h : host) (gid : Z) (c : cred) : option cred :=
  if negb (h_gid h gid) then None
  else if has (c_eff c) CAP_SETGID then Some (with_gids c gid gid gid)
  else if (gid =? c_rgid c) || (gid =? c_sgid c) then Some (with_gids c (c_rgid c) gid (c_sgid c))
  else None.

(** setgroups(2) *)
Definition setgroups (h : host) (l : list Z) (c : cred) : option cred :=
  if has (c_eff c) CAP_SETGID && h_setgroups h && forallb (h_gid h) l then Some (with_groups c l) else None.

(** security/commoncap.c cap_emulate_setxuid: what a change of user ids does to the
    capabilities. *)
Definition fixup (h : host) (old new : cred) : cred :=
  if h_no_fixup h then new
  else
    let had_root := (c_ruid old =? 0) || (c_euid old =? 0) || (c_suid old =? 0) in
    let has_root := (c_ruid new =? 0) || (c_euid new =? 0) || (c_suid new =? 0) in
    let new := if had_root && negb has_root
               then with_sets new (if c_keep old then c_prm new else ∅) (if c_keep old then c_eff new else ∅) (c_inh new) ∅
               else new in
    if (c_euid old =? 0) && negb (c_euid new =? 0) then with_sets new (c_prm new) ∅ (c_inh new) (c_amb new)
    else if negb (c_euid old =? 0) && (c_euid new =? 0) then with_sets new (c_prm new) (c_prm new) (c_inh new) (c_amb new)
    else new.

(** setuid(2) *)
Definition setuid (h : host) (uid : Z) (c : cred) : option cred :=
  if negb (h_uid h uid) then None
  else if has (c_eff c) CAP_SETUID then Some (fixup h c (with_uids c uid uid uid))
  else if (uid =? c_ruid c) || (uid =? c_suid c) then Some (fixup h c (with_uids c (c_ruid c) uid (c_suid c)))
  else None.

(** prctl(2), PR_SET_KEEPCAPS and PR_CAP_AMBIENT *)
Definition keepcaps (h : host) (b : bool) (c : cred) : option cred :=
  if h_keep_locked h then None else Some (with_keep c b).
Definition ambient_raise (h : host) (x : Z) (c : cred) : option cred :=
  if (0 <=? x) && (x <=? h_last h) && has (c_prm c) x && has (c_inh c) x && negb (h_no_raise h)
  then Some (with_sets c (c_prm c) (c_eff c) (c_inh c) (c_amb c ∪ {[x]})) else None.
Definition ambient_lower (h : host) (x : Z) (c : cred) : option cred :=
  if (0 <=? x) && (x <=? h_last h)
  then Some (with_sets c (c_prm c) (c_eff c) (c_inh c) (c_amb c ∖ {[x]})) else None.

(** execve(2), security/commoncap.c cap_bprm_creds_from_file, for a file without
    capabilities and without set-user-ID and set-group-ID bits. *)
Definition exec_cred (h : host) (c : cred) : cred :=
  let root := negb (h_noroot h) && ((c_euid c =? 0) || (c_ruid c =? 0)) in
  let effective := negb (h_noroot h) && (c_euid c =? 0) in
  let p := (if root then c_bnd c ∪ c_inh c else ∅) ∪ c_amb c in
  with_keep (with_sets c p (if effective then p else c_amb c) (c_inh c) (c_amb c)) false.

Definition set_fds (c : child) (v : table) : child :=
  {| ch_fds := v; ch_mask := ch_mask c; ch_ignored := ch_ignored c; ch_dir := ch_dir c; ch_cred := ch_cred c; ch_image := ch_image c; ch_said := ch_said c |}.
Definition set_mask (c : child) (v : list Z) : child :=
  {| ch_fds := ch_fds c; ch_mask := v; ch_ignored := ch_ignored c; ch_dir := ch_dir c; ch_cred := ch_cred c; ch_image := ch_image c; ch_said := ch_said c |}.
Definition set_dir (c : child) (v : string) : child :=
  {| ch_fds := ch_fds c; ch_mask := ch_mask c; ch_ignored := ch_ignored c; ch_dir := v; ch_cred := ch_cred c; ch_image := ch_image c; ch_said := ch_said c |}.
Definition set_cred (c : child) (v : cred) : child :=
  {| ch_fds := ch_fds c; ch_mask := ch_mask c; ch_ignored := ch_ignored c; ch_dir := ch_dir c; ch_cred := v; ch_image := ch_image c; ch_said := ch_said c |}.
Definition set_image (c : child) (v : option (string * list string * list string)) : child :=
  {| ch_fds := ch_fds c; ch_mask := ch_mask c; ch_ignored := ch_ignored c; ch_dir := ch_dir c; ch_cred := ch_cred c; ch_image := v; ch_said := ch_said c |}.
Definition set_said (c : child) (v : list (file * words)) : child :=
  {| ch_fds := ch_fds c; ch_mask := ch_mask c; ch_ignored := ch_ignored c; ch_dir := ch_dir c; ch_cred := ch_cred c; ch_image := ch_image c; ch_said := v |}.

(** dup2(2) clears the close-on-exec flag of the new descriptor, and does nothing if
    both are the same. *)
Definition dup2 (old new : Z) (t : table) : option table :=
  match t !! old with
  | None => None
  | Some x => if old =? new then Some t else Some (<[new := {| d_file := d_file x; d_cloexec := false |}]> t)
  end.

(** execve(2) closes the descriptors with the close-on-exec flag. *)
Definition exec_fds (t : table) : table := base.filter (fun x : Z * desc => d_cloexec (snd x) = false) t.

Definition on_cred (c : child) (r : option cred) : option child :=
  match r with Some x => Some (set_cred c x) | None => None end.

(** [println!] flushes at the end of the line; a closed descriptor 1 is not an error
    in Rust's standard library. *)
Definition print (w : words) (c : child) : child :=
  match ch_fds c !! 1 with
  | Some x => set_said c (ch_said c ++ [(d_file x, w)])
  | None => c
  end.

(** One call, when nothing goes wrong for reasons outside of this model. *)
Definition do_call (h : host) (x : call) (c : child) : option child :=
  match x with
  | CDup2 old new => match dup2 old new (ch_fds c) with Some t => Some (set_fds c t) | None => None end
  | CClose fd => Some (set_fds c (delete fd (ch_fds c)))
  | CSetMask m => Some (set_mask c m)
  | CChdir d => if h_dir h d then Some (set_dir c d) else None
  | CCapset w v => on_cred c (capset h w v (ch_cred c))
  | CKeepCaps b => on_cred c (keepcaps h b (ch_cred c))
  | CSetgid g => on_cred c (setgid h g (ch_cred c))
  | CSetgroups l => on_cred c (setgroups h l (ch_cred c))
  | CSetuid u => on_cred c (setuid h u (ch_cred c))
  | CAmbientClear => Some (set_cred c (with_sets (ch_cred c) (c_prm (ch_cred c)) (c_eff (ch_cred c)) (c_inh (ch_cred c)) ∅))
  | CAmbientRaise cap => on_cred c (ambient_raise h cap (ch_cred c))
  | CAmbientLower cap => on_cred c (ambient_lower h cap (ch_cred c))
  | CExec path args env =>
      if h_exec h path
      then Some (set_image (set_cred (set_fds c (exec_fds (ch_fds c))) (exec_cred h (ch_cred c))) (Some (path, args, env)))
      else None
  | CPrint w => Some (print w c)
  end.

(** * cinit *)

(** The capability names of the crate caps 0.5.5, in the order of their numbers. *)
Definition cap_names : list string :=
  ["CAP_CHOWN"; "CAP_DAC_OVERRIDE"; "CAP_DAC_READ_SEARCH"; "CAP_FOWNER"; "CAP_FSETID"; "CAP_KILL"; "CAP_SETGID"; "CAP_SETUID";
   "CAP_SETPCAP"; "CAP_LINUX_IMMUTABLE"; "CAP_NET_BIND_SERVICE"; "CAP_NET_BROADCAST"; "CAP_NET_ADMIN"; "CAP_NET_RAW"; "CAP_IPC_LOCK";
   "CAP_IPC_OWNER"; "CAP_SYS_MODULE"; "CAP_SYS_RAWIO"; "CAP_SYS_CHROOT"; "CAP_SYS_PTRACE"; "CAP_SYS_PACCT"; "CAP_SYS_ADMIN"; "CAP_SYS_BOOT";
   "CAP_SYS_NICE"; "CAP_SYS_RESOURCE"; "CAP_SYS_TIME"; "CAP_SYS_TTY_CONFIG"; "CAP_MKNOD"; "CAP_LEASE"; "CAP_AUDIT_WRITE"; "CAP_AUDIT_CONTROL";
   "CAP_SETFCAP"; "CAP_MAC_OVERRIDE"; "CAP_MAC_ADMIN"; "CAP_SYSLOG"; "CAP_WAKE_ALARM"; "CAP_BLOCK_SUSPEND"; "CAP_AUDIT_READ"; "CAP_PERFMON";
   "CAP_BPF"; "CAP_CHECKPOINT_RESTORE"].

Fixpoint index_of (x : string) (l : list string) (n : Z) : option Z :=
  match l with
  | [] => None
  | y :: rest => if String.eqb x y then Some n else index_of x rest (n + 1)
  end.

(** [Capability::from_str] *)
Definition cap_from_str (name : string) : option Z := index_of name cap_names 0.

(** [caps::all] *)
Definition all_caps : list Z := map Z.of_nat (seq 0 (length cap_names)).

(** src/runtime/process.rs:346-358: names that do not parse are only printed. *)
Definition actual_caps (p : process) : gset Z :=
  list_to_set (flat_map (fun name => match cap_from_str name with Some x => [x] | None => [] end) (p_caps p)).

(** src/runtime/process.rs:360-364 *)
Definition temporary_caps (p : process) : gset Z :=
  actual_caps p ∪ {[CAP_SETUID]} ∪ {[CAP_SETGID]} ∪ {[CAP_SETPCAP]} ∪ {[CAP_SETFCAP]}.

(** The crate's [ambient::set]: raise or lower each capability. *)
Definition ambient_set (s : gset Z) : list call :=
  map (fun x => if has s x then CAmbientRaise x else CAmbientLower x) all_caps.

Definition complaints (p : process) : list call :=
  flat_map (fun name => match cap_from_str name with Some _ => [] | None => [CPrint (UnknownCapability name)] end) (p_caps p).

(** src/runtime/process.rs:345-381.  The crate's [set] for the other sets reads all
    three sets with capget and writes them back with one of them replaced. *)
Definition set_user_and_caps (p : process) : list call :=
  let actual := actual_caps p in
  let temporary := temporary_caps p in
  complaints p ++
  [CCapset Inheritable temporary; CCapset Effective temporary; CKeepCaps true;
   CSetgid (p_gid p); CSetgroups [p_gid p]; CSetuid (p_uid p); CKeepCaps false;
   CCapset Inheritable temporary; CCapset Effective temporary; CAmbientClear] ++
  ambient_set actual ++
  [CCapset Inheritable actual; CCapset Effective actual].

(** src/runtime/process.rs:293-326 *)
Definition setup_child (p : process) (stdout stderr : Z) : list call :=
  [CDup2 stdout 1; CDup2 stderr 2; CSetMask []; CClose stdout; CClose stderr; CChdir (p_workdir p)] ++
  set_user_and_caps p ++
  [CExec (p_path p) (p_args p) (p_env p)].

(** What becomes of the child: it executes the program, it ends with an exit code, or
    it is stuck in one of the loops around dup2. *)
Inductive fate := Runs (c : child) | Exits (code : Z) (c : child) | Stuck.

(** src/runtime/process.rs:50 *)
Definition EXIT_CODE : Z := 4.

(** src/runtime/process.rs:458-462: errors of the capability calls are printed. *)
Definition is_cap_call (x : call) : bool :=
  match x with CCapset _ _ | CAmbientClear | CAmbientRaise _ | CAmbientLower _ => true | _ => false end.

(** A step of [setup_child] has failed: leaving it drops [new_stdout] and
    [new_stderr], which closes the descriptors 1 and 2
    (src/runtime/process.rs:294-295); then the caller prints and exits (176-180). *)
Definition give_up (name : string) (x : call) (c : child) : fate :=
  let c := if is_cap_call x then print CapabilityError c else c in
  let c := set_fds c (delete 2 (delete 1 (ch_fds c))) in
  Exits EXIT_CODE (print (CouldNotExec name) c).

(** Calls are made one after the other until one fails (the [?] operator).  [fault n]
    tells that the n-th call fails for a reason outside of this model; errors of dup2
    are retried and errors of close ignored (src/runtime/process.rs:296-303); printing
    to a pipe that cinit holds open does not fail. *)
Fixpoint perform (h : host) (fault : nat -> bool) (name : string) (n : nat) (calls : list call) (c : child) : fate :=
  match calls with
  | [] => Runs c
  | x :: rest =>
      match x with
      | CDup2 _ _ | CClose _ | CPrint _ =>
          match do_call h x c with Some c' => perform h fault name (S n) rest c' | None => Stuck end
      | _ =>
          if fault n then give_up name x c
          else match do_call h x c with Some c' => perform h fault name (S n) rest c' | None => give_up name x c end
      end
  end.

(** src/runtime/process.rs:172-181 *)
Definition child_side (h : host) (fault : nat -> bool) (p : process) (stdout stderr : Z) (c : child) : fate :=
  perform h fault (p_name p) 0 (setup_child p stdout stderr) c.

(** Rust's runtime ignores SIGPIPE before [main] (library/std/src/sys/pal/unix); cinit
    leaves all dispositions alone.  [inherited] are the signals that were ignored when
    cinit was started; a child starts as a copy of cinit. *)
Definition SIGPIPE : Z := 13.
Definition fresh_child (t : table) (mask : list Z) (inherited : gset Z) (dir : string) (k : cred) : child :=
  {| ch_fds := t; ch_mask := mask; ch_ignored := inherited ∪ {[SIGPIPE]}; ch_dir := dir; ch_cred := k; ch_image := None; ch_said := [] |}.
