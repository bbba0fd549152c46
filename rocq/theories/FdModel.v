(** Model of the descriptors cinit opens and closes, and of those a program inherits:
    src/analyse/process_manager_builder.rs:86-171, src/runtime/process.rs:148-187,
    265-283 and 452-456, src/runtime/process_map.rs:88-92,
    src/runtime/process_manager/status_reporter.rs:43-51. *)
From stdpp Require Import gmap strings.
From Coq Require Import ZArith List Bool.
From Verif Require Import Base ProcessModel ChildModel.
Import ListNotations.
Local Open Scope string_scope.
Local Open Scope list_scope.
Local Open Scope Z_scope.

(** The kernel hands out a number that is not in use. *)
Definition open (t : table) (fd : Z) (f : file) (cloexec : bool) : option table :=
  match t !! fd with
  | None => Some (<[fd := {| d_file := f; d_cloexec := cloexec |}]> t)
  | Some _ => None
  end.
Definition set_cloexec (t : table) (fd : Z) : option table :=
  match t !! fd with
  | Some x => Some (<[fd := {| d_file := d_file x; d_cloexec := true |}]> t)
  | None => None
  end.

Definition opt_bind {A B} (x : option A) (f : A -> option B) : option B := match x with Some a => f a | None => None end.

(** src/analyse/process_manager_builder.rs:101-132 and 143-149: the descriptors cinit
    opens for itself, all with the close-on-exec flag. *)
Definition own_fds (t : table) (signal status notify epoll : Z) : option table :=
  opt_bind (open t signal (FOwn "signalfd") true) (fun t =>
  opt_bind (open t status (FOwn "status socket") true) (fun t =>
  opt_bind (open t notify (FOwn "notify socket") true) (fun t =>
  open t epoll (FOwn "epoll") true))).

(** The numbers of a stream pair for stdout and one for stderr. *)
Record numbers := { n_out : Z; n_out' : Z; n_err : Z; n_err' : Z }.

(** src/runtime/process.rs:265-283, 383-456: two pairs (pipes, or terminals with
    master and slave) are opened without the flag, then it is set on cinit's ends. *)
Definition create_std_fds (t : table) (n : nat) (x : numbers) : option table :=
  opt_bind (open t (n_out x) (FReader n true) false) (fun t =>
  opt_bind (open t (n_out' x) (FWriter n true) false) (fun t =>
  opt_bind (open t (n_err x) (FReader n false) false) (fun t =>
  opt_bind (open t (n_err' x) (FWriter n false) false) (fun t =>
  opt_bind (set_cloexec t (n_out x)) (fun t =>
  set_cloexec t (n_err x)))))).

(** What cinit does that concerns descriptors. *)
Inductive action :=
| AStart (x : numbers)           (* a program is forked *)
| AStartFail                     (* opening the streams or fork failed: all ends are dropped *)
| AHangup (fd : Z)               (* a stream of a program has ended *)
| AReport (fd : Z).              (* a status report *)

(** The table and the number of stream pairs opened so far. *)
Record fdstate := { f_table : table; f_count : nat }.

(** src/runtime/process.rs:148-187 (the parent drops the programs' ends),
    process_map.rs:88-92 (removing the descriptor from the map closes it),
    status_reporter.rs:43-51 (the connection is closed explicitly and again when the
    [File] is dropped; the second close finds no such descriptor). *)
Definition act (s : fdstate) (a : action) : option fdstate :=
  match a with
  | AStart x =>
      match create_std_fds (f_table s) (f_count s) x with
      | Some t => Some {| f_table := delete (n_err' x) (delete (n_out' x) t); f_count := S (f_count s) |}
      | None => None
      end
  | AStartFail => Some s
  | AHangup fd =>
      match f_table s !! fd with
      | Some {| d_file := FReader _ _ |} => Some {| f_table := delete fd (f_table s); f_count := f_count s |}
      | _ => None
      end
  | AReport fd =>
      match open (f_table s) fd FReport false with
      | Some t => Some {| f_table := delete fd (delete fd t); f_count := f_count s |}
      | None => None
      end
  end.

Fixpoint acts (s : fdstate) (l : list action) : option fdstate :=
  match l with
  | [] => Some s
  | a :: rest => match act s a with Some s' => acts s' rest | None => None end
  end.

(** The table of a child right after fork. *)
Definition forked (s : fdstate) (x : numbers) : option table := create_std_fds (f_table s) (f_count s) x.
