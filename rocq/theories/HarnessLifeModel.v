(** Model of the rest of src/programs/harness.rs: the messages it sends, when it writes its
    file, how long it lives and how it ends.  The reading of the options by clap is in
    HarnessCliModel.v.  Signals that stop a process only delay it and are left out; so is the
    handler for stack overflows of the runtime of Rust, which catches the first SIGSEGV or SIGBUS. *)
From Coq Require Import Ascii String ZArith List Bool.
From Verif Require Import Base RStr.
Import ListNotations.
Local Open Scope string_scope.
Local Open Scope list_scope.
Local Open Scope Z_scope.

(** src/programs/harness.rs:43-90: the options, with the defaults for those not given *)
Record options := {
  o_ready : bool;
  o_status : option string;
  o_output : string;
  o_sleep : string;
  o_code : string
}.

(** What others see of it. *)
Inductive act := Sends (text : string) | Opens (file : string) | Writes (text : string) | Second.
Inductive ending := Ends (code : Z) | Killed (number : Z).

(** The rest of the system: how many of the four calls on the n-th socket succeed (socket,
    connect, send, shutdown), whether the file can be created, what is written into it
    ([HarnessModel.pieces]), whether a signalfd can be had, which signals are blocked and
    ignored, and which arrive before the n-th step. *)
Record luck := {
  l_socket : nat -> nat;
  l_create : bool;
  l_pieces : list (outcome string);
  l_signalfd : bool;
  l_blocked : Z -> bool;
  l_ignored : Z -> bool;
  l_arrives : nat -> list Z
}.

(** [str::parse::<u64>] (src/programs/harness.rs:116-120) *)
Definition U64_MAX : Z := 18446744073709551615.
Definition parse_u64 (s : string) : option Z :=
  let body := match s with String "+" r => r | _ => s end in
  if nonempty body then
    match digits body 0 with Some n => if n <=? U64_MAX then Some n else None | None => None end
  else None.

(** signal(7): signals whose default action is not to end the process *)
Definition harmless (s : Z) : bool := existsb (Z.eqb s) [17; 18; 19; 20; 21; 22; 23; 28].
(** SIGKILL and SIGSTOP can neither be blocked nor ignored; the runtime of Rust ignores
    SIGPIPE (library/std/src/sys/pal/unix/mod.rs). *)
Definition held_back (l : luck) (s : Z) : bool := l_blocked l s && negb ((s =? 9) || (s =? 19)).
Definition deadly (l : luck) (s : Z) : bool := (s =? 9) || negb (harmless s || l_ignored l s || (s =? 13)).

(** Signals arrive: one kills, or the blocked ones wait. *)
Fixpoint deliver (l : luck) (waiting : list Z) (signals : list Z) : Z + list Z :=
  match signals with
  | [] => inr waiting
  | s :: rest => if held_back l s then deliver l (waiting ++ [s]) rest else if deadly l s then inl s else deliver l waiting rest
  end.

Inductive job := JSend (calls : nat) (text : string) | JOpen | JWrite (piece : outcome string) | JPanic | JSecond | JRead.

(** src/programs/harness.rs:126-131: the loop *)
Fixpoint seconds (n : nat) : list job := match n with O => [] | S n => JSecond :: JRead :: seconds n end.
(** src/programs/harness.rs:92-131: what it is going to do before the end *)
Definition plan (o : options) (l : luck) : list job :=
  (if o_ready o then [JSend (l_socket l 0) "READY=1"] else []) ++
  match o_status o with
  | Some text => [JSend (l_socket l (if o_ready o then 1 else 0)%nat) ("STATUS=" ++ text)%string]
  | None => []
  end ++
  JOpen :: map JWrite (l_pieces l) ++
  match parse_u64 (o_sleep o) with
  | Some n => if l_signalfd l then seconds (Z.to_nat n) else [JPanic]
  | None => [JPanic]
  end.

(** A panic ends a program with 101; [exit] keeps the low eight bits. *)
Definition panic : list act * ending := ([], Ends 101).
(** src/programs/harness.rs:133-139 *)
Definition finish (o : options) (l : luck) (t : nat) (waiting : list Z) : list act * ending :=
  match deliver l waiting (l_arrives l t) with
  | inl s => ([], Killed s)
  | inr _ => ([], match parse_i32 (o_code o) with Some c => Ends (c mod 256) | None => Ends 101 end)
  end.
Definition andthen (a : act) (r : list act * ending) : list act * ending := (a :: fst r, snd r).
(** The jobs in order.  The signals that arrive in step [t] come before it; one that waits
    ends the loop (harness.rs:128-130). *)
Fixpoint run (o : options) (l : luck) (t : nat) (waiting : list Z) (jobs : list job) : list act * ending :=
  match jobs with
  | [] => finish o l t waiting
  | j :: rest =>
      match deliver l waiting (l_arrives l t) with
      | inl s => ([], Killed s)
      | inr waiting =>
          match j with
          | JSend calls text =>
              if (calls <? 3)%nat then panic
              else andthen (Sends text) (if (calls <? 4)%nat then panic else run o l (S t) waiting rest)
          | JOpen => if l_create l then andthen (Opens (o_output o)) (run o l (S t) waiting rest) else panic
          | JWrite (Ret text) => andthen (Writes text) (run o l (S t) waiting rest)
          | JWrite (Panic _) => panic
          | JPanic => panic
          | JSecond => andthen Second (run o l (S t) waiting rest)
          | JRead => if is_nil waiting then run o l (S t) waiting rest else finish o l (S t) waiting
          end
      end
  end.
(** src/programs/harness.rs:43-140 *)
Definition harness (o : options) (l : luck) : list act * ending := run o l 0 [] (plan o l).
