(** Model of writing a status report to a connection, src/runtime/process_manager/
    status_reporter.rs:33-94, call by call.  SysModel treats a report as one effect;
    here the client may read slowly, not at all, or hang up. *)
From stdpp Require Import gmap strings.
From Coq Require Import Ascii ZArith List Bool.
From Verif Require Import Base RStr CronModel ProcessModel DepModel ManagerModel.
Import ListNotations.
Local Open Scope string_scope.
Local Open Scope list_scope.
Local Open Scope Z_scope.

(** Answers of write(2) on the connection, which is blocking: that many bytes taken,
    interrupted, or an error (for one, EPIPE: Rust programs ignore SIGPIPE). *)
Inductive reply := WOk (n : nat) | WIntr | WErr.

(** How an attempt to write ends.  [Blocks]: a call of write(2) does not return. *)
Inductive ending := Finishes | Fails | Blocks | Dies (msg : string).

(** What the client was sent, the ending, and the answers not used. *)
Record sending := { w_sent : string; w_end : ending; w_left : list reply }.

(** std::io::Write::write_all, which [File] has for every fragment: repeats until all
    is taken; a call that takes nothing is an error (WriteZero). *)
Fixpoint write_all (data : string) (answers : list reply) : sending :=
  match data with
  | "" => {| w_sent := ""; w_end := Finishes; w_left := answers |}
  | _ =>
      match answers with
      | [] => {| w_sent := ""; w_end := Blocks; w_left := [] |}
      | WIntr :: rest => write_all data rest
      | WErr :: rest | WOk 0 :: rest => {| w_sent := ""; w_end := Fails; w_left := rest |}
      | WOk n :: rest =>
          let r := write_all (sdrop n data) rest in
          {| w_sent := stake n data +:+ w_sent r; w_end := w_end r; w_left := w_left r |}
      end
  end.

(** status_reporter.rs:54-92: what is written for one program, divided as in the format
    strings.  The instant is looked up before the last [write_fmt]. *)
Definition fragments_of (rfc3339 : instant -> string) (g : manager) (id : nat) (p : process) : list (outcome string) :=
  [Ret "  - name: '"; Ret (p_name p); Ret ("'" +:+ String LF "" +:+ "    state: '"); Ret (show_pstate (p_state p)); Ret ("'" +:+ String LF "")] ++
  (if nonempty (p_status p) then [Ret "    status: "; Ret (p_status p); Ret (String LF "")] else []) ++
  match p_state p with
  | Done => [Ret ("    exit_code: 0" +:+ String LF "")]
  | Crashed rc => [Ret "    exit_code: "; Ret (show_Z rc); Ret (String LF "")]
  | _ => []
  end ++
  (if is_some (g_pids g !! p_pid p) then [Ret "    pid: "; Ret (show_Z (p_pid p)); Ret (String LF "")] else []) ++
  match p_type p with
  | RCronjob =>
      match cron_next (g_cron g) id with
      | Ret t => [Ret "    scheduled_at: '"; Ret (rfc3339 t); Ret ("'" +:+ String LF "")]
      | Panic m => [Panic m]
      end
  | _ => []
  end.
Definition fragments (rfc3339 : instant -> string) (g : manager) : list (outcome string) :=
  Ret ("programs:" +:+ String LF "") :: flat_map (fun x => fragments_of rfc3339 g (fst x) (snd x)) (enumerate (g_procs g)).

(** status_reporter.rs:53-94: fragment by fragment; the first error ends it. *)
Fixpoint send (l : list (outcome string)) (answers : list reply) : sending :=
  match l with
  | [] => {| w_sent := ""; w_end := Finishes; w_left := answers |}
  | Panic m :: _ => {| w_sent := ""; w_end := Dies m; w_left := answers |}
  | Ret data :: rest =>
      let r := write_all data answers in
      match w_end r with
      | Finishes =>
          let r' := send rest (w_left r) in
          {| w_sent := w_sent r +:+ w_sent r'; w_end := w_end r'; w_left := w_left r' |}
      | _ => r
      end
  end.

(** status_reporter.rs:33-51: what the client gets and how the call ends for cinit.
    [warned]: the failure is logged.  [closes]: how often the connection is closed;
    after success explicitly and again when the [File] is dropped. *)
Record report := { r_sent : string; r_end : ending; r_warned : bool; r_closes : nat }.
Definition write_report (rfc3339 : instant -> string) (g : manager) (accepted : bool) (answers : list reply) : report :=
  if accepted then
    let r := send (fragments rfc3339 g) answers in
    {| r_sent := w_sent r; r_end := w_end r;
       r_warned := match w_end r with Fails => true | _ => false end;
       r_closes := match w_end r with Finishes => 2 | Fails | Dies _ => 1 | Blocks => 0 end |}
  else {| r_sent := ""; r_end := Fails; r_warned := true; r_closes := 0 |}.
