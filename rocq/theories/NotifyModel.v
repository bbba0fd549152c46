(** Model of the text side of src/runtime/process_manager/notify_manager.rs. *)
From Coq Require Import Ascii String ZArith List Bool.
From Verif Require Import Base RStr.
Import ListNotations.
Local Open Scope string_scope.

(** Everything before the first NUL byte: what [CStr::from_ptr] sees. *)
Fixpoint until_nul (s : string) : string :=
  match s with
  | EmptyString => ""
  | String a r => if Ascii.eqb a NUL then "" else String a (until_nul r)
  end.

(** The receive buffer, src/runtime/process_manager/notify_manager.rs:64. *)
Definition BUFFER : nat := 4096.

(** src/runtime/process_manager/notify_manager.rs:73-74 with
    src/util/libc_helpers.rs:90-92: a datagram, cut to the buffer, as text.
    [None] is undefined behaviour: the buffer holds no NUL byte at all, so
    [CStr::from_ptr] reads past its end.  An empty datagram has no filled slice,
    so nix's iterator is empty and [unwrap] panics.  The zeroed remainder of the
    buffer provides the terminating NUL byte otherwise. *)
Definition read_text (datagram : string) : option (outcome string) :=
  let received := stake BUFFER datagram in
  if String.eqb received "" then Some (Panic "called `Option::unwrap()` on a `None` value")
  else if (BUFFER <=? String.length datagram)%nat && negb (has_nul received) then None
  else if utf8_valid (until_nul received) then Some (Ret (until_nul received))
  else Some (Panic "Could not rescue cstring").

(** The allowed keys, src/runtime/process_manager/notify_manager.rs:143-147. *)
Definition allowed_keys : list string := ["READY"; "STOPPING"; "STATUS"; "MAINPID"].

(** [HashMap::insert] on an association list with distinct keys. *)
Definition var_insert (k v : string) (m : list (string * string)) : list (string * string) :=
  (k, v) :: filter (fun e => negb (String.eqb (fst e) k)) m.

(** src/runtime/process_manager/notify_manager.rs:150-160: one line *)
Definition parse_line (m : list (string * string)) (line : string) : list (string * string) :=
  match splitn2 "="%char line with
  | (key, Some value) => if existsb (String.eqb key) allowed_keys then var_insert key value m else m
  | (_, None) => m
  end.

(** src/runtime/process_manager/notify_manager.rs:141-163.  The result stands for
    the map; its order carries no meaning, see [e_order] of the system model for
    the order in which the code iterates. *)
Definition parse (state : string) : list (string * string) :=
  fold_left parse_line (lines state) [].
