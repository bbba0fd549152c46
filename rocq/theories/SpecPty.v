(** Vocabulary for the streams programs are started with. *)
From stdpp Require Import gmap strings.
From Coq Require Import Ascii ZArith List Bool.
From Verif Require Import Base ProcessModel ChildModel FdModel PtyModel SpecStr SpecText.
Import ListNotations.
Local Open Scope string_scope.
Local Open Scope list_scope.
Local Open Scope Z_scope.

(** The running cinit: it opened its own descriptors and then did what it does. *)
Definition pty_reachable (t0 : table) (w : world) : Prop :=
  exists signal status notify epoll t1 l, own_fds t0 signal status notify epoll = Some t1 /\
    moves {| w_fds := t1; w_count := 0; w_term := ∅ |} l = Some w.

(** The size of a program's terminal. *)
Definition expected_size (k : kernel) (z : winsize) : Prop :=
  match k_size k with
  | Some own => z = own
  | None => ws_row z = 24 /\ ws_col z = 80 /\ ws_xpixel z = 0 /\ ws_ypixel z = 0
  end.

(** The flags of a program's terminal: if cinit has one, break, parity, strip, CR
    mapping and flow control on input, output processing without any mapping, echo,
    line editing, extended functions and signals; everything else is taken over.
    Numbers are those of Linux, asm-generic/termbits.h. *)
Definition expected_flags (k : kernel) (t : termios) : Prop :=
  match k_flags k with
  | Some own => t_iflag t = 2 + 16 + 32 + 256 + 1024 /\ t_oflag t = 1 /\ t_lflag t = 1 + 2 + 8 + 32768 /\
      t_cflag t = t_cflag own /\ t_rest t = t_rest own
  | None => t = tm_flags (k_new k)
  end.

(** Calls needed to start a program. *)
Definition needs (p : process) (s : step) : Prop :=
  match s with STtyname _ | SChown _ | SChmod _ => p_pty p = true | _ => True end.

(** What is logged for the pieces in which a stream was read. *)
Inductive entries : list string -> list string -> Prop :=
| en_nil : entries [] []
| en_chunk c text ls cs rest : salvaged (bytes c) (bytes text) -> lines_are text ls -> entries cs rest ->
    entries (c :: cs) (List.filter (fun l => negb (String.eqb l "")) ls ++ rest).

(** Entries without a carriage return at the end, leaving out those that are empty. *)
Inductive trimmed : list string -> list string -> Prop :=
| tr_nil : trimmed [] []
| tr_blank ls ls' : trimmed ls ls' -> trimmed (String carriage_return "" :: ls) ls'
| tr_cr l ls ls' : l <> "" -> free_of carriage_return l -> trimmed ls ls' -> trimmed ((l +:+ String carriage_return "") :: ls) (l :: ls')
| tr_plain l ls ls' : l <> "" -> free_of carriage_return l -> trimmed ls ls' -> trimmed (l :: ls) (l :: ls').

(** Adding up pieces. *)
Definition joined (l : list string) : string := fold_right String.append "" l.

(** Numbers the kernel may hand out. *)
Definition unused (w : world) (x : numbers) : Prop :=
  List.NoDup [n_out x; n_out' x; n_err x; n_err' x] /\ forall fd, In fd [n_out x; n_out' x; n_err x; n_err' x] -> w_fds w !! fd = None.
