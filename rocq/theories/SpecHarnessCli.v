(** What a command line of the harness says. *)
From Coq Require Import String Ascii ZArith List.
From Verif Require Import RStr SpecCli HarnessLifeModel HarnessCliModel.
Import ListNotations.
Local Open Scope string_scope.
Local Open Scope list_scope.

Inductive item := Ready | Give (o : opt) (v : string).
Definition long (o : opt) : string :=
  match o with Code => "return-code" | Sleep => "sleep" | Output => "output" | Status => "status" end.
Definition letter (o : opt) : ascii := match o with Code => "r" | Sleep => "s" | Output => "o" | Status => "S" end.

(** [n] times the letter n. *)
Fixpoint ns (n : nat) : string := match n with O => "" | S n => String "n" (ns n) end.

(** Arguments that say [items]. *)
Inductive says : list string -> list item -> Prop :=
| SNil : says [] []
| SReady rest l : says rest l -> says ("--ready" :: rest) (Ready :: l)
| SLong o v rest l : plain v -> says rest l -> says (("--" ++ long o)%string :: v :: rest) (Give o v :: l)
| SLongIs o v rest l : says rest l -> says (("--" ++ long o ++ "=" ++ v)%string :: rest) (Give o v :: l)
| SShort n rest l : says rest l -> says (("-" ++ ns (S n))%string :: rest) (repeat Ready (S n) ++ l)
| SShortOpt n o v rest l : plain v -> says rest l -> says (("-" ++ ns n ++ String (letter o) "")%string :: v :: rest) (repeat Ready n ++ Give o v :: l)
| SShortIs n o v rest l : says rest l -> says (("-" ++ ns n ++ String (letter o) ("=" ++ v))%string :: rest) (repeat Ready n ++ Give o v :: l)
| SShortWith n o v rest l : v <> "" -> (forall w, v <> ("=" ++ w)%string) -> says rest l ->
    says (("-" ++ ns n ++ String (letter o) v)%string :: rest) (repeat Ready n ++ Give o v :: l).

Definition eq_opt (a b : opt) : {a = b} + {a <> b}.
Proof. decide equality. Defined.
Fixpoint values (o : opt) (l : list item) : list string :=
  match l with
  | [] => []
  | Ready :: r => values o r
  | Give p v :: r => if eq_opt p o then v :: values o r else values o r
  end.
Fixpoint readies (l : list item) : nat := match l with [] => 0 | Ready :: r => S (readies r) | Give _ _ :: r => readies r end.

(** Nothing is said twice, and the values are UTF-8. *)
Definition valid (l : list item) : Prop :=
  readies l <= 1 /\ forall o, values o l = [] \/ exists v, values o l = [v] /\ utf8_valid v = true.

(** The other arguments: from the first on that is no option, or after two dashes. *)
Definition others_of (tail others : list string) : Prop :=
  (tail = [] /\ others = []) \/ tail = "--" :: others \/ exists w r, tail = w :: r /\ plain w /\ others = tail.

(** The command line asks for [l] and has the other arguments [others]. *)
Definition asks (args : list string) (l : list item) (others : list string) : Prop :=
  exists front tail, args = front ++ tail /\ says front l /\ valid l /\ others_of tail others /\ Forall (fun a => utf8_valid a = true) others.

(** What was given for an option, or else what is taken instead. *)
Definition chosen (l : list item) (o : opt) (instead v : string) : Prop := (values o l = [] /\ v = instead) \/ values o l = [v].
(** The options are those of the command line, but for [o_ready]. *)
Definition means (l : list item) (o : options) : Prop :=
  chosen l Code "0" (o_code o) /\ chosen l Sleep "0" (o_sleep o) /\ chosen l Output "test-output/harness.txt" (o_output o) /\
  ((values Status l = [] /\ o_status o = None) \/ exists v, values Status l = [v] /\ o_status o = Some v).

(** The command line asks for help before anything is wrong with it. *)
Definition asks_for_help (args : list string) : Prop :=
  exists a x rest l, args = a ++ x :: rest /\ says a l /\
  ((x = "--help" /\ valid l) \/ exists n more, x = ("-" ++ ns n ++ "h" ++ more)%string /\ valid (l ++ repeat Ready n)).
