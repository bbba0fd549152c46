(** The life of the harness, as others see it. *)
From Coq Require Import Ascii String ZArith List Bool.
From Verif Require Import Base SpecStr SpecText HarnessLifeModel.
Import ListNotations.
Local Open Scope string_scope.
Local Open Scope list_scope.
Local Open Scope Z_scope.

(** Unsigned 64 bit numbers as text. *)
Definition u64_text (s : string) (n : Z) : Prop :=
  exists d, numeral d /\ (s = d \/ s = String "+" d) /\ n = value d /\ n <= 18446744073709551615.

(** The messages the options ask for. *)
Definition messages (o : options) : list string :=
  (if o_ready o then ["READY=1"] else []) ++ match o_status o with Some t => [("STATUS=" ++ t)%string] | None => [] end.

(** All messages have been sent and the whole file has been written; then [k] seconds have passed. *)
Definition whole (o : options) (l : luck) (k : nat) (acts : list act) : Prop :=
  exists written, l_pieces l = map Ret written /\
  acts = map Sends (messages o) ++ Opens (o_output o) :: map Writes written ++ repeat Second k.

(** How far it may have come: some of the messages; or all of them and a part of the file;
    or the whole file and some seconds.  A message is sent by the third call on its socket. *)
Inductive course (o : options) (l : luck) : list act -> Prop :=
| c_sending sent rest : messages o = sent ++ rest -> (forall i, (i < length sent)%nat -> (3 <= l_socket l i)%nat) -> course o l (map Sends sent)
| c_writing written rest : (forall i, (i < length (messages o))%nat -> (4 <= l_socket l i)%nat) -> l_create l = true -> l_pieces l = map Ret written ++ rest ->
    course o l (map Sends (messages o) ++ Opens (o_output o) :: map Writes written)
| c_waiting acts n k : (forall i, (i < length (messages o))%nat -> (4 <= l_socket l i)%nat) -> l_create l = true -> l_signalfd l = true ->
    u64_text (o_sleep o) n -> Z.of_nat k <= n -> whole o l k acts -> course o l acts.

(** Something it cannot go on without is missing. *)
Definition fault (o : options) (l : luck) : Prop :=
  (exists i, (i < length (messages o))%nat /\ (l_socket l i < 4)%nat) \/ l_create l = false \/ (exists why, In (Panic why) (l_pieces l)) \/
  (forall n, ~ u64_text (o_sleep o) n) \/ l_signalfd l = false.

(** The code it ends with if nothing prevents that. *)
Definition own_code (o : options) (c : Z) : Prop :=
  (exists x, int_text (o_code o) x /\ c = x mod 256) \/ (forall x, ~ int_text (o_code o) x) /\ c = 101.

(** Signals that end it and signals that wait. *)
Definition waits (l : luck) (s : Z) : Prop := l_blocked l s = true /\ s <> 9 /\ s <> 19.
Definition kills (l : luck) (s : Z) : Prop :=
  ~ waits l s /\ (s = 9 \/ ~ In s [17; 18; 19; 20; 21; 22; 23; 28] /\ s <> 13 /\ l_ignored l s = false).
