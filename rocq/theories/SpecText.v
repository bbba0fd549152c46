(** Specification vocabulary for encoded text: UTF-8, lines, numbers with a sign,
    notification messages. *)
From Coq Require Import String Ascii ZArith List.
From Verif Require Import SpecStr.
Import ListNotations.
Local Open Scope string_scope.
Local Open Scope Z_scope.

(** * UTF-8, as Unicode defines it: the encoding of each scalar value *)
Definition scalar (c : Z) : Prop := 0 <= c < 55296 \/ 57344 <= c < 1114112.

Definition encode (c : Z) : list Z :=
  if c <? 128 then [c]
  else if c <? 2048 then [192 + c / 64; 128 + c mod 64]
  else if c <? 65536 then [224 + c / 4096; 128 + c / 64 mod 64; 128 + c mod 64]
  else [240 + c / 262144; 128 + c / 4096 mod 64; 128 + c / 64 mod 64; 128 + c mod 64].

Definition bytes (s : string) : list Z := map (fun a => Z.of_N (N_of_ascii a)) (chars s).

(** The bytes of a string encode these characters. *)
Definition encodes (s : string) (cs : list Z) : Prop :=
  (forall c, In c cs -> scalar c) /\ bytes s = concat (map encode cs).
Definition is_text (s : string) : Prop := exists cs, encodes s cs.

(** * Lines *)
Definition line_feed : ascii := "010".
Definition carriage_return : ascii := "013".
Definition zero_byte : ascii := "000".

(** A text and its lines: each ends with LF or CR LF, the last one possibly without. *)
Inductive lines_are : string -> list string -> Prop :=
| la_nil : lines_are "" []
| la_last l : l <> "" -> free_of line_feed l -> lines_are l [l]
| la_lf l rest ls : free_of line_feed l -> (forall l', l <> l' ++ String carriage_return "") ->
    lines_are rest ls -> lines_are (l ++ String line_feed rest) (l :: ls)
| la_crlf l rest ls : free_of line_feed l ->
    lines_are rest ls -> lines_are (l ++ String carriage_return (String line_feed rest)) (l :: ls).

(** * Signed 32 bit numbers as text *)
Definition int_text (s : string) (n : Z) : Prop :=
  exists d, numeral d /\
    ((s = d \/ s = String "+" d) /\ n = value d \/ s = String "-" d /\ n = - value d) /\
    -2147483648 <= n <= 2147483647.

(** * Notification messages *)
Definition known_key (k : string) : Prop := k = "READY" \/ k = "STOPPING" \/ k = "STATUS" \/ k = "MAINPID".

(** A message sets a variable: some line says so and no later line for the same key. *)
Definition sets (text k v : string) : Prop :=
  exists l1 l2, lines_are text (l1 ++ (k ++ "=" ++ v)%string :: l2) /\ known_key k /\
    forall w, ~ In (k ++ "=" ++ w) l2.

(** A datagram cinit can read: its text ends at the first zero byte or at its end
    and fits into the buffer. *)
Definition readable (datagram text : string) : Prop :=
  datagram <> "" /\ is_text text /\ free_of zero_byte text /\ (String.length text < 4096)%nat /\
  (datagram = text \/ exists rest, datagram = text ++ String zero_byte rest).

(** Decoding with replacement, as the Unicode standard recommends: whole characters
    are kept; where none can be decoded, the longest start of one (at least one
    byte) becomes U+FFFD. *)
Definition starts_char (u : list Z) : Prop := exists c v, scalar c /\ encode c = (u ++ v)%list.
Inductive salvaged : list Z -> list Z -> Prop :=
| sv_nil : salvaged [] []
| sv_char c rest out : scalar c -> salvaged rest out -> salvaged (encode c ++ rest)%list (encode c ++ out)%list
| sv_bad u rest out : u <> [] ->
    (forall c tail, scalar c -> (u ++ rest <> encode c ++ tail)%list) ->
    starts_char u \/ length u = 1%nat ->
    (forall b tail, rest = b :: tail -> ~ starts_char (u ++ [b])%list) ->
    salvaged rest out -> salvaged (u ++ rest)%list (encode 65533 ++ out)%list.
