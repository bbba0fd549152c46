(** What is wrong with a cron expression: the first fault from left to right. *)
From Coq Require Import String Ascii ZArith List.
From Verif Require Import SpecStr SpecCron.
Import ListNotations.
Local Open Scope string_scope.
Local Open Scope Z_scope.

(** The text of a 32 bit number, perhaps with a plus sign. *)
Definition u32_text (t : string) (n : Z) : Prop := exists m, t = num_text m /\ num_wf m /\ num_val m = n /\ n <= 4294967295.
Definition no_number (t : string) : Prop := forall n, ~ u32_text t n.

(** The part before the first separator, and the part between the first and the second. *)
Inductive cut (c : ascii) : string -> string -> option string -> Prop :=
| cut_one a : free_of c a -> cut c a a None
| cut_two a b : free_of c a -> free_of c b -> cut c (a ++ String c b) a (Some b)
| cut_more a b junk : free_of c a -> free_of c b -> cut c (a ++ String c (b ++ String c junk)) a (Some b).

Inductive fate := Refused (why : string) | Crashes.

Definition stepped (st : option string) : Prop := match st with None => True | Some s => exists n, u32_text s n end.
(** The interval [h] goes from [lo] to [hi]. *)
Inductive spans (min max : Z) : string -> Z -> Z -> Prop :=
| sp_all : spans min max "*" min max
| sp_one h n : h <> "*" -> cut "-" h h None -> u32_text h n -> spans min max h n n
| sp_two h a b lo hi : h <> "*" -> cut "-" h a (Some b) -> u32_text a lo -> u32_text b hi -> spans min max h lo hi.

Inductive item_fault (min max : Z) (p : string) : fate -> Prop :=
| if_step h s : cut "/" p h (Some s) -> no_number s -> item_fault min max p (Refused "Invalid step number")
| if_number h st a b : cut "/" p h st -> stepped st -> h <> "*" -> cut "-" h a b -> no_number a ->
    item_fault min max p (Refused "Invalid number")
| if_end h st a b n : cut "/" p h st -> stepped st -> h <> "*" -> cut "-" h a (Some b) -> u32_text a n -> no_number b ->
    item_fault min max p (Refused "Invalid number in end of interval")
| if_range h st lo hi : cut "/" p h st -> stepped st -> spans min max h lo hi -> ~ (min <= lo <= max) \/ ~ (min <= hi <= max) ->
    item_fault min max p (Refused "Invalid range in timer spec")
| if_order h st lo hi : cut "/" p h st -> stepped st -> spans min max h lo hi -> min <= lo <= max -> min <= hi <= max -> hi < lo ->
    item_fault min max p (Refused "Interval end < begin")
| if_zero h s lo hi : cut "/" p h (Some s) -> u32_text s 0 -> spans min max h lo hi -> min <= lo -> lo <= hi -> hi <= max ->
    item_fault min max p Crashes.

(** The items before the faulty one are valid. *)
Inductive field_fault (min max : Z) (t : string) (f : fate) : Prop :=
| ff l p rest : t = join "," (map item_text l ++ p :: rest)%list ->
    (forall i, In i l -> item_wf i /\ 0 < item_stride i /\ item_valid min max i) ->
    (forall q, In q (p :: rest) -> free_of "," q) -> item_fault min max p f -> field_fault min max t f.

Definition ranges : list (Z * Z) := [(0, 59); (0, 23); (1, 31); (1, 12); (0, 6)].
Definition is_valid (r : Z * Z) (t : string) : Prop := exists l, t = field_text l /\ field_valid (fst r) (snd r) l.
Inductive timer_fault (s : string) : fate -> Prop :=
| tf_field good f rest before r after x : spaced s (good ++ f :: rest)%list -> ranges = (before ++ r :: after)%list ->
    Forall2 is_valid before good -> field_fault (fst r) (snd r) f x -> timer_fault s x
| tf_few good before r after : spaced s good -> ranges = (before ++ r :: after)%list -> Forall2 is_valid before good ->
    timer_fault s (Refused "Incomplete timer spec")
| tf_many good f rest : spaced s (good ++ f :: rest)%list -> Forall2 is_valid ranges good -> timer_fault s (Refused "Too many timer specs").
