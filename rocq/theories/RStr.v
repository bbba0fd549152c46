(** Rust string functions used by cinit, on byte strings.

    A Rust [String]/[&str] is represented by the Coq [string] of its UTF-8
    bytes.  These are models of the Rust standard library (not of /repo); each
    definition says which function it stands for and where /repo calls it. *)
From Coq Require Import String Ascii ZArith List Bool Lia DecimalString.
From Verif Require Import Base.
Import ListNotations.
Local Open Scope string_scope.

Definition byte (a : ascii) : Z := Z.of_N (N_of_ascii a).

(** [str::split(pred)]: always at least one piece.
    Used in src/runtime/cronjob.rs:228,231,246 and src/startup_checks.rs:43
    (split on a character), and below for split_whitespace and lines. *)
Fixpoint split_by (p : ascii -> bool) (s : string) : list string :=
  match s with
  | EmptyString => [""]
  | String a r =>
      if p a then "" :: split_by p r
      else match split_by p r with
           | h :: t => String a h :: t
           | [] => [String a ""]
           end
  end.

Definition split_on (c : ascii) (s : string) : list string := split_by (Ascii.eqb c) s.

(** [str::splitn(2, c)]: the part before the first [c] and, if there is one, the
    part after it.  Used in src/runtime/process_manager/notify_manager.rs:150. *)
Fixpoint splitn2 (c : ascii) (s : string) : string * option string :=
  match s with
  | EmptyString => ("", None)
  | String a r =>
      if Ascii.eqb c a then ("", Some r)
      else let (h, t) := splitn2 c r in (String a h, t)
  end.

(** ASCII white space (tab, LF, VT, FF, CR, space).  Simplification: Rust's
    [char::is_whitespace] also accepts a few non-ASCII code points. *)
Definition is_ws (a : ascii) : bool :=
  let b := byte a in ((9 <=? b) && (b <=? 13) || (b =? 32))%Z.

Definition nonempty (s : string) : bool :=
  match s with EmptyString => false | _ => true end.

(** [str::split_whitespace], used in src/runtime/cronjob.rs:49. *)
Definition split_whitespace (s : string) : list string :=
  filter nonempty (split_by is_ws s).

Definition LF : ascii := "010".
Definition CR : ascii := "013".
Definition NUL : ascii := "000".

(** Remove one trailing carriage return. *)
Fixpoint strip_cr (s : string) : string :=
  match s with
  | EmptyString => ""
  | String a EmptyString => if Ascii.eqb a CR then "" else s
  | String a r => String a (strip_cr r)
  end.

(** [str::lines]: pieces between line feeds; a terminated line also loses one
    trailing CR; an empty unterminated last piece is not a line.
    Used in notify_manager.rs:149 and process_manager/mod.rs:357. *)
Fixpoint lines_of (pieces : list string) : list string :=
  match pieces with
  | [] => []
  | [last] => if nonempty last then [last] else []
  | p :: rest => strip_cr p :: lines_of rest
  end.

Definition lines (s : string) : list string := lines_of (split_on LF s).

(** Decimal digits, most significant first. *)
Definition digit_val (a : ascii) : option Z :=
  let b := byte a in
  if ((48 <=? b) && (b <=? 57))%Z then Some (b - 48)%Z else None.

Fixpoint digits (s : string) (acc : Z) : option Z :=
  match s with
  | EmptyString => Some acc
  | String a r => match digit_val a with
                  | Some d => digits r (acc * 10 + d)%Z
                  | None => None
                  end
  end.

Definition U32_MAX : Z := 4294967295.
Definition I32_MAX : Z := 2147483647.

(** [str::parse::<u32>]: optional '+', at least one digit, only digits, no
    overflow.  Used in cronjob.rs:235,250,255 and startup_checks.rs:46-47. *)
Definition parse_u32 (s : string) : option Z :=
  let body := match s with
              | String "+" r => r
              | _ => s
              end in
  if nonempty body then
    match digits body 0 with
    | Some n => if (n <=? U32_MAX)%Z then Some n else None
    | None => None
    end
  else None.

(** [str::parse::<libc::pid_t>] (i32): optional sign.  Used in process.rs:231
    and notify_manager.rs:129. *)
Definition parse_i32 (s : string) : option Z :=
  match s with
  | String "-" r =>
      if nonempty r then
        match digits r 0 with
        | Some n => if (n <=? I32_MAX + 1)%Z then Some (- n)%Z else None
        | None => None
        end
      else None
  | _ =>
      let body := match s with String "+" r => r | _ => s end in
      if nonempty body then
        match digits body 0 with
        | Some n => if (n <=? I32_MAX)%Z then Some n else None
        | None => None
        end
      else None
  end.

(** Decimal rendering of an integer ([format!("{}", n)]). *)
Definition show_Z (z : Z) : string := NilZero.string_of_int (Z.to_int z).

(** [str::contains(char)], used in process_builder.rs:390. *)
Fixpoint contains (c : ascii) (s : string) : bool :=
  match s with
  | EmptyString => false
  | String a r => Ascii.eqb c a || contains c r
  end.

Definition concat_all (l : list string) : string := fold_right append "" l.

(** Does the string contain a NUL byte ([CString::new] fails)? *)
Definition has_nul (s : string) : bool := contains NUL s.

Fixpoint sdrop (n : nat) (s : string) : string :=
  match n, s with
  | O, _ => s
  | S n', String _ r => sdrop n' r
  | S _, EmptyString => ""
  end.

Fixpoint stake (n : nat) (s : string) : string :=
  match n, s with
  | O, _ => ""
  | S n', String a r => String a (stake n' r)
  | S _, EmptyString => ""
  end.

(** * UTF-8 *)
Definition within (lo hi b : Z) : bool := ((lo <=? b) && (b <=? hi))%Z.
Definition is_cont (b : Z) : bool := within 128 191 b.

(** Byte at an index, -1 beyond the end ([safe_get] of core::str::lossy returns
    0 there; both are outside every tested range). *)
Fixpoint byte_at (n : nat) (s : string) : Z :=
  match n, s with
  | O, String a _ => byte a
  | S n', String _ r => byte_at n' r
  | _, EmptyString => -1
  end.

(** One step of UTF-8 decoding at the head of a non-empty string: how many bytes
    are consumed and whether they form a well-formed scalar value.  This is the
    loop body of Rust's [Utf8Chunks::next] (Unicode table 3-7). *)
Definition utf8_step (s : string) : nat * bool :=
  let b0 := byte_at 0 s in
  let b1 := byte_at 1 s in
  let b2 := byte_at 2 s in
  let b3 := byte_at 3 s in
  if within 0 127 b0 then (1, true)
  else if within 194 223 b0 then
    (if is_cont b1 then (2, true) else (1, false))
  else if within 224 239 b0 then
    (if (if (b0 =? 224)%Z then within 160 191 b1
         else if (b0 =? 237)%Z then within 128 159 b1
         else is_cont b1)
     then (if is_cont b2 then (3, true) else (2, false))
     else (1, false))
  else if within 240 244 b0 then
    (if (if (b0 =? 240)%Z then within 144 191 b1
         else if (b0 =? 244)%Z then within 128 143 b1
         else is_cont b1)
     then (if is_cont b2
           then (if is_cont b3 then (4, true) else (3, false))
           else (2, false))
     else (1, false))
  else (1, false).

(** Split a byte string into decoding steps (fuel = length suffices, every step
    consumes at least one byte). *)
Fixpoint utf8_chunks_fuel (fuel : nat) (s : string) : list (string * bool) :=
  match fuel with
  | O => []
  | S f =>
      match s with
      | EmptyString => []
      | _ => let (n, ok) := utf8_step s in
             (stake n s, ok) :: utf8_chunks_fuel f (sdrop n s)
      end
  end.

Definition utf8_chunks (s : string) : list (string * bool) :=
  utf8_chunks_fuel (String.length s) s.

(** [str::from_utf8(..).is_ok()] / [CStr::to_str], used via
    src/util/libc_helpers.rs:98-99. *)
Definition utf8_valid (s : string) : bool := forallb snd (utf8_chunks s).

(** U+FFFD REPLACEMENT CHARACTER *)
Definition REPLACEMENT : string := String "239" (String "191" (String "189" "")).

(** [String::from_utf8_lossy], used in process_manager/mod.rs:356. *)
Definition utf8_lossy (s : string) : string :=
  concat_all (map (fun c : string * bool => if snd c then fst c else REPLACEMENT) (utf8_chunks s)).
