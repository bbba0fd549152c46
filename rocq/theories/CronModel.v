(** Model of src/runtime/cronjob.rs (the whole file except tests). *)
From Coq Require Import String Ascii ZArith List Bool.
From Verif Require Import Base RStr.
Import ListNotations.
Local Open Scope string_scope.
Local Open Scope Z_scope.

(** * Ordered sets of small numbers (std BTreeSet<u32>) as strictly increasing lists *)
Fixpoint bt_insert (x : Z) (l : list Z) : list Z :=
  match l with
  | [] => [x]
  | y :: r => if x <? y then x :: l else if x =? y then l else y :: bt_insert x r
  end.

(** [set.range(k..).next()] *)
Definition bt_from (k : Z) (l : list Z) : option Z := find (fun x => k <=? x) l.

(** [set.iter().next().unwrap()] *)
Definition bt_first (l : list Z) : outcome Z :=
  match l with x :: _ => Ret x | [] => Panic "called `Option::unwrap()` on a `None` value" end.

(** [a..=b] *)
Definition zrange (a b : Z) : list Z :=
  map (fun k => a + Z.of_nat k) (seq 0 (Z.to_nat (b - a + 1))).

(** src/runtime/cronjob.rs:30-41 *)
Record timer_desc := { td_minute : list Z; td_hour : list Z; td_day : list Z;
                       td_month : list Z; td_weekday : list Z }.

(** The part of the interval loop body that reads the step,
    src/runtime/cronjob.rs:231-239. *)
Definition parse_step (rest : list string) : result Z string :=
  match rest with
  | s :: _ => match parse_u32 s with Some n => Ok n | None => Err "Invalid step number" end
  | [] => Ok 1
  end.

(** Begin and end of the interval, src/runtime/cronjob.rs:241-262.  The
    [ok_or("Invalid timespec")] branches are unreachable: split yields at least
    one piece. *)
Definition parse_bounds (min max : Z) (interval : string) : result (Z * Z) string :=
  if String.eqb interval "*" then Ok (min, max)
  else match split_on "-" interval with
       | [] => Err "Invalid timespec"
       | b :: rest =>
           match parse_u32 b with
           | None => Err "Invalid number"
           | Some begin =>
               match rest with
               | e :: _ => match parse_u32 e with
                           | Some end_ => Ok (begin, end_)
                           | None => Err "Invalid number in end of interval"
                           end
               | [] => Ok (begin, begin)
               end
           end
       end.

(** One round of the interval loop, src/runtime/cronjob.rs:230-281.
    [i % step] panics for step 0; the loop over [begin..=end] runs at least once
    because [end < begin] was rejected before. *)
Definition parse_interval (min max : Z) (acc : list Z) (interval : string)
  : outcome (result (list Z) string) :=
  match split_on "/" interval with
  | [] => Ret (Err "Invalid timespec")
  | head :: rest =>
      match parse_step rest with
      | Err e => Ret (Err e)
      | Ok step =>
          match parse_bounds min max head with
          | Err e => Ret (Err e)
          | Ok (begin, end_) =>
              if (begin <? min) || (max <? begin) then Ret (Err "Invalid range in timer spec")
              else if (end_ <? min) || (max <? end_) then Ret (Err "Invalid range in timer spec")
              else if end_ <? begin then Ret (Err "Interval end < begin")
              else if step =? 0 then
                Panic "attempt to calculate the remainder with a divisor of zero"
              else
                Ret (Ok (fold_left
                           (fun s i => if i mod step =? begin mod step then bt_insert i s else s)
                           (zrange begin end_) acc))
          end
      end
  end.

Fixpoint parse_intervals (min max : Z) (acc : list Z) (intervals : list string)
  : outcome (result (list Z) string) :=
  match intervals with
  | [] => Ret (Ok acc)
  | i :: rest =>
      match parse_interval min max acc i with
      | Panic m => Panic m
      | Ret (Err e) => Ret (Err e)
      | Ret (Ok acc') => parse_intervals min max acc' rest
      end
  end.

(** src/runtime/cronjob.rs:211-285 *)
Definition parse_element (input : option string) (min max : Z)
  : outcome (result (list Z) string) :=
  if max <? min then Ret (Err "Invalid range given")
  else match input with
       | None => Ret (Err "Incomplete timer spec")
       | Some timespec =>
           if negb (nonempty timespec) then Ret (Err "Incomplete timer spec")
           else if String.eqb timespec "*" then
             Ret (Ok (fold_left (fun s i => bt_insert i s) (zrange min max) []))
           else parse_intervals min max [] (split_on "," timespec)
       end.

(** Sequencing of [?] on an outcome of a result. *)
Definition rbind {A B E} (x : outcome (result A E)) (k : A -> outcome (result B E))
  : outcome (result B E) :=
  match x with
  | Panic m => Panic m
  | Ret (Err e) => Ret (Err e)
  | Ret (Ok a) => k a
  end.

(** src/runtime/cronjob.rs:48-65 *)
Definition parse_timer (raw : string) : outcome (result timer_desc string) :=
  let ws := split_whitespace raw in
  rbind (parse_element (nth_error ws 0) 0 59) (fun minute =>
  rbind (parse_element (nth_error ws 1) 0 23) (fun hour =>
  rbind (parse_element (nth_error ws 2) 1 31) (fun day =>
  rbind (parse_element (nth_error ws 3) 1 12) (fun month =>
  rbind (parse_element (nth_error ws 4) 0 6) (fun weekday =>
  match nth_error ws 5 with
  | None => Ret (Ok {| td_minute := minute; td_hour := hour; td_day := day;
                       td_month := month; td_weekday := weekday |})
  | Some _ => Ret (Err "Too many timer specs")
  end))))).

(** * Calendar and time zones (models of chrono, not of /repo)
    A day is a number of days since 1970-01-01; [civil] is the proleptic
    Gregorian calendar used by chrono's NaiveDate. *)
Record date := { d_year : Z; d_month : Z; d_day : Z }.

(** Date of a day inside a 400-year era starting on 1 March (the "civil from
    days" algorithm); year relative to the era. *)
Definition civil_of_doe (doe : Z) : date :=
  let yoe := (doe - doe / 1460 + doe / 36524 - doe / 146096) / 365 in
  let doy := doe - (365 * yoe + yoe / 4 - yoe / 100) in
  let mp := (5 * doy + 2) / 153 in
  let d := doy - (153 * mp + 2) / 5 + 1 in
  let m := if mp <? 10 then mp + 3 else mp - 9 in
  {| d_year := if m <=? 2 then yoe + 1 else yoe; d_month := m; d_day := d |}.

Definition civil (z : Z) : date :=
  let era := (z + 719468) / 146097 in
  let c := civil_of_doe ((z + 719468) mod 146097) in
  {| d_year := d_year c + 400 * era; d_month := d_month c; d_day := d_day c |}.

(** [num_days_from_sunday]; 1970-01-01 was a Thursday. *)
Definition weekday (z : Z) : Z := (z + 4) mod 7.

(** A time zone: the UTC offset in seconds at every UTC second and the finite
    list of offsets that occur. *)
Record zone := { z_off : Z -> Z; z_offs : list Z }.

Definition NS : Z := 1000000000.
Definition DAY : Z := 86400.

(** chrono's NaiveDateTime::MAX (262142-12-31T23:59:59.999999999) and MIN
    (-262143-01-01) as seconds since the epoch: the last second and the first. *)
Definition MAX_SEC : Z := 8210266876799.
Definition MIN_SEC : Z := -8334601228800.

(** An instant is a number of nanoseconds since the epoch
    ([DateTime<Local>]; comparison is comparison of instants). *)
Definition instant := Z.
Definition utc_sec (t : instant) : Z := t / NS.

(** Local wall clock in seconds since 1970-01-01T00:00 local. *)
Definition local_sec (tz : zone) (t : instant) : Z := utc_sec t + z_off tz (utc_sec t).
Definition local_day (tz : zone) (t : instant) : Z := local_sec tz t / DAY.
Definition local_hour (tz : zone) (t : instant) : Z := (local_sec tz t mod DAY) / 3600.
Definition local_minute (tz : zone) (t : instant) : Z := (local_sec tz t mod 3600) / 60.

(** [DateTime<Local> + Duration::days(n)]: panics when the UTC date leaves
    chrono's range. *)
Definition add_days (t : instant) (n : Z) : outcome instant :=
  let t' := t + n * DAY * NS in
  if (MAX_SEC <? utc_sec t') then Panic "`DateTime + TimeDelta` overflowed" else Ret t'.

(** [naive.and_local_timezone(Local).latest()]: None in a gap, the earlier
    instant (the larger offset, see the tests at cronjob.rs:829-842) in a fold.
    [naive] is a local wall clock in seconds. *)
Definition resolve (tz : zone) (naive : Z) : option instant :=
  match filter (fun o => z_off tz (naive - o) =? o) (z_offs tz) with
  | [] => None
  | o :: rest => Some ((naive - fold_left Z.max rest o) * NS)
  end.

(** * The next execution *)

(** [set.range(k..).next()] with wrap to the first element and carry 1:
    src/runtime/cronjob.rs:81-87, 89-98, 109-118, 120-129. *)
Definition next_in (k : Z) (l : list Z) : outcome (Z * Z) :=
  match bt_from k l with
  | Some x => Ret (x, 0)
  | None => let! x := bt_first l in Ret (x, 1)
  end.

Definition SEARCH_FUEL : positive := 268435456. (* 2^28 days, more than chrono's calendar *)

(** Loop body of src/runtime/cronjob.rs:144-149. *)
Definition date_step (tz : zone) (from : instant) (next_day next_month : Z) (n : Z)
  : Z + outcome Z :=
  match add_days from n with
  | Panic m => inr (Panic m)
  | Ret tmp =>
      let c := civil (local_day tz tmp) in
      if (d_day c =? next_day) && (d_month c =? next_month) then inr (Ret n)
      else inl (n + 1)
  end.

(** The search for the next matching date, src/runtime/cronjob.rs:142-150;
    result in days after [from]. *)
Definition date_search (tz : zone) (from : instant) (next_day next_month n0 : Z) : outcome Z :=
  match ploop SEARCH_FUEL (date_step tz from next_day next_month) n0 with
  | inr r => r
  | inl _ => Panic "out of fuel"
  end.

(** Loop body of src/runtime/cronjob.rs:171-199; the state is
    [next_valid_minute] in minutes; 11 days are 15840 minutes. *)
Definition gap_step (tz : zone) (naive : Z) (k : Z) : Z + outcome instant :=
  let invalid_time := naive + 60 * k in
  if MAX_SEC <? invalid_time then inr (Panic "`NaiveDateTime + TimeDelta` overflowed")
  else match resolve tz invalid_time with
       | Some t => inr (Ret t)
       | None => if 15840 <? k + 1 then inr (Panic "System local timezone has no valid times")
                 else inl (k + 1)
       end.

Definition GAP_FUEL : positive := 15842.

Definition gap_search (tz : zone) (naive : Z) : outcome instant :=
  match ploop GAP_FUEL (gap_step tz naive) 0 with
  | inr r => r
  | inl _ => Panic "out of fuel"
  end.

(** [len() != full], src/runtime/cronjob.rs:131-132. *)
Definition weekday_relevant (d : timer_desc) : bool := negb (Z.of_nat (length (td_weekday d)) =? 7).
Definition date_relevant (d : timer_desc) : bool :=
  negb (Z.of_nat (length (td_day d)) =? 31) || negb (Z.of_nat (length (td_month d)) =? 12).

(** The nominal local time (seconds of wall clock) before folds and gaps are
    treated: src/runtime/cronjob.rs:79-168. *)
Definition nominal (tz : zone) (d : timer_desc) (from : instant) : outcome Z :=
  let! (min, c1) := next_in (local_minute tz from + 1) (td_minute d) in
  let! (hour, c2) := next_in (local_hour tz from + c1) (td_hour d) in
  let wd := weekday (local_day tz from) in
  let! (next_weekday, _) := next_in (wd + c2) (td_weekday d) in
  let today := civil (local_day tz from) in
  let! (next_day, c3) := next_in (d_day today + c2) (td_day d) in
  let! (next_month, c4) := next_in (d_month today + c3) (td_month d) in
  let week_duration := if next_weekday <? wd then 7 - (wd - next_weekday) else next_weekday - wd in
  let! date_duration :=
    (if date_relevant d then date_search tz from next_day next_month (c4 * 365)
     else Ret (c4 * 365)) in
  let! exec_day :=
    (if weekday_relevant d && date_relevant d then add_days from (Z.min week_duration date_duration)
     else if negb (weekday_relevant d) && date_relevant d then add_days from date_duration
     else add_days from week_duration) in
  if (hour <? 24) && (min <? 60) then
    Ret (local_day tz exec_day * DAY + hour * 3600 + min * 60)
  else Panic "called `Option::unwrap()` on a `None` value".

(** src/runtime/cronjob.rs:78-200 *)
Definition next_execution (tz : zone) (d : timer_desc) (from : instant) : outcome instant :=
  let! n := nominal tz d from in gap_search tz n.

(** * The scheduler *)

(** BTreeMap<DateTime<Local>, usize> as an association list with strictly
    increasing keys. *)
Definition timer_map := list (instant * nat).

Fixpoint tm_insert (t : instant) (id : nat) (m : timer_map) : timer_map :=
  match m with
  | [] => [(t, id)]
  | (u, j) :: r =>
      if t <? u then (t, id) :: m
      else if t =? u then (t, id) :: r
      else (u, j) :: tm_insert t id r
  end.

Definition tm_mem (t : instant) (m : timer_map) : bool := existsb (fun e => fst e =? t) m.

Definition tm_remove (t : instant) (m : timer_map) : timer_map :=
  filter (fun e => negb (fst e =? t)) m.

(** src/runtime/cronjob.rs:287-299.  [timers] is only looked up by id. *)
Record cron := { timers : list (nat * timer_desc); timer : timer_map }.

Definition timer_of (c : cron) (id : nat) : option timer_desc :=
  match find (fun e => Nat.eqb (fst e) id) (timers c) with
  | Some (_, d) => Some d
  | None => None
  end.

(** The probing loop of src/runtime/cronjob.rs:371-373.  At most one key per
    entry can be occupied, so length + 1 rounds suffice (proved in CronProofs);
    running out of them is an explicit Panic. *)
Fixpoint free_slot (fuel : nat) (t : instant) (m : timer_map) : outcome instant :=
  if tm_mem t m then
    match fuel with
    | O => Panic "out of fuel"
    | S f => free_slot f (t + 1) m
    end
  else Ret t.

(** src/runtime/cronjob.rs:370-375.  Simplification: chrono's overflow check on
    the added nanoseconds is not modelled here. *)
Definition insert_job (m : timer_map) (t : instant) (id : nat) : outcome timer_map :=
  let! u := free_slot (length m) t m in Ret (tm_insert u id m).

(** src/runtime/cronjob.rs:307-332.  A configuration entry is its process id and
    its timer text ([None]: not a cronjob, which panics); [clock] gives the
    reading of Local::now() for each entry. *)
Fixpoint with_jobs_from (tz : zone) (c : cron) (config : list (nat * option string))
         (clock : list instant) : outcome (result cron (string * nat)) :=
  match config with
  | [] => Ret (Ok c)
  | (id, raw) :: rest =>
      match raw with
      | None => Panic "Got invalid process type"
      | Some raw_desc =>
          match parse_timer raw_desc with
          | Panic m => Panic m
          | Ret (Err s) => Ret (Err (s, id))
          | Ret (Ok desc) =>
              match clock with
              | [] => Panic "no clock reading supplied"
              | now :: clock' =>
                  let! t := next_execution tz desc now in
                  let! m := insert_job (timer c) t id in
                  with_jobs_from tz {| timers := (id, desc) :: timers c; timer := m |} rest clock'
              end
          end
      end
  end.

Definition with_jobs (tz : zone) (config : list (nat * option string)) (clock : list instant)
  : outcome (result cron (string * nat)) :=
  with_jobs_from tz {| timers := []; timer := [] |} config clock.

(** src/runtime/cronjob.rs:338-357; [self.timers[&process_id]] panics for an
    unknown id. *)
Definition cron_pop (tz : zone) (c : cron) (now : instant) : outcome (cron * option nat) :=
  match timer c with
  | [] => Ret (c, None)
  | (t, id) :: _ =>
      if t <=? now then
        let rest := tm_remove t (timer c) in
        match timer_of c id with
        | None => Panic "no entry found for key"
        | Some d =>
            let! u := next_execution tz d now in
            let! m := insert_job rest u id in
            Ret ({| timers := timers c; timer := m |}, Some id)
        end
      else Ret (c, None)
  end.

(** src/runtime/cronjob.rs:360-367 *)
Definition cron_next (c : cron) (id : nat) : outcome instant :=
  match find (fun e => Nat.eqb (snd e) id) (timer c) with
  | Some (t, _) => Ret t
  | None => Panic "Queried cron manager with invalid id"
  end.
