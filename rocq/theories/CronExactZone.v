(** The same away from changes of the clocks. *)
From Coq Require Import ZArith List Bool Lia.
From Verif Require Import Base CronModel SpecCron SpecCal SpecSched SpecZone SpecExact CalendarProofs CronNextProofs CronSchedProofs CronReachProofs
  CronTimerProofs ZoneProofs CronExactProofs.
Import ListNotations.
Local Open Scope Z_scope.

Definition kept_all (tz : zone) (d : timer_desc) (from : instant) : Prop :=
  week_kept tz d from /\ date_kept tz d from /\ time_kept tz d from.

Lemma kept_same tz o d from : z_off tz (from / NS) = o -> kept_all tz d from <-> kept_all (fixed o) d from.
Proof.
  intros E. assert (W : wall_day tz from = wall_day (fixed o) from) by (unfold wall_day; rewrite E; reflexivity).
  assert (V : wall_sec tz from = wall_sec (fixed o) from) by (unfold wall_sec; rewrite E; reflexivity).
  unfold kept_all, week_kept, date_kept, time_kept, date_found, first_date, still_ahead, all_left_today, none_left_today, wall_hour, wall_minute.
  rewrite W, V. reflexivity.
Qed.

Lemma kept_sought o d from t : desc_ok d -> one_rule d -> date_kept (fixed o) d from -> from < t -> due_at (fixed o) d t ->
  date_restricted d -> exists x y, sought (fixed o) d from x y /\ x <= longest y.
Proof.
  intros Hok O K Lt Du Dr. apply due_fixed in Du as (z & h & m & Rh & Rm & -> & Hh & Hm & (_ & M & _)).
  assert (Nw : ~ weekday_restricted d) by (intros X; apply O; auto). specialize (M Nw Dr).
  apply fixed_after in Lt. rewrite local_sec_wall in Lt. pose proof (wall_sec_range (fixed o) from) as Ws.
  set (z0 := wall_day (fixed o) from) in *.
  assert (L0 : z0 <= z) by (unfold DAY in *; lia).
  assert (Ah : still_ahead (fixed o) d from z).
  { split; [exact L0|]. intros N. fold z0. destruct (Z.eq_dec z z0) as [->|]; [|lia]. specialize (N _ _ Hh Hm). lia. }
  assert (F : exists x, first_date (fixed o) d from x).
  { destruct (least_from (fun x => still_ahead (fixed o) d from x /\ date_ok d x) z0) with (n := Z.to_nat (z - z0)) as (x & Lx & [Ax Ox] & Mx).
    - intros x. destruct (date_ok_dec d x) as [Y|Y]; [|tauto]. destruct (Z_lt_le_dec z0 x) as [L|L].
      + left. split; [|exact Y]. unfold still_ahead. fold z0. lia.
      + destruct (Z.eq_dec x z0) as [->|].
        * destruct (Z.eq_dec z z0) as [->|Ne]; [left; auto|].
          destruct (existsb (fun h => existsb (fun m => wall_sec (fixed o) from <? h * 3600 + m * 60) (td_minute d)) (td_hour d)) eqn:Ex.
          -- left. split; [|exact Y]. split; [fold z0; lia|]. intros N. exfalso. apply existsb_exists in Ex as (h' & Hh' & Ex).
             apply existsb_exists in Ex as (m' & Hm' & Ex). specialize (N _ _ Hh' Hm'). lia.
          -- right. intros [[_ X] _]. fold z0 in X. enough (none_left_today (fixed o) d from) by (specialize (X H); lia).
             intros h' m' Hh' Hm'. destruct (Z_lt_le_dec (wall_sec (fixed o) from) (h' * 3600 + m' * 60)) as [L'|L']; [|exact L'].
             exfalso. enough (false = true) by discriminate. rewrite <- Ex. apply existsb_exists. exists h'. split; [exact Hh'|].
             apply existsb_exists. exists m'. split; [exact Hm'|]. lia.
        * right. intros [[X _] _]. fold z0 in X. lia.
    - replace (z0 + _) with z by lia. auto.
    - exists x. split; [exact Ax|]. split; [exact Ox|]. intros y Ay Oy. apply Mx; [apply Ay|auto]. }
  destruct F as (x & Fx). destruct (K Dr x Fx) as [(a & b & c & A & B & C & _)|[X _]]; [|contradiction].
  exists (d_day (civil x)), (d_month (civil x)). split; [exists a, b, c; auto|].
  destruct (civil_valid x) as [_ V]. pose proof (month_len_longest (d_year (civil x)) (d_month (civil x))). lia.
Qed.

Theorem calm_exact tz o d from t : sane tz -> desc_ok d -> one_rule d -> room from 4000 -> calm tz o from t -> earliest tz d from t ->
  (next_execution tz d from = Ret t <-> week_kept tz d from /\ date_kept tz d from /\ time_kept tz d from).
Proof.
  intros Hs Ok O Rm C E. change (next_execution tz d from = Ret t <-> kept_all tz d from). pose proof E as (Lt & _).
  assert (Of : z_off tz (from / NS) = o). { apply (calm_wall tz o from from t C). unfold DAY, NS. lia. }
  assert (Or : - DAY < o < DAY) by (rewrite <- Of; apply Hs).
  rewrite (kept_same tz o d from Of). apply (calm_earliest tz o d from t t C ltac:(lia)) in E.
  assert (N : next_execution tz d from = Ret t <-> next_execution (fixed o) d from = Ret t).
  { apply (next_calm tz o Hs d from t Ok O); [apply Rm|rewrite Z.max_r by lia; exact C]. }
  rewrite N. split.
  - intros X. apply (earliest_iff o d from t Ok X). exact E.
  - intros K. assert (Ex : exists t', next_execution (fixed o) d from = Ret t').
    { apply next_execution_exists_iff; [exact Ok|exact Or|exact Rm|]. apply (kept_sought o d from t Ok O); [apply K|exact Lt|apply E]. }
    destruct Ex as [t' Ex]. assert (E' : earliest (fixed o) d from t') by (apply (earliest_iff o d from t' Ok Ex); exact K).
    assert (t' = t) as <-; [|exact Ex]. destruct E as (A1 & A2 & A3), E' as (B1 & B2 & B3). apply Z.le_antisymm; auto.
Qed.
