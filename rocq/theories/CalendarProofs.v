From Coq Require Import ZArith List Bool Lia ZifyBool.
From Verif Require Import Base CronModel SpecCal.
Local Open Scope Z_scope.
Ltac Zify.zify_post_hook ::= Z.div_mod_to_equations.

(** Finite sweep over consecutive integers. *)
Fixpoint all_from (f : Z -> bool) (n : nat) (z : Z) : bool :=
  match n with O => true | S n' => if f z then all_from f n' (z + 1) else false end.

Lemma all_from_spec f n z : all_from f n z = true -> forall x, z <= x < z + Z.of_nat n -> f x = true.
Proof.
  revert z. induction n as [|n IH]; intros z H x Hx; [lia|]. cbn [all_from] in H.
  destruct (f z) eqn:E; [|discriminate].
  destruct (Z.eq_dec x z) as [->|Hne]; [assumption|]. apply (IH (z + 1) H). lia.
Qed.

Definition date_eqb (a b : date) : bool :=
  (d_year a =? d_year b) && (d_month a =? d_month b) && (d_day a =? d_day b).

Lemma date_eqb_eq a b : date_eqb a b = true -> a = b.
Proof.
  destruct a as [y m d], b as [y' m' d']; unfold date_eqb; cbn.
  rewrite !andb_true_iff, !Z.eqb_eq. intros [[-> ->] ->]. reflexivity.
Qed.

Definition shift_year (k : Z) (d : date) : date :=
  {| d_year := d_year d + 400 * k; d_month := d_month d; d_day := d_day d |}.

Definition valid_dateb (d : date) : bool :=
  (1 <=? d_month d) && (d_month d <=? 12) && (1 <=? d_day d) && (d_day d <=? month_len (d_year d) (d_month d)).

Lemma valid_dateb_spec d : valid_dateb d = true <-> valid_date d.
Proof. unfold valid_dateb, valid_date. rewrite !andb_true_iff, !Z.leb_le. lia. Qed.

(** The inverse: day number of a date. *)
Definition days_of (d : date) : Z :=
  let y := if d_month d <=? 2 then d_year d - 1 else d_year d in
  let mp := if d_month d <=? 2 then d_month d + 9 else d_month d - 3 in
  let doy := (153 * mp + 2) / 5 + d_day d - 1 in
  365 * y + y / 4 - y / 100 + y / 400 + doy - 719468.

(** ** One era of 400 years, from 1 March *)
Definition year_start (yoe : Z) : Z := 365 * yoe + yoe / 4 - yoe / 100.
Definition year_days (yoe : Z) : Z := if leap (yoe + 1) then 366 else 365.
Definition yoe_inner (doe : Z) : Z := doe - doe / 1460 + doe / 36524 - doe / 146096.
Definition yoe_of (doe : Z) : Z := yoe_inner doe / 365.

Lemma yoe_inner_step a : yoe_inner a <= yoe_inner (a + 1).
Proof. unfold yoe_inner. lia. Qed.

Lemma yoe_mono a k : 0 <= k -> yoe_of a <= yoe_of (a + k).
Proof.
  revert k. apply natlike_ind; [rewrite Z.add_0_r; lia|]. intros k Hk IH.
  apply (Z.le_trans _ _ _ IH). unfold yoe_of. apply Z.div_le_mono; [lia|].
  replace (a + Z.succ k) with (a + k + 1) by lia. apply yoe_inner_step.
Qed.

Definition year_ok (y : Z) : bool :=
  (yoe_of (year_start y) =? y) && (yoe_of (year_start y + year_days y - 1) =? y) &&
  ((y =? 399) || (year_start (y + 1) =? year_start y + year_days y)).

Lemma years_ok : all_from year_ok 400 0 = true.
Proof. vm_compute. reflexivity. Qed.

Lemma year_facts y : 0 <= y <= 399 ->
  yoe_of (year_start y) = y /\ yoe_of (year_start y + year_days y - 1) = y /\
  (y = 399 \/ year_start (y + 1) = year_start y + year_days y).
Proof.
  intros H. pose proof (all_from_spec _ _ _ years_ok y ltac:(lia)) as Hy. unfold year_ok in Hy.
  apply andb_true_iff in Hy as [Hy H3]. apply andb_true_iff in Hy as [H1 H2].
  apply Z.eqb_eq in H1, H2. apply orb_true_iff in H3. rewrite !Z.eqb_eq in H3. auto.
Qed.

Lemma yoe_in_year y doy : 0 <= y <= 399 -> 0 <= doy < year_days y -> yoe_of (year_start y + doy) = y.
Proof.
  intros Hy Hd. destruct (year_facts y Hy) as (H1 & H2 & _).
  pose proof (yoe_mono (year_start y) doy ltac:(lia)).
  pose proof (yoe_mono (year_start y + doy) (year_days y - 1 - doy) ltac:(lia)) as H3.
  replace (year_start y + doy + (year_days y - 1 - doy)) with (year_start y + year_days y - 1) in H3 by ring. lia.
Qed.

Lemma era_split doe : 0 <= doe < 146097 ->
  exists y doy, 0 <= y <= 399 /\ 0 <= doy < year_days y /\ doe = year_start y + doy.
Proof.
  intros H. enough (Hn : forall n, 0 <= n <= 400 -> doe < (if n =? 400 then 146097 else year_start n) ->
     exists y doy, 0 <= y <= 399 /\ 0 <= doy < year_days y /\ doe = year_start y + doy).
  { apply (Hn 400); [lia|]. cbn. lia. }
  intros n [Hn0 Hn]. revert n Hn0 Hn. apply (natlike_ind (fun n => n <= 400 -> doe < (if n =? 400 then 146097 else year_start n) ->
     exists y doy, 0 <= y <= 399 /\ 0 <= doy < year_days y /\ doe = year_start y + doy)).
  - cbn. lia.
  - intros n Hn0 IH Hn Hlt. destruct (Z_lt_ge_dec doe (year_start n)) as [Hl|Hge].
    + apply IH; [lia|]. destruct (Z.eqb_spec n 400); lia.
    + exists n, (doe - year_start n). split; [lia|]. split; [|lia].
      destruct (year_facts n ltac:(lia)) as (_ & _ & [->|H3]).
      * cbn in Hlt. replace (year_start 399) with 145731 in * by reflexivity.
        replace (year_days 399) with 366 by reflexivity. lia.
      * destruct (Z.eqb_spec (Z.succ n) 400); [|replace (n + 1) with (Z.succ n) in H3 by lia; lia].
        assert (n = 399) by lia. subst n. replace (year_start 399) with 145731 in * by reflexivity.
        replace (year_days 399) with 366 by reflexivity. lia.
Qed.

(** Month and day of a day of the March based year. *)
Definition mp_of (doy : Z) : Z := (5 * doy + 2) / 153.
Definition month_of (doy : Z) : Z := if mp_of doy <? 10 then mp_of doy + 3 else mp_of doy - 9.
Definition mday_of (doy : Z) : Z := doy - (153 * mp_of doy + 2) / 5 + 1.
Definition longest_month (m : Z) : Z := month_len 2000 m.

Definition doy_ok (doy : Z) : bool :=
  (1 <=? month_of doy) && (month_of doy <=? 12) && (1 <=? mday_of doy) && (mday_of doy <=? longest_month (month_of doy)) &&
  (implb (doy <=? 364) (negb ((month_of doy =? 2) && (mday_of doy =? 29)))) &&
  (if mday_of doy <? longest_month (month_of doy)
   then (month_of (doy + 1) =? month_of doy) && (mday_of (doy + 1) =? mday_of doy + 1)
   else (doy =? 365) || ((mday_of (doy + 1) =? 1) &&
        (if month_of doy <? 12 then (month_of (doy + 1) =? month_of doy + 1) && negb (month_of doy =? 2) else month_of (doy + 1) =? 1))).

Lemma doys_ok : all_from doy_ok 366 0 = true.
Proof. vm_compute. reflexivity. Qed.

Definition date_of (yoe doy : Z) : date :=
  {| d_year := if month_of doy <=? 2 then yoe + 1 else yoe; d_month := month_of doy; d_day := mday_of doy |}.

Lemma civil_of_doe_split y doy : 0 <= y <= 399 -> 0 <= doy < year_days y ->
  civil_of_doe (year_start y + doy) = date_of y doy.
Proof.
  intros Hy Hd. unfold civil_of_doe. fold (yoe_inner (year_start y + doy)). fold (yoe_of (year_start y + doy)).
  rewrite (yoe_in_year y doy Hy Hd). fold (year_start y).
  replace (year_start y + doy - year_start y) with doy by ring. reflexivity.
Qed.

Lemma year_days_range y : 365 <= year_days y <= 366.
Proof. unfold year_days. destruct (leap (y + 1)); lia. Qed.

Lemma date_of_facts y doy : 0 <= doy < year_days y ->
  valid_date (date_of y doy) /\
  next_date (date_of y doy) = (if doy + 1 <? year_days y then date_of y (doy + 1) else date_of (y + 1) 0).
Proof.
  intros Hd. pose proof (year_days_range y) as Hyd.
  pose proof (all_from_spec _ _ _ doys_ok doy ltac:(lia)) as Hok. unfold doy_ok in Hok.
  apply andb_true_iff in Hok as [Hok Hnext]. apply andb_true_iff in Hok as [Hok H29].
  apply andb_true_iff in Hok as [Hok H4]. apply andb_true_iff in Hok as [Hok H3]. apply andb_true_iff in Hok as [H1 H2].
  apply Z.leb_le in H1, H2, H3, H4.
  (* the length of the month in this year *)
  assert (Hlen : month_len (d_year (date_of y doy)) (month_of doy) =
                 if (month_of doy =? 2) && (year_days y =? 365) then 28 else longest_month (month_of doy)).
  { unfold longest_month, month_len, date_of, year_days; cbn [d_year].
    destruct (Z.eqb_spec (month_of doy) 2) as [E|E]; [|reflexivity]. rewrite E. cbn [Z.leb Z.compare Pos.compare Pos.compare_cont andb].
    destruct (leap (y + 1)); reflexivity. }
  assert (Hlong2 : longest_month 2 = 29) by reflexivity.
  assert (Hdoy29 : doy <= 364 -> ~ (month_of doy = 2 /\ mday_of doy = 29)).
  { intros Hle [E1 E2]. rewrite (proj2 (Z.leb_le _ _) Hle), E1, E2 in H29. discriminate. }
  assert (Hfeb : year_days y = 365 -> month_of doy = 2 -> mday_of doy <= 28).
  { intros E1 E2. rewrite E2, Hlong2 in H4. specialize (Hdoy29 ltac:(lia)). lia. }
  split.
  - unfold valid_date. change (d_month (date_of y doy)) with (month_of doy). rewrite Hlen. unfold date_of; cbn [d_month d_day]. split; [lia|].
    destruct ((month_of doy =? 2) && (year_days y =? 365)) eqn:E; lia.
  - unfold next_date. change (d_month (date_of y doy)) with (month_of doy). rewrite Hlen. unfold date_of; cbn [d_year d_month d_day].
    assert (H364 : month_of 364 = 2 /\ mday_of 364 = 28) by (split; reflexivity).
    assert (H365 : month_of 365 = 2 /\ mday_of 365 = 29) by (split; reflexivity).
    assert (H0 : month_of 0 = 3 /\ mday_of 0 = 1) by (split; reflexivity).
    destruct (Z.ltb_spec (doy + 1) (year_days y)) as [Hin|Hout].
    + (* inside the year *)
      assert (Hsame : ((month_of doy =? 2) && (year_days y =? 365)) = true -> mday_of doy < 28).
      { intros E. apply andb_true_iff in E as [E1 E2]. apply Z.eqb_eq in E1, E2. specialize (Hfeb E2 E1).
        destruct (Z.eq_dec (mday_of doy) 28) as [E28|]; [exfalso|lia].
        (* 28 February is day 364 *)
        rewrite E1, Hlong2, E28 in Hnext. cbn [Z.ltb Z.compare Pos.compare Pos.compare_cont] in Hnext.
        apply andb_true_iff in Hnext as [N1 N2]. apply Z.eqb_eq in N1, N2.
        pose proof (all_from_spec _ _ _ doys_ok (doy + 1) ltac:(lia)) as Hok1. unfold doy_ok in Hok1.
        rewrite N1, N2 in Hok1. rewrite (proj2 (Z.leb_le (doy + 1) 364) ltac:(lia)) in Hok1.
        cbn [Z.eqb Pos.eqb andb negb implb] in Hok1. rewrite !andb_false_r in Hok1. discriminate. }
      destruct (Z.ltb_spec (mday_of doy) (longest_month (month_of doy))) as [Hlt|Hge].
      * apply andb_true_iff in Hnext as [N1 N2]. apply Z.eqb_eq in N1, N2. rewrite N1, N2.
        destruct ((month_of doy =? 2) && (year_days y =? 365)) eqn:E.
        -- specialize (Hsame eq_refl). destruct (Z.ltb_spec (mday_of doy) 28); [reflexivity|lia].
        -- destruct (Z.ltb_spec (mday_of doy) (longest_month (month_of doy))); [reflexivity|lia].
      * apply orb_true_iff in Hnext as [N|Hnext]; [apply Z.eqb_eq in N; lia|].
        apply andb_true_iff in Hnext as [N1 N2]. apply Z.eqb_eq in N1. rewrite N1.
        assert (E : ((month_of doy =? 2) && (year_days y =? 365)) = false).
        { destruct ((month_of doy =? 2) && (year_days y =? 365)) eqn:E; [|reflexivity]. specialize (Hsame eq_refl).
          apply andb_true_iff in E as [E1 _]. apply Z.eqb_eq in E1. rewrite E1, Hlong2 in Hge. lia. }
        rewrite E. destruct (Z.ltb_spec (mday_of doy) (longest_month (month_of doy))); [lia|].
        destruct (Z.ltb_spec (month_of doy) 12).
        -- apply andb_true_iff in N2 as [N2 N3]. apply Z.eqb_eq in N2. rewrite negb_true_iff in N3. apply Z.eqb_neq in N3.
           rewrite N2. destruct (Z.leb_spec (month_of doy) 2), (Z.leb_spec (month_of doy + 1) 2); f_equal; lia.
        -- apply Z.eqb_eq in N2. rewrite N2. assert (month_of doy = 12) by lia.
           destruct (Z.leb_spec (month_of doy) 2); [lia|]. reflexivity.
    + (* last day of the year *)
      destruct H0 as [-> ->]. cbn [Z.leb Z.compare Pos.compare Pos.compare_cont].
      assert (year_days y = 365 \/ year_days y = 366) as [E|E] by lia; rewrite E in *.
      * assert (doy = 364) by lia. subst doy. destruct H364 as [-> ->]. reflexivity.
      * assert (doy = 365) by lia. subst doy. destruct H365 as [-> ->]. reflexivity.
Qed.

Lemma days_of_date_of y doy : 0 <= y <= 399 -> 0 <= doy < year_days y ->
  days_of (date_of y doy) = year_start y + doy - 719468.
Proof.
  intros Hy Hd. pose proof (year_days_range y) as Hyd. unfold days_of, date_of; cbn [d_year d_month d_day].
  assert (Hmp : 0 <= mp_of doy <= 11) by (unfold mp_of; lia).
  unfold mday_of, month_of, year_start.
  destruct (Z.ltb_spec (mp_of doy) 10).
  - destruct (Z.leb_spec (mp_of doy + 3) 2); [lia|].
    replace (mp_of doy + 3 - 3) with (mp_of doy) by ring. assert (y / 400 = 0) by lia. lia.
  - destruct (Z.leb_spec (mp_of doy - 9) 2); [|lia].
    replace (mp_of doy - 9 + 9) with (mp_of doy) by ring. replace (y + 1 - 1) with y by ring.
    assert (y / 400 = 0) by lia. lia.
Qed.

Lemma succ_era doe : 0 <= doe < 146097 ->
  valid_date (civil_of_doe doe) /\ days_of (civil_of_doe doe) = doe - 719468 /\
  (if doe =? 146096 then shift_year 1 (civil_of_doe 0) else civil_of_doe (doe + 1)) =
  next_date (civil_of_doe doe).
Proof.
  intros H. destruct (era_split doe H) as (y & doy & Hy & Hd & ->).
  rewrite (civil_of_doe_split y doy Hy Hd). destruct (date_of_facts y doy Hd) as [Hv Hn].
  split; [assumption|]. split; [now apply days_of_date_of|]. rewrite Hn.
  destruct (year_facts y Hy) as (_ & _ & Hnext).
  destruct (Z.ltb_spec (doy + 1) (year_days y)) as [Hin|Hout].
  - destruct (Z.eqb_spec (year_start y + doy) 146096) as [E|E].
    + exfalso. destruct Hnext as [->|Hnext].
      * replace (year_start 399) with 145731 in * by reflexivity. replace (year_days 399) with 366 in * by reflexivity. lia.
      * assert (y = 399 \/ y < 399) as [->|Hlt] by lia.
        -- replace (year_start 399) with 145731 in * by reflexivity. replace (year_days 399) with 366 in * by reflexivity. lia.
        -- assert (year_start (y + 1) <= 145731) by (unfold year_start; lia). lia.
    + rewrite <- (civil_of_doe_split y (doy + 1) Hy ltac:(lia)). f_equal. lia.
  - destruct (Z.eq_dec y 399) as [->|Hne].
    + assert (E : year_start 399 + doy = 146096).
      { replace (year_start 399) with 145731 in * by reflexivity. replace (year_days 399) with 366 in * by reflexivity. lia. }
      rewrite E. reflexivity.
    + destruct Hnext as [?|Hnext]; [lia|].
      assert (Hys : year_start (y + 1) <= 145731) by (unfold year_start; lia).
      destruct (Z.eqb_spec (year_start y + doy) 146096); [lia|].
      rewrite <- (civil_of_doe_split (y + 1) 0); [|lia|pose proof (year_days_range (y + 1)); lia].
      f_equal. lia.
Qed.

Lemma leap_shift y k : leap (y + 400 * k) = leap y.
Proof.
  unfold leap.
  replace (y + 400 * k) with (y + (100 * k) * 4) by ring. rewrite Z.mod_add by lia.
  replace (y + (100 * k) * 4) with (y + (4 * k) * 100) by ring. rewrite Z.mod_add by lia.
  replace (y + (4 * k) * 100) with (y + k * 400) by ring. rewrite Z.mod_add by lia.
  reflexivity.
Qed.

Lemma month_len_shift y m k : month_len (y + 400 * k) m = month_len y m.
Proof. unfold month_len. now rewrite leap_shift. Qed.

Lemma next_date_shift k d : next_date (shift_year k d) = shift_year k (next_date d).
Proof.
  destruct d as [y m dd]. unfold next_date, shift_year; cbn [d_year d_month d_day]. rewrite month_len_shift.
  destruct (dd <? month_len y m); [reflexivity|]. destruct (m <? 12); cbn [d_year d_month d_day]; [reflexivity|].
  f_equal. lia.
Qed.

Lemma valid_shift k d : valid_date d -> valid_date (shift_year k d).
Proof. destruct d as [y m dd]; unfold valid_date, shift_year; cbn [d_year d_month d_day]. now rewrite month_len_shift. Qed.

Lemma civil_eq z : civil z = shift_year ((z + 719468) / 146097) (civil_of_doe ((z + 719468) mod 146097)).
Proof. reflexivity. Qed.

Lemma civil_valid z : valid_date (civil z).
Proof.
  rewrite civil_eq. apply valid_shift. apply succ_era. apply Z.mod_pos_bound. lia.
Qed.

Lemma civil_succ z : civil (z + 1) = next_date (civil z).
Proof.
  rewrite !civil_eq. set (u := z + 719468).
  replace (z + 1 + 719468) with (u + 1) by (unfold u; ring).
  pose proof (Z.mod_pos_bound u 146097 ltac:(lia)) as Hm.
  destruct (succ_era (u mod 146097) Hm) as (_ & _ & Hs).
  rewrite next_date_shift. rewrite <- Hs.
  destruct (Z.eqb_spec (u mod 146097) 146096) as [E|E].
  - assert (Hd : (u + 1) / 146097 = u / 146097 + 1 /\ (u + 1) mod 146097 = 0) by lia.
    destruct Hd as [-> ->]. unfold shift_year; cbn [d_year d_month d_day]. f_equal. lia.
  - assert (Hd : (u + 1) / 146097 = u / 146097 /\ (u + 1) mod 146097 = u mod 146097 + 1) by lia.
    destruct Hd as [-> ->]. reflexivity.
Qed.

Theorem civil_is_calendar : is_calendar civil.
Proof. split; [reflexivity|exact civil_succ]. Qed.

Theorem weekday_is_weekday : is_weekday weekday.
Proof.
  split; [reflexivity|]. intros z. unfold weekday.
  destruct (Z.eqb_spec ((z + 4) mod 7) 6) as [E|E]; lia.
Qed.

Lemma weekday_range z : 0 <= weekday z <= 6.
Proof. unfold weekday. lia. Qed.

Lemma weekday_add z n : weekday (z + n) = (weekday z + n) mod 7.
Proof. unfold weekday. lia. Qed.

(** next_date is the only predecessor-injective ... *)
Lemma next_date_lt d : valid_date d -> date_lt d (next_date d).
Proof.
  destruct d as [y m dd]. unfold valid_date, date_lt, next_date; cbn. intros [Hm Hd].
  destruct (Z.ltb_spec dd (month_len y m)); cbn; [lia|]. destruct (Z.ltb_spec m 12); cbn; lia.
Qed.

Lemma date_lt_trans a b c : date_lt a b -> date_lt b c -> date_lt a c.
Proof. unfold date_lt. lia. Qed.

Lemma civil_mono_nat z n : date_lt (civil z) (civil (z + Z.of_nat (S n))).
Proof.
  induction n as [|n IH].
  - replace (z + Z.of_nat 1) with (z + 1) by lia. rewrite civil_succ. apply next_date_lt, civil_valid.
  - eapply date_lt_trans; [exact IH|].
    replace (z + Z.of_nat (S (S n))) with ((z + Z.of_nat (S n)) + 1) by lia.
    rewrite civil_succ. apply next_date_lt, civil_valid.
Qed.

Lemma civil_mono a b : a < b -> date_lt (civil a) (civil b).
Proof.
  intros H. pose proof (civil_mono_nat a (Z.to_nat (b - a - 1))) as Hm.
  replace (a + Z.of_nat (S (Z.to_nat (b - a - 1)))) with b in Hm by lia. exact Hm.
Qed.

Lemma date_lt_irrefl a : ~ date_lt a a.
Proof. unfold date_lt. lia. Qed.

Lemma civil_lt_iff a b : a < b <-> date_lt (civil a) (civil b).
Proof.
  split; [apply civil_mono|]. intros H.
  destruct (Z.lt_trichotomy a b) as [?|[->|?]]; [assumption|now apply date_lt_irrefl in H|].
  exfalso. eapply date_lt_irrefl, date_lt_trans; [exact H|]. now apply civil_mono.
Qed.

Lemma civil_inj a b : civil a = civil b -> a = b.
Proof.
  intros H. destruct (Z.lt_trichotomy a b) as [Hlt|[?|Hlt]]; [|assumption|];
    apply civil_mono in Hlt; rewrite H in Hlt; now apply date_lt_irrefl in Hlt.
Qed.

Lemma days_of_shift k d : days_of (shift_year k d) = days_of d + 146097 * k.
Proof. destruct d as [y m dd]; unfold days_of, shift_year; cbn [d_year d_month d_day]. destruct (m <=? 2); lia. Qed.

Lemma days_of_civil z : days_of (civil z) = z.
Proof.
  rewrite civil_eq, days_of_shift. set (u := z + 719468).
  pose proof (Z.mod_pos_bound u 146097 ltac:(lia)) as Hm.
  destruct (succ_era _ Hm) as (_ & Hs & _). rewrite Hs. subst u. lia.
Qed.

(** Day of the March based year of a month and day. *)
Definition doy_of (m d : Z) : Z := (153 * (if m <=? 2 then m + 9 else m - 3) + 2) / 5 + d - 1.
Definition md_ok (m d : Z) : bool :=
  implb (d <=? longest_month m)
    ((0 <=? doy_of m d) && (doy_of m d <=? 365) && (month_of (doy_of m d) =? m) && (mday_of (doy_of m d) =? d) &&
     implb (negb ((m =? 2) && (d =? 29))) (doy_of m d <=? 364)).
Lemma mds_ok : all_from (fun m => all_from (md_ok m) 31 1) 12 1 = true.
Proof. vm_compute. reflexivity. Qed.

Lemma date_of_doy y m d : 1 <= m <= 12 -> 1 <= d ->
  d <= month_len (if m <=? 2 then y + 1 else y) m ->
  0 <= doy_of m d < year_days y /\
  date_of y (doy_of m d) = {| d_year := if m <=? 2 then y + 1 else y; d_month := m; d_day := d |}.
Proof.
  intros Hm Hd Hlen.
  assert (Hlong : month_len (if m <=? 2 then y + 1 else y) m <= longest_month m <= 31).
  { unfold longest_month, month_len. replace (leap 2000) with true by reflexivity.
    destruct (m =? 2); [destruct (leap _); lia|]. destruct (_ || _); lia. }
  pose proof (all_from_spec _ _ _ mds_ok m ltac:(lia)) as H1. cbn beta in H1.
  pose proof (all_from_spec _ _ _ H1 d ltac:(lia)) as H2. unfold md_ok in H2.
  rewrite (proj2 (Z.leb_le _ _) (Z.le_trans _ _ _ Hlen (proj1 Hlong))) in H2. cbn [implb] in H2.
  apply andb_true_iff in H2 as [H2 H364]. apply andb_true_iff in H2 as [H2 Hmd]. apply andb_true_iff in H2 as [H2 Hmo].
  apply andb_true_iff in H2 as [Hlo Hhi]. apply Z.leb_le in Hlo, Hhi. apply Z.eqb_eq in Hmd, Hmo.
  split.
  - split; [assumption|]. unfold year_days. destruct (leap (y + 1)) eqn:El; [lia|].
    destruct ((m =? 2) && (d =? 29)) eqn:E; cbn [negb implb] in H364; [|apply Z.leb_le in H364; lia].
    apply andb_true_iff in E as [E1 E2]. apply Z.eqb_eq in E1, E2. subst m d. exfalso.
    cbn [Z.leb Z.compare Pos.compare Pos.compare_cont] in Hlen. unfold month_len in Hlen. rewrite El in Hlen. cbn in Hlen. lia.
  - unfold date_of. now rewrite Hmd, Hmo.
Qed.

Lemma civil_shift z k : civil (z + 146097 * k) = shift_year k (civil z).
Proof.
  rewrite !civil_eq. replace (z + 146097 * k + 719468) with (z + 719468 + k * 146097) by ring.
  rewrite Z.mod_add, Z.div_add by lia. unfold shift_year; cbn [d_year d_month d_day]. f_equal. lia.
Qed.

Lemma month_len_bound y m : 28 <= month_len y m <= 31.
Proof. unfold month_len. repeat match goal with |- context [if ?b then _ else _] => destruct b end; lia. Qed.

(** Every date of the calendar is reached. *)
Lemma civil_days_of d : valid_date d -> civil (days_of d) = d.
Proof.
  intros Hv. destruct d as [y m dd]. pose proof Hv as [Hm Hdd]. cbn [d_year d_month d_day] in *.
  set (y' := if m <=? 2 then y - 1 else y). set (k := y' / 400). set (y0 := y' - 400 * k).
  assert (Hy0 : 0 <= y0 <= 399) by (unfold y0, k; lia).
  assert (Ey : y = (if m <=? 2 then y0 + 1 else y0) + 400 * k).
  { unfold y0, y'. destruct (m <=? 2); lia. }
  clearbody k y0. clear y'. subst y.
  rewrite month_len_shift in Hdd. destruct (date_of_doy y0 m dd Hm (proj1 Hdd) (proj2 Hdd)) as [Hdoy Hdate].
  change {| d_year := (if m <=? 2 then y0 + 1 else y0) + 400 * k; d_month := m; d_day := dd |}
    with (shift_year k {| d_year := if m <=? 2 then y0 + 1 else y0; d_month := m; d_day := dd |}).
  rewrite <- Hdate, days_of_shift, civil_shift. f_equal.
  rewrite (days_of_date_of y0 _ Hy0 Hdoy), civil_eq.
  replace (year_start y0 + doy_of m dd - 719468 + 719468) with (year_start y0 + doy_of m dd) by ring.
  assert (Hr : 0 <= year_start y0 + doy_of m dd < 146097).
  { pose proof (year_days_range y0). unfold year_start. lia. }
  rewrite Z.mod_small, Z.div_small by assumption. rewrite (civil_of_doe_split y0 _ Hy0 Hdoy).
  unfold shift_year. destruct (date_of y0 (doy_of m dd)) as [a b c]. cbn [d_year d_month d_day]. f_equal. lia.
Qed.
