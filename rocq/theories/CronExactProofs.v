(** The next execution is the earliest one exactly under three conditions. *)
From Coq Require Import ZArith List Bool Lia.
From Verif Require Import Base CronModel SpecCron SpecCal SpecSched SpecExact CalendarProofs CronNextProofs CronSchedProofs CronReachProofs.
Import ListNotations.
Local Open Scope Z_scope.

Lemma wall_fields tz t : wall_hour tz t = local_hour tz t /\ wall_minute tz t = local_minute tz t.
Proof.
  unfold wall_hour, wall_minute, local_hour, local_minute, wall_sec. fold (utc_sec t). fold (local_sec tz t).
  split; [reflexivity|]. f_equal. unfold DAY. generalize (local_sec tz t) as x. intros x.
  rewrite <- (Znumtheory.Zmod_div_mod 3600 86400 x); [reflexivity|lia|lia|exists 24; reflexivity].
Qed.

(** The time of day of the plan is the first one of the day. *)
Definition first_time (d : timer_desc) (p : plan) : Prop :=
  forall h m, In h (td_hour d) -> In m (td_minute d) -> p_hour p * 3600 + p_min p * 60 <= h * 3600 + m * 60.
Definition first_left (tz : zone) (d : timer_desc) (from : instant) (p : plan) : Prop :=
  forall h m, In h (td_hour d) -> In m (td_minute d) -> wall_sec tz from < h * 3600 + m * 60 ->
  p_hour p * 3600 + p_min p * 60 <= h * 3600 + m * 60.

Definition split_minutes (tz : zone) (d : timer_desc) (from : instant) : Prop :=
  exists m m', In m (td_minute d) /\ In m' (td_minute d) /\ m <= local_minute tz from < m'.

Section time.
  Context (tz : zone) (d : timer_desc) (from : instant) (p : plan) (Hok : desc_ok d) (Hp : plan_ok tz d from p).
  Local Notation HH := (local_hour tz from).
  Local Notation MM := (local_minute tz from).

  (* the minute of the plan is the first one of the list unless the list is split *)
  Lemma minute_first : (p_c1 p = 0 /\ MM < p_min p /\ forall m, In m (td_minute d) -> MM < m -> p_min p <= m) \/
    (p_c1 p = 1 /\ (forall m, In m (td_minute d) -> m <= MM) /\ forall m, In m (td_minute d) -> p_min p <= m).
  Proof using Hp.
    destruct Hp as ([_ [(E & Hge & Hmin)|(E & Hlt & Hmin)]] & _).
    - left. split; [exact E|]. split; [lia|]. intros m Hm Hl. apply Hmin; [exact Hm|lia].
    - right. split; [exact E|]. split; [|exact Hmin]. intros m Hm. specialize (Hlt _ Hm). lia.
  Qed.
  Lemma hour_first : (p_c2 p = 0 /\ HH + p_c1 p <= p_hour p /\ forall h, In h (td_hour d) -> HH + p_c1 p <= h -> p_hour p <= h) \/
    (p_c2 p = 1 /\ (forall h, In h (td_hour d) -> h < HH + p_c1 p) /\ forall h, In h (td_hour d) -> p_hour p <= h).
  Proof using Hp. destruct Hp as (_ & [_ [(E & Hge & Hmin)|(E & Hlt & Hmin)]] & _); [left|right]; auto. Qed.
  Lemma ranges : In (p_hour p) (td_hour d) /\ In (p_min p) (td_minute d) /\
    (forall h, In h (td_hour d) -> 0 <= h <= 23) /\ (forall m, In m (td_minute d) -> 0 <= m <= 59) /\
    0 <= HH <= 23 /\ 0 <= MM <= 59 /\ HH * 3600 + MM * 60 <= wall_sec tz from < HH * 3600 + (MM + 1) * 60.
  Proof using Hok Hp.
    destruct (plan_hm _ _ _ _ Hok Hp) as (A & B & _). destruct (local_fields tz from) as (C & D & E).
    destruct Hok as ((_ & _ & F) & (_ & _ & G) & _). auto 8.
  Qed.
  Lemma later h m : 0 <= h <= 23 -> 0 <= m <= 59 -> wall_sec tz from < h * 3600 + m * 60 <-> HH < h \/ HH = h /\ MM < m.
  Proof using Hok Hp. destruct ranges as (_ & _ & _ & _ & A & B & C). intros. lia. Qed.

  Lemma not_split_first m : ~ split_minutes tz d from -> In m (td_minute d) -> p_min p <= m.
  Proof using Hp Hok.
    intros N Hm. destruct minute_first as [(_ & Hl & Hmin)|(_ & _ & Hmin)]; [|auto].
    destruct (Z_lt_le_dec MM m) as [L|L]; [auto|]. exfalso. apply N. exists m, (p_min p).
    split; [exact Hm|]. split; [apply ranges|lia].
  Qed.

  (** On another day, with nothing left today. *)
  Lemma first_none : p_c2 p = 1 -> (first_time d p <-> ~ split_minutes tz d from).
  Proof using Hok Hp.
    intros Hc. destruct ranges as (Ih & Im & Rh & Rm & RH & RM & _). split.
    - intros F (m & m' & Hm & Hm' & L). specialize (F _ _ Ih Hm). destruct minute_first as [(_ & Hl & _)|(_ & Hall & _)]; [lia|].
      specialize (Hall _ Hm'). lia.
    - intros N h m Hh Hm. destruct hour_first as [(E & _)|(_ & _ & Hle)]; [lia|]. specialize (Hle _ Hh).
      pose proof (not_split_first m N Hm). lia.
  Qed.

  (** Today. *)
  Lemma first_today : p_c2 p = 0 -> (first_left tz d from p <-> (split_minutes tz d from -> In HH (td_hour d))).
  Proof using Hok Hp.
    intros Hc. destruct ranges as (Ih & Im & Rh & Rm & RH & RM & _). destruct hour_first as [(_ & Hge & Hle)|(E & _)]; [|lia]. split.
    - intros F (m & m' & Hm & Hm' & L). destruct minute_first as [(E1 & Hl & _)|(_ & Hall & _)]; [|specialize (Hall _ Hm'); lia].
      destruct (Z.eq_dec (p_hour p) HH) as [<-|Ne]; [exact Ih|]. exfalso.
      specialize (F _ _ Ih Hm (proj2 (later _ _ (Rh _ Ih) (Rm _ Hm)) ltac:(lia))). lia.
    - intros S h m Hh Hm L. apply later in L; [|auto|auto]. pose proof (Rm _ Hm). pose proof (Rm _ Im).
      destruct minute_first as [(E1 & Hl & Hmin)|(E1 & Hall & Hmin)]; rewrite E1 in *.
      + pose proof (Hle h Hh ltac:(lia)) as Hle'. destruct (Z.eq_dec (p_hour p) h) as [Eh|]; [|lia].
        destruct (Z_lt_le_dec MM m) as [LM|LM]; [specialize (Hmin _ Hm LM); lia|].
        assert (SH : In HH (td_hour d)) by (apply S; exists m, (p_min p); auto).
        specialize (Hle _ SH ltac:(lia)). lia.
      + specialize (Hmin _ Hm). specialize (Hle h Hh). specialize (Hall _ Hm). lia.
  Qed.

  (** On another day although something is left today. *)
  Lemma first_other : p_c2 p = 0 -> (first_time d p <-> all_left_today tz d from /\ ~ split_minutes tz d from).
  Proof using Hok Hp.
    intros Hc. destruct ranges as (Ih & Im & Rh & Rm & RH & RM & _). destruct hour_first as [(_ & Hge & Hle)|(E & _)]; [|lia]. split.
    - intros F. split.
      + intros h m Hh Hm. pose proof (F _ _ Hh Hm) as X. destruct (plan_carry _ _ _ _ Hp Hok) as [(_ & Y & _)|(E & _)]; lia.
      + intros (m & m' & Hm & Hm' & L). specialize (F _ _ Ih Hm). destruct minute_first as [(_ & Hl & _)|(_ & Hall & _)]; [lia|].
        specialize (Hall _ Hm'). lia.
    - intros [A N] h m Hh Hm. pose proof (not_split_first m N Hm). pose proof (Rm _ Hm). pose proof (Rm _ Im).
      specialize (A _ _ Hh Im). apply later in A; [|auto|auto].
      enough (p_hour p <= h) by lia. apply Hle; [exact Hh|].
      destruct minute_first as [(E1 & Hl & _)|(E1 & Hall & _)]; [lia|]. specialize (Hall _ Im). lia.
  Qed.
End time.

Lemma least_from (P : Z -> Prop) a : (forall x, P x \/ ~ P x) -> forall n, P (a + Z.of_nat n) ->
  exists x, a <= x <= a + Z.of_nat n /\ P x /\ forall y, a <= y -> P y -> x <= y.
Proof.
  intros Dec n. revert a. induction n as [|n IH]; intros a Pz.
  - exists a. replace (a + Z.of_nat 0) with a in Pz by lia. split; [lia|]. auto.
  - destruct (Dec a) as [Pa|Na]; [exists a; split; [lia|]; auto|].
    replace (a + Z.of_nat (S n)) with (a + 1 + Z.of_nat n) in Pz by lia.
    destruct (IH _ Pz) as (x & Hx & Px & Min). exists x. split; [lia|]. split; [exact Px|].
    intros y Hy Py. apply Min; [|exact Py]. destruct (Z.eq_dec y a) as [->|]; [contradiction|lia].
Qed.

Lemma date_ok_dec d z : date_ok d z \/ ~ date_ok d z.
Proof.
  unfold date_ok. destruct (in_dec Z.eq_dec (d_day (civil z)) (td_day d)), (in_dec Z.eq_dec (d_month (civil z)) (td_month d)); tauto.
Qed.

Section day.
  Context (o : Z) (d : timer_desc) (from : instant) (p : plan) (Hok : desc_ok d) (Hp : plan_ok (fixed o) d from p).
  Local Notation tz := (fixed o).
  Local Notation z0 := (wall_day (fixed o) from).

  Lemma carries : exists tomorrow again again' : bool, (tomorrow = true <-> none_left_today tz d from) /\
    p_c2 p = (if tomorrow then 1 else 0) /\ p_c4 p = (if again' then 1 else 0) /\
    next_listed (d_day (civil z0) + if tomorrow then 1 else 0) (td_day d) (p_day p) again /\
    next_listed (d_month (civil z0) + if again then 1 else 0) (td_month d) (p_mon p) again'.
  Proof using Hok Hp.
    pose proof Hp as (_ & _ & _ & S4 & S5 & _). change (local_day tz from) with z0 in S4, S5.
    apply next_spec_listed in S4 as (a & S4 & E4). apply next_spec_listed in S5 as (a' & S5 & E5). rewrite E4 in S5.
    destruct (plan_carry _ _ _ _ Hp Hok) as [(E & _ & N)|(E & _ & N)]; rewrite E in *.
    - exists false, a, a'. split; [split; [discriminate|contradiction]|]. auto.
    - exists true, a, a'. split; [tauto|]. auto.
  Qed.

  Lemma found_iff z : date_found tz d from z <->
    d_day (civil z) = p_day p /\ d_month (civil z) = p_mon p /\ (p_c4 p = 1 -> z0 + 365 <= z).
  Proof using Hok Hp.
    destruct carries as (t & a & a' & T & E2 & E4 & D & M). split.
    - intros (t1 & a1 & a1' & T1 & D1 & M1 & L).
      assert (t = t1) as <- by (destruct t, t1; try reflexivity; exfalso; intuition discriminate).
      destruct (next_listed_unique _ _ _ _ _ _ D1 D) as [ED <-]. destruct (next_listed_unique _ _ _ _ _ _ M1 M) as [EM <-].
      split; [exact ED|]. split; [exact EM|]. intros X. apply L. destruct a1'; [reflexivity|lia].
    - intros (ED & EM & L). exists t, a, a'. rewrite ED, EM. split; [exact T|]. split; [exact D|]. split; [exact M|].
      intros ->. apply L. exact E4.
  Qed.

  Lemma found_reached z : date_relevant d = true -> z0 <= z -> date_found tz d from z -> z0 + p_date p <= z.
  Proof using Hok Hp.
    intros R L F. apply found_iff in F as (ED & EM & L4).
    pose proof Hp as (_ & _ & _ & _ & S5 & _ & Hdd & _). rewrite R in Hdd. apply date_search_ret in Hdd as (_ & _ & _ & Hno).
    destruct (Z_le_gt_dec (z0 + p_date p) z) as [|G]; [assumption|]. exfalso. apply (Hno (z - z0)).
    - destruct S5 as [_ [(E4 & _)|(E4 & _)]]; rewrite E4 in *; [lia|]. specialize (L4 eq_refl). lia.
    - apply date_hit_fixed. change (local_day tz from) with z0. replace (z0 + (z - z0)) with z by ring. auto.
  Qed.
  Lemma reached_found : date_relevant d = true -> date_found tz d from (z0 + p_date p) /\ date_ok d (z0 + p_date p) /\ p_c2 p <= p_date p.
  Proof using Hok Hp.
    intros R. pose proof Hp as (_ & _ & _ & S4 & S5 & _ & Hdd & _). rewrite R in Hdd.
    apply date_search_ret in Hdd as (Hge & Hhit & _ & _). apply date_hit_fixed in Hhit as [ED EM].
    change (local_day tz from) with z0 in ED, EM. split; [|split].
    - apply found_iff. split; [exact ED|]. split; [exact EM|]. intros E. rewrite E in Hge. lia.
    - unfold date_ok. rewrite ED, EM. split; [apply S4|apply S5].
    - pose proof (plan_date_pos _ _ _ _ Hp) as X. destruct (plan_n_nonneg _ _ _ _ Hp) as (_ & N & _).
      destruct (c2_cases _ _ _ _ Hp) as [E|E]; [lia|]. specialize (X E R). lia.
  Qed.

  (** The day of the plan is the first one that matches. *)
  Definition day_first : Prop := forall z, z0 + p_c2 p <= z -> day_matches d z -> z0 + p_n p <= z.

  Lemma day_first_iff : week_kept tz d from -> (day_first <-> date_kept tz d from) /\ p_c2 p <= p_n p.
  Proof using Hok Hp.
    intros W. pose proof (ahead_c2 _ _ _ _ Hok Hp) as A. change (local_day tz from) with z0 in A.
    assert (Hnot : ~ (p_c2 p = 1 /\ td_weekday d = [weekday z0])).
    { intros [Ec E]. apply W. split; [exact E|]. destruct (plan_carry _ _ _ _ Hp Hok) as [(Hc & _)|(_ & _ & Hn)]; [lia|exact Hn]. }
    destruct (week_first _ _ _ _ Hok Hp Hnot) as [Hwge Hw]. change (local_day tz from) with z0 in Hw.
    assert (Wok : weekday_ok d (z0 + p_week p)).
    { unfold weekday_ok. pose proof Hp as (_ & _ & S3 & _ & _ & Hwk & _). change (local_day tz from) with z0 in *.
      rewrite weekday_add, Hwk. destruct S3 as [Hin _]. pose proof Hok as (_ & _ & _ & _ & (_ & _ & Hrg)).
      pose proof (Hrg _ Hin) as Hr. pose proof (weekday_range z0) as Hwr.
      replace ((weekday z0 + (p_wd p - weekday z0) mod 7) mod 7) with (p_wd p) by lia. exact Hin. }
    pose proof Hp as (_ & _ & _ & _ & _ & _ & _ & Hn).
    destruct (date_relevant d) eqn:R.
    - assert (Dr := proj1 (date_relevant_iff d Hok) R). destruct (reached_found R) as (F & Fok & Fge).
      destruct (weekday_relevant d) eqn:WR.
      + assert (Wr := proj1 (weekday_relevant_iff d Hok) WR). split; [|lia]. split.
        * intros DF _ z (Az & Zok & Zmin). apply A in Az.
          assert (z0 + p_n p <= z) by (apply DF; [exact Az|]; split; [auto|split; intros; contradiction]).
          destruct (Z_le_gt_dec (p_week p) (p_date p)) as [L|L].
          -- right. split; [exact Wr|]. exists (z0 + p_week p). split; [lia|]. split; [apply A; lia|exact Wok].
          -- left. replace z with (z0 + p_date p); [exact F|]. assert (z <= z0 + p_date p) by (apply Zmin; [apply A; lia|exact Fok]). lia.
        * intros DK z Lz (Mz & _). destruct (Mz Wr Dr) as [Mw|Md]; [specialize (Hw z Lz Mw); lia|].
          destruct (least_from (date_ok d) (z0 + p_c2 p) (date_ok_dec d) (Z.to_nat (z - (z0 + p_c2 p)))) as (x & Lx & Ox & Minx).
          { replace (z0 + p_c2 p + _) with z by lia. exact Md. }
          assert (FD : first_date tz d from x).
          { split; [apply A; lia|]. split; [exact Ox|]. intros y Ay. apply Minx. apply A. exact Ay. }
          pose proof (c2_cases _ _ _ _ Hp).
          destruct (DK Dr x FD) as [Fx|(_ & y & Ly & Ay & Wy)].
          -- pose proof (found_reached x R ltac:(lia) Fx). lia.
          -- specialize (Hw y (proj1 (A y) Ay) Wy). lia.
      + assert (Wr := proj1 (weekday_relevant_false d Hok) WR). split; [|lia]. split.
        * intros DF _ z (Az & Zok & Zmin). apply A in Az. left.
          assert (z0 + p_n p <= z) by (apply DF; [exact Az|]; split; [intros; contradiction|split; [auto|intros; contradiction]]).
          replace z with (z0 + p_date p); [exact F|]. assert (z <= z0 + p_date p) by (apply Zmin; [apply A; lia|exact Fok]). lia.
        * intros DK z Lz (_ & Mz & _). specialize (Mz Wr Dr).
          destruct (least_from (date_ok d) (z0 + p_c2 p) (date_ok_dec d) (Z.to_nat (z - (z0 + p_c2 p)))) as (x & Lx & Ox & Minx).
          { replace (z0 + p_c2 p + _) with z by lia. exact Mz. }
          assert (FD : first_date tz d from x).
          { split; [apply A; lia|]. split; [exact Ox|]. intros y Ay. apply Minx. apply A. exact Ay. }
          pose proof (c2_cases _ _ _ _ Hp).
          destruct (DK Dr x FD) as [Fx|(Wr' & _)]; [|contradiction].
          pose proof (found_reached x R ltac:(lia) Fx). lia.
    - assert (Dr := proj1 (date_relevant_false d Hok) R). split; [|lia]. split; [intros _ Dr'; contradiction|]. intros _ z Lz (_ & _ & Mz).
      destruct (weekday_relevant d) eqn:WR.
      + assert (Wr := proj1 (weekday_relevant_iff d Hok) WR). specialize (Hw z Lz (Mz Wr Dr)). lia.
      + assert (Wr := proj1 (weekday_relevant_false d Hok) WR).
        assert (Wz : weekday_ok d z).
        { unfold weekday_ok. destruct (in_dec Z.eq_dec (weekday z) (td_weekday d)); [assumption|]. exfalso. apply Wr.
          exists (weekday z). split; [pose proof (weekday_range z); lia|assumption]. }
        specialize (Hw z Lz Wz). lia.
  Qed.
End day.

Theorem earliest_iff o d from t : desc_ok d -> next_execution (fixed o) d from = Ret t ->
  (earliest (fixed o) d from t <-> week_kept (fixed o) d from /\ date_kept (fixed o) d from /\ time_kept (fixed o) d from).
Proof.
  intros Hok Hne. pose proof (next_execution_future_iff o d from t Hok Hne) as Fut.
  apply next_execution_fixed in Hne as (p & Hp & Hmax & Hw & Ht); [|assumption]. clear Hmax Hw. cbn zeta in Ht.
  set (z0 := wall_day (fixed o) from) in *. change (local_day (fixed o) from) with z0 in Ht.
  destruct (wall_fields (fixed o) from) as [WH WM].
  destruct (plan_hm _ _ _ _ Hok Hp) as (Ih & Im & Rh & Rm).
  destruct (plan_n_nonneg _ _ _ _ Hp) as (_ & _ & Hn0). pose proof (wall_sec_range (fixed o) from) as Hws.
  assert (Pm : day_matches d (z0 + p_n p)) by (apply plan_day_matches; [assumption|assumption|apply fixed_day_add]).
  assert (TK : time_kept (fixed o) d from <->
     (none_left_today (fixed o) d from \/ day_matches d z0 \/ all_left_today (fixed o) d from) /\
     (split_minutes (fixed o) d from -> day_matches d z0 /\ In (local_hour (fixed o) from) (td_hour d))).
  { unfold time_kept, split_minutes. fold z0. rewrite WH, WM. split; intros [X Y]; (split; [exact X|]).
    - intros (m & m' & A & B & C). exact (Y m m' A B C).
    - intros m m' A B C. apply Y. exists m, m'. auto. }
  rewrite TK. clear TK WH WM.
  (* another due instant with the clock of the plan's zone *)
  assert (Due : forall z h m, In h (td_hour d) -> In m (td_minute d) -> day_matches d z ->
            due_at (fixed o) d ((z * DAY + h * 3600 + m * 60 - o) * NS)).
  { intros z h m A B C. apply due_fixed. exists z, h, m. pose proof Hok as ((_ & _ & F) & (_ & _ & G) & _).
    specialize (F _ B). specialize (G _ A). split; [lia|]. split; [lia|]. auto. }
  assert (After : forall z h m, z0 < z \/ z = z0 /\ wall_sec (fixed o) from < h * 3600 + m * 60 -> 0 <= h -> 0 <= m ->
            from < (z * DAY + h * 3600 + m * 60 - o) * NS).
  { intros z h m A B C. apply fixed_after. rewrite local_sec_wall. fold z0. unfold DAY in *. lia. }
  assert (Rng : forall h m, In h (td_hour d) -> In m (td_minute d) -> 0 <= h <= 23 /\ 0 <= m <= 59).
  { intros h m A B. pose proof Hok as ((_ & _ & F) & (_ & _ & G) & _). auto. }
  split.
  - intros (Ft & _ & Min). assert (Wk : week_kept (fixed o) d from) by (apply Fut; exact Ft). split; [exact Wk|].
    destruct (day_first_iff o d from p Hok Hp Wk) as [DI Hcn].
    assert (Le : forall z h m, In h (td_hour d) -> In m (td_minute d) -> day_matches d z ->
              z0 < z \/ z = z0 /\ wall_sec (fixed o) from < h * 3600 + m * 60 ->
              (z0 + p_n p) * DAY + p_hour p * 3600 + p_min p * 60 <= z * DAY + h * 3600 + m * 60).
    { intros z h m A B C L. destruct (Rng _ _ A B). specialize (Min _ (After z h m L ltac:(lia) ltac:(lia)) (Due z h m A B C)).
      rewrite Ht in Min. pose proof NS_pos. nia. }
    assert (DF : day_first o d from p).
    { intros z Lz Mz. fold z0 in Lz |- *.
      assert (X := Le z (p_hour p) (p_min p) Ih Im Mz). destruct (plan_carry _ _ _ _ Hp Hok) as [(Ec & L & _)|(Ec & _)];
        unfold DAY in X; lia. }
    split; [apply DI; exact DF|].
    destruct (plan_carry _ _ _ _ Hp Hok) as [(Ec & L & Nn)|(Ec & _ & Nl)].
    + destruct (Z.eq_dec (p_n p) 0) as [E0|E0].
      * assert (M0 : day_matches d z0) by (rewrite E0 in Pm; replace (z0 + 0) with z0 in Pm by ring; exact Pm).
        split; [auto|]. intros Sp. split; [exact M0|]. apply (first_today _ _ _ _ Hok Hp Ec); [|exact Sp].
        intros h m A B C. specialize (Le z0 h m A B M0 ltac:(auto)). lia.
      * assert (FT : first_time d p).
        { intros h m A B. specialize (Le (z0 + p_n p) h m A B Pm ltac:(lia)). lia. }
        apply (first_other _ _ _ _ Hok Hp Ec) in FT as [AL NS']. split; [auto|]. intros Sp. contradiction.
    + assert (FT : first_time d p).
      { intros h m A B. specialize (Le (z0 + p_n p) h m A B Pm ltac:(lia)). lia. }
      apply (first_none _ _ _ _ Hok Hp Ec) in FT. split; [auto|]. intros Sp. contradiction.
  - intros (Wk & Dk & Tk1 & Tk2). destruct (day_first_iff o d from p Hok Hp Wk) as [DI Hcn]. apply DI in Dk. pose proof (c2_cases _ _ _ _ Hp) as Hc2. unfold day_first in Dk. fold z0 in Dk.
    eapply earliest_from_plan; [exact Hok|exact Hp|exact Ht|exact Hcn|exact Dk| |].
    + intros h m A B E0. apply (first_today _ _ _ _ Hok Hp); [lia|intros Sp; apply Tk2; exact Sp|exact A|exact B].
    + intros h m A B Pos. revert h m A B. change (first_time d p).
      assert (N0 : p_c2 p = 0 -> ~ day_matches d z0) by (intros E M0; specialize (Dk z0 ltac:(lia) M0); lia).
      destruct (plan_carry _ _ _ _ Hp Hok) as [(Ec & _ & Nn)|(Ec & _ & Nl)].
      * apply (first_other _ _ _ _ Hok Hp Ec). specialize (N0 Ec). split; [tauto|]. intros Sp. apply N0, Tk2, Sp.
      * apply (first_none _ _ _ _ Hok Hp Ec). intros Sp. destruct (Tk2 Sp) as [_ IH]. destruct Sp as (m & m' & Hm & Hm' & Lm).
        specialize (Nl _ _ IH Hm'). destruct (local_fields (fixed o) from) as (F1 & F2 & F3). lia.
Qed.
