From Coq Require Import String ZArith List Bool Sorted Lia ZifyBool.
From Verif Require Import Base RStr CronModel SpecCron SpecCal SpecSched CronParseProofs CalendarProofs CronNextProofs.
Import ListNotations.
Local Open Scope Z_scope.
Ltac Zify.zify_post_hook ::= Z.div_mod_to_equations.

(** ** Wall clock fields *)
Lemma NS_pos : 0 < NS. Proof. reflexivity. Qed.
Lemma DAY_pos : 0 < DAY. Proof. reflexivity. Qed.

Lemma local_sec_wall tz t : local_sec tz t = wall_day tz t * DAY + wall_sec tz t.
Proof. unfold local_sec, utc_sec, wall_day, wall_sec. pose proof DAY_pos. lia. Qed.

Lemma local_day_wall tz t : local_day tz t = wall_day tz t.
Proof. reflexivity. Qed.

Lemma wall_sec_range tz t : 0 <= wall_sec tz t < DAY.
Proof. unfold wall_sec. apply Z.mod_pos_bound, DAY_pos. Qed.

Lemma local_fields tz t :
  0 <= local_hour tz t <= 23 /\ 0 <= local_minute tz t <= 59 /\
  local_hour tz t * 3600 + local_minute tz t * 60 <= wall_sec tz t < local_hour tz t * 3600 + (local_minute tz t + 1) * 60.
Proof.
  unfold local_hour, local_minute, wall_sec. fold (utc_sec t). fold (local_sec tz t).
  generalize (local_sec tz t) as x. intros x. unfold DAY.
  pose proof (Z.div_mod x 86400). pose proof (Z.mod_pos_bound x 86400).
  assert (x mod 3600 = (x mod 86400) mod 3600) by lia. lia.
Qed.

(** ** A zone with a constant offset *)
Lemma fixed_ok o : zone_ok (fixed o).
Proof. intros s. now left. Qed.

Lemma fixed_day_add o from n : local_day (fixed o) (from + n * DAY * NS) = local_day (fixed o) from + n.
Proof.
  unfold local_day, local_sec. rewrite utc_sec_add. cbn [fixed z_off].
  replace (utc_sec from + n * DAY + o) with (utc_sec from + o + n * DAY) by ring.
  rewrite Z.div_add; [lia|unfold DAY; lia].
Qed.

Lemma resolve_fixed o w : resolve (fixed o) w = Some ((w - o) * NS).
Proof. unfold resolve, fixed; cbn [z_offs filter z_off]. rewrite Z.eqb_refl. reflexivity. Qed.

Lemma gap_search_fixed o w : gap_search (fixed o) w =
  if MAX_SEC <? w then Panic "`NaiveDateTime + TimeDelta` overflowed" else Ret ((w - o) * NS).
Proof.
  unfold gap_search. rewrite ploop_nloop. unfold GAP_FUEL.
  destruct (Pos2Nat.is_succ 15842) as [n ->]. cbn [nloop]. unfold gap_step.
  replace (w + 60 * 0) with w by ring. destruct (_ <? _); [reflexivity|]. now rewrite resolve_fixed.
Qed.

Lemma next_execution_fixed o d from t : desc_ok d -> next_execution (fixed o) d from = Ret t ->
  exists p, plan_ok (fixed o) d from p /\ utc_sec from + p_n p * DAY <= MAX_SEC /\
    let w := (local_day (fixed o) from + p_n p) * DAY + p_hour p * 3600 + p_min p * 60 in
    w <= MAX_SEC /\ t = (w - o) * NS.
Proof.
  intros Hok H. unfold next_execution in H. destruct (nominal (fixed o) d from) as [w|] eqn:En; [|discriminate].
  apply nominal_ret in En as (p & Hp & Hmax & Hw); [|assumption]. rewrite fixed_day_add in Hw.
  cbn [obind] in H. rewrite gap_search_fixed in H. destruct (Z.ltb_spec MAX_SEC w); [discriminate|].
  injection H as <-. exists p. cbn zeta. rewrite <- Hw. auto.
Qed.

(** ** The day of the plan *)
Lemma plan_day_matches tz d from p : desc_ok d -> plan_ok tz d from p ->
  local_day tz (from + p_n p * DAY * NS) = local_day tz from + p_n p ->
  day_matches d (local_day tz from + p_n p).
Proof.
  intros Hok (S1 & S2 & S3 & S4 & S5 & Hwk & Hdd & Hn) Hday.
  assert (Hweek : weekday_ok d (local_day tz from + p_week p)).
  { unfold weekday_ok. rewrite weekday_add, Hwk.
    destruct Hok as (_ & _ & _ & _ & Hw). destruct S3 as [Hin _]. pose proof (proj2 (proj2 Hw) _ Hin) as Hr.
    pose proof (weekday_range (local_day tz from)).
    replace ((weekday (local_day tz from) + (p_wd p - weekday (local_day tz from)) mod 7) mod 7) with (p_wd p) by lia.
    assumption. }
  assert (Hdate : date_relevant d = true -> p_n p = p_date p -> date_ok d (local_day tz from + p_n p)).
  { intros Hrel Hnd. rewrite Hrel in Hdd. apply date_search_ret in Hdd as (_ & [H1 H2] & _).
    rewrite <- Hnd in H1, H2. rewrite Hday in H1, H2. unfold date_ok. rewrite H1, H2.
    split; [apply S4|apply S5]. }
  split; [|split].
  - intros Hwr Hdr. apply weekday_relevant_iff in Hwr; [|assumption]. apply date_relevant_iff in Hdr; [|assumption].
    rewrite Hwr, Hdr in Hn. destruct (Z.min_spec (p_week p) (p_date p)) as [[_ Hmin]|[_ Hmin]]; rewrite Hmin in Hn.
    + left. now rewrite Hn.
    + right. now apply Hdate.
  - intros Hwr Hdr. apply weekday_relevant_false in Hwr; [|assumption]. apply date_relevant_iff in Hdr; [|assumption].
    rewrite Hwr, Hdr in Hn. now apply Hdate.
  - intros Hwr Hdr. apply date_relevant_false in Hdr; [|assumption]. rewrite Hdr in Hn. now rewrite Hn.
Qed.

Lemma plan_n_nonneg tz d from p : plan_ok tz d from p -> 0 <= p_week p <= 6 /\ 0 <= p_date p /\ 0 <= p_n p.
Proof.
  intros (S1 & S2 & S3 & S4 & S5 & Hwk & Hdd & Hn).
  assert (0 <= p_week p <= 6) by lia.
  assert (0 <= p_c4 p) by (destruct S5 as [_ [[-> _]|[-> _]]]; lia).
  assert (0 <= p_date p).
  { destruct (date_relevant d); [|lia]. apply date_search_ret in Hdd. lia. }
  rewrite Hn. destruct (date_relevant d), (weekday_relevant d); lia.
Qed.

Lemma plan_hm tz d from p : desc_ok d -> plan_ok tz d from p ->
  In (p_hour p) (td_hour d) /\ In (p_min p) (td_minute d) /\ 0 <= p_hour p <= 23 /\ 0 <= p_min p <= 59.
Proof.
  intros (Hm & Hh & _) (S1 & S2 & _). destruct S1 as [H1 _], S2 as [H2 _].
  split; [assumption|]. split; [assumption|]. split; [now apply Hh|now apply Hm].
Qed.

(** C17, constant offset *)
Theorem next_execution_due o d from t :
  desc_ok d -> next_execution (fixed o) d from = Ret t -> due_at (fixed o) d t.
Proof.
  intros Hok H. apply next_execution_fixed in H as (p & Hp & Hmax & Hw & ->); [|assumption].
  destruct (plan_hm _ _ _ _ Hok Hp) as (Hh & Hm & Hhr & Hmr).
  exists (local_day (fixed o) from + p_n p), (p_hour p), (p_min p).
  split; [|split; [assumption|split; [assumption|]]].
  - unfold at_wall. pose proof NS_pos.
    rewrite Z.mod_mul, Z.div_mul by lia. cbn [fixed z_off]. repeat split; lia.
  - apply plan_day_matches; [assumption|assumption|apply fixed_day_add].
Qed.

(** C17/C21, all zones: nominal time, first existing minute, earliest instant. *)
Theorem next_execution_zone tz d from t :
  zone_ok tz -> desc_ok d -> next_execution tz d from = Ret t ->
  exists n z h m k s,
    0 <= n /\ z = wall_day tz (from + n * DAY * NS) /\
    In h (td_hour d) /\ In m (td_minute d) /\
    (z = wall_day tz from + n -> day_matches d z) /\
    0 <= k <= 15840 /\ t = s * NS /\
    s + z_off tz s = z * DAY + h * 3600 + m * 60 + 60 * k /\
    (forall s', s' + z_off tz s' = z * DAY + h * 3600 + m * 60 + 60 * k -> s <= s') /\
    (forall j, 0 <= j < k -> ~ exists_wall tz (z * DAY + h * 3600 + m * 60 + 60 * j)).
Proof.
  intros Hz Hok H. unfold next_execution in H. destruct (nominal tz d from) as [w|] eqn:En; [|discriminate].
  apply nominal_ret in En as (p & Hp & Hmax & Hw); [|assumption]. cbn [obind] in H.
  apply gap_search_ret in H as (k & s & Hk & -> & Hs & Hmin & Hj); [|assumption].
  destruct (plan_hm _ _ _ _ Hok Hp) as (Hh & Hm & _). destruct (plan_n_nonneg _ _ _ _ Hp) as (_ & _ & Hn).
  exists (p_n p), (local_day tz (from + p_n p * DAY * NS)), (p_hour p), (p_min p), k, s.
  rewrite <- Hw. split; [assumption|]. split; [reflexivity|]. split; [assumption|]. split; [assumption|].
  split. { intros E. rewrite E. now apply plan_day_matches. }
  auto.
Qed.

(** ** C18 *)
Lemma plan_carry tz d from p : plan_ok tz d from p -> desc_ok d ->
  (p_c2 p = 0 /\ wall_sec tz from < p_hour p * 3600 + p_min p * 60 /\ ~ none_left_today tz d from) \/
  (p_c2 p = 1 /\ p_hour p * 3600 + p_min p * 60 <= wall_sec tz from /\ none_left_today tz d from).
Proof.
  intros Hp Hok. destruct (plan_hm _ _ _ _ Hok Hp) as (Hh & Hm & Hhr & Hmr).
  destruct Hp as (S1 & S2 & _). pose proof (local_fields tz from) as (Hfh & Hfm & Hws).
  destruct Hok as (Hmf & Hhf & _).
  destruct S2 as [_ [(E2 & Hge & _)|(E2 & Hlt & _)]].
  - left. assert (Hlater : wall_sec tz from < p_hour p * 3600 + p_min p * 60).
    { destruct S1 as [_ [(E1 & Hge1 & _)|(E1 & Hlt1 & _)]]; rewrite E1 in *; nia. }
    split; [assumption|]. split; [assumption|]. intros Hn. specialize (Hn _ _ Hh Hm). lia.
  - right. assert (Hnone : none_left_today tz d from).
    { intros h m Hhin Hmin. specialize (Hlt h Hhin). apply Hmf in Hmin as Hmr'. apply Hhf in Hhin as Hhr'.
      destruct S1 as [_ [(E1 & _)|(E1 & Hlt1 & _)]]; rewrite E1 in *; [nia|]. specialize (Hlt1 m Hmin). nia. }
    split; [assumption|]. split; [|assumption]. now apply Hnone.
Qed.

Lemma plan_date_pos tz d from p : plan_ok tz d from p -> p_c2 p = 1 -> date_relevant d = true -> 0 < p_date p.
Proof.
  intros Hp Hc2 Hrel. destruct (plan_n_nonneg _ _ _ _ Hp) as (_ & Hge & _).
  destruct Hp as (S1 & S2 & S3 & S4 & S5 & Hwk & Hdd & Hn). rewrite Hrel in Hdd.
  apply date_search_ret in Hdd as (Hn0 & [H1 H2] & _).
  destruct (Z.eq_dec (p_date p) 0) as [E|E]; [exfalso|lia]. rewrite E in *.
  replace (from + 0 * DAY * NS) with from in H1, H2 by lia. rewrite Hc2 in S4.
  destruct S5 as [_ [(E4 & Hge4 & _)|(E4 & _)]]; [|lia].
  destruct S4 as [_ [(E3 & Hge3 & _)|(E3 & _)]]; rewrite E3 in *; lia.
Qed.

Lemma singleton_increasing l x : increasing l -> In x l -> (forall y, In y l -> y = x) -> l = [x].
Proof.
  intros Hs Hin Hall. destruct l as [|a [|b l]]; [destruct Hin| |].
  - f_equal. apply Hall. now left.
  - exfalso. pose proof (Hall a ltac:(now left)). pose proof (Hall b ltac:(right; now left)). subst.
    apply StronglySorted_inv in Hs as [_ Hs]. apply Forall_inv in Hs. lia.
Qed.

Lemma plan_n_zero tz d from p : desc_ok d -> plan_ok tz d from p -> p_c2 p = 1 ->
  (p_n p = 0 <-> td_weekday d = [weekday (local_day tz from)]).
Proof.
  intros Hok Hp Hc2. pose proof (plan_n_nonneg _ _ _ _ Hp) as (Hwk & Hdt & Hn0).
  pose proof (plan_date_pos _ _ _ _ Hp Hc2) as Hdp.
  pose proof (weekday_range (local_day tz from)) as Hwr.
  destruct Hp as (S1 & S2 & S3 & S4 & S5 & Hwkd & Hdd & Hn). rewrite Hc2 in S3.
  pose proof Hok as (_ & _ & _ & _ & (Hwne & Hwinc & Hwrg)).
  destruct S3 as [Hin3 S3]. pose proof (Hwrg _ Hin3) as Hpwd.
  assert (Hzero : p_week p = 0 <-> td_weekday d = [weekday (local_day tz from)]).
  { split.
    - intros E. assert (Ewd : p_wd p = weekday (local_day tz from)) by lia.
      destruct S3 as [(_ & Hge & _)|(_ & Hlt & Hle)]; [lia|].
      apply singleton_increasing; [assumption|now rewrite <- Ewd|].
      intros y Hy. specialize (Hlt y Hy). specialize (Hle y Hy). lia.
    - intros E. rewrite E in Hin3. destruct Hin3 as [Hin3|[]]. lia. }
  rewrite <- Hzero. rewrite Hn. destruct (date_relevant d) eqn:Erel; [|tauto].
  specialize (Hdp eq_refl). destruct (weekday_relevant d) eqn:Ewr; [lia|].
  split; [lia|]. intros E. exfalso. apply Hzero in E.
  unfold weekday_relevant in Ewr. rewrite E in Ewr. discriminate.
Qed.

Lemma fixed_after o from w : from < (w - o) * NS <-> local_sec (fixed o) from < w.
Proof. unfold local_sec, utc_sec; cbn [fixed z_off]. pose proof NS_pos. split; intros; nia. Qed.

Theorem next_execution_future_iff o d from t :
  desc_ok d -> next_execution (fixed o) d from = Ret t ->
  (from < t <-> ~ (td_weekday d = [weekday (wall_day (fixed o) from)] /\ none_left_today (fixed o) d from)).
Proof.
  intros Hok H. apply next_execution_fixed in H as (p & Hp & Hmax & Hw & ->); [|assumption].
  rewrite fixed_after, local_sec_wall. cbn zeta.
  change (local_day (fixed o) from) with (wall_day (fixed o) from).
  destruct (plan_hm _ _ _ _ Hok Hp) as (_ & _ & Hhr & Hmr).
  pose proof (plan_n_nonneg _ _ _ _ Hp) as (_ & _ & Hn).
  pose proof (wall_sec_range (fixed o) from) as Hws.
  destruct (plan_carry _ _ _ _ Hp Hok) as [(Hc2 & Hlt & Hnn)|(Hc2 & Hle & Hnn)].
  - split; [tauto|]. intros _. clear - Hlt Hn. revert Hlt Hn.
    generalize (wall_day (fixed o) from), (wall_sec (fixed o) from). unfold DAY. lia.
  - pose proof (plan_n_zero _ _ _ _ Hok Hp Hc2) as Hz.
    change (local_day (fixed o) from) with (wall_day (fixed o) from) in Hz. rewrite <- Hz.
    clear - Hn Hle Hnn Hws Hhr Hmr. revert Hn Hle Hnn Hws Hhr Hmr.
    generalize (wall_day (fixed o) from), (wall_sec (fixed o) from), (none_left_today (fixed o) d from).
    unfold DAY. intros z s P Hn Hle Hnn Hws Hhr Hmr.
    assert (p_n p = 0 \/ 1 <= p_n p) as [E|E] by lia; rewrite ?E; (split; [lia|]); [tauto|lia].
Qed.

(** ** C19 *)
Lemma date_hit_fixed o from nd nm n : date_hit (fixed o) from nd nm n <->
  d_day (civil (local_day (fixed o) from + n)) = nd /\ d_month (civil (local_day (fixed o) from + n)) = nm.
Proof. unfold date_hit. now rewrite fixed_day_add. Qed.

Lemma leap_within y : exists k, 1 <= k <= 8 /\ leap (y + k) = true.
Proof.
  assert (H : forall a, 1 <= a <= 4 -> (y + a) mod 4 = 0 -> (y + a) mod 100 <> 0 -> exists k, 1 <= k <= 8 /\ leap (y + k) = true).
  { intros a Ha H1 H2. exists a. split; [lia|]. unfold leap. apply Z.eqb_eq in H1. apply Z.eqb_neq in H2. now rewrite H1, H2. }
  assert (Hex : exists a, 1 <= a <= 4 /\ (y + a) mod 4 = 0).
  { exists (4 - y mod 4). lia. }
  destruct Hex as (a & Ha & H4). destruct (Z.eq_dec ((y + a) mod 100) 0) as [E|E]; [|eauto].
  exists (a + 4). split; [lia|]. unfold leap.
  assert (H1 : (y + (a + 4)) mod 4 = 0) by lia. assert (H2 : (y + (a + 4)) mod 100 <> 0) by lia.
  apply Z.eqb_eq in H1. apply Z.eqb_neq in H2. now rewrite H1, H2.
Qed.

Lemma date_exists z nd nm : 1 <= nm <= 12 -> 1 <= nd <= longest nm ->
  exists n, 0 <= n <= 3300 /\ d_day (civil (z + n)) = nd /\ d_month (civil (z + n)) = nm.
Proof.
  intros Hm Hd. pose proof (civil_valid z) as Hv. pose proof (days_of_civil z) as Hz.
  destruct (civil z) as [y m dd] eqn:Ec. cbn [d_year d_month d_day] in *.
  destruct (leap_within y) as (k & Hk & Hl).
  set (target := {| d_year := y + k; d_month := nm; d_day := nd |}).
  assert (Hvt : valid_date target).
  { split; cbn [d_year d_month d_day target]; [assumption|].
    unfold longest, month_len in Hd. unfold month_len. rewrite Hl. replace (leap 2000) with true in Hd by reflexivity. lia. }
  exists (days_of target - z). replace (z + (days_of target - z)) with (days_of target) by ring.
  rewrite civil_days_of by assumption. split; [|split; reflexivity].
  destruct Hv as [Hm0 Hd0]. cbn [d_year d_month d_day] in *. pose proof (month_len_bound y m).
  pose proof (month_len_bound 2000 nm). unfold longest in Hd.
  rewrite <- Hz. unfold days_of, target; cbn [d_year d_month d_day].
  destruct (Z.leb_spec nm 2), (Z.leb_spec m 2); lia.
Qed.

(** The date of the plan is the one looked for. *)
Lemma next_spec_listed k l x c : next_spec k l x c -> exists again, next_listed k l x again /\ c = if again then 1 else 0.
Proof.
  intros [Hin [(-> & H1 & H2)|(-> & H1 & H2)]]; [exists false|exists true]; (split; [|reflexivity]); split; auto.
Qed.
Lemma next_listed_unique k l x a x' a' : next_listed k l x a -> next_listed k l x' a' -> x = x' /\ a = a'.
Proof.
  intros [H1 H2] [H1' H2']. destruct a, a'.
  - split; [|reflexivity]. destruct (H2 x' H1'), (H2' x H1). lia.
  - destruct (H2 x' H1'). lia.
  - destruct (H2' x H1). lia.
  - split; [|reflexivity]. apply Z.le_antisymm; [apply H2|apply H2']; tauto.
Qed.
Lemma carry_none_left tz d from mi c1 h c2 : desc_ok d -> next_spec (local_minute tz from + 1) (td_minute d) mi c1 ->
  next_spec (local_hour tz from + c1) (td_hour d) h c2 -> (c2 = 0 /\ ~ none_left_today tz d from) \/ (c2 = 1 /\ none_left_today tz d from).
Proof.
  intros Hok S1 S2. pose proof (local_fields tz from) as (Hfh & Hfm & Hws). destruct Hok as (Hmf & Hhf & _).
  destruct S1 as [Hm S1], S2 as [Hh S2]. pose proof (proj2 (proj2 Hmf) _ Hm). pose proof (proj2 (proj2 Hhf) _ Hh).
  destruct S2 as [(E2 & Hge & _)|(E2 & Hlt & _)].
  - left. split; [assumption|]. intros Hn. specialize (Hn _ _ Hh Hm). destruct S1 as [(E1 & Hge1 & _)|(E1 & Hlt1 & _)]; rewrite E1 in *; nia.
  - right. split; [assumption|]. intros h' m' Hh' Hm'. specialize (Hlt h' Hh'). apply Hmf in Hm' as ?. apply Hhf in Hh' as ?.
    destruct S1 as [(E1 & _)|(E1 & Hlt1 & _)]; rewrite E1 in *; [nia|]. specialize (Hlt1 m' Hm'). nia.
Qed.
Lemma plan_sought tz d from mi c1 h c2 nd c3 nm c4 : desc_ok d ->
  next_spec (local_minute tz from + 1) (td_minute d) mi c1 -> next_spec (local_hour tz from + c1) (td_hour d) h c2 ->
  next_spec (d_day (civil (local_day tz from)) + c2) (td_day d) nd c3 -> next_spec (d_month (civil (local_day tz from)) + c3) (td_month d) nm c4 ->
  sought tz d from nd nm.
Proof.
  intros Hok S1 S2 S4 S5. apply next_spec_listed in S4 as (a & S4 & E4). apply next_spec_listed in S5 as (a' & S5 & E5). subst c3.
  destruct (carry_none_left tz d from _ _ _ _ Hok S1 S2) as [[-> H]|[-> H]]; [exists false, a, a'|exists true, a, a'];
    (split; [split; [discriminate || auto|tauto || auto]|]); split; assumption.
Qed.
Lemma sought_unique tz d from x y x' y' : sought tz d from x y -> sought tz d from x' y' -> x = x' /\ y = y'.
Proof.
  intros (t & a & b & T & D & M) (t' & a' & b' & T' & D' & M').
  assert (t = t') as <- by (destruct t, t'; try reflexivity; exfalso; intuition discriminate).
  destruct (next_listed_unique _ _ _ _ _ _ D D') as [-> <-]. destruct (next_listed_unique _ _ _ _ _ _ M M') as [-> _]. auto.
Qed.

Lemma nominal_exists o d from : desc_ok d ->
  (date_restricted d -> exists x y, sought (fixed o) d from x y /\ x <= longest y) ->
  room from 4000 -> exists w, nominal (fixed o) d from = Ret w /\ w <= local_sec (fixed o) from + 3700 * DAY.
Proof.
  intros Hok Hdates [Hmin Hroom]. pose proof Hok as (Hm & Hh & Hd & Hmo & Hw).
  set (tz := fixed o).
  destruct (next_in_spec (local_minute tz from + 1) _ _ _ Hm) as (mi & c1 & E1 & S1).
  destruct (next_in_spec (local_hour tz from + c1) _ _ _ Hh) as (h & c2 & E2 & S2).
  destruct (next_in_spec (weekday (local_day tz from) + c2) _ _ _ Hw) as (nwd & c5 & E3 & S3).
  destruct (next_in_spec (d_day (civil (local_day tz from)) + c2) _ _ _ Hd) as (nd & c3 & E4 & S4).
  destruct (next_in_spec (d_month (civil (local_day tz from)) + c3) _ _ _ Hmo) as (nm & c4 & E5 & S5).
  assert (Hc4 : 0 <= c4 <= 1) by (destruct S5 as [_ [[-> _]|[-> _]]]; lia).
  assert (Hdd : exists dd, 0 <= dd <= 3665 /\
             (if date_relevant d then date_search tz from nd nm (c4 * 365) = Ret dd else dd = c4 * 365)).
  { destruct (date_relevant d) eqn:Erel; [|exists (c4 * 365); lia].
    specialize (Hdates (proj1 (date_relevant_iff d Hok) Erel)).
    destruct (date_exists (local_day tz from + c4 * 365) nd nm) as (n & Hn & Hhit).
    { destruct S5 as [Hin _]. now apply Hmo in Hin. }
    { split; [destruct S4 as [Hin4 _]; now apply Hd in Hin4|]. destruct Hdates as (x & y & Hs & Hl).
      destruct (sought_unique _ _ _ _ _ _ _ Hs (plan_sought tz d from _ _ _ _ _ _ _ _ Hok S1 S2 S4 S5)) as [<- <-]. assumption. }
    assert (Hhit' : date_hit tz from nd nm (c4 * 365 + n)).
    { apply date_hit_fixed. rewrite Z.add_assoc. exact Hhit. }
    assert (Hmaxn : utc_sec from + (c4 * 365 + n) * DAY <= MAX_SEC).
    { unfold utc_sec. unfold DAY in *. lia. }
    destruct (date_search_total tz from nd nm (c4 * 365)) as [[dd Hs]|[_ Hnone]].
    - exact Hmin.
    - lia.
    - exists dd. split; [|assumption]. apply date_search_ret in Hs as (Hge & _ & _ & Hfirst).
      split; [lia|]. destruct (Z_le_gt_dec dd (c4 * 365 + n)); [lia|].
      exfalso. apply (Hfirst (c4 * 365 + n)); [lia|assumption].
    - exfalso. apply (Hnone (c4 * 365 + n)); [lia|assumption|assumption]. }
  destruct Hdd as (dd & Hddr & Hds).
  set (wk := (nwd - weekday (local_day tz from)) mod 7).
  set (n := if date_relevant d then if weekday_relevant d then Z.min wk dd else dd else wk).
  assert (Hn : 0 <= n <= 3665).
  { assert (0 <= wk <= 6) by (unfold wk; lia). unfold n. destruct (date_relevant d), (weekday_relevant d); lia. }
  set (p := {| p_min := mi; p_c1 := c1; p_hour := h; p_c2 := c2; p_wd := nwd; p_c5 := c5; p_day := nd; p_c3 := c3;
            p_mon := nm; p_c4 := c4; p_week := wk; p_date := dd; p_n := n |}).
  assert (Hp : plan_ok tz d from p).
  { unfold plan_ok, p. cbn [p_min p_c1 p_hour p_c2 p_wd p_c5 p_day p_c3 p_mon p_c4 p_week p_date p_n].
    tauto. }
  eexists. split.
  - apply (nominal_plan tz d from p Hok Hp). cbn [p_n p]. unfold utc_sec, DAY in *. lia.
  - cbn [p_n p_hour p_min p]. unfold tz. rewrite fixed_day_add. fold tz.
    destruct (plan_hm _ _ _ _ Hok Hp) as (_ & _ & Hhr & Hmr). cbn [p_hour p_min p] in Hhr, Hmr.
    rewrite local_sec_wall, local_day_wall. pose proof (wall_sec_range tz from). unfold DAY in *. lia.
Qed.

Theorem next_execution_exists_sought o d from : desc_ok d -> - DAY < o < DAY ->
  (date_restricted d -> exists x y, sought (fixed o) d from x y /\ x <= longest y) ->
  room from 4000 -> exists t, next_execution (fixed o) d from = Ret t.
Proof.
  intros Hok Ho Hdates Hroom. destruct (nominal_exists o d from Hok Hdates Hroom) as (w & Hw & Hle).
  unfold next_execution. rewrite Hw. cbn [obind]. rewrite gap_search_fixed.
  destruct (Z.ltb_spec MAX_SEC w) as [Hbad|_]; [exfalso|eauto].
  destruct Hroom as [_ Hr]. unfold local_sec, utc_sec in Hle. cbn [fixed z_off] in Hle. unfold DAY in *. lia.
Qed.

Lemma sought_exists tz d from : desc_ok d -> exists x y, sought tz d from x y /\ In x (td_day d) /\ In y (td_month d).
Proof.
  intros Hok. pose proof Hok as (Hm & Hh & Hd & Hmo & Hw).
  destruct (next_in_spec (local_minute tz from + 1) _ _ _ Hm) as (mi & c1 & _ & S1).
  destruct (next_in_spec (local_hour tz from + c1) _ _ _ Hh) as (h & c2 & _ & S2).
  destruct (next_in_spec (d_day (civil (local_day tz from)) + c2) _ _ _ Hd) as (nd & c3 & _ & S4).
  destruct (next_in_spec (d_month (civil (local_day tz from)) + c3) _ _ _ Hmo) as (nm & c4 & _ & S5).
  exists nd, nm. split; [exact (plan_sought tz d from _ _ _ _ _ _ _ _ Hok S1 S2 S4 S5)|]. split; [apply S4|apply S5].
Qed.

Theorem next_execution_exists o d from : desc_ok d -> - DAY < o < DAY ->
  (date_restricted d -> forall x y, In x (td_day d) -> In y (td_month d) -> x <= longest y) ->
  room from 4000 -> exists t, next_execution (fixed o) d from = Ret t.
Proof.
  intros Hok Ho Hdates Hroom. apply next_execution_exists_sought; auto. intros Hr.
  destruct (sought_exists (fixed o) d from Hok) as (x & y & Hs & Hx & Hy). exists x, y. auto.
Qed.

(** If the chosen date does not exist, the search runs off the calendar. *)
Lemma date_search_never o from nd nm n0 : MIN_SEC <= utc_sec from -> 0 <= n0 ->
  (forall y, month_len y nm < nd) ->
  date_search (fixed o) from nd nm n0 = Panic "`DateTime + TimeDelta` overflowed".
Proof.
  intros Hmin Hn0 Hno. destruct (date_search_total (fixed o) from nd nm n0 Hmin Hn0) as [[n H]|[H _]]; [|assumption].
  exfalso. apply date_search_ret in H as (_ & Hhit & _). apply date_hit_fixed in Hhit as [H1 H2].
  pose proof (civil_valid (local_day (fixed o) from + n)) as [_ Hv]. rewrite H1, H2 in Hv.
  specialize (Hno (d_year (civil (local_day (fixed o) from + n)))). lia.
Qed.

(** ** C20: earliest *)
Lemma due_fixed o d t : due_at (fixed o) d t <->
  exists z h m, 0 <= h < 24 /\ 0 <= m < 60 /\ t = (z * DAY + h * 3600 + m * 60 - o) * NS /\
    In h (td_hour d) /\ In m (td_minute d) /\ day_matches d z.
Proof.
  unfold due_at, at_wall. cbn [fixed z_off]. split.
  - intros (z & h & m & (Hmod & Hh & Hm & Hw) & Hrest). exists z, h, m. split; [assumption|]. split; [assumption|].
    split; [|assumption]. rewrite <- Hw. pose proof NS_pos. lia.
  - intros (z & h & m & Hh & Hm & -> & Hrest). exists z, h, m. split; [|assumption].
    pose proof NS_pos. rewrite Z.mod_mul, Z.div_mul by lia. repeat split; lia.
Qed.

(** Everything follows from the day and the time of day being chosen minimally. *)
Lemma earliest_from_plan o d from p t : desc_ok d -> plan_ok (fixed o) d from p ->
  let z0 := local_day (fixed o) from in
  t = ((z0 + p_n p) * DAY + p_hour p * 3600 + p_min p * 60 - o) * NS ->
  p_c2 p <= p_n p ->
  (forall z, z0 + p_c2 p <= z -> day_matches d z -> z0 + p_n p <= z) ->
  (forall h m, In h (td_hour d) -> In m (td_minute d) ->
     p_n p = 0 -> wall_sec (fixed o) from < h * 3600 + m * 60 -> p_hour p * 3600 + p_min p * 60 <= h * 3600 + m * 60) ->
  (forall h m, In h (td_hour d) -> In m (td_minute d) -> 0 < p_n p ->
     p_hour p * 3600 + p_min p * 60 <= h * 3600 + m * 60) ->
  earliest (fixed o) d from t.
Proof.
  intros Hok Hp z0 Ht Hcn Hday Htod0 Htod1.
  destruct (plan_hm _ _ _ _ Hok Hp) as (Hh & Hm & Hhr & Hmr).
  pose proof (plan_n_nonneg _ _ _ _ Hp) as (_ & _ & Hn).
  pose proof (wall_sec_range (fixed o) from) as Hws.
  assert (Hmatch : day_matches d (z0 + p_n p)) by (apply plan_day_matches; [assumption|assumption|apply fixed_day_add]).
  split; [|split].
  - rewrite Ht. replace (_ - o) with (((z0 + p_n p) * DAY + p_hour p * 3600 + p_min p * 60) - o) by ring.
    apply fixed_after. rewrite local_sec_wall, <- local_day_wall. fold z0.
    destruct (plan_carry _ _ _ _ Hp Hok) as [(Hc2 & Hlt & _)|(Hc2 & _ & _)]; unfold DAY in *; nia.
  - apply due_fixed. exists (z0 + p_n p), (p_hour p), (p_min p).
    split; [lia|]. split; [lia|]. split; [exact Ht|]. auto.
  - intros t' Hft Hdue. apply due_fixed in Hdue as (z & h & m & Hh' & Hm' & -> & Hhin & Hmin & Hdm).
    rewrite Ht. apply Z.mul_le_mono_nonneg_r; [pose proof NS_pos; lia|].
    apply fixed_after in Hft. rewrite local_sec_wall, <- local_day_wall in Hft. fold z0 in Hft.
    assert (Hz : z0 <= z) by (unfold DAY in *; nia).
    destruct (plan_carry _ _ _ _ Hp Hok) as [(Hc2 & Hlt & _)|(Hc2 & _ & Hnone)].
    + specialize (Hday z ltac:(lia) Hdm). destruct (Z.eq_dec z (z0 + p_n p)) as [E|E].
      * subst z. assert (p_n p = 0 \/ 0 < p_n p) as [E0|E0] by lia.
        -- specialize (Htod0 h m Hhin Hmin E0). rewrite E0 in *. unfold DAY in *. lia.
        -- specialize (Htod1 h m Hhin Hmin E0). lia.
      * assert (z0 + p_n p + 1 <= z) by lia. unfold DAY in *. nia.
    + assert (Hz1 : z0 + 1 <= z).
      { destruct (Z.eq_dec z z0) as [->|]; [|lia]. specialize (Hnone h m Hhin Hmin). unfold DAY in *. lia. }
      specialize (Hday z ltac:(lia) Hdm). destruct (Z.eq_dec z (z0 + p_n p)) as [E|E].
      * subst z. specialize (Htod1 h m Hhin Hmin ltac:(lia)). lia.
      * assert (z0 + p_n p + 1 <= z) by lia. unfold DAY in *. nia.
Qed.

(** Time of day: chosen minimally when there is one minute, or all hours. *)
Lemma tod_first o d from p : desc_ok d -> plan_ok (fixed o) d from p ->
  (exists m0, td_minute d = [m0]) \/ (forall h, 0 <= h <= 23 -> In h (td_hour d)) ->
  forall h m, In h (td_hour d) -> In m (td_minute d) ->
  (p_c2 p = 0 -> wall_sec (fixed o) from < h * 3600 + m * 60 -> p_hour p * 3600 + p_min p * 60 <= h * 3600 + m * 60) /\
  (p_c2 p = 1 -> p_hour p * 3600 + p_min p * 60 <= h * 3600 + m * 60).
Proof.
  intros Hok Hp Hshape h m Hh Hm. destruct (plan_hm _ _ _ _ Hok Hp) as (_ & Hpm & Hphr & Hpmr).
  pose proof Hok as (Hmf & Hhf & _).
  pose proof (proj2 (proj2 Hhf) _ Hh) as Hhr. pose proof (proj2 (proj2 Hmf) _ Hm) as Hmr.
  destruct Hp as (S1 & S2 & _). pose proof (local_fields (fixed o) from) as (Hfh & Hfm & Hws).
  destruct S1 as [_ S1], S2 as [_ S2]. destruct Hshape as [[m0 Em]|Hfull].
  - rewrite Em in Hm, Hpm. destruct Hm as [<-|[]], Hpm as [Epm|[]]. rewrite <- Epm in *.
    split.
    + intros Ec2 Hlt. destruct S2 as [(_ & Hge & Hle)|(E & _)]; [|lia].
      destruct S1 as [(E1 & Hge1 & _)|(E1 & Hlt1 & _)]; rewrite E1 in *.
      * specialize (Hle h Hh). nia.
      * specialize (Hlt1 m0 ltac:(rewrite Em; now left)). specialize (Hle h Hh). nia.
    + intros Ec2. destruct S2 as [(E & _)|(_ & _ & Hle)]; [lia|]. specialize (Hle h Hh). nia.
  - split.
    + intros Ec2 Hlt. destruct S2 as [(_ & Hge & Hle)|(E & _)]; [|lia].
      destruct S1 as [(E1 & Hge1 & Hle1)|(E1 & Hlt1 & Hle1)]; rewrite E1 in *.
      * specialize (Hle (local_hour (fixed o) from) ltac:(apply Hfull; lia) ltac:(lia)).
        destruct (Z_le_gt_dec (local_minute (fixed o) from + 1) m).
        -- specialize (Hle1 m Hm ltac:(assumption)). nia.
        -- nia.
      * specialize (Hlt1 m Hm). specialize (Hle1 m Hm).
        assert (local_hour (fixed o) from + 1 <= h) by nia.
        specialize (Hle h Hh ltac:(assumption)). nia.
    + intros Ec2. destruct S2 as [(E & _)|(_ & Hlt & Hle)]; [lia|].
      destruct S1 as [(E1 & _)|(E1 & _ & Hle1)]; rewrite E1 in *.
      * specialize (Hlt (local_hour (fixed o) from) ltac:(apply Hfull; lia)). lia.
      * specialize (Hle h Hh). specialize (Hle1 m Hm). nia.
Qed.

Lemma c2_cases tz d from p : plan_ok tz d from p -> p_c2 p = 0 \/ p_c2 p = 1.
Proof. intros (_ & S2 & _). destruct S2 as [_ [[-> _]|[-> _]]]; auto. Qed.

(** The week part is the first matching weekday from today (or from tomorrow). *)
Lemma week_first tz d from p : desc_ok d -> plan_ok tz d from p ->
  ~ (p_c2 p = 1 /\ td_weekday d = [weekday (local_day tz from)]) ->
  p_c2 p <= p_week p /\
  forall z, local_day tz from + p_c2 p <= z -> weekday_ok d z -> local_day tz from + p_week p <= z.
Proof.
  intros Hok Hp Hnot. pose proof (plan_n_nonneg _ _ _ _ Hp) as (Hwkr & _).
  pose proof (c2_cases _ _ _ _ Hp) as Hc2. destruct Hp as (_ & _ & S3 & _ & _ & Hwk & _).
  pose proof Hok as (_ & _ & _ & _ & (_ & Hinc & Hrg)).
  destruct S3 as [Hin S3]. pose proof (Hrg _ Hin) as Hr. set (z0 := local_day tz from) in *.
  pose proof (weekday_range z0) as Hw0.
  assert (Hz : forall z, z0 + p_c2 p <= z -> weekday_ok d z -> z0 + p_week p <= z).
  { intros z Hz Hok'. unfold weekday_ok in Hok'. pose proof (Hrg _ Hok') as Hrz.
    pose proof (weekday_add z0 (z - z0)) as Hadd. replace (z0 + (z - z0)) with z in Hadd by ring.
    destruct S3 as [(_ & Hge & Hle)|(_ & Hlt & Hle)].
    - assert (weekday z < weekday z0 + p_c2 p \/ p_wd p <= weekday z) as [?|?] by (specialize (Hle _ Hok'); lia); lia.
    - specialize (Hlt _ Hok'). specialize (Hle _ Hok').
      assert (weekday z0 <> p_wd p \/ p_week p = 0) as [?|?] by lia; lia. }
  split; [|assumption].
  destruct Hc2 as [->|Hc2]; [lia|]. rewrite Hc2 in *.
  assert (p_week p = 0 \/ 1 <= p_week p) as [E|E] by lia; [exfalso|assumption].
  apply Hnot. split; [reflexivity|]. assert (Ewd : p_wd p = weekday z0) by lia.
  destruct S3 as [(_ & Hge & _)|(_ & Hlt & Hle)]; [lia|].
  apply singleton_increasing; [assumption|now rewrite <- Ewd|].
  intros y Hy. specialize (Hlt y Hy). specialize (Hle y Hy). lia.
Qed.

(** Every day (no date, no weekday restriction). *)
Theorem earliest_daily o d from t : desc_ok d ->
  ~ weekday_restricted d -> ~ date_restricted d ->
  (exists m0, td_minute d = [m0]) \/ (forall h, 0 <= h <= 23 -> In h (td_hour d)) ->
  next_execution (fixed o) d from = Ret t -> earliest (fixed o) d from t.
Proof.
  intros Hok Hwr Hdr Hshape H.
  apply next_execution_fixed in H as (p & Hp & Hmax & Hw & Ht); [|assumption].
  assert (Hwfull : forall x, 0 <= x <= 6 -> In x (td_weekday d)).
  { intros x Hx. destruct (in_dec Z.eq_dec x (td_weekday d)); [assumption|]. exfalso. apply Hwr. exists x. auto. }
  assert (Hnot : ~ (p_c2 p = 1 /\ td_weekday d = [weekday (local_day (fixed o) from)])).
  { intros [_ E]. pose proof (Hwfull 0 ltac:(lia)) as H0. pose proof (Hwfull 1 ltac:(lia)) as H1.
    rewrite E in H0, H1. destruct H0 as [H0|[]], H1 as [H1|[]]. lia. }
  destruct (week_first _ _ _ _ Hok Hp Hnot) as [Hge Hfirst].
  assert (Hn : p_n p = p_week p).
  { destruct Hp as (_ & _ & _ & _ & _ & _ & _ & Hn). rewrite Hn.
    apply date_relevant_false in Hdr; [|assumption]. now rewrite Hdr. }
  assert (Hwk : p_week p <= p_c2 p).
  { specialize (Hfirst (local_day (fixed o) from + p_c2 p) ltac:(lia)). unfold weekday_ok in Hfirst.
    specialize (Hfirst ltac:(apply Hwfull, weekday_range)). lia. }
  eapply earliest_from_plan; [exact Hok|exact Hp|exact Ht|lia| | |].
  - intros z Hz _. lia.
  - intros h m Hh Hm Hn0 Hlt. apply (proj1 (tod_first o d from p Hok Hp Hshape h m Hh Hm)); [lia|assumption].
  - intros h m Hh Hm Hn0. apply (proj2 (tod_first o d from p Hok Hp Hshape h m Hh Hm)). destruct (c2_cases _ _ _ _ Hp); lia.
Qed.

(** Given weekdays, one time of day. *)
Theorem earliest_weekly o d from t h0 m0 : desc_ok d ->
  td_hour d = [h0] -> td_minute d = [m0] -> weekday_restricted d -> ~ date_restricted d ->
  ~ (td_weekday d = [weekday (wall_day (fixed o) from)] /\ none_left_today (fixed o) d from) ->
  next_execution (fixed o) d from = Ret t -> earliest (fixed o) d from t.
Proof.
  intros Hok Eh Em Hwr Hdr Hnot0 H.
  apply next_execution_fixed in H as (p & Hp & Hmax & Hw & Ht); [|assumption].
  assert (Hnot : ~ (p_c2 p = 1 /\ td_weekday d = [weekday (local_day (fixed o) from)])).
  { intros [Hc2 E]. apply Hnot0. split; [assumption|].
    destruct (plan_carry _ _ _ _ Hp Hok) as [(Hc & _)|(_ & _ & Hnone)]; [lia|assumption]. }
  destruct (week_first _ _ _ _ Hok Hp Hnot) as [Hge Hfirst].
  assert (Hn : p_n p = p_week p).
  { destruct Hp as (_ & _ & _ & _ & _ & _ & _ & Hn). rewrite Hn.
    apply date_relevant_false in Hdr; [|assumption]. now rewrite Hdr. }
  assert (Hone : forall h m, In h (td_hour d) -> In m (td_minute d) -> p_hour p * 3600 + p_min p * 60 <= h * 3600 + m * 60).
  { intros h m Hh Hm. destruct (plan_hm _ _ _ _ Hok Hp) as (Hh' & Hm' & _).
    rewrite Eh in Hh, Hh'. rewrite Em in Hm, Hm'. destruct Hh as [<-|[]], Hm as [<-|[]], Hh' as [<-|[]], Hm' as [<-|[]]. lia. }
  eapply earliest_from_plan; [exact Hok|exact Hp|exact Ht|lia| |auto|auto].
  intros z Hz Hdm. rewrite Hn. apply Hfirst; [assumption|]. apply Hdm; assumption.
Qed.

(** Dates inside one month. *)
Lemma civil_in_month z k y m dd : civil z = {| d_year := y; d_month := m; d_day := dd |} ->
  0 <= k -> dd + k <= month_len y m -> civil (z + k) = {| d_year := y; d_month := m; d_day := dd + k |}.
Proof.
  intros Hz Hk. revert k Hk. apply (natlike_ind (fun k => dd + k <= month_len y m ->
     civil (z + k) = {| d_year := y; d_month := m; d_day := dd + k |})).
  - intros _. rewrite Z.add_0_r, Hz. f_equal. lia.
  - intros k Hk IH Hle. replace (z + Z.succ k) with ((z + k) + 1) by lia. rewrite civil_succ, IH by lia.
    unfold next_date; cbn [d_year d_month d_day]. destruct (Z.ltb_spec (dd + k) (month_len y m)); [|lia].
    f_equal. lia.
Qed.

Lemma civil_next_month z y m dd k : civil z = {| d_year := y; d_month := m; d_day := dd |} -> m < 12 ->
  1 <= k <= month_len y (m + 1) -> dd <= month_len y m ->
  civil (z + (month_len y m - dd) + k) = {| d_year := y; d_month := m + 1; d_day := k |}.
Proof.
  intros Hz Hm Hk Hdd.
  assert (Hlast : civil (z + (month_len y m - dd)) = {| d_year := y; d_month := m; d_day := month_len y m |}).
  { rewrite (civil_in_month z _ y m dd Hz); [f_equal; lia|lia|lia]. }
  assert (Hone : civil (z + (month_len y m - dd) + 1) = {| d_year := y; d_month := m + 1; d_day := 1 |}).
  { rewrite civil_succ, Hlast. unfold next_date; cbn [d_year d_month d_day].
    rewrite Z.ltb_irrefl. destruct (Z.ltb_spec m 12); [reflexivity|lia]. }
  replace (z + (month_len y m - dd) + k) with (z + (month_len y m - dd) + 1 + (k - 1)) by ring.
  rewrite (civil_in_month _ (k - 1) y (m + 1) 1 Hone); [f_equal; lia|lia|lia].
Qed.

(** Given days of the month (at most 28), every month, one time of day: earliest,
    unless it is December and no day of the list is left in it. *)
Theorem earliest_monthly o d from t h0 m0 : desc_ok d ->
  td_hour d = [h0] -> td_minute d = [m0] -> ~ weekday_restricted d -> date_restricted d ->
  (forall x, In x (td_day d) -> x <= 28) -> (forall x, 1 <= x <= 12 -> In x (td_month d)) ->
  (d_month (civil (wall_day (fixed o) from)) < 12 \/
   exists x, In x (td_day d) /\ d_day (civil (wall_day (fixed o) from)) < x) ->
  next_execution (fixed o) d from = Ret t -> earliest (fixed o) d from t.
Proof.
  intros Hok Eh Em Hwr Hdr H28 Hmfull Hdec H.
  apply next_execution_fixed in H as (p & Hp & Hmax & Hw & Ht); [|assumption].
  pose proof (proj2 (date_relevant_iff d Hok) Hdr) as Hrel.
  pose proof (proj2 (weekday_relevant_false d Hok) Hwr) as Hwrel.
  set (z0 := local_day (fixed o) from) in *. change (wall_day (fixed o) from) with z0 in *.
  pose proof (civil_valid z0) as [Hmv Hdv]. destruct (civil z0) as [y mo dd] eqn:Ec. cbn [d_year d_month d_day] in *.
  pose proof (month_len_bound y mo) as Hmlb.
  assert (Hc2 := c2_cases _ _ _ _ Hp). pose proof (plan_date_pos _ _ _ _ Hp) as Hpos.
  pose proof (plan_n_nonneg _ _ _ _ Hp) as (_ & Hdnn & _).
  assert (Hn : p_n p = p_date p).
  { destruct Hp as (_ & _ & _ & _ & _ & _ & _ & Hn). rewrite Hn. now rewrite Hrel, Hwrel. }
  assert (Hone : forall h m, In h (td_hour d) -> In m (td_minute d) -> p_hour p * 3600 + p_min p * 60 <= h * 3600 + m * 60).
  { intros h m Hh Hm. destruct (plan_hm _ _ _ _ Hok Hp) as (Hh' & Hm' & _).
    rewrite Eh in Hh, Hh'. rewrite Em in Hm, Hm'. destruct Hh as [<-|[]], Hm as [<-|[]], Hh' as [<-|[]], Hm' as [<-|[]]. lia. }
  pose proof Hok as (_ & _ & (_ & _ & Hdrg) & (_ & _ & Hmrg) & _).
  assert (Hfirst : forall z, z0 + p_c2 p <= z -> date_ok d z -> z0 + p_date p <= z).
  { destruct Hp as (_ & _ & _ & S4 & S5 & _ & Hdd & _). fold z0 in S4, S5. rewrite Ec in S4, S5. cbn [d_year d_month d_day] in S4, S5.
    rewrite Hrel in Hdd. apply date_search_ret in Hdd as (Hn0 & _ & _ & Hno).
    assert (Hnohit : forall j, p_c4 p * 365 <= j < p_date p ->
       ~ (d_day (civil (z0 + j)) = p_day p /\ d_month (civil (z0 + j)) = p_mon p)).
    { intros j Hj Hh. apply (Hno j Hj). apply date_hit_fixed. exact Hh. }
    clear Hno. destruct S4 as [Hind S4]. pose proof (H28 _ Hind) as Hle28. pose proof (Hdrg _ Hind) as Hpd.
    intros z Hz [Hzd Hzm].
    destruct S4 as [(E3 & Hge & Hle)|(E3 & Hlt & Hle)]; rewrite E3 in *.
    - (* this month *)
      assert (Hpm : p_mon p = mo /\ p_c4 p = 0).
      { destruct S5 as [_ [(E4 & Hge5 & Hle5)|(E4 & Hlt5 & _)]].
        - split; [|assumption]. specialize (Hle5 mo ltac:(apply Hmfull; lia) ltac:(lia)). lia.
        - specialize (Hlt5 12 ltac:(apply Hmfull; lia)). lia. }
      destruct Hpm as [Hpm E4]. rewrite E4 in *.
      assert (Hhit : civil (z0 + (p_day p - dd)) = {| d_year := y; d_month := mo; d_day := p_day p |}).
      { rewrite (civil_in_month z0 _ y mo dd Ec); [f_equal; lia|lia|lia]. }
      assert (Hdle : p_date p <= p_day p - dd).
      { destruct (Z_le_gt_dec (p_date p) (p_day p - dd)); [assumption|]. exfalso.
        apply (Hnohit (p_day p - dd)); [lia|]. rewrite Hhit. cbn. auto. }
      destruct (Z_le_gt_dec (z0 + (p_day p - dd)) z) as [?|Hgt]; [lia|]. exfalso.
      assert (Hz' : civil z = {| d_year := y; d_month := mo; d_day := dd + (z - z0) |}).
      { replace z with (z0 + (z - z0)) at 1 by ring. apply (civil_in_month z0 _ y mo dd Ec); lia. }
      rewrite Hz' in Hzd. cbn [d_day] in Hzd. specialize (Hle _ Hzd). lia.
    - (* next month *)
      assert (Hmo : mo < 12).
      { destruct Hdec as [?|(x & Hx & Hgt)]; [assumption|]. specialize (Hlt x Hx). lia. }
      assert (Hpm : p_mon p = mo + 1 /\ p_c4 p = 0).
      { destruct S5 as [_ [(E4 & Hge5 & Hle5)|(E4 & Hlt5 & _)]].
        - split; [|assumption]. specialize (Hle5 (mo + 1) ltac:(apply Hmfull; lia) ltac:(lia)). lia.
        - specialize (Hlt5 12 ltac:(apply Hmfull; lia)). lia. }
      destruct Hpm as [Hpm E4]. rewrite E4 in *. pose proof (month_len_bound y (mo + 1)) as Hmlb'.
      pose proof (civil_next_month z0 y mo dd (p_day p) Ec Hmo ltac:(lia) ltac:(lia)) as Hhit.
      assert (Hdle : p_date p <= month_len y mo - dd + p_day p).
      { destruct (Z_le_gt_dec (p_date p) (month_len y mo - dd + p_day p)); [assumption|]. exfalso.
        apply (Hnohit (month_len y mo - dd + p_day p)); [lia|].
        rewrite Z.add_assoc, Hhit. cbn. auto. }
      destruct (Z_le_gt_dec (z0 + (month_len y mo - dd + p_day p)) z) as [?|Hgt]; [lia|]. exfalso.
      destruct (Z_le_gt_dec (dd + (z - z0)) (month_len y mo)) as [Hin|Hout].
      + assert (Hz' : civil z = {| d_year := y; d_month := mo; d_day := dd + (z - z0) |}).
        { replace z with (z0 + (z - z0)) at 1 by ring. apply (civil_in_month z0 _ y mo dd Ec); lia. }
        rewrite Hz' in Hzd. cbn [d_day] in Hzd. specialize (Hlt _ Hzd). lia.
      + assert (Hz' : civil z = {| d_year := y; d_month := mo + 1; d_day := z - z0 - (month_len y mo - dd) |}).
        { replace z with (z0 + (month_len y mo - dd) + (z - z0 - (month_len y mo - dd))) at 1 by ring.
          apply civil_next_month; [assumption|assumption|lia|lia]. }
        rewrite Hz' in Hzd. cbn [d_day] in Hzd. specialize (Hle _ Hzd). lia. }
  eapply earliest_from_plan; [exact Hok|exact Hp|exact Ht| | |auto|auto].
  - rewrite Hn. destruct Hc2 as [->|Hc2]; [lia|]. specialize (Hpos Hc2 Hrel). lia.
  - intros z Hz Hdm. rewrite Hn. apply Hfirst; [assumption|]. apply Hdm; assumption.
Qed.

(** One day of the year that exists and is still ahead this year. *)
Theorem earliest_yearly o d from t h0 m0 day mon : desc_ok d ->
  td_hour d = [h0] -> td_minute d = [m0] -> td_day d = [day] -> td_month d = [mon] -> ~ weekday_restricted d ->
  let today := civil (wall_day (fixed o) from) in
  day <= month_len (d_year today) mon ->
  (d_month today < mon \/ (d_month today = mon /\ d_day today < day)) ->
  next_execution (fixed o) d from = Ret t -> earliest (fixed o) d from t.
Proof.
  intros Hok Eh Em Ed Emo Hwr today Hlen Hahead H.
  apply next_execution_fixed in H as (p & Hp & Hmax & Hw & Ht); [|assumption].
  assert (Hdr : date_restricted d).
  { left. exists (if day =? 1 then 2 else 1). rewrite Ed. destruct (Z.eqb_spec day 1); (split; [lia|]); intros [?|[]]; lia. }
  pose proof (proj2 (date_relevant_iff d Hok) Hdr) as Hrel.
  pose proof (proj2 (weekday_relevant_false d Hok) Hwr) as Hwrel.
  set (z0 := local_day (fixed o) from) in *. change (wall_day (fixed o) from) with z0 in *.
  pose proof (civil_valid z0) as [Hmv Hdv]. unfold today in *. clear today.
  destruct (civil z0) as [y mo dd] eqn:Ec. cbn [d_year d_month d_day] in *.
  assert (Hc2 := c2_cases _ _ _ _ Hp). pose proof (plan_date_pos _ _ _ _ Hp) as Hpos.
  pose proof (plan_n_nonneg _ _ _ _ Hp) as (_ & Hdnn & _).
  assert (Hn : p_n p = p_date p).
  { destruct Hp as (_ & _ & _ & _ & _ & _ & _ & Hn). rewrite Hn. now rewrite Hrel, Hwrel. }
  assert (Hone : forall h m, In h (td_hour d) -> In m (td_minute d) -> p_hour p * 3600 + p_min p * 60 <= h * 3600 + m * 60).
  { intros h m Hh Hm. destruct (plan_hm _ _ _ _ Hok Hp) as (Hh' & Hm' & _).
    rewrite Eh in Hh, Hh'. rewrite Em in Hm, Hm'. destruct Hh as [<-|[]], Hm as [<-|[]], Hh' as [<-|[]], Hm' as [<-|[]]. lia. }
  assert (Hmonr : 1 <= mon <= 12). { pose proof Hok as (_ & _ & _ & (_ & _ & Hr) & _). apply Hr. rewrite Emo. now left. }
  assert (Hdayr : 1 <= day <= 31). { pose proof Hok as (_ & _ & (_ & _ & Hr) & _). apply Hr. rewrite Ed. now left. }
  assert (Hfirst : forall z, z0 + p_c2 p <= z -> date_ok d z -> z0 + p_date p <= z).
  { destruct Hp as (_ & _ & _ & S4 & S5 & _ & Hdd & _). fold z0 in S4, S5. rewrite Ec in S4, S5.
    cbn [d_year d_month d_day] in S4, S5. rewrite Ed in S4. rewrite Emo in S5.
    assert (Epd : p_day p = day) by (destruct S4 as [[<-|[]] _]; reflexivity).
    assert (Epm : p_mon p = mon) by (destruct S5 as [[<-|[]] _]; reflexivity).
    assert (Ec4 : p_c4 p = 0).
    { destruct S5 as [_ [(E & _)|(_ & Hlt & _)]]; [assumption|]. specialize (Hlt mon ltac:(now left)).
      destruct S4 as [_ [(E & _)|(E & Hlt4 & _)]]; [lia|]. specialize (Hlt4 day ltac:(now left)). lia. }
    rewrite Hrel, Epd, Epm, Ec4 in Hdd. apply date_search_ret in Hdd as (_ & _ & _ & Hno).
    set (target := {| d_year := y; d_month := mon; d_day := day |}).
    assert (Hvt : valid_date target) by (split; cbn [d_year d_month d_day target]; lia).
    pose proof (civil_days_of target Hvt) as Hct.
    assert (Hlt0 : z0 < days_of target).
    { apply civil_lt_iff. rewrite Hct, Ec. unfold date_lt, target; cbn [d_year d_month d_day]. lia. }
    assert (Hle : p_date p <= days_of target - z0).
    { destruct (Z_le_gt_dec (p_date p) (days_of target - z0)); [assumption|]. exfalso.
      apply (Hno (days_of target - z0)); [lia|]. apply date_hit_fixed. fold z0.
      replace (z0 + (days_of target - z0)) with (days_of target) by ring. rewrite Hct. split; reflexivity. }
    intros z Hz [Hzd Hzm]. rewrite Ed in Hzd. rewrite Emo in Hzm. destruct Hzd as [Hzd|[]], Hzm as [Hzm|[]].
    destruct (Z_le_gt_dec (days_of target) z) as [?|Hgt]; [lia|]. exfalso.
    assert (H1 : date_lt (civil z) target) by (rewrite <- Hct; apply civil_lt_iff; lia).
    assert (H2 : z0 = z \/ date_lt (civil z0) (civil z)).
    { destruct (Z.eq_dec z0 z); [now left|right]. apply civil_lt_iff. lia. }
    destruct H2 as [<-|H2]; [rewrite Ec in Hzd, Hzm; cbn [d_day d_month] in Hzd, Hzm; lia|].
    rewrite Ec in H2. destruct (civil z) as [y' m' dd']. unfold date_lt, target in *. cbn [d_year d_month d_day] in *. lia. }
  eapply earliest_from_plan; [exact Hok|exact Hp|exact Ht| | |auto|auto].
  - rewrite Hn. destruct Hc2 as [->|Hc2]; [lia|]. specialize (Hpos Hc2 Hrel). lia.
  - intros z Hz Hdm. rewrite Hn. apply Hfirst; [assumption|]. apply Hdm; assumption.
Qed.

(** There is a next execution exactly if the date looked for exists in some year. *)
Theorem next_execution_exists_iff o d from : desc_ok d -> - DAY < o < DAY -> room from 4000 ->
  ((exists t, next_execution (fixed o) d from = Ret t) <->
   (date_restricted d -> exists x y, sought (fixed o) d from x y /\ x <= longest y)).
Proof.
  intros Hok Ho Hroom. split; [|intros H; apply next_execution_exists_sought; auto].
  intros [t H] Hdr. apply next_execution_fixed in H as (p & Hp & _); [|assumption].
  destruct Hp as (S1 & S2 & _ & S4 & S5 & _ & Hdd & _). exists (p_day p), (p_mon p).
  split; [exact (plan_sought _ d from _ _ _ _ _ _ _ _ Hok S1 S2 S4 S5)|].
  rewrite (proj2 (date_relevant_iff d Hok) Hdr) in Hdd. apply date_search_ret in Hdd as (_ & Hhit & _). apply date_hit_fixed in Hhit as [H1 H2].
  pose proof (civil_valid (local_day (fixed o) from + p_date p)) as [_ Hv]. rewrite H1, H2 in Hv.
  unfold longest. destruct Hv as [_ Hv]. unfold month_len in *. destruct (p_mon p =? 2); [|assumption].
  change (leap 2000) with true. destruct (leap _); lia.
Qed.

(** A date that never exists crashes the computation. *)
Theorem next_execution_crash o d from : desc_ok d -> MIN_SEC <= utc_sec from ->
  td_day d = [31] -> In (d_month (civil (wall_day (fixed o) from))) (td_month d) ->
  (forall y, month_len y (d_month (civil (wall_day (fixed o) from))) < 31) ->
  exists m, next_execution (fixed o) d from = Panic m.
Proof.
  intros Hok Hmin Ed Hin Hlen. destruct (next_execution (fixed o) d from) as [t|m] eqn:E; [exfalso|eauto].
  apply next_execution_fixed in E as (p & Hp & _); [|assumption].
  change (wall_day (fixed o) from) with (local_day (fixed o) from) in *.
  set (z0 := local_day (fixed o) from) in *.
  assert (Hc2 := c2_cases _ _ _ _ Hp). destruct Hp as (_ & _ & _ & S4 & S5 & _ & Hdd & _). fold z0 in S4, S5.
  pose proof (civil_valid z0) as [_ Hdv]. specialize (Hlen (d_year (civil z0))) as Hl0.
  rewrite Ed in S4.
  assert (Epd : p_day p = 31 /\ p_c3 p = 0).
  { destruct S4 as [[<-|[]] [(E & _)|(_ & Hlt & _)]]; [auto|]. specialize (Hlt 31 ltac:(now left)). lia. }
  destruct Epd as [Epd Ec3]. rewrite Ec3, Z.add_0_r in S5.
  assert (Epm : p_mon p = d_month (civil z0) /\ p_c4 p = 0).
  { destruct S5 as [_ [(E4 & Hge & Hle)|(_ & Hlt & _)]].
    - specialize (Hle _ Hin ltac:(lia)). lia.
    - specialize (Hlt _ Hin). lia. }
  destruct Epm as [Epm Ec4]. rewrite Epd, Epm, Ec4 in Hdd.
  assert (Hrel : date_relevant d = true).
  { apply date_relevant_iff; [assumption|]. left. exists 1. rewrite Ed. split; [lia|]. intros [?|[]]. lia. }
  rewrite Hrel in Hdd. rewrite date_search_never in Hdd; [discriminate|assumption|lia|assumption].
Qed.
