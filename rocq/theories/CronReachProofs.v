(** The next execution is the earliest one whenever the search for the date can reach it. *)
From Coq Require Import ZArith List Bool Lia.
From Verif Require Import Base CronModel SpecCron SpecCal SpecSched CalendarProofs CronNextProofs CronSchedProofs.
Import ListNotations.
Local Open Scope Z_scope.

Lemma ahead_c2 o d from p : desc_ok d -> plan_ok (fixed o) d from p -> forall z,
  still_ahead (fixed o) d from z <-> local_day (fixed o) from + p_c2 p <= z.
Proof.
  intros Hok Hp z. unfold still_ahead. change (wall_day (fixed o) from) with (local_day (fixed o) from).
  destruct (plan_carry _ _ _ _ Hp Hok) as [(-> & _ & Hn)|(-> & _ & Hn)].
  - split; [lia|]. intros H. split; [lia|]. intros K. contradiction.
  - split; [intros [_ H]; specialize (H Hn); lia|]. intros H. split; [lia|]. intros _. lia.
Qed.

Lemma date_first o d from p : desc_ok d -> plan_ok (fixed o) d from p -> date_relevant d = true -> date_in_reach (fixed o) d from ->
  forall z, local_day (fixed o) from + p_c2 p <= z -> date_ok d z -> local_day (fixed o) from + p_date p <= z.
Proof.
  intros Hok Hp Hrel (zf & (Hahead & Hdok & Hmin) & Hy & Hshape) z Hz Hzok.
  assert (Hc2 := c2_cases _ _ _ _ Hp). assert (A := ahead_c2 _ _ _ _ Hok Hp).
  enough (local_day (fixed o) from + p_date p <= zf) by (specialize (Hmin z (proj2 (A z) Hz) Hzok); lia).
  clear z Hz Hzok. rewrite A in Hahead.
  assert (Hm' : forall z', local_day (fixed o) from + p_c2 p <= z' -> date_ok d z' -> zf <= z') by (intros z' X; apply Hmin, A; exact X).
  clear Hmin A. change (wall_day (fixed o) from) with (local_day (fixed o) from) in *.
  set (z0 := local_day (fixed o) from) in *.
  assert (Hnone : forall x, (x < d_day (civil z0) \/ x = d_day (civil z0) /\ none_left_today (fixed o) d from) -> x < d_day (civil z0) + p_c2 p).
  { intros x. destruct (plan_carry _ _ _ _ Hp Hok) as [(Ec & _ & Hn)|(Ec & _ & Hn)]; rewrite Ec; intros [H|[H K]]; try lia; contradiction. }
  pose proof Hok as (_ & _ & (_ & _ & Hdrg) & (_ & _ & Hmrg) & _).
  destruct Hp as (_ & _ & _ & S4 & S5 & _ & Hdd & _). fold z0 in S4, S5. rewrite Hrel in Hdd.
  apply date_search_ret in Hdd as (_ & _ & _ & Hno).
  pose proof (civil_valid z0) as [Hmv Hdv]. pose proof (civil_valid zf) as [Hmf Hdf].
  assert (Hord : zf = z0 /\ p_c2 p = 0 \/ date_lt (civil z0) (civil zf)).
  { destruct (Z.eq_dec zf z0) as [E|E]; [left; split; [exact E|lia]|right; apply civil_lt_iff; lia]. }
  destruct Hdok as [Hdin Hmin].
  destruct (civil z0) as [y mo dd] eqn:Ec. destruct (civil zf) as [yf mf df] eqn:Ef. cbn [d_year d_month d_day] in *. subst yf.
  assert (Hord' : (mo < mf \/ mo = mf /\ dd + p_c2 p <= df) /\ z0 <= zf).
  { destruct Hord as [[E E2]|H]; [subst zf; rewrite Ec in Ef; injection Ef as <- <-; lia|].
    split; [|lia]. unfold date_lt in H. cbn [d_year d_month d_day] in H. lia. }
  destruct Hord' as [Hord' Hle0]. clear Hord.
  (* the date chosen is that of [zf] *)
  enough (Hgoal : p_day p = df /\ p_mon p = mf /\ p_c4 p = 0).
  { destruct Hgoal as (E1 & E2 & E3). destruct (Z_le_gt_dec (z0 + p_date p) zf); [assumption|]. exfalso.
    apply (Hno (zf - z0)); [lia|]. apply date_hit_fixed. fold z0. replace (z0 + (zf - z0)) with zf by ring. rewrite Ef. cbn. auto. }
  (* any other date of this year would have been earlier *)
  assert (Hearly : forall m x, In m (td_month d) -> In x (td_day d) -> x <= month_len y m ->
            (mo < m \/ mo = m /\ dd + p_c2 p <= x) -> mf < m \/ mf = m /\ df <= x).
  { intros m x Hm Hx Hlen Hafter. pose proof (Hdrg _ Hx) as Hxr. pose proof (Hmrg _ Hm) as Hmr.
    set (target := {| d_year := y; d_month := m; d_day := x |}).
    assert (Hvt : valid_date target) by (split; cbn [d_year d_month d_day target]; lia).
    pose proof (civil_days_of target Hvt) as Hct.
    assert (Hge : z0 + p_c2 p <= days_of target).
    { destruct (Z.eq_dec (days_of target) z0) as [E|E].
      - rewrite E, Ec in Hct. injection Hct as <- <-. lia.
      - assert (z0 < days_of target); [|lia]. destruct (Z.lt_trichotomy z0 (days_of target)) as [?|[?|Hlt]]; [assumption|congruence|].
        apply civil_lt_iff in Hlt. rewrite Hct, Ec in Hlt. unfold date_lt, target in Hlt. cbn [d_year d_month d_day] in Hlt. lia. }
    assert (Hok' : date_ok d (days_of target)) by (unfold date_ok; rewrite Hct; split; assumption).
    specialize (Hm' _ Hge Hok'). destruct (Z.eq_dec (days_of target) zf) as [E|E].
    - rewrite E, Ef in Hct. injection Hct as <- <-. lia.
    - assert (Hlt : zf < days_of target) by lia. apply civil_lt_iff in Hlt. rewrite Hct, Ef in Hlt. unfold date_lt, target in Hlt. cbn [d_year d_month d_day] in Hlt. lia. }
  destruct Hshape as [Hsame|(x0 & Hx0 & Hx0min & Hx0len & Hleft)].
  - (* this month *) subst mf. assert (Hd : dd + p_c2 p <= df) by lia.
    destruct S4 as [Hpin [(E3 & Hge & Hle)|(E3 & Hlt & _)]]; [|specialize (Hlt _ Hdin); lia]. rewrite E3 in *.
    destruct S5 as [Hmin5 [(E4 & Hge5 & Hle5)|(E4 & Hlt5 & _)]]; [|specialize (Hlt5 _ Hmin); lia].
    specialize (Hle _ Hdin Hd). specialize (Hle5 _ Hmin ltac:(lia)). assert (Emon : p_mon p = mo) by lia.
    split; [|split; [exact Emon|exact E4]].
    destruct (Hearly mo (p_day p) Hmin Hpin ltac:(lia) ltac:(lia)); lia.
  - (* a later month *)
    assert (Hx0f := Hx0min _ Hdin).
    destruct (Z.eq_dec mf mo) as [E|E].
    { (* this month after all *) subst mf. assert (Hd : dd + p_c2 p <= df) by lia.
      destruct S4 as [Hpin [(E3 & Hge & Hle)|(E3 & Hlt & _)]]; [|specialize (Hlt _ Hdin); lia]. rewrite E3 in *.
      destruct S5 as [Hmin5 [(E4 & Hge5 & Hle5)|(E4 & Hlt5 & _)]]; [|specialize (Hlt5 _ Hmin); lia].
      specialize (Hle _ Hdin Hd). specialize (Hle5 _ Hmin ltac:(lia)). assert (Emon : p_mon p = mo) by lia.
      split; [|split; [exact Emon|exact E4]].
      destruct (Hearly mo (p_day p) Hmin Hpin ltac:(lia) ltac:(lia)); lia. }
    assert (Hmf' : mo < mf) by lia.
    assert (Epd : p_day p = x0 /\ (p_c3 p = 1 \/ p_c3 p = 0 /\ dd + p_c2 p <= x0)).
    { destruct S4 as [Hpin S4]. destruct Hleft as [Hone|Hall].
      - assert (p_day p = x0) by (rewrite Hone in Hpin; destruct Hpin as [<-|[]]; reflexivity). split; [assumption|].
        destruct S4 as [(E3 & Hge & _)|(E3 & _)]; [right; split; [exact E3|lia]|auto].
      - destruct S4 as [(E3 & Hge & _)|(E3 & Hlt & Hle)].
        + specialize (Hnone _ (Hall _ Hpin)). lia.
        + split; [|auto]. specialize (Hle _ Hx0). specialize (Hx0min _ Hpin). lia. }
    destruct Epd as [Epd Hc3].
    destruct S5 as [Hmin5 [(E4 & Hge5 & Hle5)|(E4 & Hlt5 & _)]]; [|specialize (Hlt5 _ Hmin); lia].
    specialize (Hle5 _ Hmin ltac:(lia)).
    assert (Hafter : mo < p_mon p \/ mo = p_mon p /\ dd + p_c2 p <= x0) by lia.
    pose proof (Hearly _ _ Hmin5 Hx0 (Hx0len _ Hmin5) Hafter). lia.
Qed.

Theorem earliest_in_reach o d from t : desc_ok d ->
  ((exists m0, td_minute d = [m0]) \/ (forall h, 0 <= h <= 23 -> In h (td_hour d))) ->
  ((exists h0 m0, td_hour d = [h0] /\ td_minute d = [m0]) \/ none_left_today (fixed o) d from \/ day_matches d (wall_day (fixed o) from)) ->
  (weekday_restricted d -> ~ (td_weekday d = [weekday (wall_day (fixed o) from)] /\ none_left_today (fixed o) d from)) ->
  (date_restricted d -> date_in_reach (fixed o) d from) ->
  next_execution (fixed o) d from = Ret t -> earliest (fixed o) d from t.
Proof.
  intros Hok Hshape Htime Hweek Hdate H.
  apply next_execution_fixed in H as (p & Hp & Hmax & Hw & Ht); [|assumption].
  change (wall_day (fixed o) from) with (local_day (fixed o) from) in *. set (z0 := local_day (fixed o) from) in *.
  assert (Hc2 := c2_cases _ _ _ _ Hp).
  assert (Hnot : ~ (p_c2 p = 1 /\ td_weekday d = [weekday z0])).
  { intros [Ec E]. apply Hweek.
    - exists (if weekday z0 =? 0 then 1 else 0). rewrite E. destruct (Z.eqb_spec (weekday z0) 0); (split; [lia|]); intros [?|[]]; lia.
    - split; [exact E|]. destruct (plan_carry _ _ _ _ Hp Hok) as [(Hc & _)|(_ & _ & Hn)]; [lia|exact Hn]. }
  destruct (week_first _ _ _ _ Hok Hp Hnot) as [Hge Hfirst]. fold z0 in Hfirst.
  pose proof (plan_n_nonneg _ _ _ _ Hp) as (_ & Hdnn & _).
  assert (Hnn : p_c2 p <= p_n p /\ forall z, z0 + p_c2 p <= z -> day_matches d z -> z0 + p_n p <= z).
  { pose proof Hp as (_ & _ & _ & _ & _ & _ & _ & Hn).
    destruct (date_relevant d) eqn:Hrel.
    - assert (Hdr := proj1 (date_relevant_iff d Hok) Hrel).
      assert (Hdp : p_c2 p <= p_date p).
      { destruct Hc2 as [->|Ec]; [lia|]. pose proof (plan_date_pos _ _ _ _ Hp Ec Hrel). lia. }
      pose proof (date_first o d from p Hok Hp Hrel (Hdate Hdr)) as Hdf. fold z0 in Hdf.
      destruct (weekday_relevant d) eqn:Hwrel.
      + assert (Hwr := proj1 (weekday_relevant_iff d Hok) Hwrel). split; [lia|]. intros z Hz (Hm & _).
        destruct (Hm Hwr Hdr) as [Hm1|Hm1]; [specialize (Hfirst z Hz Hm1)|specialize (Hdf z Hz Hm1)]; lia.
      + assert (Hwr := proj1 (weekday_relevant_false d Hok) Hwrel). split; [lia|]. intros z Hz (_ & Hm & _).
        specialize (Hdf z Hz (Hm Hwr Hdr)). lia.
    - assert (Hdr := proj1 (date_relevant_false d Hok) Hrel). split; [lia|]. intros z Hz (_ & _ & Hm).
      destruct (weekday_relevant d) eqn:Hwrel.
      + assert (Hwr := proj1 (weekday_relevant_iff d Hok) Hwrel). specialize (Hfirst z Hz (Hm Hwr Hdr)). lia.
      + assert (Hwr := proj1 (weekday_relevant_false d Hok) Hwrel).
        assert (Hwok : weekday_ok d z).
        { unfold weekday_ok. destruct (in_dec Z.eq_dec (weekday z) (td_weekday d)); [assumption|]. exfalso. apply Hwr.
          exists (weekday z). split; [pose proof (weekday_range z); lia|assumption]. }
        specialize (Hfirst z Hz Hwok). lia. }
  destruct Hnn as [Hcn Hday].
  assert (Htod := tod_first o d from p Hok Hp Hshape).
  assert (Hone : (exists h0 m0, td_hour d = [h0] /\ td_minute d = [m0]) -> forall h m, In h (td_hour d) -> In m (td_minute d) ->
            p_hour p * 3600 + p_min p * 60 <= h * 3600 + m * 60).
  { intros (h0 & m0 & Eh & Em) h m Hh Hm. destruct (plan_hm _ _ _ _ Hok Hp) as (Hh' & Hm' & _).
    rewrite Eh in Hh, Hh'. rewrite Em in Hm, Hm'. destruct Hh as [<-|[]], Hm as [<-|[]], Hh' as [<-|[]], Hm' as [<-|[]]. lia. }
  eapply earliest_from_plan; [exact Hok|exact Hp|exact Ht|exact Hcn|exact Hday| |].
  - intros h m Hh Hm E0 Hlt. apply (proj1 (Htod h m Hh Hm)); [lia|exact Hlt].
  - intros h m Hh Hm E0. destruct Htime as [Hs|[Hnl|Hdm]]; [exact (Hone Hs h m Hh Hm)| |].
    + apply (proj2 (Htod h m Hh Hm)). destruct (plan_carry _ _ _ _ Hp Hok) as [(_ & _ & Hn)|(Ec & _)]; [contradiction|exact Ec].
    + apply (proj2 (Htod h m Hh Hm)). destruct Hc2 as [Ec|Ec]; [|exact Ec]. specialize (Hday z0 ltac:(lia) Hdm). lia.
Qed.
