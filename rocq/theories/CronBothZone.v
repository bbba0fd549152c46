(** Timers restricted by weekday and date, away from changes of the clocks. *)
From Coq Require Import String ZArith List Bool Lia.
From Verif Require Import Base CronModel SpecCron SpecCal SpecSched SpecZone SpecExact CalendarProofs CronNextProofs CronSchedProofs CronReachProofs
  ZoneProofs CronExactProofs CronExactZone.
Import ListNotations.
Local Open Scope Z_scope.

(** The search for a date in a zone without changes. *)
Lemma fixed_date_exists o from nd nm n0 : 0 <= n0 <= 365 -> room from 4000 -> 1 <= nm <= 12 -> 1 <= nd <= longest nm ->
  exists n, date_search (fixed o) from nd nm n0 = Ret n.
Proof.
  intros N0 [Rmin Rmax] Mr Dr. destruct (date_exists (local_day (fixed o) from + n0) nd nm Mr Dr) as (n & Nr & Hit).
  assert (Hit' : date_hit (fixed o) from nd nm (n0 + n)) by (apply date_hit_fixed; rewrite Z.add_assoc; exact Hit).
  destruct (date_search_total (fixed o) from nd nm n0) as [[x E]|[_ No]]; [exact Rmin|lia|exists x; exact E|].
  exfalso. apply (No (n0 + n)); [lia|unfold utc_sec, DAY in *; lia|exact Hit'].
Qed.

(** The times behind a chosen time. *)
Lemma next_of tz d from w : nominal tz d from = Ret w -> next_execution tz d from = gap_search tz w.
Proof. unfold next_execution. intros ->. reflexivity. Qed.
Lemma fixed_time o d from p t : desc_ok d -> plan_ok (fixed o) d from p -> utc_sec from + p_n p * DAY <= MAX_SEC -> next_execution (fixed o) d from = Ret t ->
  t = (((local_day (fixed o) from + p_n p) * DAY + p_hour p * 3600 + p_min p * 60) - o) * NS.
Proof.
  intros Ok P Mx H. rewrite (next_of _ _ _ _ (nominal_plan _ _ _ _ Ok P Mx)), gap_search_fixed, fixed_day_add in H.
  destruct (MAX_SEC <? _); [discriminate|]. injection H as <-. reflexivity.
Qed.
Lemma zone_time tz d from u : desc_ok d -> next_execution tz d from = Ret u ->
  exists p w, plan_ok tz d from p /\ utc_sec from + p_n p * DAY <= MAX_SEC /\ w = local_day tz (from + p_n p * DAY * NS) * DAY + p_hour p * 3600 + p_min p * 60 /\
    gap_search tz w = Ret u.
Proof.
  intros Ok H. destruct (nominal tz d from) as [w|] eqn:En; [|unfold next_execution in H; rewrite En in H; discriminate].
  rewrite (next_of _ _ _ _ En) in H.
  apply nominal_ret in En as (p & P & Pm & W); [|exact Ok]. exists p, w. auto.
Qed.


(** A plan for a zone is one for the zone without changes, up to a date that is not used. *)
Lemma calm_plan tz o d from p hi : desc_ok d -> room from 4000 -> agree tz (fixed o) (utc_sec from) hi ->
  utc_sec from <= hi -> utc_sec from + p_n p * DAY <= hi -> plan_ok tz d from p ->
  exists p', plan_ok (fixed o) d from p' /\ p_n p' = p_n p /\ p_hour p' = p_hour p /\ p_min p' = p_min p.
Proof.
  intros Ok Rm A L H P. pose proof (plan_n_nonneg _ _ _ _ P) as (Nw & Nd & N). pose proof Rm as [M _].
  assert (E : local_sec tz from = local_sec (fixed o) from). { unfold local_sec. rewrite A; [reflexivity|lia]. }
  destruct P as (S1 & S2 & S3 & S4 & S5 & Hwk & Hdd & Hn).
  unfold local_minute, local_hour, local_day in *. rewrite E in *.
  destruct (date_relevant d) eqn:R.
  2: { exists p. split; [|auto]. unfold plan_ok, local_minute, local_hour, local_day. rewrite R. auto 8. }
  assert (C4 : 0 <= p_c4 p * 365 <= 365) by (destruct S5 as [_ [[-> _]|[-> _]]]; lia).
  pose proof Ok as (_ & _ & (_ & _ & Rd) & (_ & _ & Rmo) & _).
  assert (Mr : 1 <= p_mon p <= 12) by (apply Rmo, S5).
  assert (Dr : 1 <= p_day p <= longest (p_mon p)).
  { split; [apply Rd, S4|]. pose proof (date_search_ret _ _ _ _ _ _ Hdd) as (_ & [D1 D2] & _).
    match type of D1 with d_day (civil ?z) = _ => destruct (civil_valid z) as [_ V]; pose proof (month_len_longest (d_year (civil z)) (d_month (civil z))) end.
    rewrite D1, D2 in *. lia. }
  destruct (fixed_date_exists o from (p_day p) (p_mon p) (p_c4 p * 365) C4 Rm Mr Dr) as [x Hx].
  assert (Xn : 0 <= x) by (apply date_search_ret in Hx as (Hx & _); lia).
  assert (Same : utc_sec from + p_date p * DAY <= hi \/ utc_sec from + x * DAY <= hi -> x = p_date p).
  { intros [K|K].
    - pose proof (agree_date tz (fixed o) from _ _ _ _ hi M A (proj1 C4) K Hdd). congruence.
    - pose proof (agree_date (fixed o) tz from _ _ _ _ hi M (agree_sym _ _ _ _ A) (proj1 C4) K Hx). congruence. }
  exists {| p_min := p_min p; p_c1 := p_c1 p; p_hour := p_hour p; p_c2 := p_c2 p; p_wd := p_wd p; p_c5 := p_c5 p; p_day := p_day p; p_c3 := p_c3 p;
            p_mon := p_mon p; p_c4 := p_c4 p; p_week := p_week p; p_date := x; p_n := p_n p |}.
  split; [|auto]. unfold plan_ok, local_minute, local_hour, local_day. cbn [p_min p_c1 p_hour p_c2 p_wd p_c5 p_day p_c3 p_mon p_c4 p_week p_date p_n].
  rewrite R. do 7 (split; [assumption|]). destruct (weekday_relevant d).
  - unfold DAY in *. destruct (Z_le_gt_dec (utc_sec from + p_date p * 86400) hi); [rewrite Same; auto|].
    destruct (Z_le_gt_dec (utc_sec from + x * 86400) hi); [rewrite Same; auto|]. lia.
  - rewrite Same; [exact Hn|]. left. rewrite <- Hn. exact H.
Qed.

Theorem chosen_calm tz o d from t : sane tz -> desc_ok d -> room from 4000 -> calm tz o from (Z.max from t) ->
  next_execution tz d from = Ret t -> next_execution (fixed o) d from = Ret t.
Proof.
  intros Hs Ok Rm C H. pose proof Hs as [Hz Hr].
  assert (NSp : 0 < NS) by reflexivity.
  set (hi := Z.max from t / NS + 3 * DAY).
  assert (F : utc_sec from <= Z.max from t / NS) by (apply Z.div_le_mono; lia).
  assert (Tm : t / NS <= Z.max from t / NS) by (apply Z.div_le_mono; lia).
  assert (A : agree tz (fixed o) (utc_sec from) hi).
  { intros s K. cbn [fixed z_off]. apply C. unfold hi, utc_sec, DAY in *. lia. }
  assert (Of : z_off tz (utc_sec from) = o). { rewrite A; [reflexivity|]. unfold hi, DAY. lia. }
  assert (Or : - DAY < o < DAY) by (rewrite <- Of; apply Hr).
  destruct (zone_time tz d from t Ok H) as (p & w & P & Pm & W & G0). clear H. rename G0 into H.
  pose proof (plan_n_nonneg _ _ _ _ P) as (_ & _ & N). pose proof (plan_hm _ _ _ _ Ok P) as (_ & _ & Hh & Hm).
  pose proof (gap_search_max _ _ _ H) as Mx. pose proof H as H0.
  apply gap_search_ret in H as (k & s & K & Ts & X & Y & _); [|exact Hz].
  assert (Sn : t / NS = s) by (rewrite Ts; apply Z.div_mul; lia). pose proof (Hr s) as Rs.
  assert (In_ : utc_sec from + p_n p * DAY <= hi).
  { destruct (Z_le_gt_dec (utc_sec from + p_n p * DAY) hi) as [L|G]; [exact L|exfalso].
    pose proof (Hr s). pose proof (Hr (utc_sec from + p_n p * DAY)).
    unfold local_day, local_sec in W. rewrite utc_sec_add in W.
    assert (D : 0 < DAY) by reflexivity.
    pose proof (Z.mul_div_le (utc_sec from + p_n p * DAY + z_off tz (utc_sec from + p_n p * DAY)) DAY D).
    pose proof (Z.mod_pos_bound (utc_sec from + p_n p * DAY + z_off tz (utc_sec from + p_n p * DAY)) DAY D).
    pose proof (Z.div_mod (utc_sec from + p_n p * DAY + z_off tz (utc_sec from + p_n p * DAY)) DAY ltac:(lia)).
    unfold hi, DAY in *. lia. }
  destruct (calm_plan tz o d from p hi Ok Rm A ltac:(unfold hi, DAY; lia) In_ P) as (p' & P' & En & Eh & Em).
  rewrite (next_of _ _ _ _ (nominal_plan _ _ _ _ Ok P' ltac:(rewrite En; exact Pm))). rewrite En, Eh, Em.
  rewrite <- (agree_day tz (fixed o) from hi (p_n p) A N In_), <- W, gap_search_fixed.
  destruct (Z.ltb_spec MAX_SEC w); [lia|].
  rewrite (agree_day tz (fixed o) from hi (p_n p) A N In_), fixed_day_add in W.
  unfold local_day, local_sec in W. cbn [fixed z_off] in W.
  assert (G : gap_search tz w = Ret ((w - o) * NS)).
  { apply (calm_resolves tz o Hs w (utc_sec from - 3 * DAY) hi); [intros x Kx; apply C; unfold hi, utc_sec, DAY in *; lia| | |exact Mx];
      unfold hi, DAY in *; lia. }
  congruence.
Qed.

Theorem chosen_exact tz o d from t : sane tz -> desc_ok d -> room from 4000 -> calm tz o from (Z.max from t) ->
  next_execution tz d from = Ret t ->
  due_at tz d t /\ (from < t <-> week_kept tz d from) /\
  (earliest tz d from t <-> week_kept tz d from /\ date_kept tz d from /\ time_kept tz d from).
Proof.
  intros Hs Ok Rm C H0. pose proof (chosen_calm tz o d from t Hs Ok Rm C H0) as H. clear H0.
  assert (Of : z_off tz (from / NS) = o). { apply (calm_wall tz o from from _ C). unfold DAY, NS. lia. }
  destruct (same_now tz o d from Of) as (W & N & _). split; [|split].
  - apply (calm_due tz o d t from _ C).
    + split; [|lia]. pose proof H as H'. apply next_execution_fixed in H' as (p & P & _ & _ & ->); [|exact Ok].
      pose proof (plan_n_nonneg _ _ _ _ P) as (_ & _ & Nn). pose proof (plan_hm _ _ _ _ Ok P) as (_ & _ & Hh & Hm).
      unfold local_day, local_sec, utc_sec. cbn [fixed z_off]. unfold DAY, NS in *. lia.
    + apply (next_execution_due o d from t Ok H).
  - unfold week_kept. rewrite W, N. apply (next_execution_future_iff o d from t Ok H).
  - change (earliest tz d from t <-> kept_all tz d from). rewrite (kept_same tz o d from Of).
    rewrite (calm_earliest tz o d from (Z.max from t) t C ltac:(lia)). apply (earliest_iff o d from t Ok H).
Qed.

(** If both decide on the day, a date that lies beyond the calm days is not used. *)
Lemma both_chosen tz o d from t u : date_relevant d = true -> weekday_relevant d = true -> sane tz -> desc_ok d -> room from 4000 -> calm tz o from t ->
  from < t -> next_execution (fixed o) d from = Ret t -> next_execution tz d from = Ret u -> u = t.
Proof.
  intros R Wr Hs Ok Rm C Lt Hf H. pose proof Hs as [Hz Hr]. pose proof Rm as [M Mx0].
  assert (NSp : 0 < NS) by reflexivity. remember (t / NS + 3 * DAY) as hi eqn:Hi.
  assert (F : utc_sec from <= t / NS) by (apply Z.div_le_mono; lia).
  assert (A : agree tz (fixed o) (utc_sec from) hi).
  { intros s K. cbn [fixed z_off]. apply C. unfold utc_sec, DAY in *. lia. }
  assert (Of : z_off tz (utc_sec from) = o). { rewrite A; [reflexivity|]. unfold DAY in *. lia. }
  assert (Or : - DAY < o < DAY) by (rewrite <- Of; apply Hr).
  destruct (zone_time tz d from u Ok H) as (p & w & P & Pm & W & G0). clear H. rename G0 into H. pose proof (gap_search_max _ _ _ H) as Mx.
  pose proof (plan_n_nonneg _ _ _ _ P) as (Nw & Nd & N). pose proof (plan_hm _ _ _ _ Ok P) as (_ & _ & Hh & Hm).
  assert (E : local_sec tz from = local_sec (fixed o) from). { unfold local_sec. rewrite A; [reflexivity|unfold DAY in *; lia]. }
  destruct P as (S1 & S2 & S3 & S4 & S5 & Hwk & Hdd & Hn). rewrite R in Hdd, Hn. rewrite Wr in Hn.
  assert (C4 : 0 <= p_c4 p * 365 <= 365) by (destruct S5 as [_ [[-> _]|[-> _]]]; lia).
  pose proof Ok as (_ & _ & (_ & _ & Rd) & (_ & _ & Rmo) & _).
  assert (Mr : 1 <= p_mon p <= 12) by (apply Rmo, S5).
  assert (Dr : 1 <= p_day p <= longest (p_mon p)).
  { split; [apply Rd, S4|]. pose proof (date_search_ret _ _ _ _ _ _ Hdd) as (_ & [D1 D2] & _).
    match type of D1 with d_day (civil ?z) = _ => destruct (civil_valid z) as [_ V]; pose proof (month_len_longest (d_year (civil z)) (d_month (civil z))) end.
    rewrite D1, D2 in *. lia. }
  destruct (fixed_date_exists o from (p_day p) (p_mon p) (p_c4 p * 365) C4 Rm Mr Dr) as [x Hx].
  assert (Xn : 0 <= x) by (apply date_search_ret in Hx as (Hx & _); lia).
  assert (Same : utc_sec from + p_date p * DAY <= hi \/ utc_sec from + x * DAY <= hi -> x = p_date p).
  { intros [K|K].
    - pose proof (agree_date tz (fixed o) from _ _ _ _ hi M A (proj1 C4) K Hdd). congruence.
    - pose proof (agree_date (fixed o) tz from _ _ _ _ hi M (agree_sym _ _ _ _ A) (proj1 C4) K Hx). congruence. }
  remember (Z.min (p_week p) x) as n' eqn:Hn'.
  assert (P' : plan_ok (fixed o) d from {| p_min := p_min p; p_c1 := p_c1 p; p_hour := p_hour p; p_c2 := p_c2 p; p_wd := p_wd p; p_c5 := p_c5 p;
            p_day := p_day p; p_c3 := p_c3 p; p_mon := p_mon p; p_c4 := p_c4 p; p_week := p_week p; p_date := x; p_n := n' |}).
  { abstract (unfold plan_ok, local_minute, local_hour, local_day in *; cbn [p_min p_c1 p_hour p_c2 p_wd p_c5 p_day p_c3 p_mon p_c4 p_week p_date p_n];
    rewrite <- E; rewrite R, Wr; auto 8). }
  assert (N' : 0 <= n' <= 6) by lia.
  apply (fixed_time o d from _ t Ok P') in Hf; [|cbn [p_n]; unfold utc_sec, DAY in *; lia]. cbn [p_n p_hour p_min] in Hf.
  remember ((local_day (fixed o) from + n') * DAY + p_hour p * 3600 + p_min p * 60) as w' eqn:Hw'.
  assert (Sn : t / NS = w' - o) by (rewrite Hf; apply Z.div_mul; lia).
  assert (Wl : w' = ((utc_sec from + o) / DAY + n') * DAY + p_hour p * 3600 + p_min p * 60) by (rewrite Hw'; reflexivity).
  assert (In_ : utc_sec from + n' * DAY <= hi) by (unfold DAY in *; lia).
  assert (En : p_n p = n').
  { rewrite Hn. rewrite Hn'. destruct (Z_le_gt_dec (p_week p) x) as [L1|L1].
    - destruct (Z_le_gt_dec (p_week p) (p_date p)) as [L2|L2]; [lia|]. rewrite Same; [reflexivity|]. left. unfold DAY in *. lia.
    - rewrite Same; [reflexivity|]. right. unfold DAY in *. lia. }
  rewrite En in *. rewrite (agree_day tz (fixed o) from hi n' A (proj1 N') In_), fixed_day_add in W. rewrite <- Hw' in W. subst w.
  assert (G : gap_search tz w' = Ret ((w' - o) * NS)).
  { apply (calm_resolves tz o Hs w' (utc_sec from - 3 * DAY) hi); [intros y Ky; apply C|..|exact Mx].
    all: unfold utc_sec, DAY in *; lia. }
  rewrite G in H. congruence.
Qed.

(** There is a time in a zone without changes, if there is one in the zone. *)
Lemma chosen_exists tz o d from m u : sane tz -> desc_ok d -> room from 4000 -> calm tz o from m -> from < m -> due_at tz d m ->
  kept_all tz d from -> next_execution tz d from = Ret u ->
  exists t, next_execution (fixed o) d from = Ret t /\ earliest (fixed o) d from t /\ t <= m.
Proof.
  intros Hs Ok Rm C Lt Du K H.
  assert (Of : z_off tz (from / NS) = o). { apply (calm_wall tz o from from m C). unfold DAY, NS. lia. }
  assert (Or : - DAY < o < DAY) by (rewrite <- Of; apply Hs).
  rewrite (kept_same tz o d from Of) in K. apply (calm_due tz o d m from m C) in Du; [|unfold DAY, NS; lia].
  assert (Ex : exists t', next_execution (fixed o) d from = Ret t').
  { apply next_execution_exists_iff; [exact Ok|exact Or|exact Rm|]. intros Dr. apply (date_relevant_iff d Ok) in Dr as R. unfold next_execution in H.
    destruct (nominal tz d from) as [w|] eqn:En; [|discriminate]. apply nominal_ret in En as (p & P & _ & _); [|exact Ok].
    exists (p_day p), (p_mon p). pose proof P as (S1 & S2 & _ & S4 & S5 & _ & Hdd & _). split.
    - assert (El : local_sec tz from = local_sec (fixed o) from) by (unfold local_sec, utc_sec; rewrite Of; reflexivity).
      unfold local_minute, local_hour, local_day in S1, S2, S4, S5. rewrite El in S1, S2, S4, S5.
      exact (plan_sought (fixed o) d from _ _ _ _ _ _ _ _ Ok S1 S2 S4 S5).
    - rewrite R in Hdd. pose proof (date_search_ret _ _ _ _ _ _ Hdd) as (_ & [D1 D2] & _).
      match type of D1 with d_day (civil ?z) = _ => destruct (civil_valid z) as [_ V]; pose proof (month_len_longest (d_year (civil z)) (d_month (civil z))) end.
      rewrite D1, D2 in *. lia. }
  destruct Ex as [t' Ex]. assert (E' : earliest (fixed o) d from t') by (apply (earliest_iff o d from t' Ok Ex); exact K).
  exists t'. split; [exact Ex|]. split; [exact E'|]. apply E'; assumption.
Qed.

Lemma calm_less tz o a b b' : calm tz o a b -> b' <= b -> calm tz o a b'.
Proof. intros C L s K. apply C. assert (b' / NS <= b / NS) by (apply Z.div_le_mono; [reflexivity|exact L]). lia. Qed.

(** Under the conditions the chosen time is not later than any time at which the timer is due. *)
Theorem kept_not_later tz o d from m u : sane tz -> desc_ok d -> room from 4000 -> calm tz o from m -> from < m -> due_at tz d m ->
  kept_all tz d from -> next_execution tz d from = Ret u -> u <= m /\ earliest tz d from u.
Proof.
  intros Hs Ok Rm C Lt Du K H. destruct (chosen_exists tz o d from m u Hs Ok Rm C Lt Du K H) as (t & Ht & E & Le).
  assert (C' := calm_less tz o from m t C Le). pose proof E as (Lt' & _).
  enough (u = t) as ->. { split; [exact Le|]. apply (calm_earliest tz o d from t t C' ltac:(lia)). exact E. }
  destruct (date_relevant d && weekday_relevant d) eqn:B.
  - apply andb_prop in B as [R Wr]. exact (both_chosen tz o d from t u R Wr Hs Ok Rm C' Lt' Ht H).
  - assert (O : one_rule d).
    { intros [X Y]. apply (weekday_relevant_iff d Ok) in X. apply (date_relevant_iff d Ok) in Y. rewrite X, Y in B. discriminate B. }
    assert (N : next_execution tz d from = Ret t).
    { apply (next_calm tz o Hs d from t Ok O); [apply Rm|rewrite Z.max_r by lia; exact C'|exact Ht]. }
    congruence.
Qed.

Theorem calm_exact_any tz o d from t u : sane tz -> desc_ok d -> room from 4000 -> calm tz o from t -> earliest tz d from t ->
  next_execution tz d from = Ret u ->
  (u = t <-> week_kept tz d from /\ date_kept tz d from /\ time_kept tz d from).
Proof.
  intros Hs Ok Rm C E H. pose proof E as (Lt & Du & Min). split.
  - intros ->. assert (C' : calm tz o from (Z.max from t)) by (rewrite Z.max_r by lia; exact C).
    destruct (chosen_exact tz o d from t Hs Ok Rm C' H) as (_ & _ & X). exact (proj1 X E).
  - intros K. destruct (kept_not_later tz o d from t u Hs Ok Rm C Lt Du K H) as (Le & A & B & _).
    apply Z.le_antisymm; [exact Le|]. apply Min; assumption.
Qed.
