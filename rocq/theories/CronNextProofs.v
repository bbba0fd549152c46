From Coq Require Import String ZArith List Bool Sorted Lia ZifyBool FinFun.
From Verif Require Import Base CronModel SpecCron SpecCal SpecSched CronParseProofs CalendarProofs.
Import ListNotations.
Local Open Scope Z_scope.
Ltac Zify.zify_post_hook ::= Z.div_mod_to_equations.

(** ** Successor in a finite set *)
Definition next_spec (k : Z) (l : list Z) (x c : Z) : Prop :=
  In x l /\ ((c = 0 /\ k <= x /\ forall y, In y l -> k <= y -> x <= y) \/
             (c = 1 /\ (forall y, In y l -> y < k) /\ forall y, In y l -> x <= y)).

Lemma sorted_head_le x l : increasing (x :: l) -> forall y, In y (x :: l) -> x <= y.
Proof.
  intros H y [<-|Hy]; [lia|]. apply StronglySorted_inv in H as [_ H].
  rewrite Forall_forall in H. specialize (H y Hy). lia.
Qed.

Lemma bt_from_some k l x : increasing l -> bt_from k l = Some x ->
  In x l /\ k <= x /\ forall y, In y l -> k <= y -> x <= y.
Proof.
  unfold bt_from. induction l as [|a l IH]; intros Hs H; [discriminate|]. cbn [find] in H.
  destruct (Z.leb_spec k a) as [Hle|Hgt].
  - injection H as <-. split; [now left|]. split; [assumption|].
    intros y Hy _. now apply (sorted_head_le a l).
  - apply StronglySorted_inv in Hs as [Hs Ha]. destruct (IH Hs H) as (H1 & H2 & H3).
    split; [now right|]. split; [assumption|]. intros y [<-|Hy] Hk; [lia|auto].
Qed.

Lemma bt_from_none k l : bt_from k l = None -> forall y, In y l -> y < k.
Proof. unfold bt_from. intros H y Hy. pose proof (find_none _ _ H y Hy) as Hn. cbn in Hn. lia. Qed.

Lemma next_in_spec k l lo hi : field_ok lo hi l -> exists x c, next_in k l = Ret (x, c) /\ next_spec k l x c.
Proof.
  intros (Hne & Hs & _). unfold next_in. destruct (bt_from k l) as [x|] eqn:E.
  - apply bt_from_some in E; [|assumption]. exists x, 0. split; [reflexivity|]. unfold next_spec. tauto.
  - pose proof (bt_from_none k l E) as Hlt. destruct l as [|a l]; [congruence|]. cbn.
    exists a, 1. split; [reflexivity|]. split; [now left|]. right. split; [reflexivity|].
    split; [assumption|]. now apply sorted_head_le.
Qed.

(** ** Fields that leave nothing out *)
Lemma increasing_nodup l : increasing l -> NoDup l.
Proof.
  induction 1 as [|a l Hs IH Ha]; constructor; [|assumption].
  intros Hin. rewrite Forall_forall in Ha. specialize (Ha a Hin). lia.
Qed.

Lemma zrange_length a b : length (zrange a b) = Z.to_nat (b - a + 1).
Proof. unfold zrange. now rewrite map_length, seq_length. Qed.

Lemma zrange_nodup a b : NoDup (zrange a b).
Proof.
  unfold zrange. apply Injective_map_NoDup; [|apply seq_NoDup].
  intros x y H. lia.
Qed.

Lemma full_length lo hi l : field_ok lo hi l -> lo <= hi ->
  (Z.of_nat (length l) = hi - lo + 1 <-> forall x, lo <= x <= hi -> In x l).
Proof.
  intros (Hne & Hs & Hr) Hle. apply increasing_nodup in Hs. split.
  - intros Hl x Hx. assert (Hincl : incl l (zrange lo hi)). { intros y Hy. apply zrange_In. auto. }
    assert (Hback : incl (zrange lo hi) l).
    { apply NoDup_length_incl; [assumption|rewrite zrange_length; lia|assumption]. }
    apply Hback. now apply zrange_In.
  - intros Hall.
    assert (H1 : (length (zrange lo hi) <= length l)%nat).
    { apply NoDup_incl_length; [apply zrange_nodup|]. intros y Hy. apply zrange_In in Hy. auto. }
    assert (H2 : (length l <= length (zrange lo hi))%nat).
    { apply NoDup_incl_length; [assumption|]. intros y Hy. apply zrange_In. auto. }
    rewrite zrange_length in *. lia.
Qed.

Lemma restricted_iff lo hi l : field_ok lo hi l -> lo <= hi ->
  (Z.of_nat (length l) <> hi - lo + 1 <-> restricted lo hi l).
Proof.
  intros Hf Hle. rewrite (full_length lo hi l Hf Hle). unfold restricted. split.
  - intros H. destruct (forallb (fun x => if in_dec Z.eq_dec x l then true else false) (zrange lo hi)) eqn:E.
    + exfalso. apply H. intros x Hx. rewrite forallb_forall in E.
      specialize (E x ltac:(now apply zrange_In)). cbn in E.
      destruct (in_dec Z.eq_dec x l); [assumption|discriminate].
    + assert (Hex : existsb (fun x => if in_dec Z.eq_dec x l then false else true) (zrange lo hi) = true).
      { clear -E. induction (zrange lo hi) as [|a r IH]; [discriminate|]. cbn in *.
        destruct (in_dec Z.eq_dec a l); [now apply IH|reflexivity]. }
      apply existsb_exists in Hex as (x & Hx & Hn). exists x. apply zrange_In in Hx. split; [assumption|].
      destruct (in_dec Z.eq_dec x l); [discriminate|assumption].
  - intros (x & Hx & Hn) Hall. auto.
Qed.

Lemma weekday_relevant_iff d : desc_ok d -> weekday_relevant d = true <-> weekday_restricted d.
Proof.
  intros (_ & _ & _ & _ & Hw). unfold weekday_relevant, weekday_restricted.
  rewrite <- (restricted_iff 0 6 _ Hw) by lia. lia.
Qed.

Lemma date_relevant_iff d : desc_ok d -> date_relevant d = true <-> date_restricted d.
Proof.
  intros (_ & _ & Hd & Hm & _). unfold date_relevant, date_restricted.
  rewrite <- (restricted_iff 1 31 _ Hd), <- (restricted_iff 1 12 _ Hm) by lia. lia.
Qed.

Lemma weekday_relevant_false d : desc_ok d -> weekday_relevant d = false <-> ~ weekday_restricted d.
Proof. intros H. rewrite <- weekday_relevant_iff by assumption. destruct (weekday_relevant d); intuition congruence. Qed.
Lemma date_relevant_false d : desc_ok d -> date_relevant d = false <-> ~ date_restricted d.
Proof. intros H. rewrite <- date_relevant_iff by assumption. destruct (date_relevant d); intuition congruence. Qed.

(** ** Loops that count upwards *)
Lemma nloop_count_inr {R} (body : Z -> Z + R) fuel a r :
  nloop fuel body a = inr r ->
  (forall n s, body n = inl s -> s = n + 1) ->
  exists n, a <= n < a + Z.of_nat fuel /\ body n = inr r /\ forall j, a <= j < n -> body j = inl (j + 1).
Proof.
  intros H Hstep. revert a H. induction fuel as [|f IH]; intros a H; [discriminate|]. cbn [nloop] in H.
  destruct (body a) as [s|r'] eqn:E.
  - pose proof (Hstep _ _ E) as ->. destruct (IH _ H) as (n & Hn & Hb & Hj). exists n.
    split; [lia|]. split; [assumption|]. intros j Hjr.
    destruct (Z.eq_dec j a) as [->|]; [assumption|]. apply Hj. lia.
  - injection H as ->. exists a. split; [lia|]. split; [assumption|]. intros; lia.
Qed.

Lemma nloop_count_reach {R} (body : Z -> Z + R) fuel a n r :
  (forall j, a <= j < n -> body j = inl (j + 1)) -> body n = inr r ->
  a <= n < a + Z.of_nat fuel -> nloop fuel body a = inr r.
Proof.
  revert a. induction fuel as [|f IH]; intros a Hj Hb Hr; [lia|]. cbn [nloop].
  destruct (Z.eq_dec a n) as [->|Hne]; [now rewrite Hb|].
  rewrite Hj by lia. apply IH; [intros; apply Hj; lia|assumption|lia].
Qed.

Lemma nloop_count_inl {R} (body : Z -> Z + R) fuel a s :
  nloop fuel body a = inl s -> (forall n s, body n = inl s -> s = n + 1) ->
  forall j, a <= j < a + Z.of_nat fuel -> body j = inl (j + 1).
Proof.
  intros H Hstep. revert a H. induction fuel as [|f IH]; intros a H j Hj; [lia|]. cbn [nloop] in H.
  destruct (body a) as [s'|r'] eqn:E; [|discriminate]. pose proof (Hstep _ _ E) as ->.
  destruct (Z.eq_dec j a) as [->|]; [assumption|]. apply (IH _ H). lia.
Qed.

(** ** The date search *)
Definition date_hit (tz : zone) (from : instant) (nd nm n : Z) : Prop :=
  d_day (civil (local_day tz (from + n * DAY * NS))) = nd /\
  d_month (civil (local_day tz (from + n * DAY * NS))) = nm.

Lemma utc_sec_add from n : utc_sec (from + n * DAY * NS) = utc_sec from + n * DAY.
Proof. unfold utc_sec. rewrite Z.div_add; [reflexivity|unfold NS; lia]. Qed.

Lemma add_days_ret from n t : add_days from n = Ret t ->
  t = from + n * DAY * NS /\ utc_sec from + n * DAY <= MAX_SEC.
Proof.
  unfold add_days. rewrite utc_sec_add. destruct (Z.ltb_spec MAX_SEC (utc_sec from + n * DAY)); [discriminate|].
  intros [= <-]. split; [reflexivity|lia].
Qed.

Lemma add_days_ok from n : utc_sec from + n * DAY <= MAX_SEC -> add_days from n = Ret (from + n * DAY * NS).
Proof.
  intros H. unfold add_days. rewrite utc_sec_add.
  destruct (Z.ltb_spec MAX_SEC (utc_sec from + n * DAY)); [lia|reflexivity].
Qed.

Lemma date_step_inl tz from nd nm n s : date_step tz from nd nm n = inl s -> s = n + 1.
Proof.
  unfold date_step. destruct (add_days from n); [|discriminate]. destruct (_ && _); [discriminate|]. congruence.
Qed.

Lemma date_search_ret tz from nd nm n0 n : date_search tz from nd nm n0 = Ret n ->
  n0 <= n /\ date_hit tz from nd nm n /\ utc_sec from + n * DAY <= MAX_SEC /\
  forall j, n0 <= j < n -> ~ date_hit tz from nd nm j.
Proof.
  unfold date_search. rewrite ploop_nloop.
  destruct (nloop _ _ _) as [s|r] eqn:E; [discriminate|]. intros ->.
  apply nloop_count_inr in E as (k & Hk & Hb & Hj); [|apply date_step_inl].
  unfold date_step in Hb. destruct (add_days from k) as [t|] eqn:Ea; [|discriminate].
  apply add_days_ret in Ea as [-> Hmax].
  destruct (_ && _) eqn:Eh; [|discriminate]. injection Hb as ->.
  split; [lia|]. split; [|split; [assumption|]].
  - unfold date_hit. apply andb_true_iff in Eh as [E1 E2]. split; now apply Z.eqb_eq.
  - intros j Hjr [H1 H2]. specialize (Hj j Hjr). unfold date_step in Hj.
    rewrite add_days_ok in Hj by (unfold DAY in *; lia).
    rewrite H1, H2, !Z.eqb_refl in Hj. discriminate.
Qed.

Lemma date_search_found tz from nd nm n0 n :
  MIN_SEC <= utc_sec from -> 0 <= n0 <= n -> utc_sec from + n * DAY <= MAX_SEC ->
  date_hit tz from nd nm n -> (forall j, n0 <= j < n -> ~ date_hit tz from nd nm j) ->
  date_search tz from nd nm n0 = Ret n.
Proof.
  intros Hmin Hn Hmax Hhit Hno. unfold date_search. rewrite ploop_nloop.
  erewrite (nloop_count_reach _ _ n0 n (Ret n)); [reflexivity| | |].
  - intros j Hj. unfold date_step. rewrite add_days_ok by (unfold DAY in *; lia).
    destruct (_ && _) eqn:E; [|reflexivity]. exfalso. apply (Hno j Hj).
    apply andb_true_iff in E as [E1 E2]. split; now apply Z.eqb_eq.
  - unfold date_step. rewrite add_days_ok by assumption. destruct Hhit as [-> ->]. now rewrite !Z.eqb_refl.
  - rewrite positive_nat_Z. unfold SEARCH_FUEL, MIN_SEC, MAX_SEC, DAY in *. lia.
Qed.

(** The search always ends: with the first hit, or at the end of the calendar. *)
Lemma date_search_total tz from nd nm n0 :
  MIN_SEC <= utc_sec from -> 0 <= n0 ->
  (exists n, date_search tz from nd nm n0 = Ret n) \/
  (date_search tz from nd nm n0 = Panic "`DateTime + TimeDelta` overflowed" /\
   forall n, n0 <= n -> utc_sec from + n * DAY <= MAX_SEC -> ~ date_hit tz from nd nm n).
Proof.
  intros Hmin Hn0. unfold date_search. rewrite ploop_nloop.
  destruct (nloop _ _ _) as [s|r] eqn:E.
  - exfalso. pose proof (nloop_count_inl _ _ _ _ E (date_step_inl tz from nd nm)) as H.
    specialize (H (n0 + Z.of_nat (Pos.to_nat SEARCH_FUEL) - 1)). rewrite positive_nat_Z in H.
    unfold date_step, add_days in H. rewrite utc_sec_add in H.
    destruct (Z.ltb_spec MAX_SEC (utc_sec from + (n0 + Z.pos SEARCH_FUEL - 1) * DAY)) as [Hlt|Hge].
    + specialize (H ltac:(lia)). discriminate.
    + unfold SEARCH_FUEL, MIN_SEC, MAX_SEC, DAY in *. lia.
  - apply nloop_count_inr in E as (k & Hk & Hb & Hj); [|apply date_step_inl].
    unfold date_step in Hb. destruct (add_days from k) as [t|m] eqn:Ea.
    + destruct (_ && _); [|discriminate]. injection Hb as <-. left; eauto.
    + injection Hb as <-. right. unfold add_days in Ea. rewrite utc_sec_add in Ea.
      destruct (Z.ltb_spec MAX_SEC (utc_sec from + k * DAY)) as [Hlt|]; [|discriminate].
      injection Ea as <-. split; [reflexivity|]. intros n Hn Hmax [H1 H2].
      assert (Hnk : n < k) by (unfold DAY in *; lia).
      specialize (Hj n ltac:(lia)). unfold date_step in Hj.
      rewrite add_days_ok in Hj by assumption. rewrite H1, H2, !Z.eqb_refl in Hj. discriminate.
Qed.

(** ** Folds and gaps *)
Lemma fold_max_spec l a : In (fold_left Z.max l a) (a :: l) /\ forall x, In x (a :: l) -> x <= fold_left Z.max l a.
Proof.
  revert a. induction l as [|b l IH]; intros a; cbn [fold_left].
  - split; [now left|]. intros x [<-|[]]. lia.
  - destruct (IH (Z.max a b)) as [H1 H2]. split.
    + destruct H1 as [H1|H1]; [|right; now right].
      rewrite <- H1. destruct (Z.max_spec a b) as [[_ ->]|[_ ->]]; [right; now left|now left].
    + intros x [<-|[<-|Hx]]; [| |apply H2; now right];
        (etransitivity; [|apply H2; now left]); lia.
Qed.

(** [resolve] finds the earliest instant at which the wall clock shows [w]. *)
Lemma resolve_some tz w t : zone_ok tz -> resolve tz w = Some t ->
  exists s, t = s * NS /\ s + z_off tz s = w /\ forall s', s' + z_off tz s' = w -> s <= s'.
Proof.
  intros Hz. unfold resolve. destruct (filter _ _) as [|o rest] eqn:E; [discriminate|].
  intros [= <-]. set (m := fold_left Z.max rest o).
  destruct (fold_max_spec rest o) as [Hin Hmax]. fold m in Hin, Hmax. rewrite <- E in Hin.
  apply filter_In in Hin as [_ Hm]. apply Z.eqb_eq in Hm.
  exists (w - m). split; [reflexivity|]. split; [lia|].
  intros s' Hs'. assert (Hin : In (z_off tz s') (o :: rest)).
  { rewrite <- E. apply filter_In. split; [apply Hz|]. apply Z.eqb_eq.
    f_equal. lia. }
  apply Hmax in Hin. lia.
Qed.

Lemma resolve_none tz w : zone_ok tz -> resolve tz w = None -> ~ exists_wall tz w.
Proof.
  intros Hz. unfold resolve. destruct (filter _ _) as [|o rest] eqn:E; [|discriminate].
  intros _ (s & Hs). assert (Hin : In (z_off tz s) []).
  { rewrite <- E. apply filter_In. split; [apply Hz|]. apply Z.eqb_eq. f_equal. lia. }
  destruct Hin.
Qed.

Lemma gap_step_inl tz w k s : gap_step tz w k = inl s -> s = k + 1.
Proof.
  unfold gap_step. destruct (_ <? _); [discriminate|]. destruct (resolve _ _); [discriminate|].
  destruct (_ <? _); [discriminate|]. congruence.
Qed.

Lemma gap_search_ret tz w t : zone_ok tz -> gap_search tz w = Ret t ->
  exists k s, 0 <= k <= 15840 /\ t = s * NS /\ s + z_off tz s = w + 60 * k /\
    (forall s', s' + z_off tz s' = w + 60 * k -> s <= s') /\
    (forall j, 0 <= j < k -> ~ exists_wall tz (w + 60 * j)).
Proof.
  intros Hz. unfold gap_search. rewrite ploop_nloop.
  destruct (nloop _ _ _) as [s|r] eqn:E; [discriminate|]. intros ->.
  apply nloop_count_inr in E as (k & Hk & Hb & Hj); [|apply gap_step_inl].
  rewrite positive_nat_Z in Hk. unfold GAP_FUEL in Hk.
  unfold gap_step in Hb. destruct (_ <? _); [discriminate|].
  destruct (resolve tz (w + 60 * k)) as [t'|] eqn:Er.
  2:{ destruct (_ <? _); discriminate. }
  injection Hb as <-. apply (resolve_some tz _ _ Hz) in Er as (s & -> & Hs & Hmin).
  exists k, s. split.
  - split; [lia|]. destruct (Z_le_gt_dec k 15840); [assumption|].
    specialize (Hj 15840 ltac:(lia)). unfold gap_step in Hj.
    destruct (_ <? _); [discriminate|]. destruct (resolve _ _); discriminate.
  - split; [reflexivity|]. split; [assumption|]. split; [assumption|].
    intros j Hjr. specialize (Hj j Hjr). unfold gap_step in Hj.
    destruct (_ <? _); [discriminate|]. destruct (resolve tz (w + 60 * j)) eqn:Er; [discriminate|].
    now apply (resolve_none tz _ Hz).
Qed.

Lemma gap_search_finds tz w k : zone_ok tz -> 0 <= k <= 15840 -> w + 60 * k <= MAX_SEC ->
  exists_wall tz (w + 60 * k) -> exists t, gap_search tz w = Ret t.
Proof.
  intros Hz Hk Hmax Hex.
  assert (Hleast : exists i, 0 <= i <= k /\ resolve tz (w + 60 * i) <> None /\
                     forall j, 0 <= j < i -> resolve tz (w + 60 * j) = None).
  { assert (Hn : forall n : nat, (exists i, 0 <= i < Z.of_nat n /\ resolve tz (w + 60 * i) <> None /\
                     forall j, 0 <= j < i -> resolve tz (w + 60 * j) = None) \/
                   (forall j, 0 <= j < Z.of_nat n -> resolve tz (w + 60 * j) = None)).
    { induction n as [|n [(i & Hi & Hr)|IH]].
      - right. intros; lia.
      - left. exists i. split; [lia|assumption].
      - destruct (resolve tz (w + 60 * Z.of_nat n)) eqn:Er.
        + left. exists (Z.of_nat n). split; [lia|]. split; [congruence|assumption].
        + right. intros j Hj. destruct (Z.eq_dec j (Z.of_nat n)) as [->|]; [assumption|]. apply IH. lia. }
    destruct (Hn (Z.to_nat (k + 1))) as [(i & Hi & Hr)|Hnone].
    - exists i. split; [lia|assumption].
    - exfalso. apply (resolve_none tz (w + 60 * k) Hz); [|assumption]. apply Hnone. lia. }
  destruct Hleast as (i & Hi & Hr & Hj).
  destruct (resolve tz (w + 60 * i)) as [t|] eqn:Er; [|congruence].
  exists t. unfold gap_search. rewrite ploop_nloop.
  erewrite (nloop_count_reach _ _ 0 i (Ret t)); [reflexivity| | |].
  - intros j Hjr. unfold gap_step. destruct (Z.ltb_spec MAX_SEC (w + 60 * j)); [lia|].
    rewrite Hj by assumption. destruct (Z.ltb_spec 15840 (j + 1)); [lia|reflexivity].
  - unfold gap_step. destruct (Z.ltb_spec MAX_SEC (w + 60 * i)); [lia|]. now rewrite Er.
  - rewrite positive_nat_Z. unfold GAP_FUEL. lia.
Qed.

(** ** The nominal time *)
Record plan := { p_min : Z; p_c1 : Z; p_hour : Z; p_c2 : Z; p_wd : Z; p_c5 : Z;
                 p_day : Z; p_c3 : Z; p_mon : Z; p_c4 : Z; p_week : Z; p_date : Z; p_n : Z }.

Definition plan_ok (tz : zone) (d : timer_desc) (from : instant) (p : plan) : Prop :=
  let today := local_day tz from in
  next_spec (local_minute tz from + 1) (td_minute d) (p_min p) (p_c1 p) /\
  next_spec (local_hour tz from + p_c1 p) (td_hour d) (p_hour p) (p_c2 p) /\
  next_spec (weekday today + p_c2 p) (td_weekday d) (p_wd p) (p_c5 p) /\
  next_spec (d_day (civil today) + p_c2 p) (td_day d) (p_day p) (p_c3 p) /\
  next_spec (d_month (civil today) + p_c3 p) (td_month d) (p_mon p) (p_c4 p) /\
  p_week p = (p_wd p - weekday today) mod 7 /\
  (if date_relevant d then date_search tz from (p_day p) (p_mon p) (p_c4 p * 365) = Ret (p_date p)
   else p_date p = p_c4 p * 365) /\
  p_n p = (if date_relevant d then
             if weekday_relevant d then Z.min (p_week p) (p_date p) else p_date p
           else p_week p).

Lemma week_mod wd nwd : 0 <= wd <= 6 -> 0 <= nwd <= 6 ->
  (if nwd <? wd then 7 - (wd - nwd) else nwd - wd) = (nwd - wd) mod 7.
Proof. intros H1 H2. destruct (Z.ltb_spec nwd wd); lia. Qed.

Lemma nominal_ret tz d from w : desc_ok d -> nominal tz d from = Ret w ->
  exists p, plan_ok tz d from p /\ utc_sec from + p_n p * DAY <= MAX_SEC /\
    w = local_day tz (from + p_n p * DAY * NS) * DAY + p_hour p * 3600 + p_min p * 60.
Proof.
  intros (Hm & Hh & Hd & Hmo & Hw) H. unfold nominal in H.
  destruct (next_in_spec (local_minute tz from + 1) _ _ _ Hm) as (mi & c1 & E1 & S1). rewrite E1 in H. cbn [obind] in H.
  destruct (next_in_spec (local_hour tz from + c1) _ _ _ Hh) as (h & c2 & E2 & S2). rewrite E2 in H. cbn [obind] in H.
  destruct (next_in_spec (weekday (local_day tz from) + c2) _ _ _ Hw) as (nwd & c5 & E3 & S3). rewrite E3 in H. cbn [obind] in H.
  destruct (next_in_spec (d_day (civil (local_day tz from)) + c2) _ _ _ Hd) as (nd & c3 & E4 & S4). rewrite E4 in H. cbn [obind] in H.
  destruct (next_in_spec (d_month (civil (local_day tz from)) + c3) _ _ _ Hmo) as (nm & c4 & E5 & S5). rewrite E5 in H. cbn [obind] in H.
  assert (Hnwd : 0 <= nwd <= 6) by (destruct S3 as [Hin _]; now apply Hw in Hin).
  rewrite (week_mod _ _ (weekday_range (local_day tz from)) Hnwd) in H.
  set (wk := (nwd - weekday (local_day tz from)) mod 7) in *.
  destruct (if date_relevant d then date_search tz from nd nm (c4 * 365) else Ret (c4 * 365)) as [dd|] eqn:Ed; [|discriminate].
  cbn [obind] in H.
  set (n := if date_relevant d then if weekday_relevant d then Z.min wk dd else dd else wk).
  assert (Hadd : (if weekday_relevant d && date_relevant d then add_days from (Z.min wk dd)
                  else if negb (weekday_relevant d) && date_relevant d then add_days from dd
                       else add_days from wk) = add_days from n).
  { unfold n. now destruct (weekday_relevant d), (date_relevant d). }
  rewrite Hadd in H. destruct (add_days from n) as [ed|] eqn:Ea; [|discriminate]. cbn [obind] in H.
  apply add_days_ret in Ea as [-> Hmax].
  destruct ((h <? 24) && (mi <? 60)); [|discriminate]. injection H as <-.
  exists {| p_min := mi; p_c1 := c1; p_hour := h; p_c2 := c2; p_wd := nwd; p_c5 := c5; p_day := nd; p_c3 := c3;
            p_mon := nm; p_c4 := c4; p_week := wk; p_date := dd; p_n := n |}.
  cbn [p_min p_c1 p_hour p_c2 p_wd p_c5 p_day p_c3 p_mon p_c4 p_week p_date p_n].
  split; [|split; [assumption|reflexivity]].
  unfold plan_ok. cbn [p_min p_c1 p_hour p_c2 p_wd p_c5 p_day p_c3 p_mon p_c4 p_week p_date p_n].
  repeat (split; [assumption || reflexivity|]). split; [|reflexivity].
  destruct (date_relevant d); [assumption|congruence].
Qed.

(** Conversely the plan determines the result. *)
Lemma nominal_plan tz d from p : desc_ok d -> plan_ok tz d from p ->
  utc_sec from + p_n p * DAY <= MAX_SEC ->
  nominal tz d from = Ret (local_day tz (from + p_n p * DAY * NS) * DAY + p_hour p * 3600 + p_min p * 60).
Proof.
  intros Hok (S1 & S2 & S3 & S4 & S5 & Hwk & Hdd & Hn) Hmax. pose proof Hok as (Hm & Hh & Hd & Hmo & Hw).
  assert (Huniq : forall k l lo hi x c, field_ok lo hi l -> next_spec k l x c -> next_in k l = Ret (x, c)).
  { intros k l lo hi x c Hf Hs. destruct (next_in_spec k l lo hi Hf) as (x' & c' & E & Hs').
    rewrite E. destruct Hs as [Hin Hs], Hs' as [Hin' Hs'].
    destruct Hs as [(-> & H1 & H2)|(-> & H1 & H2)], Hs' as [(-> & H1' & H2')|(-> & H1' & H2')].
    - replace x' with x; [reflexivity|]. apply Z.le_antisymm; auto.
    - specialize (H1' x Hin). lia.
    - specialize (H1 x' Hin'). lia.
    - replace x' with x; [reflexivity|]. apply Z.le_antisymm; auto. }
  unfold nominal. rewrite (Huniq _ _ _ _ _ _ Hm S1). cbn [obind].
  rewrite (Huniq _ _ _ _ _ _ Hh S2). cbn [obind]. rewrite (Huniq _ _ _ _ _ _ Hw S3). cbn [obind].
  rewrite (Huniq _ _ _ _ _ _ Hd S4). cbn [obind]. rewrite (Huniq _ _ _ _ _ _ Hmo S5). cbn [obind].
  assert (Hnwd : 0 <= p_wd p <= 6) by (destruct S3 as [Hin _]; now apply Hw in Hin).
  rewrite (week_mod _ _ (weekday_range (local_day tz from)) Hnwd). rewrite <- Hwk.
  assert (Hrel : (if date_relevant d then date_search tz from (p_day p) (p_mon p) (p_c4 p * 365) else Ret (p_c4 p * 365))
                 = Ret (p_date p)).
  { destruct (date_relevant d); [assumption|now rewrite Hdd]. }
  rewrite Hrel. cbn [obind].
  assert (Hadd : (if weekday_relevant d && date_relevant d then add_days from (Z.min (p_week p) (p_date p))
                  else if negb (weekday_relevant d) && date_relevant d then add_days from (p_date p)
                       else add_days from (p_week p)) = add_days from (p_n p)).
  { rewrite Hn. now destruct (weekday_relevant d), (date_relevant d). }
  rewrite Hadd, add_days_ok by assumption. cbn [obind].
  assert (0 <= p_hour p <= 23) by (destruct S2 as [Hin _]; now apply Hh in Hin).
  assert (0 <= p_min p <= 59) by (destruct S1 as [Hin _]; now apply Hm in Hin).
  destruct (Z.ltb_spec (p_hour p) 24); [|lia]. destruct (Z.ltb_spec (p_min p) 60); [|lia]. reflexivity.
Qed.
