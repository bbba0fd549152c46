(** Proofs about changes of the clocks. *)
From Coq Require Import String ZArith List Bool Lia.
From Verif Require Import Base CronModel SpecCron SpecCal SpecSched SpecZone CalendarProofs CronNextProofs CronSchedProofs CronReachProofs.
Import ListNotations.
Local Open Scope Z_scope.

Definition agree (tz tz' : zone) (lo hi : Z) : Prop := forall s, lo <= s <= hi -> z_off tz s = z_off tz' s.

Lemma agree_sym tz tz' lo hi : agree tz tz' lo hi -> agree tz' tz lo hi.
Proof. intros A s K. symmetry. apply A. exact K. Qed.

Lemma agree_day tz tz' from hi n : agree tz tz' (utc_sec from) hi -> 0 <= n -> utc_sec from + n * DAY <= hi ->
  local_day tz (from + n * DAY * NS) = local_day tz' (from + n * DAY * NS).
Proof. intros A N H. unfold local_day, local_sec. rewrite utc_sec_add, A; [reflexivity|]. unfold DAY in *. lia. Qed.

Lemma agree_date tz tz' from nd nm n0 n hi : MIN_SEC <= utc_sec from -> agree tz tz' (utc_sec from) hi -> 0 <= n0 ->
  utc_sec from + n * DAY <= hi -> date_search tz from nd nm n0 = Ret n -> date_search tz' from nd nm n0 = Ret n.
Proof.
  intros M A N0 H D. apply date_search_ret in D as (D1 & D2 & D3 & D4).
  assert (E : forall j, 0 <= j <= n -> (date_hit tz from nd nm j <-> date_hit tz' from nd nm j)).
  { intros j K. unfold date_hit. rewrite (agree_day tz tz' from hi j A); [reflexivity|lia|unfold DAY in *; lia]. }
  apply date_search_found; [exact M|lia|exact D3|apply E; [lia|exact D2]|].
  intros j K X. apply (D4 j K). apply E; [lia|exact X].
Qed.

Lemma agree_plan tz tz' d from p hi : desc_ok d -> one_rule d -> MIN_SEC <= utc_sec from -> agree tz tz' (utc_sec from) hi ->
  utc_sec from <= hi -> utc_sec from + p_n p * DAY <= hi -> plan_ok tz d from p -> plan_ok tz' d from p.
Proof.
  intros Ok O M A L H P. pose proof (plan_n_nonneg _ _ _ _ P) as (_ & _ & N).
  assert (E : local_sec tz from = local_sec tz' from). { unfold local_sec. rewrite A; [reflexivity|lia]. }
  destruct P as (S1 & S2 & S3 & S4 & S5 & Hwk & Hdd & Hn).
  unfold plan_ok. unfold local_minute, local_hour, local_day in *. rewrite E in *.
  split; [exact S1|]. split; [exact S2|]. split; [exact S3|]. split; [exact S4|]. split; [exact S5|]. split; [exact Hwk|]. split; [|exact Hn].
  destruct (date_relevant d) eqn:R; [|exact Hdd].
  assert (W : weekday_relevant d = false).
  { apply weekday_relevant_false; [exact Ok|]. intros W. apply O. split; [exact W|]. apply date_relevant_iff; assumption. }
  rewrite W in Hn. rewrite Hn in H.
  apply (agree_date tz tz' from _ _ _ _ hi M A); [|exact H|exact Hdd].
  destruct S5 as [_ [[-> _]|[-> _]]]; lia.
Qed.

Lemma gap_search_max tz w t : gap_search tz w = Ret t -> w <= MAX_SEC.
Proof.
  unfold gap_search. rewrite ploop_nloop. unfold GAP_FUEL. destruct (Pos2Nat.is_succ 15842) as [n ->]. cbn [nloop]. unfold gap_step at 1.
  replace (w + 60 * 0) with w by ring. destruct (Z.ltb_spec MAX_SEC w); [discriminate|]. intros _. assumption.
Qed.

Section Calm.
Context (tz : zone) (o : Z) (Hs : sane tz).

Lemma calm_resolves w lo hi : (forall s, lo <= s <= hi -> z_off tz s = o) -> lo + 2 * DAY <= w - o -> w - o <= hi -> w <= MAX_SEC ->
  gap_search tz w = Ret ((w - o) * NS).
Proof using Hs.
  destruct Hs as [Hz Hr]. intros St L H M.
  assert (E : (w - o) + z_off tz (w - o) = w). { rewrite St; [lia|]. unfold DAY in *. lia. }
  destruct (gap_search_finds tz w 0 Hz) as [t G]; [lia|lia|exists (w - o); lia|].
  rewrite G. apply gap_search_ret in G as (k & s & K & -> & X & Y & Z); [|exact Hz].
  assert (k = 0) as ->. { destruct (Z.eq_dec k 0) as [E0|N]; [exact E0|]. exfalso. apply (Z 0); [lia|]. exists (w - o). lia. }
  specialize (Y (w - o) ltac:(lia)).
  pose proof (Hr s) as R1. pose proof (Hr (w - o)) as R2. rewrite (St (w - o)) in R2 by (unfold DAY in *; lia).
  rewrite (St s) in X by (unfold DAY in *; lia). f_equal. f_equal. lia.
Qed.

Theorem next_calm d from t : desc_ok d -> one_rule d -> MIN_SEC <= utc_sec from -> calm tz o from (Z.max from t) ->
  next_execution tz d from = Ret t <-> next_execution (fixed o) d from = Ret t.
Proof using Hs.
  intros Ok O M C. pose proof Hs as [Hz Hr].
  assert (NSp : 0 < NS) by reflexivity.
  set (hi := Z.max from t / NS + 3 * DAY).
  assert (F : utc_sec from <= Z.max from t / NS) by (apply Z.div_le_mono; lia).
  assert (Tm : t / NS <= Z.max from t / NS) by (apply Z.div_le_mono; lia).
  assert (A : agree tz (fixed o) (utc_sec from) hi).
  { intros s K. cbn [fixed z_off]. apply C. unfold hi, utc_sec, DAY in *. lia. }
  assert (Of : z_off tz (utc_sec from) = o). { rewrite A; [reflexivity|]. unfold hi, DAY. lia. }
  assert (Or : - DAY < o < DAY) by (rewrite <- Of; apply Hr).
  split; intros H.
  - unfold next_execution in H. destruct (nominal tz d from) as [w|] eqn:En; [|discriminate]. cbn [obind] in H.
    apply nominal_ret in En as (p & P & Pm & W); [|exact Ok].
    pose proof (plan_n_nonneg _ _ _ _ P) as (_ & _ & N). pose proof (plan_hm _ _ _ _ Ok P) as (_ & _ & Hh & Hm).
    pose proof (gap_search_max _ _ _ H) as Mx. pose proof H as H0.
    apply gap_search_ret in H as (k & s & K & Ts & X & Y & _); [|exact Hz].
    assert (Sn : t / NS = s) by (rewrite Ts; apply Z.div_mul; lia). pose proof (Hr s) as Rs.
    assert (In_ : utc_sec from + p_n p * DAY <= hi).
    { destruct (Z_le_gt_dec (utc_sec from + p_n p * DAY) hi) as [L|G]; [exact L|exfalso].
      pose proof (Hr s). pose proof (Hr (utc_sec from + p_n p * DAY)).
      unfold local_day, local_sec in W. rewrite utc_sec_add in W.
      assert (D : 0 < DAY) by reflexivity.
      pose proof (Z.mul_div_le (utc_sec from + p_n p * DAY + z_off tz (utc_sec from + p_n p * DAY)) DAY D).
      pose proof (Z.mod_pos_bound (utc_sec from + p_n p * DAY + z_off tz (utc_sec from + p_n p * DAY)) DAY D).
      pose proof (Z.div_mod (utc_sec from + p_n p * DAY + z_off tz (utc_sec from + p_n p * DAY)) DAY ltac:(lia)).
      unfold hi, DAY in *. lia. }
    assert (P' := agree_plan tz (fixed o) d from p hi Ok O M A ltac:(unfold hi, DAY; lia) In_ P).
    unfold next_execution. rewrite (nominal_plan _ _ _ _ Ok P' Pm). cbn [obind].
    rewrite <- (agree_day tz (fixed o) from hi (p_n p) A N In_), <- W, gap_search_fixed.
    destruct (Z.ltb_spec MAX_SEC w); [lia|].
    rewrite (agree_day tz (fixed o) from hi (p_n p) A N In_), fixed_day_add in W.
    unfold local_day, local_sec in W. cbn [fixed z_off] in W.
    assert (G : gap_search tz w = Ret ((w - o) * NS)).
    { apply (calm_resolves w (utc_sec from - 3 * DAY) hi); [intros x Kx; apply C; unfold hi, utc_sec, DAY in *; lia| | |exact Mx];
        unfold hi, DAY in *; lia. }
    congruence.
  - apply next_execution_fixed in H as (p & P & Pm & Mx & Ts); [|exact Ok]. cbn zeta in *.
    pose proof (plan_n_nonneg _ _ _ _ P) as (_ & _ & N). pose proof (plan_hm _ _ _ _ Ok P) as (_ & _ & Hh & Hm).
    set (w := (local_day (fixed o) from + p_n p) * DAY + p_hour p * 3600 + p_min p * 60) in *.
    assert (Sn : t / NS = w - o) by (rewrite Ts; apply Z.div_mul; lia).
    assert (Wl : w = ((utc_sec from + o) / DAY + p_n p) * DAY + p_hour p * 3600 + p_min p * 60) by reflexivity.
    assert (In_ : utc_sec from + p_n p * DAY <= hi) by (unfold hi, DAY in *; lia).
    assert (P' := agree_plan (fixed o) tz d from p hi Ok O M (agree_sym _ _ _ _ A) ltac:(unfold hi, DAY; lia) In_ P).
    unfold next_execution. rewrite (nominal_plan _ _ _ _ Ok P' Pm). cbn [obind].
    rewrite (agree_day tz (fixed o) from hi (p_n p) A N In_), fixed_day_add. fold w. rewrite Ts.
    apply (calm_resolves w (utc_sec from - 3 * DAY) hi); [intros x Kx; apply C; unfold hi, utc_sec, DAY in *; lia| | |exact Mx]; unfold hi, DAY in *; lia.
Qed.

(** What is due does not depend on changes of the clocks elsewhere. *)
Lemma calm_wall t a b : calm tz o a b -> a - DAY * NS <= t <= b -> z_off tz (t / NS) = o.
Proof.
  intros C K. apply C. assert (0 < NS) by reflexivity.
  assert ((a - DAY * NS) / NS <= t / NS) by (apply Z.div_le_mono; lia). assert (t / NS <= b / NS) by (apply Z.div_le_mono; lia).
  replace (a - DAY * NS) with (a + (- DAY) * NS) in * by ring. rewrite Z.div_add in * by lia. unfold DAY in *. lia.
Qed.
Lemma calm_due d t a b : calm tz o a b -> a - DAY * NS <= t <= b -> due_at tz d t <-> due_at (fixed o) d t.
Proof. intros C K. unfold due_at, at_wall. rewrite (calm_wall t a b C K). reflexivity. Qed.
Lemma calm_earliest d a b t : calm tz o a b -> t <= b -> earliest tz d a t <-> earliest (fixed o) d a t.
Proof.
  intros C B. unfold earliest. assert (X : forall x, a < x -> x <= t -> due_at tz d x <-> due_at (fixed o) d x).
  { intros x H1 H2. apply (calm_due d x a b C). unfold DAY, NS. lia. }
  split; intros (H1 & H2 & H3); (split; [exact H1|]; split; [apply X; [lia|lia|exact H2]|]); intros t' K D;
    (destruct (Z_le_gt_dec t t') as [L|G]; [exact L|]; apply H3; [exact K|]; apply X; [lia|lia|exact D]).
Qed.
End Calm.

(** * The schedule away from changes of the clocks *)
Lemma same_now tz o d from : z_off tz (from / NS) = o -> wall_day tz from = wall_day (fixed o) from /\ (none_left_today tz d from <-> none_left_today (fixed o) d from) /\
  (date_in_reach tz d from <-> date_in_reach (fixed o) d from).
Proof.
  intros E. assert (W : wall_day tz from = wall_day (fixed o) from) by (unfold wall_day; rewrite E; reflexivity).
  assert (N : none_left_today tz d from <-> none_left_today (fixed o) d from) by (unfold none_left_today, wall_sec; rewrite E; reflexivity).
  split; [exact W|]. split; [exact N|]. unfold date_in_reach, first_date, still_ahead. rewrite W.
  split; intros (z & ((A1 & A2) & B & M) & Y & R); exists z; (split; [split; [split; [exact A1|tauto]|]; split; [exact B|]; intros z' [Z1 Z2]; apply M; split; [exact Z1|tauto]|]);
    (split; [exact Y|]); (destruct R as [R|(x0 & X1 & X2 & X3 & X4)]; [left; exact R|right; exists x0; split; [exact X1|]; split; [exact X2|]; split; [exact X3|]]);
    (destruct X4 as [X4|X4]; [left; exact X4|right; intros x K; specialize (X4 x K); tauto]).
Qed.

Lemma month_len_longest y m : month_len y m <= longest m.
Proof. unfold longest, month_len. destruct (m =? 2); [|reflexivity]. change (leap 2000) with true. destruct (leap y); lia. Qed.

Lemma reach_sought tz d from : desc_ok d -> date_in_reach tz d from -> exists x y, sought tz d from x y /\ x <= longest y.
Proof.
  intros Ok (z & ((A1 & A2) & (B1 & B2) & Mi) & Y & R).
  destruct (sought_exists tz d from Ok) as (x & y & S & Hx & Hy). exists x, y. split; [exact S|].
  destruct S as (tm & ag & ag' & T & L1 & L2).
  set (today := wall_day tz from) in *. pose proof (civil_valid z) as [Vm Vd].
  assert (Fresh : ag = true -> td_day d <> [] -> forall u, In u (td_day d) -> x <= u).
  { intros -> _ u K. destruct L1 as [_ L1]. apply (L1 u K). }
  destruct R as [R|(x0 & X1 & X2 & X3 & X4)].
  - assert (D : d_day (civil today) + (if tm then 1 else 0) <= d_day (civil z)).
    { destruct (Z.eq_dec z today) as [->|N].
      - destruct tm; [|lia]. exfalso. assert (today < today) by (apply A2; apply T; reflexivity). lia.
      - assert (Lt : today < z) by lia. pose proof (civil_mono today z Lt) as C. unfold date_lt in C. destruct tm; lia. }
    assert (ag = false) as ->. { destruct ag; [|reflexivity]. destruct L1 as [_ L1]. specialize (L1 _ B1). lia. }
    destruct L1 as [_ [_ L1]]. specialize (L1 _ B1 D).
    destruct L2 as [_ L2]. destruct ag'.
    + destruct (L2 _ B2). lia.
    + destruct L2 as [L2 L3]. specialize (L3 _ B2 ltac:(lia)). assert (y = d_month (civil z)) as -> by lia.
      pose proof (month_len_longest (d_year (civil z)) (d_month (civil z))). lia.
  - assert (x = x0) as ->.
    { destruct X4 as [X4|X4]; [rewrite X4 in Hx; destruct Hx as [->|[]]; reflexivity|].
      assert (ag = true) as ->.
      { destruct ag; [reflexivity|]. destruct L1 as [_ [L1 _]]. destruct (X4 x Hx) as [K|[K N]]; [destruct tm; lia|]. apply T in N. subst tm. lia. }
      destruct L1 as [_ L1]. destruct (L1 x0 X1). pose proof (X2 x Hx). lia. }
    specialize (X3 y Hy). pose proof (month_len_longest (d_year (civil today)) y). lia.
Qed.

Theorem calm_next tz o d from t : sane tz -> desc_ok d -> one_rule d -> room from 4000 -> calm tz o from t ->
  ((exists m0, td_minute d = [m0]) \/ (forall h, 0 <= h <= 23 -> In h (td_hour d))) ->
  ((exists h0 m0, td_hour d = [h0] /\ td_minute d = [m0]) \/ none_left_today tz d from \/ day_matches d (wall_day tz from)) ->
  (weekday_restricted d -> ~ (td_weekday d = [weekday (wall_day tz from)] /\ none_left_today tz d from)) ->
  (date_restricted d -> date_in_reach tz d from) ->
  earliest tz d from t -> next_execution tz d from = Ret t.
Proof.
  intros Hs Ok O Rm C H1 H2 H3 H4 E. pose proof E as (Lt & _).
  assert (Of : z_off tz (from / NS) = o). { apply (calm_wall tz o from from t C). unfold DAY, NS. lia. }
  assert (Or : - DAY < o < DAY) by (rewrite <- Of; apply Hs).
  destruct (same_now tz o d from Of) as (W & N & D). rewrite W in *.
  apply (calm_earliest tz o d from t t C ltac:(lia)) in E.
  assert (Ex : exists t', next_execution (fixed o) d from = Ret t').
  { apply next_execution_exists_iff; [exact Ok|exact Or|exact Rm|]. intros K. apply reach_sought; [exact Ok|]. apply D. auto. }
  destruct Ex as [t' Ex]. assert (E' : earliest (fixed o) d from t').
  { apply earliest_in_reach; [exact Ok|exact H1|tauto|tauto|intros K; apply D; auto|exact Ex]. }
  assert (t' = t) as ->. { destruct E as (A1 & A2 & A3), E' as (B1 & B2 & B3). apply Z.le_antisymm; auto. }
  apply (next_calm tz o Hs d from t Ok O); [apply Rm|rewrite Z.max_r by lia; exact C|exact Ex].
Qed.

Theorem calm_matches tz o d from t : sane tz -> desc_ok d -> one_rule d -> MIN_SEC <= from / NS -> calm tz o from (Z.max from t) ->
  next_execution tz d from = Ret t -> due_at tz d t /\ (from < t <-> ~ (td_weekday d = [weekday (wall_day tz from)] /\ none_left_today tz d from)).
Proof.
  intros Hs Ok O M C H0. pose proof (proj1 (next_calm tz o Hs d from t Ok O M C) H0) as H. clear H0.
  assert (Of : z_off tz (from / NS) = o). { apply (calm_wall tz o from from _ C). unfold DAY, NS. lia. }
  destruct (same_now tz o d from Of) as (W & N & _). rewrite W. split.
  - apply (calm_due tz o d t from _ C).
    + split; [|lia]. apply next_execution_fixed in H as (p & P & _ & _ & ->); [|exact Ok].
      pose proof (plan_n_nonneg _ _ _ _ P) as (_ & _ & Nn). pose proof (plan_hm _ _ _ _ Ok P) as (_ & _ & Hh & Hm).
      unfold local_day, local_sec, utc_sec. cbn [fixed z_off]. unfold DAY, NS in *. lia.
    + apply next_execution_due with (from := from); assumption.
  - rewrite (next_execution_future_iff o d from t Ok H). tauto.
Qed.
