From Coq Require Import String ZArith List Bool Sorted Lia ZifyBool Permutation.
From Verif Require Import Base RStr CronModel SpecCron SpecCal SpecSched SpecTimer CronParseProofs CronTextProofs CalendarProofs CronNextProofs CronSchedProofs.
Import ListNotations.
Local Open Scope Z_scope.
Ltac Zify.zify_post_hook ::= idtac.

(** ** The timer map *)
Definition keys_inc (m : timer_map) : Prop := StronglySorted (fun a b => fst a < fst b) m.

Lemma tm_mem_In t m : tm_mem t m = true <-> exists id, In (t, id) m.
Proof.
  unfold tm_mem. rewrite existsb_exists. split.
  - intros [[u id] [Hin He]]. cbn [fst] in He. apply Z.eqb_eq in He. subst. eauto.
  - intros [id Hin]. exists (t, id). split; [assumption|]. cbn. apply Z.eqb_refl.
Qed.

Lemma tm_insert_perm t id m : tm_mem t m = false -> Permutation (tm_insert t id m) ((t, id) :: m).
Proof.
  induction m as [|[u j] r IH]; cbn; intros H; [reflexivity|].
  apply orb_false_iff in H as [H1 H2]. destruct (t <? u); [reflexivity|].
  destruct (Z.eqb_spec t u); [lia|]. rewrite (IH H2). apply perm_swap.
Qed.

Lemma tm_insert_inc t id m : tm_mem t m = false -> keys_inc m -> keys_inc (tm_insert t id m).
Proof.
  intros Hm Hs. induction m as [|[u j] r IH]; cbn in *; [repeat constructor|].
  apply orb_false_iff in Hm as [H1 H2]. apply StronglySorted_inv in Hs as [Hs Hall].
  destruct (Z.ltb_spec t u).
  - constructor; [constructor; assumption|]. constructor; [cbn; lia|].
    eapply Forall_impl; [|exact Hall]. cbn. intros. lia.
  - destruct (Z.eqb_spec t u); [lia|]. constructor; [now apply IH|].
    rewrite (tm_insert_perm t id r H2). constructor; [cbn; lia|assumption].
Qed.

Lemma tm_remove_head t id m : keys_inc ((t, id) :: m) -> tm_remove t ((t, id) :: m) = m.
Proof.
  intros Hs. apply StronglySorted_inv in Hs as [_ Hall]. unfold tm_remove. cbn [filter fst]. rewrite Z.eqb_refl. cbn [negb].
  induction m as [|[u j] r IH]; [reflexivity|]. inversion Hall; subst. cbn [filter fst] in *.
  destruct (Z.eqb_spec u t); [lia|]. cbn [negb]. f_equal. now apply IH.
Qed.

(** ** Probing finds a free instant close by *)
Lemma free_slot_or f t m :
  (exists u, free_slot f t m = Ret u /\ t <= u <= t + Z.of_nat f /\ tm_mem u m = false /\
     forall v, t <= v < u -> tm_mem v m = true) \/
  (forall v, t <= v <= t + Z.of_nat f -> tm_mem v m = true).
Proof.
  revert t. induction f as [|f IH]; intros t; cbn [free_slot]; destruct (tm_mem t m) eqn:E.
  - right. intros v Hv. replace v with t by lia. assumption.
  - left. exists t. repeat split; [lia|lia|assumption|]. intros. lia.
  - destruct (IH (t + 1)) as [(u & Hu & Hr & Hm & Hb)|Hall].
    + left. exists u. split; [assumption|]. split; [lia|]. split; [assumption|].
      intros v Hv. destruct (Z.eq_dec v t) as [->|]; [assumption|]. apply Hb. lia.
    + right. intros v Hv. destruct (Z.eq_dec v t) as [->|]; [assumption|]. apply Hall. lia.
  - left. exists t. repeat split; [lia|lia|assumption|]. intros. lia.
Qed.

Lemma free_slot_ok t m : exists u, free_slot (length m) t m = Ret u /\ t <= u <= t + Z.of_nat (length m) /\
  tm_mem u m = false /\ forall v, t <= v < u -> tm_mem v m = true.
Proof.
  destruct (free_slot_or (length m) t m) as [H|Hall]; [assumption|]. exfalso.
  assert (Hincl : incl (zrange t (t + Z.of_nat (length m))) (map fst m)).
  { intros v Hv. apply zrange_In in Hv. apply Hall, tm_mem_In in Hv as [id Hin]. apply in_map_iff. exists (v, id). auto. }
  pose proof (NoDup_incl_length (zrange_nodup _ _) Hincl) as Hlen. rewrite zrange_length, map_length in Hlen. lia.
Qed.

Lemma insert_job_ok m t id : keys_inc m ->
  exists u m', insert_job m t id = Ret m' /\ Permutation m' ((u, id) :: m) /\ keys_inc m' /\
    t <= u <= t + Z.of_nat (length m) /\ tm_mem u m = false /\ (forall v, t <= v < u -> tm_mem v m = true).
Proof.
  intros Hm. unfold insert_job. destruct (free_slot_ok t m) as (u & -> & Hr & Hmem & Hb). cbn [obind].
  exists u. eexists. split; [reflexivity|]. split; [now apply tm_insert_perm|]. split; [now apply tm_insert_inc|]. auto.
Qed.

(** ** Invariant of the scheduler *)
Definition cron_inv (c : cron) : Prop :=
  keys_inc (timer c) /\ NoDup (map fst (timers c)) /\ Permutation (map snd (timer c)) (map fst (timers c)).

Lemma timer_of_In c id d : timer_of c id = Some d -> In (id, d) (timers c).
Proof.
  unfold timer_of. destruct (find _ _) as [[j e]|] eqn:E; [|discriminate]. intros [= <-].
  apply find_some in E as [Hin He]. cbn in He. apply Nat.eqb_eq in He. now subst.
Qed.
Lemma timer_of_some c id : In id (map fst (timers c)) -> exists d, timer_of c id = Some d.
Proof.
  intros Hin. apply in_map_iff in Hin as [[j d] [He Hin]]. cbn in He. subst j.
  unfold timer_of. destruct (find _ _) as [[j e]|] eqn:E; [eauto|].
  exfalso. apply (find_none _ _ E) in Hin. cbn in Hin. rewrite Nat.eqb_refl in Hin. discriminate.
Qed.

Lemma with_jobs_from_inv tz config : forall c clock c', cron_inv c ->
  NoDup (map fst config ++ map fst (timers c)) ->
  with_jobs_from tz c config clock = Ret (Ok c') ->
  cron_inv c' /\ Permutation (map fst (timers c')) (map fst config ++ map fst (timers c)).
Proof.
  induction config as [|[id raw] rest IH]; intros c clock c' Hinv Hnd H; cbn [with_jobs_from] in H.
  - injection H as <-. split; [assumption|reflexivity].
  - destruct raw as [raw|]; [|discriminate]. destruct (parse_timer raw) as [[desc|]|]; try discriminate.
    destruct clock as [|now clock]; [discriminate|].
    destruct (next_execution tz desc now) as [t|]; [cbn [obind] in H|discriminate].
    destruct Hinv as (Hk & Hn & Hp). destruct (insert_job_ok (timer c) t id Hk) as (u & m' & Em & Pm & Km & _).
    rewrite Em in H. cbn [obind] in H. cbn [map fst app] in Hnd.
    apply IH in H.
    + destruct H as [H1 H2]. split; [assumption|]. rewrite H2. cbn [timers map fst app].
      symmetry. apply Permutation_middle.
    + split; [assumption|]. cbn [timers timer map fst]. inversion Hnd; subst. split.
      * constructor; [|assumption]. intros Hin. apply H2. apply in_or_app. now right.
      * rewrite (Permutation_map snd Pm). cbn [map snd]. now constructor.
    + cbn [timers map fst]. eapply Permutation_NoDup; [|exact Hnd]. apply Permutation_middle.
Qed.

Lemma with_jobs_inv tz config clock c : NoDup (map fst config) -> with_jobs tz config clock = Ret (Ok c) ->
  cron_inv c /\ Permutation (map fst (timers c)) (map fst config).
Proof.
  intros Hnd H. apply with_jobs_from_inv in H.
  - cbn [timers map] in H. now rewrite app_nil_r in H.
  - split; [constructor|]. cbn. split; constructor.
  - cbn [timers map]. now rewrite app_nil_r.
Qed.

(** ** pop_runnable *)
Lemma cron_pop_spec tz c now c' r : cron_inv c -> cron_pop tz c now = Ret (c', r) ->
  timers c' = timers c /\ cron_inv c' /\
  match r with
  | None => c' = c /\ forall t id, In (t, id) (timer c) -> now < t
  | Some id => exists t d u k,
      In (t, id) (timer c) /\ t <= now /\ (forall t' id', In (t', id') (timer c) -> t <= t') /\
      timer_of c id = Some d /\ next_execution tz d now = Ret u /\
      0 <= k < Z.of_nat (length (timers c)) /\
      (forall j, 0 <= j < k -> exists id', id' <> id /\ In (u + j, id') (timer c)) /\
      (forall t' id', In (t', id') (timer c') <-> (id' = id /\ t' = u + k) \/ (id' <> id /\ In (t', id') (timer c)))
  end.
Proof.
  intros (Hk & Hn & Hp) H. unfold cron_pop in H. destruct (timer c) as [|[t id] m] eqn:Et.
  { injection H as <- <-. split; [reflexivity|]. split; [split; [now rewrite Et|now rewrite Et]|]. split; [reflexivity|]. intros ? ? []. }
  apply StronglySorted_inv in Hk as HH. destruct HH as [Hkm Hall].
  destruct (Z.leb_spec t now).
  - rewrite tm_remove_head in H by assumption. destruct (timer_of c id) as [d|] eqn:Ed; [|discriminate].
    destruct (next_execution tz d now) as [u|] eqn:Eu; [cbn [obind] in H|discriminate].
    destruct (insert_job_ok m u id Hkm) as (v & m' & Em & Pm & Km & Hv & Hmem & Hb). rewrite Em in H. cbn [obind] in H.
    injection H as <- <-. cbn [timers timer]. split; [reflexivity|].
    assert (Hndm : NoDup (id :: map snd m)).
    { cbn [map snd] in Hp. eapply Permutation_NoDup; [symmetry; exact Hp|assumption]. }
    inversion Hndm as [|? ? Hnid Hndm']; subst.
    split.
    + split; [assumption|]. split; [assumption|]. rewrite (Permutation_map snd Pm). exact Hp.
    + exists t, d, u, (v - u). assert (Hlen : length (timers c) = S (length m)).
      { apply Permutation_length in Hp. cbn in Hp. rewrite !map_length in Hp. lia. }
      split; [now left|]. split; [assumption|]. split.
      { intros t' id' [E|Hin]; [injection E; lia|]. rewrite Forall_forall in Hall. specialize (Hall _ Hin). cbn in Hall. lia. }
      split; [assumption|]. split; [assumption|]. split; [lia|]. split.
      { intros j Hj. destruct (proj1 (tm_mem_In (u + j) m) (Hb (u + j) ltac:(lia))) as [id' Hin].
        exists id'. split; [|now right]. intros ->. apply Hnid. apply in_map_iff. exists (u + j, id). auto. }
      intros t' id'. split.
      * intros Hin. apply (Permutation_in _ Pm) in Hin as [E|Hin].
        -- injection E as <- <-. left. split; [reflexivity|lia].
        -- right. split; [|now right]. intros ->. apply Hnid. apply in_map_iff. exists (t', id). auto.
      * intros [[-> ->]|[Hne [E|Hin]]].
        -- apply (Permutation_in _ (Permutation_sym Pm)). left. f_equal. lia.
        -- injection E as <- <-. congruence.
        -- apply (Permutation_in _ (Permutation_sym Pm)). now right.
  - injection H as <- <-. split; [reflexivity|].
    split; [split; [now rewrite Et|now rewrite Et]|]. split; [reflexivity|].
    intros t' id' [E|Hin]; [injection E; lia|]. rewrite Forall_forall in Hall. specialize (Hall _ Hin). cbn in Hall. lia.
Qed.

(** pop_runnable fails only if computing the next execution does. *)
Lemma cron_pop_total tz c now : cron_inv c ->
  (forall id d, In (id, d) (timers c) -> exists u, next_execution tz d now = Ret u) ->
  exists r, cron_pop tz c now = Ret r.
Proof.
  intros (Hk & Hn & Hp) Hnext. unfold cron_pop. destruct (timer c) as [|[t id] m] eqn:Et; [eauto|].
  destruct (t <=? now); [|eauto]. rewrite tm_remove_head by assumption.
  destruct (timer_of_some c id) as [d Hd].
  { eapply Permutation_in; [exact Hp|]. now left. }
  rewrite Hd. apply timer_of_In in Hd. destruct (Hnext id d Hd) as [u ->]. cbn [obind].
  apply StronglySorted_inv in Hk as [Hk _]. destruct (insert_job_ok m u id Hk) as (v & m' & -> & _). cbn [obind]. eauto.
Qed.

Lemma cron_next_ok c id : cron_inv c -> In id (map fst (timers c)) ->
  exists t, cron_next c id = Ret t /\ In (t, id) (timer c) /\ forall t', In (t', id) (timer c) -> t' = t.
Proof.
  intros (Hk & Hn & Hp) Hin. apply (Permutation_in _ (Permutation_sym Hp)) in Hin as Hin'.
  pose proof (Permutation_NoDup (Permutation_sym Hp) Hn) as Hnd. clear Hp Hn Hk Hin. unfold cron_next.
  induction (timer c) as [|[t j] m IH]; [destruct Hin'|]. cbn [find snd map] in *. inversion Hnd; subst.
  destruct (Nat.eqb_spec j id) as [->|Hne].
  - exists t. split; [reflexivity|]. split; [now left|]. intros t' [E|Hin]; [now injection E|].
    exfalso. apply H1. apply in_map_iff. exists (t', id). auto.
  - destruct Hin' as [E|Hin']; [congruence|]. destruct IH as (u & Hu & Hin & Huniq); [assumption|assumption|].
    exists u. split; [assumption|]. split; [now right|]. intros t' [E|Ht']; [injection E; congruence|auto].
Qed.

(** ** Histories of queries *)
Lemma queries_inv tz nows : forall c c' ids, cron_inv c -> queries tz c nows = Ret (c', ids) ->
  cron_inv c' /\ timers c' = timers c.
Proof.
  induction nows as [|now nows IH]; intros c c' ids Hinv H; cbn [queries] in H; [injection H as <- <-; auto|].
  destruct (cron_pop tz c now) as [[c1 r]|] eqn:E; [cbn [obind] in H|discriminate].
  apply cron_pop_spec in E as (Et & Hinv1 & _); [|assumption].
  destruct (queries tz c1 nows) as [[c2 ids2]|] eqn:E2; [cbn [obind] in H|discriminate]. injection H as <- <-.
  apply IH in E2 as [H1 H2]; [|assumption]. split; [assumption|congruence].
Qed.

Theorem cron_conservation tz config clock c nows c' ids :
  NoDup (map fst config) -> with_jobs tz config clock = Ret (Ok c) -> queries tz c nows = Ret (c', ids) ->
  Permutation (map snd (timer c')) (map fst config) /\
  forall id, In id (map fst config) ->
    exists t, cron_next c' id = Ret t /\ In (t, id) (timer c') /\ forall t', In (t', id) (timer c') -> t' = t.
Proof.
  intros Hnd Hw Hq. apply with_jobs_inv in Hw as [Hinv Hp]; [|assumption].
  apply queries_inv in Hq as [Hinv' Ht]; [|assumption]. rewrite <- Ht in Hp.
  split; [rewrite <- Hp; apply Hinv'|]. intros id Hin. apply cron_next_ok; [assumption|].
  eapply Permutation_in; [symmetry; exact Hp|assumption].
Qed.

(** ** No job twice within one minute *)
Lemma local_minute_mono o r t k : desc_minute_boundary o t -> r < t -> local_sec (fixed o) k / 60 = local_sec (fixed o) r / 60 -> k < t.
Proof.
  unfold desc_minute_boundary. intros (w & -> & Hmod) Hlt Heq.
  apply fixed_after in Hlt. apply fixed_after.
  pose proof (Z.div_mod (local_sec (fixed o) k) 60 ltac:(lia)). pose proof (Z.mod_pos_bound (local_sec (fixed o) k) 60 ltac:(lia)).
  pose proof (Z.div_mod (local_sec (fixed o) r) 60 ltac:(lia)). pose proof (Z.mod_pos_bound (local_sec (fixed o) r) 60 ltac:(lia)).
  pose proof (Z.div_mod w 60 ltac:(lia)). lia.
Qed.

Lemma next_boundary o d from t : desc_ok d -> next_execution (fixed o) d from = Ret t -> desc_minute_boundary o t.
Proof.
  intros Hok H. apply next_execution_due in H; [|assumption]. apply due_fixed in H as (z & h & m & _ & _ & -> & _).
  exists (z * DAY + h * 3600 + m * 60). split; [reflexivity|].
  replace (z * DAY + h * 3600 + m * 60) with ((z * 1440 + h * 60 + m) * 60) by (unfold DAY; ring). now apply Z.mod_mul.
Qed.

Theorem once_per_minute o c nows c' ids M :
  cron_inv c -> (forall id d, In (id, d) (timers c) -> desc_ok d) ->
  Forall (fun now => local_sec (fixed o) now / 60 = M /\
    forall id d, In (id, d) (timers c) ->
       ~ (td_weekday d = [weekday (wall_day (fixed o) now)] /\ none_left_today (fixed o) d now)) nows ->
  queries (fixed o) c nows = Ret (c', ids) -> NoDup ids.
Proof.
  intros Hinv Hdesc Hall Hq.
  (* what is already returned is scheduled after the minute *)
  enough (Hgen : forall nows c c' ids, cron_inv c -> (forall id d, In (id, d) (timers c) -> desc_ok d) ->
    Forall (fun now => local_sec (fixed o) now / 60 = M /\
      forall id d, In (id, d) (timers c) ->
       ~ (td_weekday d = [weekday (wall_day (fixed o) now)] /\ none_left_today (fixed o) d now)) nows ->
    queries (fixed o) c nows = Ret (c', ids) ->
    NoDup ids /\ forall id, In id ids -> exists t now, In (t, id) (timer c) /\ t <= now /\ local_sec (fixed o) now / 60 = M).
  { exact (proj1 (Hgen nows c c' ids Hinv Hdesc Hall Hq)). }
  clear. intros nows. induction nows as [|now nows IH]; intros c c' ids Hinv Hdesc Hall H; cbn [queries] in H.
  - injection H as <- <-. split; [constructor|]. intros id [].
  - inversion Hall as [|? ? [HM Hlive] Hall']; subst. clear Hall.
    destruct (cron_pop (fixed o) c now) as [[c1 r]|] eqn:E; [cbn [obind] in H|discriminate].
    destruct (queries (fixed o) c1 nows) as [[c2 ids2]|] eqn:E2; [cbn [obind] in H|discriminate]. injection H as <- <-.
    apply cron_pop_spec in E as (Et & Hinv1 & Hr); [|assumption].
    apply IH in E2 as [Hnd Hids]; [|assumption|now rewrite Et|now rewrite Et].
    destruct r as [id|].
    + destruct Hr as (t & d & u & k & Hin & Hle & _ & Hd & Hu & Hk & _ & Hiff).
      apply timer_of_In in Hd. pose proof (Hdesc _ _ Hd) as Hok.
      assert (Hfut : now < u) by (apply (next_execution_future_iff o d now u Hok Hu); now apply (Hlive id)).
      pose proof (next_boundary o d now u Hok Hu) as Hbd.
      split.
      * constructor; [|assumption]. intros Hin2. apply Hids in Hin2 as (t2 & now2 & Hin2 & Hle2 & HM2).
        apply Hiff in Hin2 as [[_ ->]|[Hne _]]; [|congruence].
        pose proof (local_minute_mono o now u now2 Hbd Hfut ltac:(congruence)). lia.
      * intros id2 [<-|Hin2]; [eauto|]. apply Hids in Hin2 as (t2 & now2 & Hin2 & Hle2 & HM2).
        apply Hiff in Hin2 as [[-> ->]|[_ Hin2]]; [exists t, now; auto|eauto 6].
    + destruct Hr as [-> _]. auto.
Qed.

(** ** The livelock *)
Lemma stuck_same_day o d now t : desc_ok d -> td_weekday d = [weekday (wall_day (fixed o) now)] ->
  none_left_today (fixed o) d now -> next_execution (fixed o) d now = Ret t ->
  forall now', wall_day (fixed o) now' = wall_day (fixed o) now -> none_left_today (fixed o) d now' -> t <= now'.
Proof.
  intros Hok Hwd Hnone H now' Hday Hnone'. apply next_execution_fixed in H as (p & Hp & _ & _ & ->); [|assumption].
  destruct (plan_carry _ _ _ _ Hp Hok) as [(_ & _ & Hn)|(Hc2 & _)]; [contradiction|].
  apply (plan_n_zero _ _ _ _ Hok Hp Hc2) in Hwd. rewrite Hwd.
  destruct (plan_hm _ _ _ _ Hok Hp) as (Hh & Hm & _). specialize (Hnone' _ _ Hh Hm).
  apply Z.nlt_ge. intros Hlt. apply fixed_after in Hlt. rewrite local_sec_wall, Hday in Hlt.
  change (local_day (fixed o) now) with (wall_day (fixed o) now) in Hlt. rewrite Z.add_0_r in Hlt. lia.
Qed.

Theorem livelock o id d nows :
  desc_ok d -> forall t0 z, Forall (fun now => wall_day (fixed o) now = z /\ td_weekday d = [weekday z] /\
     none_left_today (fixed o) d now /\ t0 <= now /\ exists t, next_execution (fixed o) d now = Ret t) nows ->
  exists c', queries (fixed o) {| timers := [(id, d)]; timer := [(t0, id)] |} nows = Ret (c', map (fun _ => id) nows).
Proof.
  intros Hok. induction nows as [|now nows IH]; intros t0 z Hall; [cbn; eauto|].
  inversion Hall as [|? ? (Hz & Hw & Hnone & Hle & t & Ht) Hall']; subst.
  cbn [queries]. unfold cron_pop at 1. cbn [timer]. destruct (Z.leb_spec t0 now); [|lia].
  rewrite tm_remove_head by (constructor; constructor). unfold timer_of. cbn [timers find fst]. rewrite Nat.eqb_refl.
  rewrite Ht. cbn [obind]. unfold insert_job. cbn [length free_slot tm_mem existsb obind tm_insert].
  destruct (IH t (wall_day (fixed o) now)) as [c' Hc'].
  - apply Forall_forall. intros now' Hin. rewrite Forall_forall in Hall'. specialize (Hall' _ Hin) as (Hz' & Hw' & Hn' & _ & Ht').
    split; [assumption|]. split; [assumption|]. split; [assumption|]. split; [|assumption].
    exact (stuck_same_day o d now t Hok Hw Hnone Ht now' Hz' Hn').
  - unfold instant in *. rewrite Hc'. cbn [obind map]. eauto.
Qed.

(** "30 12 * * 1" on Monday, 1 March 2021, from 12:30 to midnight *)
Definition monday_desc : timer_desc :=
  {| td_minute := [30]; td_hour := [12]; td_day := zrange 1 31; td_month := zrange 1 12; td_weekday := [1] |}.

Lemma zrange_inc a b : increasing (zrange a b).
Proof.
  unfold zrange. generalize (Z.to_nat (b - a + 1)) as n. intros n.
  enough (forall k, increasing (map (fun i => a + Z.of_nat i) (seq k n))) by auto.
  induction n as [|n IH]; intros k; cbn [seq map]; constructor; [apply IH|].
  apply Forall_forall. intros x Hx. apply in_map_iff in Hx as (i & <- & Hi). apply in_seq in Hi. lia.
Qed.

Lemma monday_ok : desc_ok monday_desc.
Proof.
  unfold desc_ok, field_ok, monday_desc; cbn [td_minute td_hour td_day td_month td_weekday].
  repeat split; try discriminate; try apply zrange_inc; try (repeat constructor);
    try (intros [<-|[]]; lia); try (destruct H as [<-|[]]; lia); try (apply zrange_In in H; lia).
Qed.

Lemma livelock_monday nows :
  Forall (fun now => (18687 * 86400 + 45000) * NS <= now < 18688 * 86400 * NS) nows ->
  exists c', queries (fixed 0) {| timers := [(0%nat, monday_desc)]; timer := [((18687 * 86400 + 45000) * NS, 0%nat)] |} nows
             = Ret (c', map (fun _ => 0%nat) nows).
Proof.
  intros Hall. apply (livelock 0 0%nat monday_desc nows monday_ok _ 18687).
  eapply Forall_impl; [|exact Hall]. cbn beta. intros now [H1 H2].
  assert (Hs : 18687 * 86400 + 45000 <= now / NS < 18688 * 86400).
  { split; [apply Z.div_le_lower_bound; [reflexivity|lia]|apply Z.div_lt_upper_bound; [reflexivity|lia]]. }
  assert (Hd : wall_day (fixed 0) now = 18687).
  { unfold wall_day. cbn [fixed z_off]. rewrite Z.add_0_r. unfold DAY. symmetry.
    apply (Z.div_unique _ _ _ (now / NS - 18687 * 86400)); lia. }
  assert (Hw : wall_sec (fixed 0) now = now / NS - 18687 * 86400).
  { unfold wall_sec. cbn [fixed z_off]. rewrite Z.add_0_r. unfold DAY. symmetry.
    apply (Z.mod_unique _ _ 18687); lia. }
  split; [assumption|]. split; [reflexivity|]. split.
  { intros h m [<-|[]] [<-|[]]. rewrite Hw. lia. }
  split; [assumption|]. apply next_execution_exists; [apply monday_ok|unfold DAY; lia| |].
  - intros [(x & Hx & Hn)|(x & Hx & Hn)]; exfalso; apply Hn; cbn [monday_desc td_day td_month]; now apply zrange_In.
  - unfold room, DAY, MIN_SEC, MAX_SEC. lia.
Qed.

(** ** Statements over configurations *)
Lemma with_jobs_from_timers tz config : forall c clock c',
  with_jobs_from tz c config clock = Ret (Ok c') ->
  forall id d, In (id, d) (timers c') <-> In (id, d) (timers c) \/ exists raw, In (id, Some raw) config /\ parse_timer raw = Ret (Ok d).
Proof.
  induction config as [|[i raw] rest IH]; intros c clock c' H id d; cbn [with_jobs_from] in H.
  - injection H as <-. split; [auto|]. intros [?|(raw & [] & _)]. assumption.
  - destruct raw as [raw|]; [|discriminate]. destruct (parse_timer raw) as [[desc|]|] eqn:Ep; try discriminate.
    destruct clock as [|now clock]; [discriminate|].
    destruct (next_execution tz desc now) as [t|]; [cbn [obind] in H|discriminate].
    destruct (insert_job (timer c) t i) as [m|]; [cbn [obind] in H|discriminate].
    rewrite (IH _ _ _ H). cbn [timers In]. split.
    + intros [[E|?]|(raw' & Hin & Hp)]; [injection E as <- <-|auto|]; right; eauto.
    + intros [?|(raw' & [E|Hin] & Hp)]; [auto| |eauto]. injection E as <- <-. left. left. congruence.
Qed.

Lemma with_jobs_timers tz config clock c : with_jobs tz config clock = Ret (Ok c) ->
  forall id d, In (id, d) (timers c) <-> exists raw, In (id, Some raw) config /\ parse_timer raw = Ret (Ok d).
Proof.
  intros H id d. rewrite (with_jobs_from_timers _ _ _ _ _ H). cbn [timers In]. tauto.
Qed.

Lemma with_jobs_parsed tz config : forall c clock c', with_jobs_from tz c config clock = Ret (Ok c') ->
  forall id raw, In (id, Some raw) config -> exists d, parse_timer raw = Ret (Ok d).
Proof.
  induction config as [|[i raw] rest IH]; intros c clock c' H id raw0 Hin; cbn [with_jobs_from] in H; [destruct Hin|].
  destruct raw as [raw|]; [|discriminate]. destruct (parse_timer raw) as [[desc|]|] eqn:Ep; try discriminate.
  destruct clock as [|now clock]; [discriminate|].
  destruct (next_execution tz desc now) as [t|]; [cbn [obind] in H|discriminate].
  destruct (insert_job (timer c) t i) as [m|]; [cbn [obind] in H|discriminate].
  destruct Hin as [E|Hin]; [injection E as <- <-; eauto|eapply IH; eassumption].
Qed.

Lemma queried_inv tz config clock c0 nows c ids :
  NoDup (map fst config) -> with_jobs tz config clock = Ret (Ok c0) -> queries tz c0 nows = Ret (c, ids) ->
  cron_inv c /\ timers c = timers c0 /\ Permutation (map fst (timers c)) (map fst config).
Proof.
  intros Hnd Hw Hq. apply with_jobs_inv in Hw as [Hinv Hp]; [|assumption].
  apply queries_inv in Hq as [Hinv' Ht]; [|assumption]. rewrite <- Ht in Hp. auto.
Qed.

Lemma cron_query tz config clock c0 nows c ids now c' r :
  NoDup (map fst config) -> with_jobs tz config clock = Ret (Ok c0) -> queries tz c0 nows = Ret (c, ids) ->
  cron_pop tz c now = Ret (c', r) ->
  match r with
  | None => c' = c /\ forall t id, In (t, id) (timer c) -> now < t
  | Some id => exists t d u k,
      In (t, id) (timer c) /\ t <= now /\ (forall t' id', In (t', id') (timer c) -> t <= t') /\
      timer_of c id = Some d /\ next_execution tz d now = Ret u /\
      0 <= k < Z.of_nat (length config) /\
      (forall j, 0 <= j < k -> exists id', id' <> id /\ In (u + j, id') (timer c)) /\
      (forall t' id', In (t', id') (timer c') <-> (id' = id /\ t' = u + k) \/ (id' <> id /\ In (t', id') (timer c)))
  end.
Proof.
  intros Hnd Hw Hq Hpop. destruct (queried_inv _ _ _ _ _ _ _ Hnd Hw Hq) as (Hinv & Ht & Hp).
  apply cron_pop_spec in Hpop as (_ & _ & Hr); [|assumption].
  apply Permutation_length in Hp. rewrite !map_length in Hp. rewrite <- Hp. exact Hr.
Qed.

Lemma cron_timer_of tz config clock c0 nows c ids id raw :
  NoDup (map fst config) -> with_jobs tz config clock = Ret (Ok c0) -> queries tz c0 nows = Ret (c, ids) ->
  In (id, Some raw) config -> exists d, timer_of c id = Some d /\ parse_timer raw = Ret (Ok d).
Proof.
  intros Hnd Hw Hq Hin. destruct (queried_inv _ _ _ _ _ _ _ Hnd Hw Hq) as ((_ & Hn & _) & Ht & Hp).
  destruct (with_jobs_parsed _ _ _ _ _ Hw _ _ Hin) as [d Hd]. exists d. split; [|assumption].
  assert (HinT : In (id, d) (timers c)) by (rewrite Ht; apply (with_jobs_timers _ _ _ _ Hw); eauto).
  destruct (timer_of_some c id) as [d' Hd']. { apply in_map_iff. now exists (id, d). }
  rewrite Hd'. f_equal. apply timer_of_In in Hd'. clear - Hn HinT Hd'.
  induction (timers c) as [|[i e] l IH]; [destruct HinT|]. cbn [map fst] in Hn. inversion Hn; subst.
  destruct HinT as [E|H], Hd' as [E'|H'].
  - congruence.
  - injection E as <- <-. exfalso. apply H1. apply in_map_iff. now exists (i, d').
  - injection E' as <- <-. exfalso. apply H1. apply in_map_iff. now exists (i, d).
  - auto.
Qed.

Lemma cron_query_total tz config clock c0 nows c ids now :
  NoDup (map fst config) -> with_jobs tz config clock = Ret (Ok c0) -> queries tz c0 nows = Ret (c, ids) ->
  (forall id raw d, In (id, Some raw) config -> parse_timer raw = Ret (Ok d) -> exists u, next_execution tz d now = Ret u) ->
  exists r, cron_pop tz c now = Ret r.
Proof.
  intros Hnd Hw Hq Hnext. destruct (queried_inv _ _ _ _ _ _ _ Hnd Hw Hq) as (Hinv & Ht & Hp).
  apply cron_pop_total; [assumption|]. intros id d Hin. rewrite Ht in Hin.
  apply (with_jobs_timers _ _ _ _ Hw) in Hin as (raw & Hin & Hd). eauto.
Qed.

Lemma queries_ids tz nows : forall c c' ids, cron_inv c -> queries tz c nows = Ret (c', ids) -> incl ids (map fst (timers c)).
Proof.
  induction nows as [|now nows IH]; intros c c' ids Hinv H; cbn [queries] in H; [injection H as <- <-; intros ? []|].
  destruct (cron_pop tz c now) as [[c1 r]|] eqn:E; [cbn [obind] in H|discriminate].
  apply cron_pop_spec in E as (Et & Hinv1 & Hr); [|assumption].
  destruct (queries tz c1 nows) as [[c2 ids2]|] eqn:E2; [cbn [obind] in H|discriminate]. injection H as <- <-.
  apply IH in E2; [|assumption]. rewrite Et in E2. destruct r as [id|]; [|assumption].
  intros x [<-|Hx]; [|now apply E2]. destruct Hr as (t & d & u & k & Hin & _).
  destruct Hinv as (_ & _ & Hp). apply (Permutation_in _ Hp). apply in_map_iff. now exists (t, id).
Qed.

Lemma cron_once_per_minute o config clock c0 before c ids0 nows c' ids M :
  NoDup (map fst config) -> with_jobs (fixed o) config clock = Ret (Ok c0) -> queries (fixed o) c0 before = Ret (c, ids0) ->
  Forall (fun now => (now / NS + o) / 60 = M /\
    forall id raw d, In (id, Some raw) config -> parse_timer raw = Ret (Ok d) ->
       ~ (td_weekday d = [weekday (wall_day (fixed o) now)] /\ none_left_today (fixed o) d now)) nows ->
  queries (fixed o) c nows = Ret (c', ids) -> NoDup ids /\ incl ids (map fst config).
Proof.
  intros Hnd Hw Hq Hall Hq2. destruct (queried_inv _ _ _ _ _ _ _ Hnd Hw Hq) as (Hinv & Ht & Hp).
  assert (HT : forall id d, In (id, d) (timers c) -> exists raw, In (id, Some raw) config /\ parse_timer raw = Ret (Ok d)).
  { intros id d Hin. rewrite Ht in Hin. now apply (with_jobs_timers _ _ _ _ Hw) in Hin. }
  split.
  - apply (once_per_minute o c nows c' ids M Hinv); [| |assumption].
    + intros id d Hin. destruct (HT _ _ Hin) as (raw & _ & Hd). exact (parse_timer_wf raw d Hd).
    + eapply Forall_impl; [|exact Hall]. cbn beta. intros now [HM Hlive]. split; [exact HM|].
      intros id d Hin. destruct (HT _ _ Hin) as (raw & Hraw & Hd). eauto.
  - intros x Hx. apply (Permutation_in _ Hp). eapply queries_ids; eassumption.
Qed.
