From Coq Require Import String Ascii ZArith List Bool Sorted Lia.
From Verif Require Import Base RStr SpecStr RStrProofs CronModel SpecCron SpecSched CronParseProofs.
Import ListNotations.
Local Open Scope string_scope.
Local Open Scope Z_scope.

(** ** Every text is a sequence of words and white space *)
Lemma length_app a b : String.length (a ++ b) = (String.length a + String.length b)%nat.
Proof. induction a; cbn; [reflexivity|now rewrite IHa]. Qed.

Lemma white_prefix s : exists w r, s = w ++ r /\ all_white w /\
  match r with String a _ => ~ white a | EmptyString => True end.
Proof.
  induction s as [|a s (w & r & E & Hw & Hr)].
  - exists "", "". split; [reflexivity|]. split; [intros ? []|exact I].
  - destruct (is_ws a) eqn:Ea.
    + apply is_ws_spec in Ea. exists (String a w), r. split; [cbn; now rewrite E|]. split; [|assumption].
      intros x [<-|Hx]; [assumption|now apply Hw].
    + exists "", (String a s). split; [reflexivity|]. split; [intros ? []|].
      intros Hwh. apply is_ws_spec in Hwh. congruence.
Qed.

Lemma word_prefix s : exists f r, s = f ++ r /\ no_white f /\
  match r with String a _ => white a | EmptyString => True end.
Proof.
  induction s as [|a s (f & r & E & Hw & Hr)].
  - exists "", "". split; [reflexivity|]. split; [intros ? []|exact I].
  - destruct (is_ws a) eqn:Ea.
    + exists "", (String a s). split; [reflexivity|]. split; [intros ? []|]. now apply is_ws_spec.
    + exists (String a f), r. split; [cbn; now rewrite E|]. split; [|assumption].
      intros x [<-|Hx]; [|now apply Hw]. intros Hwh. apply is_ws_spec in Hwh. congruence.
Qed.

Lemma spaced_exists s : exists l, spaced s l.
Proof.
  remember (String.length s) as n eqn:Hn. revert s Hn. induction n as [n IH] using lt_wf_ind. intros s Hn.
  destruct (white_prefix s) as (w & r & -> & Hw & Hr). destruct r as [|a r].
  { exists []. rewrite append_nil_r. now constructor. }
  destruct (word_prefix (String a r)) as (f & q & E & Hf & Hq). rewrite E in *.
  assert (Hne : f <> "").
  { intros ->. cbn in E. rewrite <- E in Hq. contradiction. }
  destruct q as [|b q].
  - exists [f]. constructor; [assumption|assumption|assumption|intros ? []].
  - rewrite !length_app in Hn.
    destruct (IH (String.length (String b q))) with (s := String b q) as [l Hl]; [|reflexivity|].
    { destruct f; [congruence|]. cbn [String.length] in *. lia. }
    exists (f :: l). now constructor.
Qed.

Lemma spaced_split s : spaced s (split_whitespace s).
Proof. destruct (spaced_exists s) as [l Hl]. now rewrite (split_whitespace_spaced s l Hl). Qed.

(** ** The accepted timers, and what they mean *)
Lemma parse_element_iff min max t : 0 <= min <= max -> max <= U32_MAX -> forall S,
  parse_element (Some t) min max = Ret (Ok S) <->
  exists l, t = field_text l /\ field_valid min max l /\ field_means min max l S.
Proof.
  intros Hmm Hmax S. split.
  - intros H. destruct (parse_element_shape min max t S Hmax H) as (l & Hne & -> & Hl).
    exists l. split; [reflexivity|]. split; [split; assumption|].
    destruct (parse_element_accepts min max l ltac:(lia) Hmax Hne Hl) as (S' & HS' & Hm). rewrite HS' in H. injection H as <-. exact Hm.
  - intros (l & -> & [Hne Hl] & Hinc & Hden).
    destruct (parse_element_accepts min max l ltac:(lia) Hmax Hne Hl) as (S' & -> & Hinc' & Hden'). do 2 f_equal.
    (* both are the increasing enumeration of the same set *)
    assert (Heq : forall x, In x S' <-> In x S) by (intros x; rewrite Hden, Hden'; reflexivity).
    clear - Hinc Hinc' Heq. revert S Hinc Heq. induction Hinc' as [|a S' Hs IH Hall]; intros S Hinc Heq.
    + destruct S as [|b S]; [reflexivity|]. exfalso. apply (Heq b). now left.
    + destruct Hinc as [|b S HsS HallS]; [exfalso; apply (Heq a); now left|].
      rewrite Forall_forall in Hall, HallS.
      assert (a = b).
      { destruct (proj1 (Heq a) ltac:(now left)) as [->|Hin]; [reflexivity|].
        destruct (proj2 (Heq b) ltac:(now left)) as [->|Hin']; [reflexivity|].
        specialize (Hall _ Hin'). specialize (HallS _ Hin). lia. }
      subst b. f_equal. apply IH; [assumption|]. intros x. split; intros Hx.
      * destruct (proj1 (Heq x) ltac:(now right)) as [<-|H]; [|assumption]. specialize (Hall _ Hx). lia.
      * destruct (proj2 (Heq x) ltac:(now right)) as [<-|H]; [|assumption]. specialize (HallS _ Hx). lia.
Qed.

Theorem parse_timer_iff s d : parse_timer s = Ret (Ok d) <->
  exists l1 l2 l3 l4 l5,
    spaced s [field_text l1; field_text l2; field_text l3; field_text l4; field_text l5] /\
    field_valid 0 59 l1 /\ field_valid 0 23 l2 /\ field_valid 1 31 l3 /\ field_valid 1 12 l4 /\ field_valid 0 6 l5 /\
    field_means 0 59 l1 (td_minute d) /\ field_means 0 23 l2 (td_hour d) /\ field_means 1 31 l3 (td_day d) /\
    field_means 1 12 l4 (td_month d) /\ field_means 0 6 l5 (td_weekday d).
Proof.
  assert (U : U32_MAX = 4294967295) by reflexivity.
  split.
  - intros H. apply parse_timer_ok_inv in H as (f1 & f2 & f3 & f4 & f5 & Hs & E1 & E2 & E3 & E4 & E5).
    apply parse_element_iff in E1 as (l1 & -> & V1 & M1); [|lia|lia].
    apply parse_element_iff in E2 as (l2 & -> & V2 & M2); [|lia|lia].
    apply parse_element_iff in E3 as (l3 & -> & V3 & M3); [|lia|lia].
    apply parse_element_iff in E4 as (l4 & -> & V4 & M4); [|lia|lia].
    apply parse_element_iff in E5 as (l5 & -> & V5 & M5); [|lia|lia].
    exists l1, l2, l3, l4, l5. rewrite <- Hs. split; [apply spaced_split|]. tauto.
  - intros (l1 & l2 & l3 & l4 & l5 & Hs & V1 & V2 & V3 & V4 & V5 & M1 & M2 & M3 & M4 & M5).
    destruct d as [S1 S2 S3 S4 S5]. cbn [td_minute td_hour td_day td_month td_weekday] in *.
    apply (parse_timer_five s _ _ _ _ _ _ _ _ _ _ Hs); (apply parse_element_iff; [lia|lia|eauto]).
Qed.

(** ** Crashes come from a zero step only *)
Lemma occurs_trans x y z : occurs x y -> occurs y z -> occurs x z.
Proof. intros (a & b & ->) (c & d & ->). exists (c ++ a), (b ++ d). now rewrite !append_assoc. Qed.

Lemma occurs_refl s : occurs s s.
Proof. exists "", "". cbn. now rewrite append_nil_r. Qed.

Lemma join_occurs sep l p : In p l -> occurs p (join sep l).
Proof.
  induction l as [|x l IH]; [intros []|]. intros [->|Hin].
  - destruct l as [|y l]; [apply occurs_refl|]. rewrite join_cons by discriminate. now exists "", (sep ++ join sep (y :: l)).
  - destruct l as [|y l]; [destruct Hin|]. rewrite join_cons by discriminate.
    apply (occurs_trans _ _ _ (IH Hin)). exists (x ++ sep), "". now rewrite append_nil_r, !append_assoc.
Qed.

Lemma spaced_occurs s l f : spaced s l -> In f l -> occurs f s.
Proof.
  induction 1 as [w Hw|w g w' Hw Hf Hne Hw'|w g s l Hw Hf Hne Hs IH Hhd]; intros Hin.
  - destruct Hin.
  - destruct Hin as [->|[]]. now exists w, w'.
  - destruct Hin as [->|Hin]; [now exists w, s|]. apply (occurs_trans _ _ _ (IH Hin)).
    exists (w ++ g), "". now rewrite append_nil_r, append_assoc.
Qed.

Lemma zero_numeral d : numeral d -> value d = 0 -> exists r, d = String "0" r.
Proof.
  intros [Hne Hd] Hv. destruct d as [|a r]; [congruence|]. cbn [value] in Hv.
  specialize (Hd a ltac:(now left)). destruct (digit_of a) as [k|] eqn:E; [|congruence].
  pose proof (digit_of_range a k E). pose proof (value_nonneg r).
  pose proof (Z.pow_pos_nonneg 10 (Z.of_nat (String.length r)) ltac:(lia) ltac:(lia)).
  assert (k = 0) by nia. subst k. exists r. f_equal. clear - E.
  destruct a as [b0 b1 b2 b3 b4 b5 b6 b7]; destruct b0, b1, b2, b3, b4, b5, b6, b7; cbn in E; try discriminate; reflexivity.
Qed.

Lemma element_panic_text t min max m : parse_element (Some t) min max = Panic m -> occurs "/0" t \/ occurs "/+0" t.
Proof.
  intros H. apply parse_element_panic in H as (p & h & z & r & Hp & Hs & Hz).
  assert (Hzt : occurs ("/" ++ z) t).
  { apply (occurs_trans _ p).
    - pose proof (join_split_on "/" p) as Hj. rewrite Hs, join_cons in Hj by discriminate. rewrite <- Hj.
      destruct r as [|y r]; [now exists h, ""; rewrite append_nil_r|]. rewrite join_cons by discriminate.
      exists h, ("/" ++ join "/" (y :: r)). reflexivity.
    - rewrite <- (join_split_on "," t). now apply join_occurs. }
  apply parse_u32_spec in Hz as (plus & d & -> & Hd & Hv & _). symmetry in Hv.
  destruct (zero_numeral d Hd Hv) as [q ->].
  destruct plus; [right|left]; refine (occurs_trans _ _ _ _ Hzt); now exists "", q.
Qed.

Theorem parse_timer_panic s m : parse_timer s = Panic m -> occurs "/0" s \/ occurs "/+0" s.
Proof.
  intros H. assert (Hgen : exists f, In f (split_whitespace s) /\ (occurs "/0" f \/ occurs "/+0" f)).
  { unfold parse_timer in H.
    assert (Hcase : forall k min max m', parse_element (nth_error (split_whitespace s) k) min max = Panic m' ->
       exists f, In f (split_whitespace s) /\ (occurs "/0" f \/ occurs "/+0" f)).
    { intros k min max m' Hp. destruct (nth_error (split_whitespace s) k) as [f|] eqn:E;
        [|unfold parse_element in Hp; destruct (max <? min); discriminate].
      exists f. split; [now apply (nth_error_In _ k)|]. now apply element_panic_text in Hp. }
    destruct (parse_element (nth_error _ 0) 0 59) as [[S1|]|] eqn:E1; cbn [rbind] in H; [|discriminate|eapply Hcase; exact E1].
    destruct (parse_element (nth_error _ 1) 0 23) as [[S2|]|] eqn:E2; cbn [rbind] in H; [|discriminate|eapply Hcase; exact E2].
    destruct (parse_element (nth_error _ 2) 1 31) as [[S3|]|] eqn:E3; cbn [rbind] in H; [|discriminate|eapply Hcase; exact E3].
    destruct (parse_element (nth_error _ 3) 1 12) as [[S4|]|] eqn:E4; cbn [rbind] in H; [|discriminate|eapply Hcase; exact E4].
    destruct (parse_element (nth_error _ 4) 0 6) as [[S5|]|] eqn:E5; cbn [rbind] in H; [|discriminate|eapply Hcase; exact E5].
    destruct (nth_error _ 5); discriminate. }
  destruct Hgen as (f & Hf & Hocc). pose proof (spaced_occurs _ _ _ (spaced_split s) Hf) as Hfs.
  destruct Hocc; [left|right]; eapply occurs_trans; eassumption.
Qed.

(** Parsed timers are well formed. *)
Lemma parse_timer_wf s d : parse_timer s = Ret (Ok d) ->
  (td_minute d <> [] /\ increasing (td_minute d) /\ forall x, In x (td_minute d) -> 0 <= x <= 59) /\
  (td_hour d <> [] /\ increasing (td_hour d) /\ forall x, In x (td_hour d) -> 0 <= x <= 23) /\
  (td_day d <> [] /\ increasing (td_day d) /\ forall x, In x (td_day d) -> 1 <= x <= 31) /\
  (td_month d <> [] /\ increasing (td_month d) /\ forall x, In x (td_month d) -> 1 <= x <= 12) /\
  (td_weekday d <> [] /\ increasing (td_weekday d) /\ forall x, In x (td_weekday d) -> 0 <= x <= 6).
Proof.
  intros H. apply parse_timer_ok_inv in H as (f1 & f2 & f3 & f4 & f5 & _ & E1 & E2 & E3 & E4 & E5).
  assert (U : U32_MAX = 4294967295) by reflexivity.
  apply parse_element_range in E1; [|lia]. apply parse_element_range in E2; [|lia]. apply parse_element_range in E3; [|lia].
  apply parse_element_range in E4; [|lia]. apply parse_element_range in E5; [|lia]. auto.
Qed.

Lemma spells_parse s d : spells s d <-> parse_timer s = Ret (Ok d).
Proof. symmetry. exact (parse_timer_iff s d). Qed.
