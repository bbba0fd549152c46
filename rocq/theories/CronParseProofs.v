From Coq Require Import String Ascii ZArith List Bool Sorted Lia.
From Verif Require Import Base RStr SpecStr RStrProofs CronModel SpecCron.
Import ListNotations.
Local Open Scope string_scope.
Local Open Scope Z_scope.

(** ** Ordered sets *)
Lemma bt_insert_In x l y : In y (bt_insert x l) <-> y = x \/ In y l.
Proof.
  induction l as [|z r IH]; cbn; [intuition|].
  destruct (Z.ltb_spec x z); [cbn; intuition|].
  destruct (Z.eqb_spec x z); cbn; [subst; intuition|]. rewrite IH. intuition.
Qed.

Lemma bt_insert_sorted x l : increasing l -> increasing (bt_insert x l).
Proof.
  unfold increasing. induction l as [|z r IH]; cbn; intros H.
  - constructor; constructor.
  - destruct (Z.ltb_spec x z) as [Hlt|Hge].
    + constructor; [assumption|]. constructor; [assumption|].
      apply StronglySorted_inv in H as [_ H].
      eapply Forall_impl; [|exact H]. cbn. intros; lia.
    + destruct (Z.eqb_spec x z) as [->|Hne]; [assumption|].
      apply StronglySorted_inv in H as [H1 H2]. constructor; [now apply IH|].
      apply Forall_forall. intros y Hy. apply bt_insert_In in Hy as [->|Hy]; [lia|].
      rewrite Forall_forall in H2. now apply H2.
Qed.

Lemma zrange_In a b x : In x (zrange a b) <-> a <= x <= b.
Proof.
  unfold zrange. rewrite in_map_iff. split.
  - intros (k & <- & Hk). apply in_seq in Hk. lia.
  - intros H. exists (Z.to_nat (x - a)). split; [lia|]. apply in_seq. lia.
Qed.

Lemma fold_insert_In (f : Z -> bool) l acc x :
  In x (fold_left (fun s i => if f i then bt_insert i s else s) l acc) <->
  In x acc \/ (In x l /\ f x = true).
Proof.
  revert acc. induction l as [|y l IH]; intros acc; cbn [fold_left In]; [intuition|].
  rewrite IH. destruct (f y) eqn:E.
  - rewrite bt_insert_In. intuition (subst; auto).
  - intuition (subst; auto). congruence.
Qed.

Lemma fold_insert_sorted (f : Z -> bool) l acc :
  increasing acc -> increasing (fold_left (fun s i => if f i then bt_insert i s else s) l acc).
Proof.
  revert acc. induction l as [|y l IH]; intros acc H; cbn [fold_left]; [assumption|].
  apply IH. destruct (f y); [now apply bt_insert_sorted|assumption].
Qed.

Lemma mod_eq_iff i b s : 0 < s -> b <= i ->
  (i mod s =? b mod s) = true <-> exists k, 0 <= k /\ i = b + k * s.
Proof.
  intros Hs Hb. rewrite Z.eqb_eq. split.
  - intros H. exists (i / s - b / s).
    pose proof (Z.div_mod i s). pose proof (Z.div_mod b s).
    pose proof (Z.div_le_mono b i s Hs Hb). split; [lia|]. nia.
  - intros (k & Hk & ->). now rewrite Z.mod_add by lia.
Qed.

(** ** The text of numbers and items *)
Lemma numeral_free_of d c : numeral d -> digit_of c = None -> free_of c d.
Proof. intros [_ H] Hc Hin. now apply H in Hin. Qed.

Lemma num_text_free n c : num_wf n -> digit_of c = None -> c <> "+"%char -> free_of c (num_text n).
Proof.
  intros Hn Hc Hp. unfold num_text. apply free_of_app. split.
  - destruct (n_plus n); [|apply free_of_nil]. apply free_of_cons. split; [assumption|apply free_of_nil].
  - now apply numeral_free_of.
Qed.

Lemma num_text_parse n : num_wf n ->
  parse_u32 (num_text n) = (if num_val n <=? U32_MAX then Some (num_val n) else None).
Proof.
  intros Hn. destruct (Z.leb_spec (num_val n) U32_MAX) as [Hle|Hgt].
  - apply parse_u32_spec. exists (n_plus n), (n_digits n). unfold num_text.
    split; [now destruct (n_plus n)|]. auto.
  - destruct (parse_u32 (num_text n)) as [m|] eqn:E; [|reflexivity].
    apply parse_u32_spec in E as (plus & d & Ht & Hd & -> & Hm).
    assert (n_digits n = d).
    { unfold num_text in Ht. destruct n as [p dd]; cbn in *.
      destruct p, plus; cbn in Ht; try congruence.
      - exfalso. eapply numeral_no_plus; [symmetry; exact Ht|exact Hd].
      - exfalso. eapply numeral_no_plus; [exact Ht|exact Hn]. }
    unfold num_val in Hgt. subst d. lia.
Qed.

Lemma parse_u32_num s n : parse_u32 s = Some n ->
  exists m, s = num_text m /\ num_wf m /\ num_val m = n /\ n <= U32_MAX.
Proof.
  intros H. apply parse_u32_spec in H as (plus & d & -> & Hd & -> & Hm).
  exists {| n_plus := plus; n_digits := d |}. unfold num_text, num_wf, num_val; cbn.
  destruct plus; auto.
Qed.

Lemma num_val_nonneg n : 0 <= num_val n.
Proof. apply value_nonneg. Qed.

Lemma digits_empty_ne n : num_wf n -> num_text n <> "".
Proof.
  intros [H _]. unfold num_text. destruct (n_plus n); cbn; [discriminate|assumption].
Qed.

Lemma num_text_not_star n : num_wf n -> num_text n <> "*".
Proof.
  intros Hn E. assert (Hf : free_of "*" (num_text n)) by (apply num_text_free; [assumption|reflexivity|discriminate]).
  rewrite E in Hf. apply Hf. now left.
Qed.

Ltac free_tac :=
  repeat first
    [ apply num_text_free; [assumption|reflexivity|discriminate]
    | apply free_of_nil
    | apply free_of_cons; split; [discriminate|]
    | apply free_of_app; split ].

Lemma bounds_text_free i c : item_wf i -> In c ["/"; ","]%char -> free_of c (bounds_text (i_bounds i)).
Proof.
  intros [Hb _] Hc. destruct (i_bounds i) as [|n|a b junk]; cbn [bounds_text].
  - destruct Hc as [<-|[<-|[]]]; free_tac.
  - destruct Hc as [<-|[<-|[]]]; free_tac.
  - destruct Hb as (Ha & Hb & Hj).
    assert (Hjf : free_of c (tail_text "-" junk)).
    { destruct junk as [j|]; cbn; [|apply free_of_nil].
      apply free_of_cons. split; [destruct Hc as [<-|[<-|[]]]; discriminate|]. now apply Hj. }
    destruct Hc as [<-|[<-|[]]]; (apply free_of_app; split; [free_tac|]);
      (cbn [append]; apply free_of_cons; split; [discriminate|]);
      (apply free_of_app; split; [free_tac|assumption]).
Qed.

Lemma step_text_free i : item_wf i -> free_of "," (step_text (i_step i)).
Proof.
  intros [_ Hs]. destruct (i_step i) as [[n junk]|]; cbn [step_text]; [|apply free_of_nil].
  destruct Hs as [Hn Hj]. cbn [append]. apply free_of_cons. split; [discriminate|].
  apply free_of_app. split; [free_tac|].
  destruct junk as [j|]; cbn; [|apply free_of_nil]. apply free_of_cons. split; [discriminate|].
  apply Hj. now left.
Qed.

Lemma item_text_free i : item_wf i -> free_of "," (item_text i).
Proof.
  intros H. apply free_of_app. split; [apply bounds_text_free; [assumption|cbn; auto]|now apply step_text_free].
Qed.

Lemma item_text_nonempty i : item_wf i -> item_text i <> "".
Proof.
  intros [Hb _] E. unfold item_text in E.
  destruct (i_bounds i) as [|n|a b j]; cbn [bounds_text] in E; try discriminate.
  - apply digits_empty_ne in Hb. destruct (num_text n); [congruence|discriminate].
  - destruct Hb as (Ha & _). apply digits_empty_ne in Ha. destruct (num_text a); [congruence|discriminate].
Qed.

Lemma split_item i : item_wf i ->
  exists rest, split_on "/" (item_text i) = bounds_text (i_bounds i) :: rest /\
  (match i_step i with
   | None => rest = []
   | Some (n, _) => exists r, rest = num_text n :: r
   end).
Proof.
  intros H. unfold item_text. pose proof (bounds_text_free i "/" H ltac:(cbn; auto)) as Hb.
  destruct H as [_ Hs]. destruct (i_step i) as [[n junk]|]; cbn [step_text].
  - destruct Hs as [Hn Hj]. cbn [append]. rewrite split_on_app by assumption.
    eexists; split; [reflexivity|].
    destruct junk as [j|]; cbn [tail_text].
    + cbn [append]. rewrite split_on_app by free_tac. eauto.
    + rewrite append_nil_r, split_on_none by free_tac. eauto.
  - rewrite append_nil_r, split_on_none by assumption. eauto.
Qed.

Lemma parse_step_item i rest : item_wf i ->
  (match i_step i with None => rest = [] | Some (n, _) => exists r, rest = num_text n :: r end) ->
  parse_step rest =
  (if item_stride i <=? U32_MAX then Ok (item_stride i) else Err "Invalid step number").
Proof.
  intros [_ Hs] Hr. unfold item_stride. destruct (i_step i) as [[n junk]|].
  - destruct Hr as [r ->]. destruct Hs as [Hn _]. cbn [parse_step]. rewrite num_text_parse by assumption.
    now destruct (_ <=? _).
  - subst rest. reflexivity.
Qed.

Lemma split_bounds_range a b junk : num_wf a -> num_wf b ->
  exists r, split_on "-" (bounds_text (BRange a b junk)) = num_text a :: num_text b :: r.
Proof.
  intros Ha Hb. cbn [bounds_text append]. rewrite split_on_app by free_tac.
  destruct junk as [j|]; cbn [tail_text].
  - cbn [append]. rewrite split_on_app by free_tac. eauto.
  - rewrite append_nil_r, split_on_none by free_tac. eauto.
Qed.

Lemma parse_bounds_item min max i : item_wf i -> max <= U32_MAX ->
  match parse_bounds min max (bounds_text (i_bounds i)) with
  | Ok (lo, hi) => lo = item_lo min i /\ hi = item_hi max i
  | Err _ => U32_MAX < item_lo min i \/ U32_MAX < item_hi max i
  end.
Proof.
  intros [Hb _] Hmax. unfold parse_bounds, item_lo, item_hi.
  destruct (i_bounds i) as [|n|a b junk].
  - cbn. auto.
  - cbn [bounds_text]. destruct (String.eqb_spec (num_text n) "*") as [E|_]; [now apply num_text_not_star in E|].
    rewrite split_on_none by free_tac. rewrite num_text_parse by assumption.
    destruct (Z.leb_spec (num_val n) U32_MAX); auto.
  - destruct Hb as (Ha & Hb & Hj).
    destruct (String.eqb_spec (bounds_text (BRange a b junk)) "*") as [E|_].
    { exfalso. assert (Hin : In "-"%char (chars (bounds_text (BRange a b junk)))).
      { cbn [bounds_text]. rewrite chars_app, in_app_iff. right. now left. }
      rewrite E in Hin. destruct Hin as [Hin|[]]. discriminate. }
    destruct (split_bounds_range a b junk Ha Hb) as [r ->].
    rewrite !num_text_parse by assumption.
    destruct (Z.leb_spec (num_val a) U32_MAX); [|auto].
    destruct (Z.leb_spec (num_val b) U32_MAX); auto.
Qed.

(** ** One item *)
Lemma parse_interval_valid min max acc i :
  item_wf i -> max <= U32_MAX -> 0 < item_stride i -> item_valid min max i ->
  exists S, parse_interval min max acc (item_text i) = Ret (Ok S) /\
            (increasing acc -> increasing S) /\
            forall x, In x S <-> In x acc \/ item_denotes min max i x.
Proof.
  intros Hwf Hmax Hs (Hlo & Hlh & Hhi & Hst). unfold parse_interval.
  destruct (split_item i Hwf) as (rest & -> & Hrest).
  rewrite (parse_step_item i rest Hwf Hrest).
  destruct (Z.leb_spec (item_stride i) U32_MAX) as [_|Hbad]; [|unfold U32_MAX in *; lia].
  pose proof (parse_bounds_item min max i Hwf Hmax) as Hb.
  destruct (parse_bounds _ _ _) as [[lo hi]|e]; [|lia].
  destruct Hb as [-> ->].
  destruct (Z.ltb_spec (item_lo min i) min); [lia|].
  destruct (Z.ltb_spec max (item_lo min i)); [lia|]. cbn [orb].
  destruct (Z.ltb_spec (item_hi max i) min); [lia|].
  destruct (Z.ltb_spec max (item_hi max i)); [lia|]. cbn [orb].
  destruct (Z.ltb_spec (item_hi max i) (item_lo min i)); [lia|].
  destruct (Z.eqb_spec (item_stride i) 0); [lia|].
  eexists; split; [reflexivity|]. split; [now apply fold_insert_sorted|].
  intros x. rewrite fold_insert_In, zrange_In.
  apply or_iff_compat_l. unfold item_denotes. split.
  - intros [Hr Hm]. apply mod_eq_iff in Hm as (k & Hk & ->); [|lia|lia].
    exists k. lia.
  - intros (k & Hk & -> & Hle). split; [nia|]. apply mod_eq_iff; [lia|nia|eauto].
Qed.

Lemma parse_interval_invalid min max acc i :
  item_wf i -> max <= U32_MAX -> ~ item_valid min max i ->
  exists e, parse_interval min max acc (item_text i) = Ret (Err e).
Proof.
  intros Hwf Hmax Hinv. unfold parse_interval.
  destruct (split_item i Hwf) as (rest & -> & Hrest).
  rewrite (parse_step_item i rest Hwf Hrest).
  destruct (Z.leb_spec (item_stride i) U32_MAX) as [Hst|_]; [|eauto].
  pose proof (parse_bounds_item min max i Hwf Hmax) as Hb.
  destruct (parse_bounds _ _ _) as [[lo hi]|e]; [|eauto].
  destruct Hb as [-> ->].
  destruct (Z.ltb_spec (item_lo min i) min); cbn [orb]; [eauto|].
  destruct (Z.ltb_spec max (item_lo min i)); cbn [orb]; [eauto|].
  destruct (Z.ltb_spec (item_hi max i) min); cbn [orb]; [eauto|].
  destruct (Z.ltb_spec max (item_hi max i)); cbn [orb]; [eauto|].
  destruct (Z.ltb_spec (item_hi max i) (item_lo min i)); [eauto|].
  exfalso. apply Hinv. unfold item_valid, U32_MAX in *. lia.
Qed.

Lemma item_valid_dec min max i : {item_valid min max i} + {~ item_valid min max i}.
Proof.
  unfold item_valid.
  destruct (Z_le_dec min (item_lo min i)), (Z_le_dec (item_lo min i) (item_hi max i)),
    (Z_le_dec (item_hi max i) max), (Z_le_dec (item_stride i) 4294967295);
    (left; lia) || (right; lia).
Qed.

(** ** Comma lists *)
Lemma parse_intervals_valid min max l : max <= U32_MAX ->
  (forall i, In i l -> item_wf i /\ 0 < item_stride i /\ item_valid min max i) ->
  forall acc, exists S, parse_intervals min max acc (map item_text l) = Ret (Ok S) /\
            (increasing acc -> increasing S) /\
            forall x, In x S <-> In x acc \/ field_denotes min max l x.
Proof.
  intros Hmax. induction l as [|i l IH]; intros Hl acc; cbn [map parse_intervals].
  - exists acc. split; [reflexivity|]. split; [auto|]. intros x. unfold field_denotes. cbn.
    split; [auto|]. intros [H|(i & [] & _)]. assumption.
  - destruct (Hl i ltac:(now left)) as (Hwf & Hs & Hv).
    destruct (parse_interval_valid min max acc i Hwf Hmax Hs Hv) as (S1 & -> & Hinc1 & HS1).
    destruct (IH ltac:(intros; apply Hl; now right) S1) as (S2 & -> & Hinc2 & HS2).
    exists S2. split; [reflexivity|]. split; [auto|]. intros x. rewrite HS2, HS1.
    unfold field_denotes. split.
    + intros [[H|H]|(j & Hj & H)]; [now left| |].
      * right. exists i. split; [now left|assumption].
      * right. exists j. split; [now right|assumption].
    + intros [H|(j & [<-|Hj] & H)]; [tauto|tauto|]. right. eauto.
Qed.

Lemma parse_intervals_invalid min max l : max <= U32_MAX ->
  (forall i, In i l -> item_wf i /\ 0 < item_stride i) ->
  (exists i, In i l /\ ~ item_valid min max i) ->
  forall acc, exists e, parse_intervals min max acc (map item_text l) = Ret (Err e).
Proof.
  intros Hmax. induction l as [|i l IH]; intros Hl (j & Hj & Hbad) acc; [destruct Hj|].
  cbn [map parse_intervals]. destruct (Hl i ltac:(now left)) as (Hwf & Hs).
  destruct (item_valid_dec min max i) as [Hv|Hv].
  - destruct (parse_interval_valid min max acc i Hwf Hmax Hs Hv) as (S1 & -> & _).
    apply IH; [intros; apply Hl; now right|].
    destruct Hj as [<-|Hj]; [contradiction|eauto].
  - destruct (parse_interval_invalid min max acc i Hwf Hmax Hv) as (e & ->). eauto.
Qed.

Lemma map_item_text_split l : l <> [] -> (forall i, In i l -> item_wf i) ->
  split_on "," (field_text l) = map item_text l.
Proof.
  intros Hne Hwf. apply split_on_join; [destruct l; [congruence|discriminate]|].
  intros p Hp. apply in_map_iff in Hp as (i & <- & Hi). now apply item_text_free, Hwf.
Qed.

Lemma join_nonempty sep l : (exists x, hd_error l = Some x /\ x <> "") -> join sep l <> "".
Proof.
  intros (x & Hx & Hne). destruct l as [|y [|z r]]; [discriminate| |];
    cbn in Hx; injection Hx as ->; [assumption|].
  cbn. destruct x; [congruence|discriminate].
Qed.

Lemma field_text_nonempty l : l <> [] -> (forall i, In i l -> item_wf i) -> field_text l <> "".
Proof.
  intros Hne Hwf. destruct l as [|i l]; [congruence|]. apply join_nonempty.
  exists (item_text i). split; [reflexivity|]. apply item_text_nonempty, Hwf. now left.
Qed.

Lemma field_text_star l : l <> [] -> (forall i, In i l -> item_wf i) -> field_text l = "*" ->
  l = [{| i_bounds := BAll; i_step := None |}].
Proof.
  intros Hne Hwf E. assert (Hs : split_on "," (field_text l) = map item_text l) by now apply map_item_text_split.
  rewrite E in Hs. cbn in Hs. destruct l as [|i [|j l]]; try discriminate.
  cbn in Hs. injection Hs as Hi. specialize (Hwf i ltac:(now left)).
  destruct (split_item i Hwf) as (rest & Hsp & Hst). rewrite <- Hi in Hsp. cbn in Hsp.
  injection Hsp as Hb <-. destruct i as [b st]; cbn in *.
  assert (st = None). { destruct st as [[n jk]|]; [destruct Hst as [r Hr]; discriminate|reflexivity]. }
  subst st. destruct b as [|n|a b junk]; [reflexivity| |].
  - exfalso. destruct Hwf as [Hn _]. cbn in Hn. symmetry in Hb. now apply num_text_not_star in Hb.
  - exfalso. cbn [bounds_text] in Hb.
    assert (Hin : In "-"%char (chars "*")).
    { rewrite Hb, chars_app, in_app_iff. right. now left. }
    destruct Hin as [Hin|[]]. discriminate.
Qed.

Theorem parse_element_accepts min max l :
  min <= max -> max <= U32_MAX -> l <> [] ->
  (forall i, In i l -> item_wf i /\ 0 < item_stride i /\ item_valid min max i) ->
  exists S, parse_element (Some (field_text l)) min max = Ret (Ok S) /\
            increasing S /\ forall x, In x S <-> field_denotes min max l x.
Proof.
  intros Hmm Hmax Hne Hl. unfold parse_element.
  destruct (Z.ltb_spec max min); [lia|].
  assert (Hwf : forall i, In i l -> item_wf i) by (intros; now apply Hl).
  pose proof (field_text_nonempty l Hne Hwf) as Hfne.
  apply nonempty_spec in Hfne. rewrite Hfne. cbn [negb].
  destruct (String.eqb_spec (field_text l) "*") as [E|_].
  - apply field_text_star in E; [|assumption|assumption]. subst l.
    eexists; split; [reflexivity|].
    split.
    + apply (fold_insert_sorted (fun _ => true)). constructor.
    + intros x. pose proof (fold_insert_In (fun _ => true) (zrange min max) [] x) as HIn. cbn beta iota in HIn.
      rewrite HIn, zrange_In. unfold field_denotes, item_denotes. cbn.
      split.
      * intros [[]|[Hx _]]. eexists; split; [now left|]. cbn. exists (x - min). lia.
      * intros (i & [<-|[]] & k & Hk & -> & Hle). cbn in *. right. split; [lia|reflexivity].
  - rewrite map_item_text_split by assumption.
    destruct (parse_intervals_valid min max l Hmax Hl []) as (S & HS & Hinc & Hden).
    exists S. split; [assumption|]. split; [apply Hinc; constructor|].
    intros x. rewrite Hden. cbn. tauto.
Qed.

Theorem parse_element_rejects min max l :
  min <= max -> max <= U32_MAX -> l <> [] ->
  (forall i, In i l -> item_wf i /\ 0 < item_stride i) ->
  (exists i, In i l /\ ~ item_valid min max i) ->
  exists e, parse_element (Some (field_text l)) min max = Ret (Err e).
Proof.
  intros Hmm Hmax Hne Hl Hbad. unfold parse_element.
  destruct (Z.ltb_spec max min); [lia|].
  assert (Hwf : forall i, In i l -> item_wf i) by (intros; now apply Hl).
  pose proof (field_text_nonempty l Hne Hwf) as Hfne.
  apply nonempty_spec in Hfne. rewrite Hfne. cbn [negb].
  destruct (String.eqb_spec (field_text l) "*") as [E|_].
  - apply field_text_star in E; [|assumption|assumption]. subst l. exfalso.
    destruct Hbad as (i & [<-|[]] & Hbad). apply Hbad. unfold item_valid; cbn. lia.
  - rewrite map_item_text_split by assumption. now apply parse_intervals_invalid.
Qed.

(** ** The accepted language *)
Lemma split_on_inv c s p r : split_on c s = p :: r ->
  free_of c p /\ (match r with
                  | [] => s = p
                  | _ => s = p ++ String c (join (String c "") r)
                  end).
Proof.
  intros H. pose proof (join_split_on c s) as Hj. split.
  - apply (split_on_free c s). rewrite H. now left.
  - rewrite H in Hj. destruct r; cbn in Hj; now symmetry.
Qed.

Lemma free_of_join c sep l : (forall p, In p l -> free_of c p) -> free_of c sep -> free_of c (join sep l).
Proof.
  intros Hl Hs. induction l as [|x [|y l] IH]; [apply free_of_nil|apply Hl; now left|].
  rewrite join_cons by discriminate. apply free_of_app. split; [apply Hl; now left|].
  apply free_of_app. split; [assumption|]. apply IH. intros. apply Hl. now right.
Qed.

Lemma parse_interval_shape min max acc piece S :
  free_of "," piece -> parse_interval min max acc piece = Ret (Ok S) ->
  exists i, item_wf i /\ piece = item_text i.
Proof.
  intros Hfree H. unfold parse_interval in H.
  destruct (split_on "/" piece) as [|head rest] eqn:Esp; [discriminate|].
  destruct (split_on_inv _ _ _ _ Esp) as [Hhead Hpiece].
  destruct (parse_step rest) as [step|e] eqn:Est; [|discriminate].
  destruct (parse_bounds min max head) as [[lo hi]|e] eqn:Eb; [|discriminate].
  assert (Hst : exists st, (match st with None => True | Some (n, junk) => num_wf n /\ junk_ok [","]%char junk end)
                           /\ piece = head ++ step_text st).
  { destruct rest as [|s r].
    - exists None. cbn. rewrite append_nil_r. auto.
    - cbn in Est. destruct (parse_u32 s) as [n|] eqn:Es; [|discriminate].
      apply parse_u32_num in Es as (m & -> & Hm & _).
      assert (Hpf : free_of "," (join "/" (num_text m :: r))).
      { rewrite Hpiece in Hfree. apply free_of_app in Hfree as [_ Hf]. apply free_of_cons in Hf. tauto. }
      destruct r as [|t r].
      + exists (Some (m, None)). cbn. rewrite append_nil_r. cbn in Hpiece. auto.
      + exists (Some (m, Some (join "/" (t :: r)))). cbn [step_text tail_text junk_ok].
        rewrite join_cons in Hpf by discriminate.
        apply free_of_app in Hpf as [_ Hpf]. apply free_of_app in Hpf as [_ Hpf].
        split; [split; [assumption|intros c [<-|[]]; assumption]|].
        rewrite Hpiece. rewrite join_cons by discriminate. reflexivity. }
  destruct Hst as (st & Hstwf & Hp).
  assert (Hhc : free_of "," head). { rewrite Hp in Hfree. now apply free_of_app in Hfree. }
  assert (Hbd : exists b, (match b with
                           | BAll => True | BOne n => num_wf n
                           | BRange a b junk => num_wf a /\ num_wf b /\ junk_ok ["/"; ","]%char junk
                           end) /\ head = bounds_text b).
  { unfold parse_bounds in Eb. destruct (String.eqb_spec head "*") as [->|Hns].
    - exists BAll. cbn. auto.
    - destruct (split_on "-" head) as [|b0 rst] eqn:Ed; [discriminate|].
      destruct (split_on_inv _ _ _ _ Ed) as [_ Hh].
      destruct (parse_u32 b0) as [begin|] eqn:E0; [|discriminate].
      apply parse_u32_num in E0 as (na & -> & Hna & _).
      destruct rst as [|e0 r].
      + exists (BOne na). auto.
      + destruct (parse_u32 e0) as [en|] eqn:E1; [|discriminate].
        apply parse_u32_num in E1 as (nb & -> & Hnb & _).
        destruct r as [|t r].
        * exists (BRange na nb None). cbn. rewrite append_nil_r. cbn in Hh. auto.
        * exists (BRange na nb (Some (join "-" (t :: r)))). cbn [bounds_text tail_text junk_ok].
          rewrite join_cons in Hh by discriminate.
          assert (Hjf : forall c, In c ["/"; ","]%char -> free_of c (join "-" (t :: r))).
          { intros c Hc. assert (Hf : free_of c head) by (destruct Hc as [<-|[<-|[]]]; assumption).
            rewrite Hh in Hf. apply free_of_app in Hf as [_ Hf]. apply free_of_cons in Hf as [_ Hf].
            apply free_of_app in Hf as [_ Hf]. now apply free_of_app in Hf. }
          split; [auto|]. rewrite Hh. reflexivity. }
  destruct Hbd as (b & Hbwf & Hh).
  exists {| i_bounds := b; i_step := st |}. split; [split; assumption|].
  rewrite Hp, Hh. reflexivity.
Qed.

Lemma parse_interval_ok_valid min max acc i S :
  item_wf i -> max <= U32_MAX -> parse_interval min max acc (item_text i) = Ret (Ok S) ->
  0 < item_stride i /\ item_valid min max i.
Proof.
  intros Hwf Hmax H. destruct (item_valid_dec min max i) as [Hv|Hv].
  - split; [|assumption].
    assert (0 <= item_stride i). { unfold item_stride. destruct (i_step i) as [[n j]|]; [apply num_val_nonneg|lia]. }
    destruct (Z.eq_dec (item_stride i) 0) as [E|E]; [exfalso|lia].
    destruct Hv as (Hlo & Hlh & Hhi & Hst). unfold parse_interval in H.
    destruct (split_item i Hwf) as (rest & Hsp & Hrest). rewrite Hsp in H.
    rewrite (parse_step_item i rest Hwf Hrest) in H.
    destruct (Z.leb_spec (item_stride i) U32_MAX) as [_|Hbad]; [|unfold U32_MAX in *; lia].
    pose proof (parse_bounds_item min max i Hwf Hmax) as Hb.
    destruct (parse_bounds _ _ _) as [[lo hi]|e]; [|discriminate].
    destruct Hb as [-> ->].
    destruct (_ || _); [discriminate|]. destruct (_ || _); [discriminate|].
    destruct (_ <? _); [discriminate|]. rewrite E in H. discriminate.
  - destruct (parse_interval_invalid min max acc i Hwf Hmax Hv) as [e He]. congruence.
Qed.

Lemma parse_intervals_shape min max pieces : max <= U32_MAX ->
  (forall p, In p pieces -> free_of "," p) ->
  forall acc S, parse_intervals min max acc pieces = Ret (Ok S) ->
  exists l, pieces = map item_text l /\
    forall i, In i l -> item_wf i /\ 0 < item_stride i /\ item_valid min max i.
Proof.
  intros Hmax. induction pieces as [|p ps IH]; intros Hf acc S H.
  - exists []. split; [reflexivity|]. intros i [].
  - cbn [parse_intervals] in H.
    destruct (parse_interval min max acc p) as [[acc'|e]|m] eqn:Ep; try discriminate.
    destruct (parse_interval_shape _ _ _ _ _ (Hf p ltac:(now left)) Ep) as (i & Hwf & ->).
    destruct (parse_interval_ok_valid _ _ _ _ _ Hwf Hmax Ep) as [Hs Hv].
    destruct (IH ltac:(intros; apply Hf; now right) _ _ H) as (l & -> & Hl).
    exists (i :: l). split; [reflexivity|]. intros j [<-|Hj]; auto.
Qed.

(** Every accepted text is the text of a valid item list. *)
Theorem parse_element_shape min max t S :
  max <= U32_MAX -> parse_element (Some t) min max = Ret (Ok S) ->
  exists l, l <> [] /\ t = field_text l /\
    (forall i, In i l -> item_wf i /\ 0 < item_stride i /\ item_valid min max i).
Proof.
  intros Hmax H. unfold parse_element in H.
  destruct (Z.ltb_spec max min) as [|Hmm]; [discriminate|].
  destruct (negb (nonempty t)); [discriminate|].
  destruct (String.eqb_spec t "*") as [->|Hns].
  - exists [{| i_bounds := BAll; i_step := None |}]. split; [discriminate|]. split; [reflexivity|].
    intros i [<-|[]]. unfold item_wf, item_valid; cbn. lia.
  - destruct (parse_intervals_shape min max (split_on "," t) Hmax (split_on_free "," t) _ _ H) as (l & Hl & Hok).
    exists l. split; [|split; [|assumption]].
    + intros ->. cbn in Hl. now apply split_by_nonnil in Hl.
    + unfold field_text. rewrite <- Hl. symmetry. apply join_split_on.
Qed.

(** Non-empty, increasing, inside the range; the text alone decides. *)
Theorem parse_element_range min max t S :
  max <= U32_MAX -> parse_element (Some t) min max = Ret (Ok S) ->
  S <> [] /\ increasing S /\ forall x, In x S -> min <= x <= max.
Proof.
  intros Hmax H. destruct (parse_element_shape _ _ _ _ Hmax H) as (l & Hne & -> & Hl).
  assert (Hmm : min <= max).
  { destruct l as [|i l]; [congruence|]. destruct (Hl i ltac:(now left)) as (_ & _ & Hv).
    unfold item_valid in Hv. lia. }
  destruct (parse_element_accepts min max l Hmm Hmax Hne Hl) as (S' & HS' & Hinc & Hden).
  rewrite HS' in H. injection H as <-. split; [|split; [assumption|]].
  - destruct l as [|i l]; [congruence|]. intros ->.
    destruct (Hl i ltac:(now left)) as (_ & Hs & Hv).
    apply (Hden (item_lo min i)). exists i. split; [now left|].
    exists 0. unfold item_valid in Hv. lia.
  - intros x Hx. apply Hden in Hx as (i & Hi & k & Hk & -> & Hle).
    destruct (Hl i Hi) as (_ & Hs & Hv). unfold item_valid in Hv. nia.
Qed.

(** ** White space *)
Lemma is_ws_spec a : is_ws a = true <-> white a.
Proof.
  unfold white. split.
  - destruct a as [b0 b1 b2 b3 b4 b5 b6 b7]; destruct b0, b1, b2, b3, b4, b5, b6, b7; cbn; intros H; try discriminate; tauto.
  - cbn [In]. intuition (subst; reflexivity).
Qed.

Lemma is_ws_false a : is_ws a = false <-> ~ white a.
Proof. rewrite <- is_ws_spec. destruct (is_ws a); intuition congruence. Qed.

Lemma split_ws_white_app w s : all_white w ->
  filter nonempty (split_by is_ws (w ++ s)) = filter nonempty (split_by is_ws s).
Proof.
  intros Hw. induction w as [|a w IH]; [reflexivity|]. cbn [append split_by].
  rewrite (proj2 (is_ws_spec a)) by (apply Hw; now left). cbn [filter nonempty].
  apply IH. intros x Hx. apply Hw. now right.
Qed.

Lemma split_whitespace_spaced s l : spaced s l -> split_whitespace s = l.
Proof.
  unfold split_whitespace. induction 1 as [w Hw|w f w' Hw Hf Hne Hw'|w f s l Hw Hf Hne Hs IH Hhd].
  - rewrite <- (append_nil_r w), split_ws_white_app by assumption. reflexivity.
  - rewrite split_ws_white_app by assumption.
    assert (Hff : forall x, In x (chars f) -> is_ws x = false) by (intros x Hx; apply is_ws_false; now apply Hf).
    apply nonempty_spec in Hne.
    destruct w' as [|a w'].
    + rewrite append_nil_r, split_by_none by assumption. cbn. now rewrite Hne.
    + rewrite split_by_app; [|assumption|apply is_ws_spec, Hw'; now left].
      cbn. rewrite Hne. f_equal.
      rewrite <- (append_nil_r w'), split_ws_white_app; [reflexivity|].
      intros x Hx. apply Hw'. now right.
  - rewrite split_ws_white_app by assumption.
    assert (Hff : forall x, In x (chars f) -> is_ws x = false) by (intros x Hx; apply is_ws_false; now apply Hf).
    apply nonempty_spec in Hne.
    destruct s as [|a s]; [contradiction|].
    rewrite split_by_app; [|assumption|now apply is_ws_spec]. cbn. rewrite Hne. f_equal.
    rewrite <- IH. cbn [split_by]. rewrite (proj2 (is_ws_spec a) Hhd). reflexivity.
Qed.

(** ** The five fields *)
Theorem parse_timer_five s f1 f2 f3 f4 f5 S1 S2 S3 S4 S5 :
  spaced s [f1; f2; f3; f4; f5] ->
  parse_element (Some f1) 0 59 = Ret (Ok S1) -> parse_element (Some f2) 0 23 = Ret (Ok S2) ->
  parse_element (Some f3) 1 31 = Ret (Ok S3) -> parse_element (Some f4) 1 12 = Ret (Ok S4) ->
  parse_element (Some f5) 0 6 = Ret (Ok S5) ->
  parse_timer s = Ret (Ok {| td_minute := S1; td_hour := S2; td_day := S3; td_month := S4; td_weekday := S5 |}).
Proof.
  intros Hs E1 E2 E3 E4 E5. unfold parse_timer. rewrite (split_whitespace_spaced _ _ Hs).
  cbn [nth_error]. rewrite E1, E2, E3, E4, E5. reflexivity.
Qed.

Theorem parse_timer_ok_inv s d : parse_timer s = Ret (Ok d) ->
  exists f1 f2 f3 f4 f5,
    split_whitespace s = [f1; f2; f3; f4; f5] /\
    parse_element (Some f1) 0 59 = Ret (Ok (td_minute d)) /\
    parse_element (Some f2) 0 23 = Ret (Ok (td_hour d)) /\
    parse_element (Some f3) 1 31 = Ret (Ok (td_day d)) /\
    parse_element (Some f4) 1 12 = Ret (Ok (td_month d)) /\
    parse_element (Some f5) 0 6 = Ret (Ok (td_weekday d)).
Proof.
  unfold parse_timer. destruct (split_whitespace s) as [|f1 ws]; [discriminate|].
  cbn [nth_error]. destruct (parse_element (Some f1) 0 59) as [[S1|]|] eqn:E1; try discriminate. cbn [rbind].
  destruct ws as [|f2 ws]; [discriminate|]. cbn [nth_error].
  destruct (parse_element (Some f2) 0 23) as [[S2|]|] eqn:E2; try discriminate. cbn [rbind].
  destruct ws as [|f3 ws]; [discriminate|]. cbn [nth_error].
  destruct (parse_element (Some f3) 1 31) as [[S3|]|] eqn:E3; try discriminate. cbn [rbind].
  destruct ws as [|f4 ws]; [discriminate|]. cbn [nth_error].
  destruct (parse_element (Some f4) 1 12) as [[S4|]|] eqn:E4; try discriminate. cbn [rbind].
  destruct ws as [|f5 ws]; [discriminate|]. cbn [nth_error].
  destruct (parse_element (Some f5) 0 6) as [[S5|]|] eqn:E5; try discriminate. cbn [rbind].
  destruct ws as [|f6 ws]; cbn [nth_error]; [|discriminate].
  intros [= <-]. exists f1, f2, f3, f4, f5. cbn. auto 10.
Qed.

(** ** Panics *)
Lemma parse_interval_panic min max acc piece m :
  parse_interval min max acc piece = Panic m ->
  exists h s r, split_on "/" piece = h :: s :: r /\ parse_u32 s = Some 0.
Proof.
  unfold parse_interval. destruct (split_on "/" piece) as [|h rest]; [discriminate|].
  destruct (parse_step rest) as [st|e] eqn:Es; [|discriminate].
  destruct (parse_bounds min max h) as [[lo hi]|e]; [|discriminate].
  destruct (_ || _); [discriminate|]. destruct (_ || _); [discriminate|]. destruct (_ <? _); [discriminate|].
  destruct (Z.eqb_spec st 0) as [->|]; [|discriminate]. intros _.
  destruct rest as [|s r]; [discriminate|]. cbn in Es.
  destruct (parse_u32 s) as [n|] eqn:E; [|discriminate]. injection Es as ->. eauto 6.
Qed.

Lemma parse_intervals_panic min max pieces acc m :
  parse_intervals min max acc pieces = Panic m ->
  exists p h s r, In p pieces /\ split_on "/" p = h :: s :: r /\ parse_u32 s = Some 0.
Proof.
  revert acc. induction pieces as [|p ps IH]; intros acc H; [discriminate|]. cbn [parse_intervals] in H.
  destruct (parse_interval min max acc p) as [[acc'|e]|m'] eqn:Ep; [|discriminate|].
  - destruct (IH _ H) as (q & h & s & r & Hq & Hrest). exists q, h, s, r. split; [now right|assumption].
  - apply parse_interval_panic in Ep as (h & s & r & Hs). exists p, h, s, r. split; [now left|assumption].
Qed.

(** The only way to crash the parser: a step that is (a spelling of) zero. *)
Theorem parse_element_panic min max t m :
  parse_element (Some t) min max = Panic m ->
  exists p h s r, In p (split_on "," t) /\ split_on "/" p = h :: s :: r /\ parse_u32 s = Some 0.
Proof.
  unfold parse_element. destruct (_ <? _); [discriminate|]. destruct (negb _); [discriminate|].
  destruct (String.eqb t "*"); [discriminate|]. apply parse_intervals_panic.
Qed.
