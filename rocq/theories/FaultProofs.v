(** The parser of cron expressions reports the first fault. *)
From Coq Require Import String Ascii ZArith List Bool Lia.
From Verif Require Import Base RStr SpecStr RStrProofs CronModel SpecCron CronParseProofs CronTextProofs SpecFault.
Import ListNotations.
Local Open Scope string_scope.
Local Open Scope Z_scope.

Lemma u32_text_iff t n : u32_text t n <-> parse_u32 t = Some n.
Proof.
  split.
  - intros (m & -> & W & <- & L). rewrite num_text_parse by exact W. destruct (Z.leb_spec (num_val m) U32_MAX); [reflexivity|unfold U32_MAX in *; lia].
  - intros H. destruct (parse_u32_num _ _ H) as (m & -> & W & V & L). exists m. auto.
Qed.
Lemma no_number_iff t : no_number t <-> parse_u32 t = None.
Proof.
  unfold no_number. split.
  - intros H. destruct (parse_u32 t) as [n|] eqn:E; [|reflexivity]. exfalso. apply (H n). apply u32_text_iff. exact E.
  - intros H n K. apply u32_text_iff in K. congruence.
Qed.
Lemma split_on_single c a : free_of c a -> split_on c a = [a].
Proof. intros F. apply (split_on_join c [a]); [discriminate|]. intros p [<-|[]]. exact F. Qed.
Lemma cut_split c p h st : cut c p h st -> exists r, split_on c p = h :: match st with None => [] | Some s => s :: r end.
Proof.
  intros [a A|a b A B|a b junk A B].
  - exists []. apply split_on_single. exact A.
  - exists []. rewrite split_on_app by exact A. rewrite split_on_single by exact B. reflexivity.
  - exists (split_on c junk). rewrite split_on_app by exact A. rewrite split_on_app by exact B. reflexivity.
Qed.
Lemma split_cut c p h r : split_on c p = h :: r -> cut c p h (match r with [] => None | s :: _ => Some s end).
Proof.
  intros H. assert (F : forall q, In q (h :: r) -> free_of c q) by (rewrite <- H; apply split_on_free).
  pose proof (join_split_on c p) as J. rewrite H in J. destruct r as [|s [|x r]]; cbn [join append] in J.
  - rewrite <- J. constructor. apply F. now left.
  - rewrite <- J. constructor; apply F; cbn; auto.
  - rewrite <- J. apply (cut_more c h s (join (String c "") (x :: r))); apply F; cbn; auto.
Qed.
Lemma split_on_nonnil c p : exists h r, split_on c p = h :: r.
Proof. destruct (split_on c p) as [|h r] eqn:E; [now apply split_by_nonnil in E|eauto]. Qed.

Lemma stepped_iff (st : option string) (r : list string) : stepped st <->
  exists n, parse_step (match st with None => [] | Some s => s :: r end) = Ok n.
Proof.
  destruct st as [s|]; cbn.
  - split; intros (n & H); exists n.
    + apply u32_text_iff in H. rewrite H. reflexivity.
    + apply u32_text_iff. destruct (parse_u32 s); congruence.
  - split; eauto.
Qed.
Lemma spans_iff min max h lo hi : spans min max h lo hi <-> parse_bounds min max h = Ok (lo, hi).
Proof.
  unfold parse_bounds. split.
  - intros [|t n N C U|t a b x y N C A B]; [reflexivity|..].
    + destruct (String.eqb_spec t "*"); [contradiction|]. destruct (cut_split _ _ _ _ C) as (r & ->). apply u32_text_iff in U. rewrite U. reflexivity.
    + destruct (String.eqb_spec t "*"); [contradiction|]. destruct (cut_split _ _ _ _ C) as (r & ->). apply u32_text_iff in A. apply u32_text_iff in B. rewrite A, B. reflexivity.
  - destruct (String.eqb_spec h "*") as [->|N]; [intros [= <- <-]; constructor|].
    destruct (split_on "-" h) as [|a r] eqn:E; [discriminate|]. pose proof (split_cut _ _ _ _ E) as C.
    destruct (parse_u32 a) as [n|] eqn:A; [|discriminate]. destruct r as [|b r].
    + intros [= <- <-]. destruct (split_on_inv _ _ _ _ E) as [_ ->]. apply sp_one; [exact N|exact C|apply u32_text_iff; exact A].
    + destruct (parse_u32 b) as [m|] eqn:B; [|discriminate]. intros [= <- <-]. eapply sp_two; [exact N|exact C|apply u32_text_iff; exact A|apply u32_text_iff; exact B].
Qed.

Definition fate_of {A} (x : outcome (result A string)) : option fate :=
  match x with Ret (Ok _) => None | Ret (Err e) => Some (Refused e) | Panic _ => Some Crashes end.

Ltac bounds_cases :=
  match goal with
  | |- context [if ?a <? ?b then _ else _] => destruct (Z.ltb_spec a b)
  | |- context [(?a <? ?b) || _] => destruct (Z.ltb_spec a b); cbn [orb]
  end.
Lemma item_fault_iff min max acc p f : min <= max ->
  item_fault min max p f <-> fate_of (parse_interval min max acc p) = Some f.
Proof.
  intros MM. unfold parse_interval. split.
  - intros [h s C N|h st a b C S N D M|h st a b n C S N D A B|h st lo hi C S P R|h st lo hi C S P L H O|h s lo hi C Z P L O H].
    + destruct (cut_split _ _ _ _ C) as (r & ->). cbn. apply no_number_iff in N. rewrite N. reflexivity.
    + destruct (cut_split _ _ _ _ C) as (r & ->). apply (stepped_iff _ r) in S. destruct S as (k & ->).
      destruct (cut_split _ _ _ _ D) as (r' & E). unfold parse_bounds. destruct (String.eqb_spec h "*"); [contradiction|]. rewrite E.
      apply no_number_iff in M. rewrite M. reflexivity.
    + destruct (cut_split _ _ _ _ C) as (r & ->). apply (stepped_iff _ r) in S. destruct S as (k & ->).
      destruct (cut_split _ _ _ _ D) as (r' & E). unfold parse_bounds. destruct (String.eqb_spec h "*"); [contradiction|]. rewrite E.
      apply u32_text_iff in A. apply no_number_iff in B. rewrite A, B. reflexivity.
    + destruct (cut_split _ _ _ _ C) as (r & ->). apply (stepped_iff _ r) in S. destruct S as (k & ->). apply spans_iff in P. rewrite P.
      repeat bounds_cases; try reflexivity; lia.
    + destruct (cut_split _ _ _ _ C) as (r & ->). apply (stepped_iff _ r) in S. destruct S as (k & ->). apply spans_iff in P. rewrite P.
      repeat bounds_cases; try reflexivity; lia.
    + destruct (cut_split _ _ _ _ C) as (r & ->). cbn [parse_step]. apply u32_text_iff in Z. rewrite Z. apply spans_iff in P. rewrite P.
      repeat bounds_cases; try lia. reflexivity.
  - destruct (split_on "/" p) as [|h rest] eqn:E; [now apply split_by_nonnil in E|]. pose proof (split_cut _ _ _ _ E) as C.
    assert (SP : forall k, parse_step rest = Ok k -> stepped (match rest with [] => None | s :: _ => Some s end)).
    { intros k K. apply (stepped_iff _ (tl rest)). exists k. rewrite <- K. destruct rest; reflexivity. }
    destruct (parse_step rest) as [k|e] eqn:S.
    2:{ destruct rest as [|s rest]; [discriminate S|]. cbn in S. destruct (parse_u32 s) as [n|] eqn:N; [discriminate S|]. injection S as <-. cbn. intros [= <-].
        eapply if_step; [exact C|]. apply no_number_iff. exact N. }
    specialize (SP k eq_refl). destruct (parse_bounds min max h) as [[lo hi]|e] eqn:B.
    2:{ revert B. unfold parse_bounds. destruct (String.eqb_spec h "*") as [|N]; [discriminate|].
        destruct (split_on "-" h) as [|a r] eqn:D; [now apply split_by_nonnil in D|]. pose proof (split_cut _ _ _ _ D) as CD.
        destruct (parse_u32 a) as [n|] eqn:A.
        - destruct r as [|b r]; [discriminate|]. destruct (parse_u32 b) as [m|] eqn:B; [discriminate|]. intros [= <-]. cbn. intros [= <-].
          eapply if_end; [exact C|exact SP|exact N|exact CD|apply u32_text_iff; exact A|apply no_number_iff; exact B].
        - intros [= <-]. cbn. intros [= <-]. eapply if_number; [exact C|exact SP|exact N|exact CD|apply no_number_iff; exact A]. }
    apply spans_iff in B.
    destruct ((lo <? min) || (max <? lo)) eqn:R1; [cbn; intros [= <-]; eapply if_range; [exact C|exact SP|exact B|lia]|].
    destruct ((hi <? min) || (max <? hi)) eqn:R2; [cbn; intros [= <-]; eapply if_range; [exact C|exact SP|exact B|lia]|].
    destruct (Z.ltb_spec hi lo); [cbn; intros [= <-]; eapply if_order; [exact C|exact SP|exact B|lia..]|].
    destruct (Z.eqb_spec k 0) as [->|]; [|discriminate]. cbn. intros [= <-]. destruct rest as [|s rest]; [discriminate S|].
    cbn in S. destruct (parse_u32 s) as [n|] eqn:N; [|discriminate S]. injection S as ->.
    eapply if_zero; [exact C|apply u32_text_iff; exact N|exact B|lia..].
Qed.

Definition all_valid (min max : Z) (l : list item) : Prop := forall i, In i l -> item_wf i /\ 0 < item_stride i /\ item_valid min max i.
Lemma intervals_fault min max : min <= max -> max <= U32_MAX -> forall pieces acc f, (forall p, In p pieces -> free_of "," p) ->
  fate_of (parse_intervals min max acc pieces) = Some f ->
  exists l p rest, pieces = (map item_text l ++ p :: rest)%list /\ all_valid min max l /\ item_fault min max p f.
Proof.
  intros MM MX. induction pieces as [|p pieces IH]; intros acc f F H; [discriminate H|]. cbn [parse_intervals] in H.
  destruct (parse_interval min max acc p) as [[acc'|e]|m] eqn:E.
  - destruct (parse_interval_shape _ _ _ _ _ (F p (or_introl eq_refl)) E) as (i & W & ->).
    pose proof (parse_interval_ok_valid _ _ _ _ _ W MX E) as V.
    destruct (IH acc' f (fun q Hq => F q (or_intror Hq)) H) as (l & q & rest & -> & A & I).
    exists (i :: l), q, rest. split; [reflexivity|]. split; [|exact I]. intros j [<-|Hj]; [tauto|auto].
  - exists [], p, pieces. split; [reflexivity|]. split; [intros i []|]. apply (item_fault_iff min max acc); [exact MM|]. rewrite E. exact H.
  - exists [], p, pieces. split; [reflexivity|]. split; [intros i []|]. apply (item_fault_iff min max acc); [exact MM|]. rewrite E. exact H.
Qed.
Lemma fault_intervals min max : min <= max -> max <= U32_MAX -> forall l p rest acc f, all_valid min max l -> item_fault min max p f ->
  fate_of (parse_intervals min max acc (map item_text l ++ p :: rest)%list) = Some f.
Proof.
  intros MM MX. induction l as [|i l IH]; intros p rest acc f A I; cbn [map app parse_intervals].
  - apply (item_fault_iff min max acc) in I; [|exact MM]. destruct (parse_interval min max acc p) as [[acc'|e]|m]; [discriminate I|exact I|exact I].
  - destruct (A i (or_introl eq_refl)) as (W & P & V). destruct (parse_interval_valid min max acc i W MX P V) as (S & -> & _).
    apply IH; [|exact I]. intros j Hj. apply A. now right.
Qed.
Lemma star_no_fault min max p f : min <= max -> item_fault min max p f -> p <> "*".
Proof.
  intros MM I ->. apply (item_fault_iff min max []) in I; [|exact MM]. revert I. cbn.
  repeat bounds_cases; try lia. discriminate.
Qed.
Lemma field_fault_iff min max t f : min <= max -> max <= U32_MAX -> t <> "" ->
  field_fault min max t f <-> fate_of (parse_element (Some t) min max) = Some f.
Proof.
  intros MM MX NE. unfold parse_element. destruct (Z.ltb_spec max min); [lia|]. destruct t as [|a t0] eqn:T; [contradiction|]. cbn [nonempty negb]. rewrite <- T in *.
  split.
  - intros [l p rest E A F I].
    assert (SO : split_on "," t = (map item_text l ++ p :: rest)%list).
    { rewrite E. apply split_on_join; [destruct l; discriminate|]. intros q Hq. apply in_app_or in Hq. destruct Hq as [Hq|Hq]; [|auto].
      apply in_map_iff in Hq. destruct Hq as (i & <- & Hi). apply item_text_free. apply A. exact Hi. }
    destruct (String.eqb_spec t "*") as [S|S].
    + exfalso. rewrite S in SO. cbn in SO. destruct l as [|i [|j l]]; cbn in SO; try discriminate SO.
      injection SO as <- <-. exact (star_no_fault _ _ _ _ MM I eq_refl).
    + rewrite SO. apply fault_intervals; assumption.
  - destruct (String.eqb_spec t "*") as [S|S]; [discriminate|]. intros K.
    destruct (intervals_fault min max MM MX _ _ _ (split_on_free "," t) K) as (l & p & rest & E & A & I).
    apply (ff min max t f l p rest); [|exact A| |exact I].
    + rewrite <- E. symmetry. apply join_split_on.
    + intros q Hq. apply (split_on_free "," t). rewrite E. apply in_or_app. now right.
Qed.
Lemma valid_iff r t : fst r <= snd r -> 0 <= fst r -> snd r <= U32_MAX -> t <> "" ->
  is_valid r t <-> fate_of (parse_element (Some t) (fst r) (snd r)) = None.
Proof.
  intros MM Z MX NE. split.
  - intros (l & -> & V). destruct (parse_element_accepts (fst r) (snd r) l MM MX (proj1 V) (proj2 V)) as (S & -> & _). reflexivity.
  - destruct (parse_element (Some t) (fst r) (snd r)) as [[S|e]|m] eqn:E; try discriminate. intros _.
    destruct (parse_element_shape _ _ _ _ MX E) as (l & N & -> & V). exists l. split; [reflexivity|]. split; assumption.
Qed.

(** The fields one after the other. *)
Fixpoint scan (rs : list (Z * Z)) (ws : list string) : option fate :=
  match rs with
  | [] => match ws with [] => None | _ => Some (Refused "Too many timer specs") end
  | r :: rs =>
      match fate_of (parse_element (hd_error ws) (fst r) (snd r)) with
      | Some f => Some f
      | None => scan rs (tl ws)
      end
  end.
Lemma scan_timer s : fate_of (parse_timer s) = scan ranges (split_whitespace s).
Proof.
  unfold parse_timer, ranges. generalize (split_whitespace s) as ws. intros ws. cbn [scan fst snd].
  assert (N : forall (l : list string) n, nth_error l (S n) = nth_error (tl l) n) by (intros [|x l] n; [destruct n; reflexivity|reflexivity]).
  assert (Z : forall l : list string, nth_error l 0 = hd_error l) by (intros [|x l]; reflexivity).
  rewrite !N, !Z.
  destruct (parse_element (hd_error ws) 0 59) as [[S1|]|]; [|reflexivity|reflexivity]. cbn [rbind fate_of].
  destruct (parse_element (hd_error (tl ws)) 0 23) as [[S2|]|]; [|reflexivity|reflexivity]. cbn [rbind fate_of].
  destruct (parse_element (hd_error (tl (tl ws))) 1 31) as [[S3|]|]; [|reflexivity|reflexivity]. cbn [rbind fate_of].
  destruct (parse_element (hd_error (tl (tl (tl ws)))) 1 12) as [[S4|]|]; [|reflexivity|reflexivity]. cbn [rbind fate_of].
  destruct (parse_element (hd_error (tl (tl (tl (tl ws))))) 0 6) as [[S5|]|]; [|reflexivity|reflexivity]. cbn [rbind fate_of].
  destruct (tl (tl (tl (tl (tl ws))))); reflexivity.
Qed.
Inductive scanned : list (Z * Z) -> list string -> fate -> Prop :=
| sc_field good f rest before r after x : Forall2 is_valid before good -> field_fault (fst r) (snd r) f x ->
    scanned (before ++ r :: after)%list (good ++ f :: rest)%list x
| sc_few good before r after : Forall2 is_valid before good -> scanned (before ++ r :: after)%list good (Refused "Incomplete timer spec")
| sc_many rs good f rest : Forall2 is_valid rs good -> scanned rs (good ++ f :: rest)%list (Refused "Too many timer specs").
Definition usable (r : Z * Z) : Prop := 0 <= fst r /\ fst r <= snd r /\ snd r <= U32_MAX.
Lemma scanned_cons r rs w ws f : is_valid r w -> scanned rs ws f -> scanned (r :: rs) (w :: ws) f.
Proof.
  intros V [good x rest before r' after y A F|good before r' after A|rs' good x rest A].
  - apply (sc_field (w :: good) x rest (r :: before) r' after); [constructor; assumption|exact F].
  - apply (sc_few (w :: good) (r :: before) r' after). constructor; assumption.
  - apply (sc_many (r :: rs') (w :: good) x rest). constructor; assumption.
Qed.
Lemma scan_iff rs : Forall usable rs -> forall ws f, (forall w, In w ws -> w <> "") -> scan rs ws = Some f <-> scanned rs ws f.
Proof.
  induction 1 as [|r rs U Us IH]; intros ws f NE; cbn [scan].
  - split.
    + destruct ws as [|w ws]; [discriminate|]. intros [= <-]. apply (sc_many [] [] w ws). constructor.
    + intros S. inversion S as [good x rest before r after y A F E|good before r after A E|rs' good x rest A].
      * destruct before; discriminate E.
      * destruct before; discriminate E.
      * inversion A; subst. reflexivity.
  - destruct U as (Z & MM & MX). destruct ws as [|w ws]; cbn [hd_error tl].
    + unfold parse_element. destruct (Z.ltb_spec (snd r) (fst r)); [lia|]. cbn. split.
      * intros [= <-]. apply (sc_few [] [] r rs). constructor.
      * intros S. inversion S as [good x rest before r' after y A F E E'|good before r' after A E|rs' good x rest A E E']; subst; [destruct good; discriminate E'|reflexivity|destruct good; discriminate E'].
    + assert (NW : w <> "") by (apply NE; now left). assert (NWS : forall x, In x ws -> x <> "") by (intros x Hx; apply NE; now right).
      destruct (fate_of (parse_element (Some w) (fst r) (snd r))) as [g|] eqn:E.
      * assert (NV : ~ is_valid r w) by (intros V; apply valid_iff in V; [congruence|assumption..]).
        apply field_fault_iff in E; [|assumption..]. split.
        -- intros [= <-]. apply (sc_field [] w ws [] r rs); [constructor|exact E].
        -- intros S. inversion S as [good x rest before r' after y A F E1 E2|good before r' after A E1|rs' good x rest A E1 E2]; subst.
           ++ destruct before as [|b before]; inversion A; subst; cbn in E1, E2.
              ** injection E1 as -> ->. injection E2 as -> ->. apply field_fault_iff in E; [|assumption..]. apply field_fault_iff in F; [|assumption..]. congruence.
              ** injection E1 as -> E1. injection E2 as -> E2. contradiction.
           ++ destruct before as [|b before]; inversion A; subst. cbn in E1. injection E1 as -> E1. contradiction.
           ++ inversion A; subst. cbn in E2. injection E2 as -> E2. contradiction.
      * assert (V : is_valid r w) by (apply valid_iff; assumption).
        assert (NF : forall x, ~ field_fault (fst r) (snd r) w x) by (intros x F; apply field_fault_iff in F; [congruence|assumption..]).
        rewrite (IH ws f NWS). split; [apply scanned_cons; exact V|].
        intros S. inversion S as [good x rest before r' after y A F E1 E2|good before r' after A E1|rs' good x rest A E1 E2]; subst.
        -- destruct before as [|b before]; inversion A; subst; cbn in E1, E2.
           ++ injection E1 as Ea Eb. injection E2 as Ec Ed. subst; destruct (NF _ F).
           ++ injection E1 as Ea Eb. injection E2 as Ec Ed. subst. apply sc_field; assumption.
        -- destruct before as [|b before]; inversion A; subst. cbn in E1. injection E1 as Ea Eb. subst. apply sc_few; assumption.
        -- inversion A; subst. cbn in E2. injection E2 as Ec Ed. subst. apply sc_many; assumption.
Qed.
Lemma spaced_words s l : spaced s l -> forall w, In w l -> w <> "".
Proof. induction 1; intros x; [intros []|intros [<-|[]]; assumption|intros [<-|Hx]; auto]. Qed.
Lemma timer_fault_iff s f : timer_fault s f <-> fate_of (parse_timer s) = Some f.
Proof.
  assert (U : Forall usable ranges) by (repeat (apply Forall_cons; [unfold usable, U32_MAX; cbn; lia|]); apply Forall_nil).
  rewrite scan_timer, (scan_iff ranges U) by (eapply spaced_words; apply spaced_split). split.
  - intros [good x rest before r after y S E A F|good before r after S E A|good x rest S A]; rewrite (split_whitespace_spaced _ _ S).
    + rewrite E. apply sc_field; assumption.
    + rewrite E. apply (sc_few good before r after); assumption.
    + apply sc_many; assumption.
  - intros H. pose proof (spaced_split s) as S. remember ranges as rs eqn:R. inversion H as [good x rest before r after y A F E1 E2|good before r after A E1|rs' good x rest A E1 E2]; subst f.
    + rewrite <- E2 in S. eapply tf_field; [exact S|rewrite <- R; symmetry; exact E1|exact A|exact F].
    + subst. eapply tf_few; [exact S|first [eassumption|symmetry; eassumption]|exact A].
    + subst. rewrite <- E2 in S. eapply tf_many; [exact S|exact A].
Qed.
Theorem timer_refused s why : parse_timer s = Ret (Err why) <-> timer_fault s (Refused why).
Proof.
  rewrite timer_fault_iff. destruct (parse_timer s) as [[d|e]|m]; cbn; split; congruence.
Qed.
Theorem timer_crashes s : (exists m, parse_timer s = Panic m) <-> timer_fault s Crashes.
Proof.
  rewrite timer_fault_iff. destruct (parse_timer s) as [[d|e]|m]; cbn; split; try congruence; try (intros (m' & K); congruence). intros _. eauto.
Qed.
