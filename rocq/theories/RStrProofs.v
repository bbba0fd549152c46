(** Lemmas about the string functions of RStr. *)
From Coq Require Import String Ascii ZArith List Bool Lia.
From Verif Require Import Base RStr SpecStr.
Import ListNotations.
Local Open Scope string_scope.

Lemma append_nil_r s : s ++ "" = s.
Proof. induction s as [|a s IH]; cbn; [reflexivity|now rewrite IH]. Qed.

Lemma append_assoc a b c : (a ++ b) ++ c = a ++ b ++ c.
Proof. induction a as [|x a IH]; cbn; [reflexivity|now rewrite IH]. Qed.

Lemma chars_app a b : chars (a ++ b) = (chars a ++ chars b)%list.
Proof. induction a as [|x a IH]; cbn; [reflexivity|now rewrite IH]. Qed.

Lemma free_of_app c a b : free_of c (a ++ b) <-> free_of c a /\ free_of c b.
Proof. unfold free_of. rewrite chars_app, in_app_iff. tauto. Qed.

Lemma free_of_cons c a s : free_of c (String a s) <-> c <> a /\ free_of c s.
Proof. unfold free_of; cbn. split; [intuition congruence|intuition congruence]. Qed.

Lemma free_of_nil c : free_of c "".
Proof. intros []. Qed.

(** ** split *)
Lemma split_by_nonnil p s : split_by p s <> [].
Proof.
  destruct s as [|a s]; cbn; [discriminate|].
  destruct (p a); [discriminate|]. destruct (split_by p s); discriminate.
Qed.

Lemma split_by_none p s :
  (forall a, In a (chars s) -> p a = false) -> split_by p s = [s].
Proof.
  induction s as [|a s IH]; intros H; cbn; [reflexivity|].
  rewrite (H a) by now left. rewrite IH by (intros; apply H; now right). reflexivity.
Qed.

Lemma split_by_app p a c b :
  (forall x, In x (chars a) -> p x = false) -> p c = true ->
  split_by p (a ++ String c b) = a :: split_by p b.
Proof.
  intros Ha Hc. induction a as [|x a IH]; cbn.
  - rewrite Hc. reflexivity.
  - rewrite (Ha x) by now left. rewrite IH by (intros; apply Ha; now right). reflexivity.
Qed.

Lemma split_on_none c s : free_of c s -> split_on c s = [s].
Proof.
  intros H. apply split_by_none. intros a Ha. apply Ascii.eqb_neq. intros ->. now apply H.
Qed.

Lemma split_on_app c a b : free_of c a -> split_on c (a ++ String c b) = a :: split_on c b.
Proof.
  intros H. apply split_by_app; [|apply Ascii.eqb_refl].
  intros x Hx. apply Ascii.eqb_neq. intros ->. now apply H.
Qed.

Lemma split_on_free c s p : In p (split_on c s) -> free_of c p.
Proof.
  unfold split_on. revert p. induction s as [|a s IH]; intros p; cbn.
  - intros [<-|[]]. apply free_of_nil.
  - destruct (Ascii.eqb_spec c a) as [->|Hne].
    + intros [<-|H]; [apply free_of_nil|now apply IH].
    + destruct (split_by _ s) as [|h t] eqn:E; cbn.
      * now apply split_by_nonnil in E.
      * intros [<-|H]; [|apply IH; now right].
        apply free_of_cons. split; [assumption|]. apply IH. now left.
Qed.

Lemma join_cons sep x l : l <> [] -> join sep (x :: l) = x ++ sep ++ join sep l.
Proof. destruct l; [congruence|reflexivity]. Qed.

Lemma join_split_on c s : join (String c "") (split_on c s) = s.
Proof.
  unfold split_on. induction s as [|a s IH]; cbn [split_by]; [reflexivity|].
  destruct (Ascii.eqb_spec c a) as [->|Hne].
  - rewrite join_cons by apply split_by_nonnil. rewrite IH. reflexivity.
  - destruct (split_by (Ascii.eqb c) s) as [|h t] eqn:E; [now apply split_by_nonnil in E|].
    rewrite <- IH. destruct t; reflexivity.
Qed.

Lemma split_on_join c l :
  l <> [] -> (forall p, In p l -> free_of c p) ->
  split_on c (join (String c "") l) = l.
Proof.
  induction l as [|x l IH]; intros Hne Hf; [congruence|].
  destruct l as [|y l].
  - cbn [join]. apply split_on_none. apply Hf. now left.
  - rewrite join_cons by discriminate. cbn [append].
    rewrite split_on_app by (apply Hf; now left).
    f_equal. apply IH; [discriminate|]. intros p Hp. apply Hf. now right.
Qed.

(** ** Numbers *)
Lemma digit_val_spec a : digit_val a = digit_of a.
Proof. destruct a as [b0 b1 b2 b3 b4 b5 b6 b7]; destruct b0, b1, b2, b3, b4, b5, b6, b7; reflexivity. Qed.

Lemma digit_of_range a d : digit_of a = Some d -> (0 <= d <= 9)%Z.
Proof.
  rewrite <- digit_val_spec. unfold digit_val.
  destruct ((48 <=? byte a) && (byte a <=? 57))%Z eqn:E; [|discriminate].
  intros [= <-]. apply andb_true_iff in E as [E1 E2]. lia.
Qed.

Lemma digits_spec s acc :
  digits s acc =
  (if forallb (fun a => is_some (digit_of a)) (chars s)
   then Some (acc * 10 ^ Z.of_nat (String.length s) + value s)%Z else None).
Proof.
  revert acc. induction s as [|a s IH]; intros acc; cbn [digits chars forallb value String.length].
  - rewrite Z.pow_0_r. f_equal. lia.
  - rewrite digit_val_spec. destruct (digit_of a) as [d|] eqn:E; cbn [is_some andb]; [|reflexivity].
    rewrite IH. destruct (forallb _ (chars s)); [|reflexivity].
    f_equal. rewrite Nat2Z.inj_succ, Z.pow_succ_r by lia. ring.
Qed.

Lemma value_nonneg s : (0 <= value s)%Z.
Proof.
  induction s as [|a s IH]; cbn [value]; [lia|].
  destruct (digit_of a) as [d|] eqn:E; [|lia].
  apply digit_of_range in E. pose proof (Z.pow_nonneg 10 (Z.of_nat (String.length s)) ltac:(lia)). nia.
Qed.

Lemma all_digits_bool s :
  forallb (fun a => is_some (digit_of a)) (chars s) = true <->
  forall a, In a (chars s) -> digit_of a <> None.
Proof.
  rewrite forallb_forall. split; intros H a Ha; specialize (H a Ha); destruct (digit_of a); cbn in *; congruence.
Qed.

Lemma digits_numeral s n : digits s 0 = Some n <-> (forall a, In a (chars s) -> digit_of a <> None) /\ n = value s.
Proof.
  rewrite digits_spec. destruct (forallb _ _) eqn:E.
  - rewrite all_digits_bool in E. rewrite Z.mul_0_l, Z.add_0_l.
    split; [intros [= <-]; auto|intros [_ ->]; reflexivity].
  - split; [discriminate|]. intros [H _]. apply all_digits_bool in H. congruence.
Qed.

Lemma nonempty_spec s : nonempty s = true <-> s <> "".
Proof. destruct s; cbn; split; congruence. Qed.

Lemma numeral_no_plus s r : s = String "+" r -> ~ numeral s.
Proof. intros -> [_ H]. apply (H "+"%char); [now left|reflexivity]. Qed.

(** parse::<u32>: optional plus sign, numeral, at most u32::MAX. *)
Lemma parse_u32_spec s n :
  parse_u32 s = Some n <->
  exists (plus : bool) d, s = (if plus then "+" ++ d else d) /\ numeral d /\ n = value d /\ (n <= U32_MAX)%Z.
Proof.
  assert (Hbody : forall b, (if nonempty b then
             match digits b 0 with
             | Some n => if (n <=? U32_MAX)%Z then Some n else None
             | None => None
             end else None) = Some n <-> numeral b /\ n = value b /\ (n <= U32_MAX)%Z).
  { intros b. destruct (nonempty b) eqn:Eb.
    - apply nonempty_spec in Eb. destruct (digits b 0) as [m|] eqn:Ed.
      + apply digits_numeral in Ed as [Hd ->].
        destruct (Z.leb_spec (value b) U32_MAX) as [Hle|Hgt].
        * split; [intros [= <-]; repeat split; auto|intros (_ & -> & _); reflexivity].
        * split; [discriminate|]. intros (_ & -> & ?). lia.
      + split; [discriminate|]. intros ([_ Hd] & _).
        assert (digits b 0 = Some (value b)) by (apply digits_numeral; auto). congruence.
    - split; [discriminate|]. intros ([Hne _] & _). apply nonempty_spec in Hne. congruence. }
  unfold parse_u32.
  assert (Hcase : (exists r, s = String "+" r) \/ (forall r, s <> String "+" r)).
  { destruct s as [|a r]; [right; discriminate|].
    destruct (Ascii.eqb_spec a "+") as [->|Hne]; [left; eauto|right; congruence]. }
  destruct Hcase as [[r ->]|Hnp].
  - rewrite Hbody. split.
    + intros H. exists true, r. cbn. tauto.
    + intros ([|] & d & Hs & Hd & Hrest); cbn in Hs.
      * injection Hs as <-. tauto.
      * exfalso. eapply numeral_no_plus; [symmetry; exact Hs|exact Hd].
  - replace (match s with String "+" r => r | _ => s end) with s.
    2:{ destruct s as [|a r]; [reflexivity|]. specialize (Hnp r).
        destruct a as [b0 b1 b2 b3 b4 b5 b6 b7].
        destruct b0, b1, b2, b3, b4, b5, b6, b7; try reflexivity. now contradiction Hnp. }
    rewrite Hbody. split.
    + intros H. exists false, s. tauto.
    + intros ([|] & d & Hs & Hd & Hrest); cbn in Hs.
      * now apply Hnp in Hs.
      * subst d. tauto.
Qed.
