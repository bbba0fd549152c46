(** Lemmas about reading a configuration from a YAML document. *)
From Coq Require Import String Ascii ZArith List Bool Permutation Lia.
From Verif Require Import Base RStr ConfigModel YamlModel SpecStr SpecYaml.
Import ListNotations.
Local Open Scope string_scope.
Local Open Scope list_scope.

(** A conversion and what it means. *)
Definition means {A} (d : yaml -> option A) (R : yaml -> A -> Prop) : Prop := forall y x, d y = Some x <-> R y x.

Lemma string_means : means decode_string text.
Proof.
  intros y x. unfold text. destruct y; simpl; split; intros H; try discriminate; try (destruct H as (st' & H); discriminate).
  - inversion H. eauto.
  - destruct H as (st' & H). inversion H. reflexivity.
Qed.

Lemma is_null_spec y : is_null y = true <-> null y.
Proof.
  unfold is_null, null, null_text. destruct y as [[] t|l|l]; split; intros H; try discriminate;
    try (destruct H as (t' & H & _); discriminate).
  - exists t. split; [reflexivity|]. rewrite !orb_true_iff, !String.eqb_eq in H. simpl. intuition.
  - destruct H as (t' & H & I). inversion H; subst. rewrite !orb_true_iff, !String.eqb_eq. simpl in I. intuition.
Qed.
Lemma option_means {A} (d : yaml -> option A) R : means d R -> means (decode_option d) (optional R).
Proof.
  intros M y o. unfold decode_option, optional. destruct (is_null y) eqn:E.
  - apply is_null_spec in E. split; [intros H; inversion H; auto|]. intros [(_ & ->)|(N & _)]; [reflexivity|contradiction].
  - assert (N : ~ null y) by (intros H; apply is_null_spec in H; congruence).
    split.
    + destruct (d y) eqn:D; intros H; inversion H; subst. right. split; [auto|]. exists a. split; [apply M; auto|reflexivity].
    + intros [(H & _)|(_ & x & H & ->)]; [contradiction|]. apply M in H. rewrite H. reflexivity.
Qed.

Lemma bool_means : means decode_bool flag.
Proof.
  intros y b. unfold decode_bool, flag. destruct y as [[] t|l|l].
  - destruct (String.eqb t "true" || String.eqb t "True" || String.eqb t "TRUE") eqn:E1.
    + rewrite !orb_true_iff, !String.eqb_eq in E1. split.
      * intros H. inversion H; subst. exists t. split; [reflexivity|]. simpl. intuition.
      * intros (t' & H & I). inversion H; subst. destruct b; [reflexivity|]. simpl in I.
        exfalso. decompose [or] E1; decompose [or] I; subst; discriminate || contradiction.
    + rewrite !orb_false_iff, !String.eqb_neq in E1. destruct (String.eqb t "false" || String.eqb t "False" || String.eqb t "FALSE") eqn:E2.
      * rewrite !orb_true_iff, !String.eqb_eq in E2. split.
        -- intros H. inversion H; subst. exists t. split; [reflexivity|]. simpl. intuition.
        -- intros (t' & H & I). inversion H; subst. destruct b; [|reflexivity]. simpl in I. exfalso. intuition.
      * rewrite !orb_false_iff, !String.eqb_neq in E2. split; [discriminate|].
        intros (t' & H & I). inversion H; subst. exfalso. destruct b; simpl in I; intuition.
  - split; [discriminate|]. intros (t' & H & _). discriminate.
  - split; [discriminate|]. intros (t' & H & _). discriminate.
  - split; [discriminate|]. intros (t' & H & _). discriminate.
Qed.

(** * Numbers *)
Lemma digit_value_ok a : digit_value a = digit16 a.
Proof. destruct a as [[] [] [] [] [] [] [] []]; vm_compute; reflexivity. Qed.
Lemma digit16_range a d : digit16 a = Some d -> (0 <= d < 16)%Z.
Proof. destruct a as [[] [] [] [] [] [] [] []]; vm_compute; intros H; inversion H; split; congruence. Qed.
Lemma based_inv b a r m : based b (String a r) m -> exists d n, digit16 a = Some d /\ (d < b)%Z /\ based b r n /\ m = (d * b ^ Z.of_nat (String.length r) + n)%Z.
Proof. intros B. inversion B; subst. eauto 8. Qed.
Lemma radix_digits_spec b s : forall acc n, radix_digits b s acc = Some n <-> exists m, based b s m /\ n = (acc * b ^ Z.of_nat (String.length s) + m)%Z.
Proof.
  induction s as [|a r IH]; intros acc n.
  - simpl. split.
    + intros H. inversion H; subst. exists 0%Z. split; [constructor|lia].
    + intros (m & H & ->). inversion H; subst. f_equal. lia.
  - cbn [radix_digits]. rewrite digit_value_ok. destruct (digit16 a) as [d|] eqn:D.
    + destruct (Z.ltb_spec d b).
      * rewrite IH. split.
        -- intros (m & B & ->). exists (d * b ^ Z.of_nat (String.length r) + m)%Z. split; [constructor; auto|].
           cbn [String.length]. rewrite Nat2Z.inj_succ, Z.pow_succ_r by lia. ring.
        -- intros (m & B & ->). apply based_inv in B. destruct B as (d0 & n0 & D0 & _ & B & ->). assert (d0 = d) by congruence. subst. exists n0. split; [auto|].
           cbn [String.length]. rewrite Nat2Z.inj_succ, Z.pow_succ_r by lia. ring.
      * split; [discriminate|]. intros (m & B & _). apply based_inv in B. destruct B as (d0 & n0 & D0 & L & _). assert (d0 = d) by congruence. subst. lia.
    + split; [discriminate|]. intros (m & B & _). apply based_inv in B. destruct B as (d0 & n0 & D0 & _). congruence.
Qed.
Lemma from_radix_spec b s n : from_radix b s = Some n <-> s <> "" /\ based b s n /\ (n <= U64_MAX)%Z.
Proof.
  unfold from_radix. destruct (String.eqb_spec s "") as [->|Hs].
  - split; [discriminate|]. intros (H & _). congruence.
  - destruct (radix_digits b s 0) as [m|] eqn:E.
    + assert (B := proj1 (radix_digits_spec b s 0 m) E). destruct B as (m' & B & Em).
      replace (0 * b ^ Z.of_nat (String.length s) + m')%Z with m' in Em by ring. subst m'.
      destruct (Z.leb_spec m U64_MAX); split.
      * intros H1. inversion H1; subst. auto.
      * intros (_ & B' & _). assert (K : radix_digits b s 0 = Some n) by (apply radix_digits_spec; exists n; split; [auto|ring]). congruence.
      * discriminate.
      * intros (_ & B' & L). assert (K : radix_digits b s 0 = Some n) by (apply radix_digits_spec; exists n; split; [auto|ring]).
        assert (m = n) by congruence. lia.
    + split; [discriminate|]. intros (_ & B & _).
      assert (K : radix_digits b s 0 = Some n) by (apply radix_digits_spec; exists n; split; [auto|ring]). congruence.
Qed.
Lemma based_unsigned b s n : s <> "" -> based b s n -> signed s = false.
Proof.
  intros Hs B. destruct B as [|a r d n D _ _]; [congruence|]. simpl.
  destruct (Ascii.eqb_spec a "+"); [subst; discriminate|]. destruct (Ascii.eqb_spec a "-"); [subst; discriminate|]. reflexivity.
Qed.
Lemma based_all_digits s n : based 10 s n -> all_digits s = true.
Proof.
  induction 1 as [|a r d n D L B IH]; [reflexivity|]. cbn [all_digits]. rewrite IH, andb_true_r.
  revert D L. destruct a as [[] [] [] [] [] [] [] []]; vm_compute; intros D L; try reflexivity; inversion D; subst; discriminate.
Qed.

Definition unplus (s : string) : string := match s with String a r => if Ascii.eqb a "+" then r else s | _ => s end.
Lemma unplus_cases t : (t = unplus t /\ (forall r, t <> String "+" r)) \/ t = String "+" (unplus t).
Proof.
  destruct t as [|a r]; simpl; [left; split; [reflexivity|discriminate]|].
  destruct (Ascii.eqb_spec a "+"); [subst; auto|]. left. split; [reflexivity|congruence].
Qed.
(** The decimal part. *)
Definition decimal_of (s u : string) : option Z := if signed u then None else if octal_like s then None else from_radix 10 u.
Lemma octal_like_unplus t : signed (unplus t) = false -> octal_like t = octal_like (unplus t).
Proof.
  destruct (unplus_cases t) as [(E & _)|E]; [rewrite <- E; auto|]. rewrite E at 2. intros S. unfold octal_like. simpl.
  unfold strip_sign. destruct (unplus t) as [|a r]; [reflexivity|]. simpl in S. rewrite S. reflexivity.
Qed.
Lemma decimal_spec t n : decimal_of t (unplus t) = Some n <->
  (unplus t <> "" /\ based 10 (unplus t) n /\ (unplus t = "0" \/ forall r, unplus t <> String "0" r)) /\ (n <= U64_MAX)%Z.
Proof.
  unfold decimal_of. destruct (signed (unplus t)) eqn:S.
  - split; [discriminate|]. intros ((H1 & H2 & _) & _). apply based_unsigned in H2; [congruence|auto].
  - rewrite octal_like_unplus by auto. remember (unplus t) as u.
    assert (E : octal_like u = true -> from_radix 10 u <> None -> u <> "0" /\ exists r, u = String "0" r).
    { unfold octal_like, strip_sign. destruct u as [|a [|b r]]; simpl in *.
      - discriminate.
      - rewrite S. discriminate.
      - rewrite S. destruct (Ascii.eqb_spec a "0"); simpl; [|discriminate]. subst. intros _ _. split; [discriminate|eauto]. }
    destruct (octal_like u) eqn:O.
    + split; [discriminate|]. intros ((H1 & H2 & H3) & L).
      destruct E as (N & r & ->); [auto|intros K; assert (X : from_radix 10 u = Some n) by (apply from_radix_spec; auto); congruence|].
      exfalso. destruct H3 as [H3|H3]; [auto|]. eapply H3; reflexivity.
    + rewrite from_radix_spec. split.
      * intros (H1 & H2 & L). split; [|auto]. split; [auto|]. split; [auto|].
        destruct u as [|a r]; [congruence|]. destruct (Ascii.eqb_spec a "0").
        -- subst a. left. destruct r as [|b r]; [reflexivity|]. exfalso. unfold octal_like, strip_sign in O. simpl in S. simpl in O.
           change (all_digits (String b r) = false) in O. apply based_inv in H2. destruct H2 as (d0 & n0 & _ & _ & H2 & _). apply based_all_digits in H2. congruence.
        -- right. congruence.
      * intuition.
Qed.

Lemma parse_unsigned_spec t n : parse_unsigned t = Some n <-> number_text t n /\ (n <= U64_MAX)%Z.
Proof.
  unfold parse_unsigned. fold (unplus t). cbv zeta. fold (decimal_of t (unplus t)).
  assert (Hd : (exists d, (t = d \/ t = String "+" d) /\ (d <> "" /\ based 10 d n /\ (d = "0" \/ forall r, d <> String "0" r))) <->
               (unplus t <> "" /\ based 10 (unplus t) n /\ (unplus t = "0" \/ forall r, unplus t <> String "0" r))).
  { split.
    - intros (d & [<-|E] & H).
      + destruct (unplus_cases t) as [(E & _)|E]; [rewrite <- E; exact H|]. exfalso.
        destruct H as (_ & B & _). rewrite E in B. apply based_inv in B. destruct B as (d0 & n0 & D0 & _). discriminate.
      + subst t. exact H.
    - intros H. exists (unplus t). split; [|exact H]. destruct (unplus_cases t) as [(E & _)|E]; auto. }
  assert (Hp : (exists d, (t = d \/ t = String "+" d) /\ exists p b r, In (p, b) [("x"%char, 16%Z); ("o"%char, 8%Z); ("b"%char, 2%Z)] /\ d = String "0" (String p r) /\ r <> "" /\ based b r n) <->
               (exists p b r, In (p, b) [("x"%char, 16%Z); ("o"%char, 8%Z); ("b"%char, 2%Z)] /\ unplus t = String "0" (String p r) /\ r <> "" /\ based b r n)).
  { split.
    - intros (d & [<-|E] & p & b & r & H1 & H2 & H3); exists p, b, r; subst t; auto.
    - intros (p & b & r & H1 & H2 & H3). exists (unplus t). split; [destruct (unplus_cases t) as [(E & _)|E]; auto|]. exists p, b, r. auto. }
  assert (HN : number_text t n <-> (unplus t <> "" /\ based 10 (unplus t) n /\ (unplus t = "0" \/ forall r, unplus t <> String "0" r)) \/
    (exists p b r, In (p, b) [("x"%char, 16%Z); ("o"%char, 8%Z); ("b"%char, 2%Z)] /\ unplus t = String "0" (String p r) /\ r <> "" /\ based b r n)).
  { rewrite <- Hd, <- Hp. unfold number_text. clear. split.
    - intros (d & E & [H|H]); [left|right]; eauto.
    - intros [(d & E & H)|(d & E & H)]; eauto. }
  rewrite HN. clear Hd Hp HN.
  set (pre := match unplus t with EmptyString => None | _ => _ end).
  assert (P : match pre with
     | Some (b, r) => exists p, In (p, b) [("x"%char, 16%Z); ("o"%char, 8%Z); ("b"%char, 2%Z)] /\ unplus t = String "0" (String p r)
     | None => forall p b r, In (p, b) [("x"%char, 16%Z); ("o"%char, 8%Z); ("b"%char, 2%Z)] -> unplus t <> String "0" (String p r)
     end).
  { unfold pre. destruct (unplus t) as [|a [|b r]]; [discriminate|discriminate|].
    destruct (Ascii.eqb_spec a "0") as [->|Ha]; [|congruence].
    destruct (Ascii.eqb_spec b "x") as [->|Hx]; [exists "x"%char; simpl; auto|].
    destruct (Ascii.eqb_spec b "o") as [->|Ho]; [exists "o"%char; simpl; auto|].
    destruct (Ascii.eqb_spec b "b") as [->|Hb]; [exists "b"%char; simpl; auto|].
    intros p b' r' I E. inversion E; subst. simpl in I. decompose [or] I; try contradiction; congruence. }
  destruct pre as [[b r]|]; cbv beta iota.
  - destruct P as (p & I & E).
    assert (ND : forall m, ~ (unplus t <> "" /\ based 10 (unplus t) m /\ (unplus t = "0" \/ forall r, unplus t <> String "0" r))).
    { intros m (_ & _ & [H|H]); rewrite E in H; [discriminate|]. eapply H; reflexivity. }
    assert (ND' : decimal_of t (unplus t) = None).
    { destruct (decimal_of t (unplus t)) eqn:D; [|reflexivity]. apply decimal_spec in D. destruct D as (D & _). apply ND in D. contradiction. }
    rewrite ND'.
    assert (Q : (if signed r then None else match from_radix b r with Some m => Some m | None => None end) = Some n <-> r <> "" /\ based b r n /\ (n <= U64_MAX)%Z).
    { rewrite <- from_radix_spec. destruct (signed r) eqn:S.
      - split; [discriminate|]. intros H. apply from_radix_spec in H. destruct H as (H1 & H2 & _). apply based_unsigned in H2; [congruence|auto].
      - destruct (from_radix b r); reflexivity. }
    rewrite Q. split.
    + intros (H1 & H2 & H3). split; [right; exists p, b, r; auto|auto].
    + intros ([H|(p' & b' & r' & I' & E' & H1 & H2)] & L); [apply ND in H; contradiction|].
      rewrite E in E'. inversion E'; subst. assert (b' = b).
      { simpl in I, I'. decompose [or] I; decompose [or] I'; try contradiction; congruence. }
      subst. auto.
  - rewrite decimal_spec. split; [intros (H & L); auto|]. intros ([H|(p & b & r & I & E & _)] & L); [auto|]. exfalso. exact (P p b r I E).
Qed.
Lemma u32_means : means decode_u32 number.
Proof.
  intros y n. unfold decode_u32, number. destruct y as [[] t|l|l]; try (split; [discriminate|intros (t' & H & _); discriminate]).
  assert (U : (U32_MAX <= U64_MAX)%Z) by (vm_compute; discriminate).
  destruct (parse_unsigned t) as [m|] eqn:E.
  - apply parse_unsigned_spec in E as E'. destruct E' as (N & _). destruct (Z.leb_spec m U32_MAX).
    + split.
      * intros K. inversion K; subst. exists t. split; [reflexivity|]. split; [auto|exact H].
      * intros (t' & T & N' & L). inversion T; subst t'. assert (K : parse_unsigned t = Some n).
        { apply parse_unsigned_spec. split; [auto|]. change 4294967295%Z with U32_MAX in L. lia. } congruence.
    + split; [discriminate|]. intros (t' & T & N' & L). inversion T; subst t'. change 4294967295%Z with U32_MAX in L.
      assert (K : parse_unsigned t = Some n) by (apply parse_unsigned_spec; split; [auto|lia]).
      assert (m = n) by congruence. lia.
  - split; [discriminate|]. intros (t' & T & N' & L). inversion T; subst t'. change 4294967295%Z with U32_MAX in L.
    assert (K : parse_unsigned t = Some n) by (apply parse_unsigned_spec; split; [auto|lia]). congruence.
Qed.

(** * Lists *)
Lemma traverse_spec {A B} (f : A -> option B) l ys : traverse f l = Some ys <-> Forall2 (fun x y => f x = Some y) l ys.
Proof.
  revert ys. induction l as [|x r IH]; intros ys; simpl.
  - split; [intros H; inversion H; constructor|]. intros H. inversion H. reflexivity.
  - destruct (f x) as [y|] eqn:E.
    + destruct (traverse f r) as [zs|] eqn:T.
      * split.
        -- intros H. inversion H; subst. constructor; [auto|]. apply IH. reflexivity.
        -- intros H. inversion H as [|? y' ? l' Hy Hl]; subst. apply IH in Hl. congruence.
      * split; [discriminate|]. intros H. inversion H as [|? y' ? l' Hy Hl]; subst. apply IH in Hl. congruence.
    + split; [discriminate|]. intros H. inversion H; subst. congruence.
Qed.
Lemma missing_spec lib y : missing lib y = true <-> nothing lib y.
Proof.
  unfold missing, nothing. destruct y as [[] t|l|l]; try (split; [discriminate|intros (_ & H); discriminate]).
  rewrite andb_true_iff, String.eqb_eq. split; intros (H1 & H2); split; congruence.
Qed.
Lemma Forall2_iff {A B} (P Q : A -> B -> Prop) l m : (forall x y, P x y <-> Q x y) -> Forall2 P l m <-> Forall2 Q l m.
Proof. intros H. split; induction 1; constructor; auto; apply H; auto. Qed.
Lemma seq_means {A} lib (d : yaml -> option A) R : means d R -> means (decode_seq lib d) (list_of lib R).
Proof.
  intros M y l. unfold list_of. destruct y as [st t|ys|ys].
  - change (decode_seq lib d (YScalar st t)) with (if missing lib (YScalar st t) then Some (@nil A) else None). destruct (missing lib (YScalar st t)) eqn:E.
    + apply missing_spec in E. split; [intros K; inversion K; subst; auto|]. intros [(ys & K & _)|(_ & K)]; [discriminate|congruence].
    + split; [discriminate|]. intros [(ys & H & _)|(H & _)]; [discriminate|]. apply missing_spec in H. congruence.
  - simpl decode_seq. rewrite traverse_spec. rewrite (Forall2_iff _ R) by (intros; apply M). split; [eauto|].
    intros [(zs & H & F)|((_ & H) & _)]; [inversion H; subst; auto|discriminate].
  - simpl. split; [discriminate|]. intros [(zs & H & _)|((_ & H) & _)]; discriminate.
Qed.

(** * Fields *)
Lemma entry_cons st k0 v0 l k v : entry ((YScalar st k0, v0) :: l) k v <-> (k0 = k /\ v0 = v) \/ entry l k v.
Proof.
  unfold entry. split.
  - intros (s & [H|H]); [inversion H; auto|eauto].
  - intros [(-> & ->)|(s & H)]; [exists st; left; reflexivity|exists s; right; auto].
Qed.
Lemma is_known_spec names k : is_known names k = true <-> In k names.
Proof.
  unfold is_known. rewrite existsb_exists. split.
  - intros (x & I & E). apply String.eqb_eq in E. subst. auto.
  - intros I. exists k. rewrite String.eqb_refl. auto.
Qed.
Lemma seen_spec k (seen : list (string * yaml)) : existsb (fun e => String.eqb k (fst e)) seen = true <-> find_key k seen <> None.
Proof.
  induction seen as [|[k' v] r IH]; simpl; [intuition; discriminate|].
  destruct (String.eqb_spec k k'); simpl; [split; [discriminate|reflexivity]|]. exact IH.
Qed.
Lemma once_nil k : once [] k.
Proof. intros l1 a v l2 b w l3 E. destruct l1; discriminate. Qed.
Lemma once_cons st k0 v0 l k : once ((YScalar st k0, v0) :: l) k <-> once l k /\ (k0 = k -> forall w, ~ entry l k w).
Proof.
  split.
  - intros O. split.
    + intros l1 a v l2 b w l3 -> Ta Tb. exact (O ((YScalar st k0, v0) :: l1) a v l2 b w l3 eq_refl Ta Tb).
    + intros -> w (s & I). apply in_split in I. destruct I as (l2 & l3 & ->).
      apply (O [] (YScalar st k) v0 l2 (YScalar s k) w l3 eq_refl); unfold text; eauto.
  - intros (O & N) l1 a v l2 b w l3 E Ta Tb. destruct l1 as [|e l1]; simpl in E; inversion E; subst.
    + destruct Ta as (s & Ta). inversion Ta; subst. destruct Tb as (s' & ->). apply (N eq_refl w). exists s'. apply in_or_app. right. left. reflexivity.
    + exact (O l1 a v l2 b w l3 eq_refl Ta Tb).
Qed.
Lemma scalar_keys_cons k0 v0 l : scalar_keys ((k0, v0) :: l) <-> (exists t, text k0 t) /\ scalar_keys l.
Proof.
  unfold scalar_keys. split.
  - intros H. split; [apply (H k0 v0); left; reflexivity|]. intros k v I. apply (H k v). right. auto.
  - intros (H1 & H2) k v [I|I]; [inversion I; subst; auto|eauto].
Qed.

Lemma gather_ok names l : forall seen,
  (exists f, gather names l seen = Some f) <->
  scalar_keys l /\ forall k, In k names -> once l k /\ (find_key k seen <> None -> forall v, ~ entry l k v).
Proof.
  induction l as [|[k0 v0] r IH]; intros seen.
  - simpl. split; [|eauto]. intros _. split; [intros k v []|]. intros k _. split; [apply once_nil|]. intros _ v (s & []).
  - rewrite scalar_keys_cons. destruct k0 as [st k0|ys|ys]; simpl gather.
    2,3: (split; [intros (f & H); discriminate|intros (((t & s & H) & _) & _); discriminate]).
    destruct (is_known names k0) eqn:K.
    + apply is_known_spec in K. destruct (existsb (fun e => String.eqb k0 (fst e)) seen) eqn:S.
      * apply seen_spec in S. split; [intros (f & H); discriminate|]. intros (_ & H). destruct (H k0 K) as (_ & H').
        exfalso. apply (H' S v0). apply entry_cons. auto.
      * assert (S' : find_key k0 seen = None).
        { destruct (find_key k0 seen) eqn:F; [|reflexivity]. assert (X : find_key k0 seen <> None) by congruence. apply seen_spec in X. congruence. }
        rewrite IH. split.
        -- intros (H1 & H2). split; [split; [exists k0, st; reflexivity|auto]|]. intros k I. destruct (H2 k I) as (O & N). simpl in N. split.
           ++ apply once_cons. split; [auto|]. intros ->. apply N. rewrite String.eqb_refl. discriminate.
           ++ intros F v E. apply entry_cons in E. destruct E as [(-> & _)|E]; [congruence|].
              destruct (String.eqb_spec k k0); [congruence|]. apply (N F v E).
        -- intros ((_ & H1) & H2). split; [auto|]. intros k I. destruct (H2 k I) as (O & N). apply once_cons in O. destruct O as (O & O').
           split; [auto|]. simpl. destruct (String.eqb_spec k k0); [subst; intros _; auto|]. intros F v E. apply (N F v). apply entry_cons. auto.
    + rewrite IH. assert (NK : ~ In k0 names) by (intros X; apply is_known_spec in X; congruence). split.
      * intros (H1 & H2). split; [split; [exists k0, st; reflexivity|auto]|]. intros k I. destruct (H2 k I) as (O & N). split.
        -- apply once_cons. split; [auto|]. intros ->. contradiction.
        -- intros F v E. apply entry_cons in E. destruct E as [(-> & _)|E]; [contradiction|]. apply (N F v E).
      * intros ((_ & H1) & H2). split; [auto|]. intros k I. destruct (H2 k I) as (O & N). apply once_cons in O. destruct O as (O & _).
        split; [auto|]. intros F v E. apply (N F v). apply entry_cons. auto.
Qed.
Lemma gather_find names l : forall seen f k v, gather names l seen = Some f -> In k names ->
  (find_key k f = Some v <-> find_key k seen = Some v \/ entry l k v).
Proof.
  induction l as [|[k0 v0] r IH]; intros seen f k v H I.
  - simpl in H. inversion H; subst. split; [auto|]. intros [E|(s & [])]. auto.
  - destruct k0 as [st k0|ys|ys]; simpl in H; try discriminate. rewrite entry_cons.
    destruct (is_known names k0) eqn:K.
    + destruct (existsb (fun e => String.eqb k0 (fst e)) seen) eqn:S; [discriminate|].
      rewrite (IH _ _ k v H I). simpl. destruct (String.eqb_spec k k0) as [->|N].
      * assert (S' : find_key k0 seen = None).
        { destruct (find_key k0 seen) eqn:F; [|reflexivity]. assert (X : find_key k0 seen <> None) by congruence. apply seen_spec in X. congruence. }
        rewrite S'. split; [intros [X|X]; [inversion X; auto|auto]|]. intros [X|[(_ & ->)|X]]; [discriminate|auto|auto].
      * split; [intros [X|X]; auto|]. intros [X|[(X & _)|X]]; [auto|congruence|auto].
    + rewrite (IH _ _ k v H I). split; [intros [X|X]; auto|]. intros [X|[(-> & _)|X]]; auto.
      apply is_known_spec in I. congruence.
Qed.

Section Fields.
  Context (names : list string) (l : list (yaml * yaml)) (f : list (string * yaml)) (G : gather names l [] = Some f).
  Lemma find_entry k v : In k names -> find_key k f = Some v <-> entry l k v.
  Proof. intros I. rewrite (gather_find _ _ _ _ k v G I). simpl. split; [intros [H|H]; [discriminate|auto]|auto]. Qed.
  Lemma required_spec {A} k (d : yaml -> option A) R x : In k names -> means d R -> required f k d = Some x <-> field l k R x.
  Proof.
    intros I M. unfold required, field. destruct (find_key k f) as [v|] eqn:E.
    - split.
      + intros H. exists v. split; [apply find_entry; auto|apply M; auto].
      + intros (w & H & H'). apply find_entry in H; [|auto]. apply M. congruence.
    - split; [discriminate|]. intros (w & H & _). apply find_entry in H; [|auto]. congruence.
  Qed.
  Lemma defaulted_spec {A} k (d : yaml -> option A) R x0 x : In k names -> means d R -> defaulted f k d x0 = Some x <-> field_or l k R x0 x.
  Proof.
    intros I M. assert (Q := required_spec k d R x I M). unfold defaulted, required, field_or in *. destruct (find_key k f) as [v|] eqn:E.
    - rewrite Q. split; [auto|]. intros [H|(H & _)]; [auto|]. apply find_entry in E; [|auto]. exfalso. exact (H v E).
    - split.
      + intros H. inversion H; subst. right. split; [|reflexivity]. intros v H'. apply find_entry in H'; [|auto]. congruence.
      + intros [H|(_ & ->)]; [|reflexivity]. apply Q in H. discriminate.
  Qed.
End Fields.
Lemma gather_some names l : (exists f, gather names l [] = Some f) <-> scalar_keys l /\ forall k, In k names -> once l k.
Proof.
  rewrite gather_ok. split; intros (H1 & H2); (split; [auto|]); intros k I.
  - destruct (H2 k I) as (O & _). exact O.
  - split; [auto|]. simpl. congruence.
Qed.

(** * Types *)
Lemma timer_means lib : means (decode_timer lib) (timer lib).
Proof.
  intros y s. unfold timer. destruct y as [st t|ys|l]; simpl decode_timer.
  - split; [discriminate|]. intros [(l & H & _)|(l & H & _)]; discriminate.
  - split; [eauto|]. intros [(l & H & _)|(l & H & E)]; [discriminate|]. inversion H; subst; auto.
  - destruct (gather ["timer"] l []) as [f|] eqn:G.
    + rewrite (required_spec _ _ _ G "timer" _ text) by (simpl; auto || apply string_means).
      assert (G' : exists f, gather ["timer"] l [] = Some f) by eauto. apply gather_some in G'. destruct G' as (K & O). specialize (O "timer" (or_introl eq_refl)).
      split; [intros H; left; exists l; auto|]. intros [(l' & H & _ & _ & F)|(l' & H & _)]; [inversion H; subst; auto|discriminate].
    + split; [discriminate|]. intros [(l' & H & K & O & F)|(l' & H & _)]; [|discriminate]. inversion H; subst l'.
      assert (X : exists f, gather ["timer"] l [] = Some f). { apply gather_some. split; [auto|]. intros k [<-|[]]. auto. }
      destruct X as (f & X). congruence.
Qed.
Lemma type_means lib : means (decode_type lib) (kind lib).
Proof.
  assert (T : forall st t s, text (YScalar st t) s <-> t = s).
  { intros st t s. unfold text. split; [intros (s' & H); inversion H; auto|intros ->; eauto]. }
  intros y x. unfold kind. destruct y as [st t|ys|l].
  - simpl. rewrite !T. destruct (String.eqb_spec t "oneshot") as [->|N1].
    + split; [intros H; inversion H; auto|]. intros [(_ & ->)|[(H & _)|(k & v & H & _)]]; [reflexivity|discriminate|discriminate].
    + destruct (String.eqb_spec t "notify") as [->|N2].
      * split; [intros H; inversion H; auto|]. intros [(H & _)|[(_ & ->)|(k & v & H & _)]]; [discriminate|reflexivity|discriminate].
      * split; [discriminate|]. intros [(H & _)|[(H & _)|(k & v & H & _)]]; [congruence|congruence|discriminate].
  - simpl. split; [discriminate|]. intros [((s & H) & _)|[((s & H) & _)|(k & v & H & _)]]; discriminate.
  - assert (R : ((text (YMap l) "oneshot" /\ x = Oneshot) \/ (text (YMap l) "notify" /\ x = Notify) \/
      (exists k v, YMap l = YMap [(k, v)] /\ ((text k "oneshot" /\ null v /\ x = Oneshot) \/ (text k "notify" /\ null v /\ x = Notify) \/
        (text k "cronjob" /\ exists s, timer lib v s /\ x = CronJob s)))) <->
      exists st k v, l = [(YScalar st k, v)] /\ ((k = "oneshot" /\ null v /\ x = Oneshot) \/ (k = "notify" /\ null v /\ x = Notify) \/
        (k = "cronjob" /\ exists s, timer lib v s /\ x = CronJob s))).
    { split.
      - intros [((s & H) & _)|[((s & H) & _)|(k & v & H & C)]]; [discriminate|discriminate|]. inversion H; subst.
        destruct C as [((s & ->) & C)|[((s & ->) & C)|((s & ->) & C)]]; eauto 10.
      - intros (s & k & v & -> & C). right. right. exists (YScalar s k), v. split; [reflexivity|]. rewrite !T. auto. }
    rewrite R. clear R. destruct l as [|[k v] [|e l]].
    + simpl. split; [discriminate|]. intros (s & k & v & H & _). discriminate.
    + destruct k as [st k|ys|ys]; simpl decode_type.
      2,3: (split; [discriminate|]; intros (s & k & v' & H & _); discriminate).
      assert (R : (exists st0 k0 v0, [(YScalar st k, v)] = [(YScalar st0 k0, v0)] /\ ((k0 = "oneshot" /\ null v0 /\ x = Oneshot) \/ (k0 = "notify" /\ null v0 /\ x = Notify) \/
        (k0 = "cronjob" /\ exists s, timer lib v0 s /\ x = CronJob s))) <-> ((k = "oneshot" /\ null v /\ x = Oneshot) \/ (k = "notify" /\ null v /\ x = Notify) \/
        (k = "cronjob" /\ exists s, timer lib v s /\ x = CronJob s))).
      { split; [intros (s & k' & v' & H & C); inversion H; subst; auto|eauto 10]. }
      rewrite R. clear R. destruct (String.eqb_spec k "oneshot") as [->|N1].
      * destruct (is_null v) eqn:N.
        -- apply is_null_spec in N. split; [intros H; inversion H; auto|]. intros [(_ & _ & ->)|[(H & _)|(H & _)]]; [reflexivity|discriminate|discriminate].
        -- split; [discriminate|]. intros [(_ & H & _)|[(H & _)|(H & _)]]; [apply is_null_spec in H; congruence|discriminate|discriminate].
      * destruct (String.eqb_spec k "notify") as [->|N2].
        -- destruct (is_null v) eqn:N.
           ++ apply is_null_spec in N. split; [intros H; inversion H; auto|]. intros [(H & _)|[(_ & _ & ->)|(H & _)]]; [discriminate|reflexivity|discriminate].
           ++ split; [discriminate|]. intros [(H & _)|[(_ & H & _)|(H & _)]]; [discriminate|apply is_null_spec in H; congruence|discriminate].
        -- destruct (String.eqb_spec k "cronjob") as [->|N3].
           ++ split.
              ** destruct (decode_timer lib v) as [s|] eqn:D; [|discriminate]. intros H. inversion H; subst. apply timer_means in D. eauto 8.
              ** intros [(H & _)|[(H & _)|(_ & s & D & ->)]]; [discriminate|discriminate|]. apply timer_means in D. rewrite D. reflexivity.
           ++ split; [discriminate|]. intros [(H & _)|[(H & _)|(H & _)]]; congruence.
    + assert (E : decode_type lib (YMap ((k, v) :: e :: l)) = None) by (destruct k; reflexivity). rewrite E.
      split; [discriminate|]. intros (s & k' & v' & H & _). discriminate.
Qed.

(** * Variables *)
Lemma map_insert_keys k v m : forall x, In x (map fst (map_insert k v m)) <-> x = k \/ In x (map fst m).
Proof.
  induction m as [|[k' v'] r IH]; intros x; simpl; [intuition|]. destruct (String.eqb_spec k k'); simpl; [subst; intuition|]. rewrite IH. intuition.
Qed.
Lemma map_insert_nodup k v m : NoDup (map fst m) -> NoDup (map fst (map_insert k v m)).
Proof.
  induction m as [|[k' v'] r IH]; simpl; intros H; [constructor; [auto|constructor]|]. inversion H; subst.
  destruct (String.eqb_spec k k'); simpl; [subst; constructor; auto|]. constructor; [|auto]. rewrite map_insert_keys. intuition.
Qed.
Lemma map_insert_in k v m : NoDup (map fst m) -> forall x o, In (x, o) (map_insert k v m) <-> (x = k /\ o = v) \/ (x <> k /\ In (x, o) m).
Proof.
  induction m as [|[k' v'] r IH]; intros H x o; simpl.
  - split; [intros [E|[]]; inversion E; auto|]. intros [(-> & ->)|(_ & [])]; auto.
  - inversion H; subst. destruct (String.eqb_spec k k') as [<-|N]; simpl.
    + split.
      * intros [E|I]; [inversion E; auto|]. right. split; [|auto]. intros ->. apply H2. change k with (fst (k, o)). apply in_map. auto.
      * intros [(-> & ->)|(D & [E|I])]; [auto|inversion E; congruence|auto].
    + rewrite IH by auto. split.
      * intros [E|[D|D]]; [inversion E; subst; right; split; [congruence|auto]|auto|right; intuition].
      * intros [D|(D & [E|I])]; auto.
Qed.
Definition final (l : list (yaml * yaml)) (k : string) (o : option string) : Prop :=
  exists l1 st v l2, l = l1 ++ (YScalar st k, v) :: l2 /\ (forall w, ~ entry l2 k w) /\ optional text v o.
Lemma final_cons st k0 v0 l k o : final ((YScalar st k0, v0) :: l) k o <-> final l k o \/ (k0 = k /\ (forall w, ~ entry l k w) /\ optional text v0 o).
Proof.
  unfold final. split.
  - intros (l1 & s & v & l2 & E & N & O). destruct l1 as [|e l1]; simpl in E; inversion E; subst; [auto|]. left. exists l1, s, v, l2. auto.
  - intros [(l1 & s & v & l2 & -> & N & O)|(-> & N & O)].
    + exists ((YScalar st k0, v0) :: l1), s, v, l2. auto.
    + exists [], st, v0, l. auto.
Qed.
Lemma final_entry l k o : final l k o -> exists v, entry l k v.
Proof. intros (l1 & s & v & l2 & -> & _). exists v, s. apply in_or_app. right. left. reflexivity. Qed.
Lemma collect_ok l : forall m, (exists m', collect l m = Some m') <-> scalar_keys l /\ forall k v, In (k, v) l -> exists o, optional text v o.
Proof.
  assert (M := option_means _ _ string_means).
  induction l as [|[k v] r IH]; intros m.
  - simpl. split; [intros _; split; intros k v []|eauto].
  - rewrite scalar_keys_cons. destruct k as [st k|ys|ys]; simpl collect.
    2,3: (split; [intros (m' & H); discriminate|intros (((t & s & H) & _) & _); discriminate]).
    destruct (decode_option decode_string v) as [o|] eqn:E.
    + rewrite IH. apply M in E. split.
      * intros (H1 & H2). split; [split; [exists k, st; reflexivity|auto]|]. intros k' v' [H|H]; [inversion H; subst; eauto|eauto].
      * intros ((_ & H1) & H2). split; [auto|]. intros k' v' H. apply (H2 k' v'). right. auto.
    + split; [intros (m' & H); discriminate|]. intros (_ & H). destruct (H (YScalar st k) v) as (o & O); [left; reflexivity|]. apply M in O. congruence.
Qed.
Lemma collect_in l : forall m m', NoDup (map fst m) -> collect l m = Some m' ->
  NoDup (map fst m') /\ forall k o, In (k, o) m' <-> final l k o \/ (In (k, o) m /\ forall w, ~ entry l k w).
Proof.
  assert (M := option_means _ _ string_means).
  induction l as [|[k0 v0] r IH]; intros m m' ND H.
  - simpl in H. inversion H; subst. split; [auto|]. intros k o. split.
    + intros I. right. split; [auto|]. intros w (s & []).
    + intros [(l1 & s & v & l2 & E & _)|(I & _)]; [destruct l1; discriminate|auto].
  - destruct k0 as [st k0|ys|ys]; simpl in H; try discriminate. destruct (decode_option decode_string v0) as [o0|] eqn:E; [|discriminate].
    apply M in E. apply IH in H; [|apply map_insert_nodup; auto]. destruct H as (ND' & H). split; [auto|]. intros k o.
    rewrite H, final_cons, map_insert_in by auto. split.
    + intros [F|([(-> & ->)|(D & I)] & N)]; [auto|left; auto|]. right. split; [auto|]. intros w X. apply entry_cons in X. destruct X as [(X & _)|X]; [congruence|exact (N w X)].
    + intros [[F|(-> & N & O)]|(I & N)]; [auto| |].
      * right. split; [|auto]. left. split; [reflexivity|]. apply M in O. apply M in E. congruence.
      * right. split.
        -- right. split; [|auto]. intros ->. apply (N v0). apply entry_cons. auto.
        -- intros w X. apply (N w). apply entry_cons. auto.
Qed.
Lemma nodup_fst {A B} (m : list (A * B)) : NoDup (map fst m) -> NoDup m.
Proof. apply NoDup_map_inv. Qed.

Lemma env_sound lib y m : any_order lib -> decode_env lib y = Some m -> item lib y m.
Proof.
  intros AO H. unfold item. destruct y as [st t|ys|l].
  - change (decode_env lib (YScalar st t)) with (if missing lib (YScalar st t) then Some (@nil (string * option string)) else None) in H. destruct (missing lib (YScalar st t)) eqn:E; [|discriminate]. inversion H. right. split; [apply missing_spec; auto|auto].
  - simpl in H. discriminate.
  - simpl in H. destruct (collect l []) as [m0|] eqn:C; [|discriminate]. inversion H; subst. left. exists l. split; [reflexivity|].
    assert (K : exists m', collect l [] = Some m') by eauto. apply collect_ok in K. destruct K as (K1 & K2).
    destruct (collect_in l [] m0 (NoDup_nil _) C) as (ND & I). split; [auto|]. split; [auto|]. split.
    + apply (Permutation_NoDup (l := map fst m0)); [|auto]. apply Permutation_map. symmetry. apply AO.
    + intros k o. fold (final l k o). split.
      * intros X. apply (Permutation_in _ (AO m0)) in X. apply I in X. destruct X as [X|([] & _)]. auto.
      * intros X. apply (Permutation_in _ (Permutation_sym (AO m0))). apply I. auto.
Qed.
Lemma env_complete lib y m : any_order lib -> item lib y m -> exists m', decode_env lib y = Some m' /\ Permutation m m'.
Proof.
  intros AO [(l & -> & K1 & K2 & ND & I)|(N & ->)].
  - destruct (proj2 (collect_ok l []) (conj K1 K2)) as (m0 & C). simpl. rewrite C. exists (l_order lib m0). split; [reflexivity|].
    destruct (collect_in l [] m0 (NoDup_nil _) C) as (ND' & I'). transitivity m0; [|symmetry; apply AO].
    apply NoDup_Permutation; [apply nodup_fst; auto|apply nodup_fst; auto|]. intros (k, o). rewrite I, I'. fold (final l k o). split; [auto|].
    intros [X|([] & _)]. auto.
  - apply missing_spec in N as N'. destruct N as (_ & ->). unfold decode_env. rewrite N'. exists []. auto.
Qed.

(** * Programs *)
Definition sound {A} (d : yaml -> option A) (R : yaml -> A -> Prop) : Prop := forall y x, d y = Some x -> R y x.
Definition complete {A} (d : yaml -> option A) (R : yaml -> A -> Prop) (Q : A -> A -> Prop) : Prop :=
  forall y x, R y x -> exists x', d y = Some x' /\ Q x x'.
Lemma means_self {A} (d : yaml -> option A) : means d (fun y x => d y = Some x).
Proof. intros y x. reflexivity. Qed.
Lemma seq_sound {A} lib (d : yaml -> option A) R : sound d R -> sound (decode_seq lib d) (list_of lib R).
Proof.
  intros S y l H. apply (seq_means lib d _ (means_self d)) in H. destruct H as [(ys & -> & F)|H]; [left|right; auto].
  exists ys. split; [reflexivity|]. clear -S F. induction F; constructor; auto.
Qed.
Lemma seq_complete {A} lib (d : yaml -> option A) R Q : complete d R Q -> complete (decode_seq lib d) (list_of lib R) (Forall2 Q).
Proof.
  intros C y l H. assert (X : exists l', list_of lib (fun y x => d y = Some x) y l' /\ Forall2 Q l l').
  { destruct H as [(ys & -> & F)|(N & ->)].
    - assert (X : exists l', Forall2 (fun y x => d y = Some x) ys l' /\ Forall2 Q l l').
      { clear -C F. induction F as [|y x ys l H _ (l' & IH1 & IH2)]; [exists []; auto|].
        destruct (C _ _ H) as (x' & D & E). exists (x' :: l'). auto. }
      destruct X as (l' & X & Y). exists l'. split; [left; eauto|auto].
    - exists []. split; [right; auto|constructor]. }
  destruct X as (l' & X & Y). exists l'. split; [|auto]. apply (seq_means lib d _ (means_self d)). exact X.
Qed.
Lemma field_or_mono {A} l k (R R' : yaml -> A -> Prop) d x : (forall y x, R y x -> R' y x) -> field_or l k R d x -> field_or l k R' d x.
Proof. intros H [(v & E & X)|X]; [left; exists v; auto|right; auto]. Qed.

Lemma let_some {A B} (e : option A) (k : A -> option B) y : (let? x := e in k x) = Some y <-> exists x, e = Some x /\ k x = Some y.
Proof. destruct e; split; [eauto|intros (x & H & K); congruence|discriminate|intros (x & H & K); discriminate]. Qed.

Ltac known_key := unfold known; simpl; tauto.
Lemma program_sound lib l f c : any_order lib -> gather known l [] = Some f -> program_of lib f = Some c -> says lib l c.
Proof.
  intros AO G H. unfold program_of in H.
  assert (MS := string_means). assert (MO := option_means _ _ MS). assert (MN := option_means _ _ u32_means).
  assert (ML := seq_means lib _ _ MS).
  apply let_some in H. destruct H as (name & H1 & H). apply let_some in H. destruct H as (path & H2 & H).
  apply let_some in H. destruct H as (args & H3 & H). apply let_some in H. destruct H as (workdir & H4 & H).
  apply let_some in H. destruct H as (type & H5 & H). apply let_some in H. destruct H as (uid & H6 & H).
  apply let_some in H. destruct H as (gid & H7 & H). apply let_some in H. destruct H as (user & H8 & H).
  apply let_some in H. destruct H as (group & H9 & H). apply let_some in H. destruct H as (before & H10 & H).
  apply let_some in H. destruct H as (after & H11 & H). apply let_some in H. destruct H as (pty & H12 & H).
  apply let_some in H. destruct H as (caps & H13 & H). apply let_some in H. destruct H as (env & H14 & H).
  inversion H; subst. clear H.
  assert (K : exists f, gather known l [] = Some f) by eauto. apply gather_some in K. destruct K as (K1 & K2).
  constructor; cbn.
  - exact K1.
  - exact K2.
  - eapply (required_spec _ _ _ G); [known_key|exact MS|exact H1].
  - eapply (defaulted_spec _ _ _ G); [known_key|exact MO|exact H2].
  - eapply (defaulted_spec _ _ _ G); [known_key|exact ML|exact H3].
  - eapply (defaulted_spec _ _ _ G); [known_key|exact MO|exact H4].
  - eapply (defaulted_spec _ _ _ G); [known_key|apply type_means|exact H5].
  - eapply (defaulted_spec _ _ _ G); [known_key|exact MN|exact H6].
  - eapply (defaulted_spec _ _ _ G); [known_key|exact MN|exact H7].
  - eapply (defaulted_spec _ _ _ G); [known_key|exact MO|exact H8].
  - eapply (defaulted_spec _ _ _ G); [known_key|exact MO|exact H9].
  - eapply (defaulted_spec _ _ _ G); [known_key|exact ML|exact H10].
  - eapply (defaulted_spec _ _ _ G); [known_key|exact ML|exact H11].
  - eapply (defaulted_spec _ _ _ G); [known_key|exact bool_means|exact H12].
  - eapply (defaulted_spec _ _ _ G); [known_key|exact ML|exact H13].
  - eapply field_or_mono; [|eapply (defaulted_spec _ _ _ G); [known_key|apply means_self|exact H14]].
    intros y x X. apply (seq_sound lib (decode_env lib)); [|exact X]. intros y' x' X'. apply env_sound; auto.
Qed.
Lemma program_complete lib l c : any_order lib -> says lib l c -> exists c', decode_program lib (YMap l) = Some c' /\ same_program c c'.
Proof.
  intros AO [K1 K2 H1 H2 H3 H4 H5 H6 H7 H8 H9 H10 H11 H12 H13 H14].
  assert (MS := string_means). assert (MO := option_means _ _ MS). assert (MN := option_means _ _ u32_means).
  assert (ML := seq_means lib _ _ MS).
  destruct (proj2 (gather_some known l) (conj K1 K2)) as (f & G).
  assert (X : exists e, defaulted f "env" (decode_seq lib (decode_env lib)) [] = Some e /\ Forall2 (@Permutation _) (pc_env c) e).
  { assert (CE : complete (decode_env lib) (item lib) (@Permutation _)) by (intros y x X; apply env_complete; auto).
    destruct H14 as [(v & E & R)|(N & ->)].
    - destruct (seq_complete lib _ _ _ CE v _ R) as (e & D & F). exists e. split; [|exact F].
      eapply (defaulted_spec _ _ _ G "env" _ _ [] e); [known_key|apply means_self|]. left. exists v. auto.
    - exists []. split; [|constructor]. eapply (defaulted_spec _ _ _ G "env" _ _ [] []); [known_key|apply means_self|]. right. auto. }
  destruct X as (e & X14 & P).
  eapply (required_spec _ _ _ G) in H1; [|known_key|exact MS].
  eapply (defaulted_spec _ _ _ G) in H2; [|known_key|exact MO].
  eapply (defaulted_spec _ _ _ G) in H3; [|known_key|exact ML].
  eapply (defaulted_spec _ _ _ G) in H4; [|known_key|exact MO].
  eapply (defaulted_spec _ _ _ G) in H5; [|known_key|apply type_means].
  eapply (defaulted_spec _ _ _ G) in H6; [|known_key|exact MN].
  eapply (defaulted_spec _ _ _ G) in H7; [|known_key|exact MN].
  eapply (defaulted_spec _ _ _ G) in H8; [|known_key|exact MO].
  eapply (defaulted_spec _ _ _ G) in H9; [|known_key|exact MO].
  eapply (defaulted_spec _ _ _ G) in H10; [|known_key|exact ML].
  eapply (defaulted_spec _ _ _ G) in H11; [|known_key|exact ML].
  eapply (defaulted_spec _ _ _ G) in H12; [|known_key|exact bool_means].
  eapply (defaulted_spec _ _ _ G) in H13; [|known_key|exact ML].
  unfold decode_program. rewrite G. unfold program_of.
  rewrite H1, H2, H3, H4, H5, H6, H7, H8, H9, H10, H11, H12, H13, X14.
  eexists. split; [reflexivity|]. unfold same_program. cbn. repeat (split; [reflexivity|]). exact P.
Qed.

Lemma same_program_refl c : same_program c c.
Proof.
  unfold same_program. repeat (split; [reflexivity|]). induction (pc_env c); constructor; auto.
Qed.
Lemma a_program_sound lib : any_order lib -> sound (decode_program lib) (a_program lib).
Proof.
  intros AO y c H. destruct y as [st t|l|l]; [discriminate|right; eauto|left]. exists l. split; [reflexivity|].
  simpl in H. destruct (gather known l []) as [f|] eqn:G; [|discriminate]. eapply program_sound; eauto.
Qed.
Lemma a_program_complete lib : any_order lib -> complete (decode_program lib) (a_program lib) same_program.
Proof.
  intros AO y c [(l & -> & S)|(l & -> & E)]; [apply program_complete; auto|]. exists c. split; [exact E|apply same_program_refl].
Qed.
Lemma config_sound lib : any_order lib -> sound (decode_config lib) (a_config lib).
Proof.
  intros AO y cs H. destruct y as [st t|l|l]; [discriminate|right; eauto|left]. exists l. split; [reflexivity|].
  simpl in H. destruct (gather ["programs"] l []) as [f|] eqn:G; [|discriminate].
  assert (K : exists f, gather ["programs"] l [] = Some f) by eauto. apply gather_some in K. destruct K as (K1 & K2).
  split; [auto|]. split; [apply K2; simpl; auto|].
  apply (required_spec _ _ _ G "programs" _ _ cs (or_introl eq_refl) (means_self _)) in H. destruct H as (v & E & D).
  exists v. split; [auto|]. apply (seq_sound lib (decode_program lib)); [|exact D]. apply a_program_sound. auto.
Qed.
Lemma config_complete lib : any_order lib -> complete (decode_config lib) (a_config lib) (Forall2 same_program).
Proof.
  intros AO y cs [(l & -> & K & O & v & E & D)|(l & -> & E)].
  - assert (G' : exists f, gather ["programs"] l [] = Some f) by (apply gather_some; split; [auto|]; intros k [<-|[]]; auto).
    destruct G' as (f & G). destruct (seq_complete lib _ _ _ (a_program_complete lib AO) v cs D) as (cs' & D' & F).
    exists cs'. split; [|auto]. simpl. rewrite G.
    apply (required_spec _ _ _ G "programs" _ _ cs' (or_introl eq_refl) (means_self _)). exists v. auto.
  - exists cs. split; [exact E|]. clear E. induction cs; constructor; auto using same_program_refl.
Qed.

(** * What makes no difference *)
Lemma program_ext lib f f' : (forall k, In k known -> find_key k f = find_key k f') -> program_of lib f = program_of lib f'.
Proof.
  intros H. unfold program_of, required, defaulted.
  rewrite (H "name"), (H "path"), (H "args"), (H "workdir"), (H "type"), (H "uid"), (H "gid"), (H "user"), (H "group"), (H "before"),
    (H "after"), (H "pty"), (H "capabilities"), (H "env") by known_key. reflexivity.
Qed.
Lemma find_ext names l l' f f' k : gather names l [] = Some f -> gather names l' [] = Some f' ->
  (forall v, entry l k v <-> entry l' k v) -> In k names -> find_key k f = find_key k f'.
Proof.
  intros G G' E I. destruct (find_key k f) as [v|] eqn:F.
  - symmetry. apply (find_entry _ _ _ G' k v I). apply E. apply (find_entry _ _ _ G k v I). exact F.
  - destruct (find_key k f') as [v|] eqn:F'; [|reflexivity]. apply (find_entry _ _ _ G' k v I) in F'. apply E in F'.
    apply (find_entry _ _ _ G k v I) in F'. congruence.
Qed.
Lemma decode_program_ext lib l l' :
  (scalar_keys l <-> scalar_keys l') -> (forall k, In k known -> once l k <-> once l' k) ->
  (forall k v, In k known -> entry l k v <-> entry l' k v) -> decode_program lib (YMap l) = decode_program lib (YMap l').
Proof.
  intros K O E. simpl.
  assert (X : (exists f, gather known l [] = Some f) <-> exists f, gather known l' [] = Some f).
  { rewrite !gather_some, K. split; intros (H1 & H2); (split; [auto|]); intros k I; apply (O k I); auto. }
  destruct (gather known l []) as [f|] eqn:G.
  - destruct (proj1 X (ex_intro _ f eq_refl)) as (f' & G'). rewrite G'. apply program_ext. intros k I.
    apply (find_ext known l l'); auto.
  - destruct (gather known l' []) as [f'|] eqn:G'; [|reflexivity]. destruct (proj2 X (ex_intro _ f' eq_refl)) as (f & G''). discriminate.
Qed.
Lemma entry_perm l l' k v : Permutation l l' -> entry l k v -> entry l' k v.
Proof. intros P (s & I). exists s. apply (Permutation_in _ P I). Qed.
Lemma keys_perm l l' : Permutation l l' -> scalar_keys l -> scalar_keys l'.
Proof. intros P H k v I. apply (H k v). apply (Permutation_in _ (Permutation_sym P) I). Qed.
Definition has_key (k : string) (e : yaml * yaml) : bool := match fst e with YScalar _ t => String.eqb t k | _ => false end.
Lemma has_key_spec k e : has_key k e = true <-> text (fst e) k.
Proof.
  unfold has_key, text. destruct (fst e) as [st t|ys|ys]; split; intros H; try discriminate; try (destruct H as (s & H); discriminate).
  - apply String.eqb_eq in H. subst. eauto.
  - destruct H as (s & H). inversion H. apply String.eqb_refl.
Qed.
Lemma once_count l k : once l k <-> (length (filter (has_key k) l) <= 1)%nat.
Proof.
  induction l as [|e r IH]; [split; [simpl; lia|intros _; apply once_nil]|]. simpl. destruct (has_key k e) eqn:H.
  - simpl. apply has_key_spec in H. destruct e as [y v]. destruct H as (s & H). simpl in H. subst y. rewrite once_cons, IH.
    assert (N : (forall w, ~ entry r k w) <-> length (filter (has_key k) r) = 0%nat).
    { split.
      - intros N. destruct (filter (has_key k) r) as [|[y w] q] eqn:F; [reflexivity|]. exfalso.
        assert (I : In (y, w) (filter (has_key k) r)) by (rewrite F; left; reflexivity). apply filter_In in I. destruct I as (I & T).
        apply has_key_spec in T. destruct T as (s' & T). simpl in T. subst y. apply (N w). exists s'. auto.
      - intros Z w (s' & I). destruct (filter (has_key k) r) eqn:F; [|discriminate].
        assert (X : In (YScalar s' k, w) (filter (has_key k) r)) by (apply filter_In; split; [auto|apply has_key_spec; exists s'; reflexivity]).
        rewrite F in X. destruct X. }
    split; [intros (_ & X); specialize (X eq_refl); apply N in X; lia|]. intros L. split; [lia|]. intros _. apply N. lia.
  - rewrite <- IH. split.
    + intros O l1 a v l2 b w l3 ->. apply (O (e :: l1) a v l2 b w l3 eq_refl).
    + intros O l1 a v l2 b w l3 E Ta Tb. destruct l1 as [|e' l1]; simpl in E; inversion E; subst.
      * assert (X : has_key k (a, v) = true) by (apply has_key_spec; auto). congruence.
      * apply (O l1 a v l2 b w l3 eq_refl Ta Tb).
Qed.
Lemma filter_perm {A} (p : A -> bool) l l' : Permutation l l' -> Permutation (filter p l) (filter p l').
Proof.
  induction 1 as [|x l l' P IH|x y l|l l' l'' P1 IH1 P2 IH2]; simpl; [constructor| | |eapply perm_trans; eauto].
  - destruct (p x); auto.
  - destruct (p x), (p y); auto. apply perm_swap.
Qed.
Lemma once_perm l l' k : Permutation l l' -> once l k -> once l' k.
Proof. intros P. rewrite !once_count. rewrite (Permutation_length (filter_perm (has_key k) _ _ P)). auto. Qed.
Lemma decode_program_perm lib l l' : Permutation l l' -> decode_program lib (YMap l) = decode_program lib (YMap l').
Proof.
  intros P. assert (P' := Permutation_sym P). apply decode_program_ext.
  - split; apply keys_perm; auto.
  - intros k _. split; apply once_perm; auto.
  - intros k v _. split; apply entry_perm; auto.
Qed.
Lemma decode_program_unknown lib st k v l1 l2 : ~ In k known ->
  decode_program lib (YMap (l1 ++ (YScalar st k, v) :: l2)) = decode_program lib (YMap (l1 ++ l2)).
Proof.
  intros N. rewrite (decode_program_perm lib _ ((YScalar st k, v) :: l1 ++ l2)) by (symmetry; apply Permutation_middle).
  apply decode_program_ext.
  - rewrite scalar_keys_cons. split; [intros (_ & H); auto|]. intros H. split; [exists k, st; reflexivity|auto].
  - intros k' I. rewrite once_cons. split; [intros (H & _); auto|]. intros H. split; [auto|]. intros ->. contradiction.
  - intros k' v' I. rewrite entry_cons. split; [intros [(-> & _)|H]; [contradiction|auto]|auto].
Qed.

(** * Documents *)
Lemma decode_program_says lib l c : any_order lib -> decode_program lib (YMap l) = Some c -> says lib l c.
Proof. intros AO H. destruct (a_program_sound lib AO _ _ H) as [(l' & E & S)|(l' & E & _)]; inversion E; subst; auto. Qed.
Lemma read_yaml_sound lib syntax s cs : any_order lib -> read_yaml lib syntax s = Some cs ->
  exists y, syntax s = Some y /\ a_config lib y cs.
Proof. unfold read_yaml. intros AO H. destruct (syntax s) as [y|]; [|discriminate]. exists y. split; [reflexivity|]. apply config_sound; auto. Qed.
Lemma read_yaml_complete lib syntax s y cs : any_order lib -> syntax s = Some y -> a_config lib y cs ->
  exists cs', read_yaml lib syntax s = Some cs' /\ Forall2 same_program cs cs'.
Proof. unfold read_yaml. intros AO -> H. apply config_complete; auto. Qed.

(** * Refused documents *)
Lemma decode_program_no_name lib l : (forall v, ~ entry l "name" v) -> decode_program lib (YMap l) = None.
Proof.
  intros N. simpl. destruct (gather known l []) as [f|] eqn:G; [|reflexivity]. unfold program_of, required.
  destruct (find_key "name" f) as [v|] eqn:F; [|reflexivity]. apply (find_entry _ _ _ G) in F; [|known_key]. exfalso. exact (N v F).
Qed.
Lemma decode_program_twice lib l k : In k known -> ~ once l k -> decode_program lib (YMap l) = None.
Proof.
  intros I O. simpl. destruct (gather known l []) as [f|] eqn:G; [|reflexivity].
  assert (X : exists f, gather known l [] = Some f) by eauto. apply gather_some in X. destruct X as (_ & X). exfalso. apply O, X, I.
Qed.
Lemma decode_config_none lib l : (forall v, ~ entry l "programs" v) -> decode_config lib (YMap l) = None.
Proof.
  intros N. simpl. destruct (gather ["programs"] l []) as [f|] eqn:G; [|reflexivity]. unfold required.
  destruct (find_key "programs" f) as [v|] eqn:F; [|reflexivity]. apply (find_entry _ _ _ G) in F; [|simpl; auto]. exfalso. exact (N v F).
Qed.
Lemma decode_config_bad lib st l1 ps l2 y : In y ps -> decode_program lib y = None ->
  decode_config lib (YMap (l1 ++ (YScalar st "programs", YSeq ps) :: l2)) = None.
Proof.
  intros I B. simpl. destruct (gather ["programs"] _ []) as [f|] eqn:G; [|reflexivity]. unfold required.
  assert (F : find_key "programs" f = Some (YSeq ps)).
  { apply (find_entry _ _ _ G); [simpl; auto|]. exists st. apply in_or_app. right. left. reflexivity. }
  rewrite F. simpl. destruct (traverse (decode_program lib) ps) as [cs|] eqn:T; [|reflexivity]. exfalso.
  apply traverse_spec in T. clear -I B T. induction T; [destruct I|]. destruct I as [->|I]; [congruence|auto].
Qed.
Lemma decode_program_uid lib l c n : any_order lib -> decode_program lib (YMap l) = Some c -> pc_uid c = Some n ->
  exists v, entry l "uid" v /\ number v n.
Proof.
  intros AO H E. apply decode_program_says in H; [|auto]. destruct (says_uid _ _ _ H) as [(v & I & [(_ & R)|(_ & m & R & Q)])|(_ & R)].
  - congruence.
  - exists v. split; [auto|]. congruence.
  - congruence.
Qed.
Lemma decode_program_bad_uid lib l v : entry l "uid" v -> ~ null v -> (forall n, ~ number v n) -> decode_program lib (YMap l) = None.
Proof.
  intros I N B. simpl. destruct (gather known l []) as [f|] eqn:G; [|reflexivity].
  assert (F : find_key "uid" f = Some v) by (apply (find_entry _ _ _ G); [known_key|auto]).
  assert (D : defaulted f "uid" (decode_option decode_u32) None = None).
  { unfold defaulted. rewrite F. destruct (decode_option decode_u32 v) as [o|] eqn:E; [|reflexivity]. exfalso.
    apply (option_means _ _ u32_means) in E. destruct E as [(X & _)|(_ & n & X & _)]; [auto|exact (B n X)]. }
  unfold program_of. rewrite D.
  destruct (required f "name" _); [|reflexivity]. destruct (defaulted f "path" _ _); [|reflexivity]. destruct (defaulted f "args" _ _); [|reflexivity].
  destruct (defaulted f "workdir" _ _); [|reflexivity]. destruct (defaulted f "type" _ _); reflexivity.
Qed.
