(** Lines, numbers and notification messages. *)
From Coq Require Import String Ascii ZArith List Bool Lia.
From Verif Require Import Base RStr NotifyModel SpecStr SpecText RStrProofs TextProofs.
Import ListNotations.
Local Open Scope string_scope.
Local Open Scope Z_scope.

(** ** Lines *)
Lemma append_length a b : String.length (a ++ b) = (String.length a + String.length b)%nat.
Proof. induction a as [|x a IH]; cbn; [reflexivity|now rewrite IH]. Qed.
Lemma split_on_cons c s : exists p rest, split_on c s = p :: rest.
Proof. unfold split_on. destruct (split_by (Ascii.eqb c) s) eqn:E; [exfalso; eapply split_by_nonnil; eauto|eauto]. Qed.
Lemma split_at c s : free_of c s \/ exists a b, s = a ++ String c b /\ free_of c a.
Proof.
  induction s as [|x s IH]; [left; apply free_of_nil|]. destruct (Ascii.eqb_spec c x) as [<-|N].
  - right. exists "", s. split; [reflexivity|apply free_of_nil].
  - destruct IH as [IH|(a & b & -> & F)]; [left; apply free_of_cons; auto|]. right. exists (String x a), b. split; [reflexivity|apply free_of_cons; auto].
Qed.

Lemma strip_cr_spec l : (exists l', l = l' ++ String carriage_return "" /\ strip_cr l = l') \/
  ((forall l', l <> l' ++ String carriage_return "") /\ strip_cr l = l).
Proof.
  induction l as [|a l IH]; [right; split; [intros [|? ?]; discriminate|reflexivity]|].
  destruct l as [|b l].
  - cbn. destruct (Ascii.eqb_spec a CR) as [->|N]; [left; exists ""; auto|]. right. split; [|reflexivity].
    intros [|x l'] E; cbn in E; injection E; [intros E1; exact (N E1)|intros E2 _; destruct l'; discriminate].
  - change (strip_cr (String a (String b l))) with (String a (strip_cr (String b l))).
    destruct IH as [(l' & E & S)|(N & S)].
    + left. exists (String a l'). split; [cbn; now rewrite <- E|now rewrite S].
    + right. split; [|now rewrite S]. intros [|x l'] E; [discriminate|]. inversion E. eapply N; eauto.
Qed.

Theorem lines_spec s ls : lines s = ls <-> lines_are s ls.
Proof.
  assert (F : forall s, lines_are s (lines s)).
  { clear. intros s. induction s as [s IH] using string_ind_len. unfold lines.
    destruct (split_at line_feed s) as [H|(a & b & -> & H)].
    - change line_feed with LF in H. rewrite split_on_none by auto. cbn. destruct s; [constructor|]. apply la_last; [discriminate|exact H].
    - change (String line_feed b) with (String LF b). rewrite split_on_app by exact H.
      assert (I : lines_are b (lines b)). { apply IH. rewrite append_length. cbn. lia. }
      unfold lines in I. destruct (split_on_cons LF b) as (p & rest & E). rewrite E in *.
      change (lines_of (a :: p :: rest)) with (strip_cr a :: lines_of (p :: rest)).
      destruct (strip_cr_spec a) as [(l' & -> & S)|(N & S)]; rewrite S.
      + rewrite append_assoc. cbn. apply la_crlf; [|auto]. apply free_of_app in H. tauto.
      + apply la_lf; auto. }
  split; [intros <-; apply F|].
  assert (NL : forall l rest, free_of LF l -> lines (l ++ String LF rest) = strip_cr l :: lines rest).
  { intros l rest H. unfold lines. rewrite split_on_app by auto. destruct (split_on_cons LF rest) as (p & r & ->). reflexivity. }
  induction 1 as [|l N H|l rest ls H N _ IH|l rest ls H _ IH].
  - reflexivity.
  - unfold lines. rewrite split_on_none by auto. cbn. destruct l; [congruence|reflexivity].
  - change line_feed with LF. rewrite NL by auto. rewrite IH. f_equal. destruct (strip_cr_spec l) as [(l' & E & _)|[_ S]]; [exfalso; eapply N; eauto|auto].
  - replace (l ++ String carriage_return (String line_feed rest)) with ((l ++ String carriage_return "") ++ String LF rest) by (rewrite append_assoc; reflexivity).
    rewrite NL by (apply free_of_app; split; [exact H|]; apply free_of_cons; split; [discriminate|apply free_of_nil]). rewrite IH. f_equal.
    destruct (strip_cr_spec (l ++ String carriage_return "")) as [(l' & E & S)|[N _]]; [|exfalso; eapply N; eauto]. rewrite S.
    clear -E. revert l' E. induction l as [|a l IH]; intros [|b l'] E; cbn in E; inversion E; auto.
    + destruct l'; discriminate.
    + destruct l; discriminate.
    + f_equal. auto.
Qed.

(** ** Variables *)
Lemma splitn2_spec c s : match splitn2 c s with
  | (k, Some v) => s = k ++ String c v /\ free_of c k
  | (k, None) => s = k /\ free_of c s
  end.
Proof.
  induction s as [|a s IH]; cbn; [split; [reflexivity|apply free_of_nil]|].
  destruct (Ascii.eqb_spec c a) as [<-|N]; [split; [reflexivity|apply free_of_nil]|].
  destruct (splitn2 c s) as [k [v|]]; destruct IH as [E F]; (split; [cbn; congruence|apply free_of_cons; auto]).
Qed.
Lemma app_char_inj c a : forall b x y, free_of c a -> free_of c b -> a ++ String c x = b ++ String c y -> a = b /\ x = y.
Proof.
  induction a as [|p a IH]; intros [|q b] x y Fa Fb E; cbn in E; inversion E; subst; auto.
  - exfalso. apply free_of_cons in Fb. tauto.
  - exfalso. apply free_of_cons in Fa. tauto.
  - apply free_of_cons in Fa, Fb. destruct (IH b x y) as [-> ->]; tauto.
Qed.
Lemma known_key_spec k : existsb (String.eqb k) allowed_keys = true <-> known_key k.
Proof.
  unfold known_key, allowed_keys. cbn. rewrite !orb_true_iff, !String.eqb_eq. intuition discriminate.
Qed.
Lemma known_key_plain k : known_key k -> free_of "=" k.
Proof. intros [->|[->|[->| ->]]]; cbn; unfold free_of; cbn; intuition discriminate. Qed.

Lemma parse_line_spec m l k v : In (k, v) (parse_line m l) <->
  (l = k ++ "=" ++ v /\ known_key k) \/ (In (k, v) m /\ ~ (known_key k /\ exists w, l = k ++ "=" ++ w)).
Proof.
  unfold parse_line. pose proof (splitn2_spec "=" l) as S. destruct (splitn2 "=" l) as [k' [v'|]].
  - destruct S as [E F]. destruct (existsb (String.eqb k') allowed_keys) eqn:A.
    + apply known_key_spec in A. unfold var_insert. cbn [In]. rewrite filter_In. cbn [fst]. rewrite negb_true_iff, String.eqb_neq. split.
      * intros [[= <- <-]|[H N]]; [auto|]. right. split; [auto|]. intros (Kk & w & E'). subst l.
        apply app_char_inj in E'; [|auto|apply known_key_plain; auto]. destruct E' as [-> _]. auto.
      * intros [[E' Kk]|[H N]].
        -- subst l. cbn [append] in E'. apply app_char_inj in E'; [|auto|apply known_key_plain; auto]. destruct E' as [-> ->]. auto.
        -- right. split; [auto|]. intros ->. apply N. split; [auto|]. exists v'. auto.
    + split.
      * intros H. right. split; [auto|]. intros (Kk & w & E'). subst l. apply app_char_inj in E'; [|auto|apply known_key_plain; auto].
        destruct E' as [-> _]. apply known_key_spec in Kk. congruence.
      * intros [[E' Kk]|[H _]]; [|auto]. exfalso. subst l. cbn [append] in E'. apply app_char_inj in E'; [|auto|apply known_key_plain; auto].
        destruct E' as [-> _]. apply known_key_spec in Kk. congruence.
  - destruct S as [_ F]. assert (N : forall w, l <> k ++ "=" ++ w).
    { intros w ->. apply free_of_app in F. destruct F as [_ F]. cbn in F. apply free_of_cons in F. tauto. }
    split; [intros H; right; split; [auto|]; intros (_ & w & E); eapply N; eauto|]. intros [[E _]|[H _]]; [exfalso; eapply N; eauto|auto].
Qed.

Theorem parse_spec text k v : In (k, v) (parse text) <-> sets text k v.
Proof.
  unfold parse, sets. assert (G : forall ls m, In (k, v) (fold_left parse_line ls m) <->
    (exists l1 l2, ls = (l1 ++ (k ++ "=" ++ v)%string :: l2)%list /\ known_key k /\ forall w, ~ In (k ++ "=" ++ w) l2) \/
    (In (k, v) m /\ ~ (known_key k /\ exists w, In (k ++ "=" ++ w) ls))).
  { induction ls as [|l ls IH]; intros m.
    - cbn. split; [intros H; right; split; [auto|]; intros (_ & w & [])|]. intros [(l1 & l2 & E & _)|[H _]]; [destruct l1; discriminate|auto].
    - cbn [fold_left]. rewrite IH, parse_line_spec. split.
      + intros [(l1 & l2 & -> & Kk & N)|[[[-> Kk]|[H N]] N']].
        * left. exists (l :: l1), l2. auto.
        * left. exists [], ls. split; [auto|]. split; [auto|]. intros w Hw. apply N'. eauto.
        * right. split; [auto|]. intros (Kk & w & [E|K]); [apply N; split; [auto|]; exists w; auto|apply N'; eauto].
      + intros [(l1 & l2 & E & Kk & N)|[H N]].
        * destruct l1 as [|x l1]; cbn in E; inversion E; subst.
          -- right. split; [auto|]. intros (_ & w & Hw). eapply N; eauto.
          -- left. exists l1, l2. auto.
        * right. split; [right; split; [auto|]|].
          -- intros (Kk & w & E). apply N. split; [auto|]. exists w. left. auto.
          -- intros (Kk & w & E). apply N. split; [auto|]. exists w. right. auto. }
  rewrite G. split.
  - intros [(l1 & l2 & E & Kk & N)|[[] _]]. exists l1, l2. split; [apply lines_spec; auto|auto].
  - intros (l1 & l2 & E & Kk & N). left. exists l1, l2. split; [apply lines_spec; auto|auto].
Qed.

(** ** Numbers *)
Lemma numeral_no_minus s r : s = String "-" r -> ~ numeral s.
Proof. intros -> [_ H]. apply (H "-"%char); [left; reflexivity|reflexivity]. Qed.
Theorem parse_i32_spec s n : parse_i32 s = Some n <-> int_text s n.
Proof.
  unfold int_text, numeral.
  assert (B : forall d m hi, (nonempty d = true /\ digits d 0 = Some m /\ (m <=? hi) = true) <->
    (numeral d /\ m = value d /\ m <= hi)).
  { intros d m hi. unfold numeral. rewrite digits_numeral, nonempty_spec, Z.leb_le. tauto. }
  assert (C : forall d hi (f : Z -> Z), (if nonempty d then match digits d 0 with Some m => if m <=? hi then Some (f m) else None | None => None end else None) = Some n <->
    numeral d /\ value d <= hi /\ n = f (value d)).
  { intros d hi f. split.
    - intros H. destruct (nonempty d) eqn:E1; [|discriminate]. destruct (digits d 0) as [m|] eqn:E2; [|discriminate]. destruct (m <=? hi) eqn:E3; [|discriminate].
      inversion H; subst. destruct (proj1 (B d m hi)) as (X & -> & Y); auto.
    - intros (X & Y & ->). destruct (proj2 (B d (value d) hi)) as (E1 & E2 & E3); auto. rewrite E1, E2, E3. reflexivity. }
  assert (V : forall d, numeral d -> 0 <= value d) by (intros; apply value_nonneg).
  assert (Cases : (exists r, s = String "-" r) \/ (exists r, s = String "+" r) \/ (forall r, s <> String "-" r) /\ (forall r, s <> String "+" r)).
  { destruct s as [|a s]; [right; right; split; discriminate|]. destruct (Ascii.eqb_spec a "-") as [->|N1]; [eauto|]. destruct (Ascii.eqb_spec a "+") as [->|N2]; [eauto|].
    right. right. split; intros r E; inversion E; auto. }
  destruct Cases as [(r & ->)|[(r & ->)|[N1 N2]]].
  - cbn [parse_i32]. rewrite (C r (I32_MAX + 1) Z.opp). unfold I32_MAX. split.
    + intros (X & Y & ->). exists r. split; [exact X|]. split; [auto|]. specialize (V r X). lia.
    + intros (d & X & [[[<-|[= ]] _]|[[= ->] ->]] & Y); [exfalso; eapply numeral_no_minus; eauto; exact X|]. split; [exact X|]. split; [lia|auto].
  - cbn [parse_i32]. rewrite (C r I32_MAX (fun x => x)). unfold I32_MAX. split.
    + intros (X & Y & ->). exists r. split; [exact X|]. split; [auto|]. specialize (V r X). lia.
    + intros (d & X & [[[<-|[= ->]] ->]|[[= ] ->]] & Y); [exfalso; eapply numeral_no_plus; eauto; exact X|]. split; [exact X|]. split; [lia|auto].
  - assert (E : parse_i32 s = (if nonempty s then match digits s 0 with Some m => if m <=? I32_MAX then Some m else None | None => None end else None)).
    { destruct s as [|a s]; [reflexivity|].
      destruct a as [[] [] [] [] [] [] [] []]; try reflexivity; [exfalso; eapply N2; reflexivity|exfalso; eapply N1; reflexivity]. }
    rewrite E, (C s I32_MAX (fun x => x)). unfold I32_MAX. split.
    + intros (X & Y & ->). exists s. split; [exact X|]. split; [auto|]. specialize (V s X). lia.
    + intros (d & X & [[[<-|E'] ->]|[E' ->]] & Y); [|exfalso; eapply N2; eauto|exfalso; eapply N1; eauto]. split; [exact X|]. split; [lia|auto].
Qed.

(** ** Datagrams *)
Lemma contains_spec c s : contains c s = true <-> ~ free_of c s.
Proof.
  induction s as [|a s IH]; cbn; [split; [discriminate|]; intros H; exfalso; apply H; apply free_of_nil|].
  rewrite orb_true_iff, IH, Ascii.eqb_eq, free_of_cons. destruct (ascii_dec c a); tauto.
Qed.
Lemma until_nul_free s : free_of zero_byte (until_nul s).
Proof. induction s as [|a s IH]; cbn; [apply free_of_nil|]. destruct (Ascii.eqb_spec a NUL); [apply free_of_nil|]. apply free_of_cons. split; [intros <-; auto|auto]. Qed.
Lemma until_nul_id s : free_of zero_byte s -> until_nul s = s.
Proof. induction s as [|a s IH]; cbn; [auto|]. intros H. apply free_of_cons in H. destruct H as [H1 H2]. destruct (Ascii.eqb_spec a NUL) as [->|N]; [exfalso; auto|]. now rewrite IH. Qed.
Lemma until_nul_app a b : free_of zero_byte a -> until_nul (a ++ String zero_byte b) = a.
Proof. induction a as [|x a IH]; cbn; [auto|]. intros H. apply free_of_cons in H. destruct H as [H1 H2]. destruct (Ascii.eqb_spec x NUL) as [->|N]; [exfalso; auto|]. now rewrite IH. Qed.
Lemma stake_all n : forall s, (String.length s <= n)%nat -> stake n s = s.
Proof. induction n as [|n IH]; intros [|a s]; cbn; intros H; try reflexivity; [lia|]. rewrite IH by lia. reflexivity. Qed.
Lemma stake_app n : forall a b, (String.length a <= n)%nat -> stake n (a ++ b) = a ++ stake (n - String.length a) b.
Proof. induction n as [|n IH]; intros [|x a] b H; cbn in H |- *; try reflexivity; [lia|]. rewrite IH by lia. reflexivity. Qed.
Lemma stake_length n : forall s, (String.length (stake n s) <= n)%nat.
Proof. induction n as [|n IH]; intros [|a s]; cbn; try lia. specialize (IH s). lia. Qed.

Theorem read_text_spec dg text : read_text dg = Some (Ret text) <-> readable dg text.
Proof.
  unfold read_text, readable. set (r := stake BUFFER dg).
  assert (Lr : (String.length r <= BUFFER)%nat) by apply stake_length.
  assert (Er : r = "" <-> dg = ""). { unfold r. destruct dg; split; auto; discriminate. }
  change BUFFER with (Z.to_nat 4096) in *. change 4096%nat with (Z.to_nat 4096).
  split.
  - intros H. destruct (String.eqb_spec r "") as [E|NE]; [discriminate|].
    destruct ((Z.to_nat 4096 <=? String.length dg)%nat && negb (has_nul r)) eqn:E; [discriminate|].
    destruct (utf8_valid (until_nul r)) eqn:U; [|discriminate]. inversion H; subst text. split; [tauto|]. split; [apply utf8_valid_spec; auto|].
    split; [apply until_nul_free|].
    destruct (split_at zero_byte r) as [F|(a & b & Eab & F)].
    + rewrite until_nul_id by auto. assert (Hn : has_nul r = false). { destruct (has_nul r) eqn:Hn; [|auto]. apply contains_spec in Hn. tauto. }
      rewrite Hn, andb_true_r in E. apply Nat.leb_gt in E. assert (r = dg) as -> by (unfold r; apply stake_all; lia). split; [auto|]. left. auto.
    + rewrite Eab, until_nul_app by auto. split; [rewrite Eab, append_length in Lr; cbn [String.length] in Lr; lia|].
      right. exists (b ++ sdrop (Z.to_nat 4096) dg). rewrite <- (stake_sdrop (Z.to_nat 4096) dg) at 1. fold r. rewrite Eab, append_assoc. reflexivity.
  - intros (NE & T & F & L & D). destruct (String.eqb_spec r "") as [E|NEr]; [tauto|].
    apply utf8_valid_spec in T. destruct D as [->|(rest & ->)].
    + assert (r = text) as -> by (unfold r; apply stake_all; lia).
      replace (Z.to_nat 4096 <=? String.length text)%nat with false by (symmetry; apply Nat.leb_gt; lia).
      cbn [andb]. rewrite until_nul_id, T by auto. reflexivity.
    + assert (Eq : r = text ++ String zero_byte (stake (Z.to_nat 4096 - String.length text - 1) rest)).
      { unfold r. rewrite stake_app by lia. f_equal. destruct (Z.to_nat 4096 - String.length text)%nat eqn:X; [lia|]. cbn. f_equal. f_equal. lia. }
      rewrite Eq, until_nul_app, T by auto.
      assert (Hn : has_nul (text ++ String zero_byte (stake (Z.to_nat 4096 - String.length text - 1) rest)) = true).
      { apply contains_spec. rewrite free_of_app, free_of_cons. intros [_ [K _]]. auto. }
      rewrite Hn, andb_false_r. reflexivity.
Qed.
