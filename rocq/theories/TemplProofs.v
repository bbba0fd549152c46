From stdpp Require Import gmap strings.
From Coq Require Import Ascii ZArith List Bool Lia Decimal DecimalString.
From Verif Require Import Base RStr ConfigModel ProcessModel EnvModel LogModel TemplModel SpecEnv SpecTempl EnvProofs.
Import ListNotations.
Local Open Scope string_scope.
Local Open Scope list_scope.
Local Arguments String.append !s1 s2 : simpl nomatch.

(** ** The parser *)
Lemma append_assoc (a b c : string) : (a +:+ b) +:+ c = a +:+ b +:+ c.
Proof. induction a as [|x a IH]; cbn; [reflexivity|]. rewrite IH. reflexivity. Qed.
Lemma append_nil (a : string) : a +:+ "" = a.
Proof. induction a as [|x a IH]; cbn; [reflexivity|]. rewrite IH. reflexivity. Qed.

Fixpoint add_all (s : string) (r : parsed) : parsed :=
  match s with EmptyString => r | String a s => add (Text a) (add_all s r) end.

Lemma parse_other_char a r : a <> "{"%char -> parse InText (String a r) = add (Text a) (parse InText r).
Proof.
  intros H. destruct a as [[] [] [] [] [] [] [] []]; try reflexivity. exfalso. apply H. reflexivity.
Qed.
Lemma parse_words s r : ~ In "{"%char (letters s) -> parse InText (s +:+ r) = add_all s (parse InText r).
Proof.
  induction s as [|a s IH]; intros H; [reflexivity|]. cbn [String.append].
  cbn [letters String.list_ascii_of_string In] in H.
  rewrite parse_other_char by (intros ->; tauto). rewrite IH by tauto. reflexivity.
Qed.

Lemma byte_ranges a : is_letter a -> capital a = true.
Proof.
  unfold is_letter, capital. intros [H| ->]; [|reflexivity].
  apply orb_true_iff. left. apply andb_true_iff. split; apply Z.leb_le; lia.
Qed.
Lemma char_name a : is_letter a \/ is_digit a -> name_char a = true.
Proof.
  unfold name_char. intros [H|H].
  - rewrite (byte_ranges a H). reflexivity.
  - apply orb_true_iff. right. apply andb_true_iff. unfold is_digit in H. split; apply Z.leb_le; lia.
Qed.
Lemma parse_opened a r : capital a = true -> parse Opened (String a r) = parse (Named (String a "")) r.
Proof. destruct a as [[] [] [] [] [] [] [] []]; intros H; try reflexivity; discriminate H. Qed.
Lemma parse_named n a r : name_char a = true -> parse (Named n) (String a r) = parse (Named (n +:+ String a "")) r.
Proof. destruct a as [[] [] [] [] [] [] [] []]; intros H; try reflexivity; discriminate H. Qed.
Lemma parse_name_rest s : forall n r, (forall b, In b (letters s) -> is_letter b \/ is_digit b) ->
  parse (Named n) (s +:+ r) = parse (Named (n +:+ s)) r.
Proof.
  induction s as [|a s IH]; intros n r H.
  - rewrite append_nil. reflexivity.
  - cbn [String.append]. rewrite parse_named by (apply char_name, H; left; reflexivity).
    rewrite IH by (intros b Hb; apply H; right; exact Hb). rewrite append_assoc. reflexivity.
Qed.
Lemma blank_byte a : In (byte a) [32; 9; 10; 13]%Z -> blank a = true.
Proof. unfold blank. intros [<-|[<-|[<-|[<-|[]]]]]; reflexivity. Qed.
Lemma parse_blank_opened a r : blank a = true -> parse Opened (String a r) = parse Opened r.
Proof. destruct a as [[] [] [] [] [] [] [] []]; intros H; try reflexivity; discriminate H. Qed.
Lemma parse_blank_named n a r : blank a = true -> parse (Named n) (String a r) = parse (Closing n) r.
Proof. destruct a as [[] [] [] [] [] [] [] []]; intros H; try reflexivity; discriminate H. Qed.
Lemma parse_blank_closing n a r : blank a = true -> parse (Closing n) (String a r) = parse (Closing n) r.
Proof. destruct a as [[] [] [] [] [] [] [] []]; intros H; try reflexivity; discriminate H. Qed.
Lemma parse_blanks_opened s r : blanks s -> parse Opened (s +:+ r) = parse Opened r.
Proof.
  induction s as [|a s IH]; intros H; [reflexivity|]. cbn [String.append]. rewrite parse_blank_opened by (apply blank_byte, H; left; reflexivity).
  apply IH. intros b Hb. apply H. right. exact Hb.
Qed.
Lemma parse_blanks_closing s n r : blanks s -> parse (Closing n) (s +:+ r) = parse (Closing n) r.
Proof.
  induction s as [|a s IH]; intros H; [reflexivity|]. cbn [String.append]. rewrite parse_blank_closing by (apply blank_byte, H; left; reflexivity).
  apply IH. intros b Hb. apply H. right. exact Hb.
Qed.
Lemma parse_variable a n b r : blanks a -> proper_name n -> blanks b ->
  parse InText ("{{" +:+ a +:+ n +:+ b +:+ "}}" +:+ r) = add (Value n) (parse InText r).
Proof.
  intros Ba (x & s & -> & Hx & Hs) Bb.
  change (parse InText ("{{" +:+ a +:+ String x s +:+ b +:+ "}}" +:+ r)) with (parse Opened (a +:+ String x s +:+ b +:+ "}}" +:+ r)).
  rewrite parse_blanks_opened by exact Ba. cbn [String.append]. rewrite parse_opened by (apply byte_ranges, Hx). rewrite parse_name_rest by exact Hs.
  destruct b as [|y b]; [reflexivity|]. cbn [String.append]. rewrite parse_blank_named by (apply blank_byte, Bb; left; reflexivity).
  rewrite parse_blanks_closing by (intros z Hz; apply Bb; right; exact Hz). reflexivity.
Qed.

Lemma fill_words name env s l : fill name env (map Text (letters s) ++ l) =
  match fill name env l with Some x => Some (s +:+ x) | None => None end.
Proof.
  induction s as [|a s IH].
  - cbn. destruct (fill name env l); reflexivity.
  - change (match fill name env (map Text (letters s) ++ l) with Some x => Some (String a x) | None => None end =
      match fill name env l with Some x => Some (String a (s +:+ x)) | None => None end).
    rewrite IH. destruct (fill name env l); reflexivity.
Qed.
Lemma add_all_pieces s l : add_all s (Pieces l) = Pieces (map Text (letters s) ++ l).
Proof. induction s as [|a s IH]; [reflexivity|]. cbn [add_all]. rewrite IH. reflexivity. Qed.

Fixpoint pieces_of (l : list part) : list piece :=
  match l with
  | [] => []
  | Words s :: r => map Text (letters s) ++ pieces_of r
  | Braced _ n _ :: r => Value n :: pieces_of r
  end.
Lemma proper_tail x l : proper (x :: l) -> proper l.
Proof. intros (A & B). split; [intros y Hy; apply A|intros a n b Hy; apply (B a n b)]; right; exact Hy. Qed.
Lemma parse_parts l : proper l -> parse InText (text_of l) = Pieces (pieces_of l).
Proof.
  induction l as [|[s|a n b] l IH]; intros H; [reflexivity| |]; cbn [text_of pieces_of].
  - rewrite parse_words by (apply (proj1 H); left; reflexivity).
    rewrite IH by (eapply proper_tail; exact H). apply add_all_pieces.
  - destruct (proj2 H a n b) as (Ba & Pn & Bb); [left; reflexivity|]. rewrite parse_variable by assumption.
    rewrite IH by (eapply proper_tail; exact H). reflexivity.
Qed.

Lemma fill_filled shown name env l v : (forall x y, shown x y <-> (if escapes name then escape_html x else x) = y) ->
  fill name env (pieces_of l) = Some v <-> filled shown env l v.
Proof.
  intros E. revert v. induction l as [|[s|a n b] l IH]; intros v; cbn [pieces_of fill].
  - split; [intros [= <-]; constructor|inversion 1; reflexivity].
  - rewrite fill_words. split.
    + destruct (fill name env (pieces_of l)) as [x|] eqn:F; [|discriminate]. intros [= <-].
      constructor. apply IH. reflexivity.
    + inversion 1; subst. match goal with X : filled _ _ _ _ |- _ => apply IH in X; rewrite X end. reflexivity.
  - split.
    + destruct (env !! n) as [y|] eqn:G; [|discriminate].
      destruct (fill name env (pieces_of l)) as [x|] eqn:F; [|discriminate]. intros [= <-].
      econstructor; [exact G|apply E; reflexivity|]. apply IH. reflexivity.
    + inversion 1; subst. match goal with X : filled _ _ _ _ |- _ => apply IH in X; rewrite X end.
      match goal with X : env !! n = _ |- _ => rewrite X end. match goal with X : shown _ _ |- _ => apply E in X; rewrite X end. reflexivity.
Qed.
Lemma escape_spec x : forall y, escaped x y <-> escape_html x = y.
Proof.
  assert (K : forall x y, escaped x y -> escape_html x = y).
  { induction 1 as [|c e s t I H IH|c s t N H IH]; [reflexivity| |].
    - destruct I as [[= <- <-]|[[= <- <-]|[[= <- <-]|[[= <- <-]|[[= <- <-]|[[= <- <-]|[]]]]]]]; cbn [escape_html]; rewrite IH; reflexivity.
    - destruct c as [[] [] [] [] [] [] [] []]; try (cbn [escape_html]; rewrite IH; reflexivity); exfalso; eapply N; cbn; tauto. }
  assert (L : forall x, escaped x (escape_html x)).
  { induction x0 as [|c s IH]; [constructor|].
    destruct c as [[] [] [] [] [] [] [] []]; cbn [escape_html];
      first [solve [apply es_entity; [cbn; tauto|exact IH]]|apply es_other; [cbn; intros e I; repeat (destruct I as [[=]|I]); exact I|exact IH]]. }
  intros y. split; [apply K|intros <-; apply L].
Qed.

Lemma ends_suffix suf s : ends_with suf s = true -> exists n, s = n +:+ suf.
Proof.
  induction s as [|a s IH]; cbn; intros H; apply orb_true_iff in H as [H|H].
  - apply String.eqb_eq in H as ->. exists "". reflexivity.
  - discriminate.
  - apply String.eqb_eq in H as ->. exists "". reflexivity.
  - destruct (IH H) as (n & ->). exists (String a n). reflexivity.
Qed.
Lemma not_page k : ~ page k -> escapes k = false.
Proof.
  intros H. destruct (escapes k) eqn:E; [|reflexivity]. exfalso. apply H.
  unfold escapes in E. apply orb_true_iff in E as [E|E]; [apply orb_true_iff in E as [E|E]|];
    destruct (ends_suffix _ _ E) as (n & ->); eexists n, _; split; try reflexivity; cbn; tauto.
Qed.
Lemma ends_refl suf n : ends_with suf (n +:+ suf) = true.
Proof.
  induction n as [|a n IH]; cbn [String.append].
  - destruct suf; cbn [ends_with]; rewrite String.eqb_refl; reflexivity.
  - cbn [ends_with]. rewrite IH. apply orb_true_r.
Qed.
Lemma is_page k : page k -> escapes k = true.
Proof.
  intros (n & suf & -> & [<-|[<-|[<-|[]]]]); unfold escapes; rewrite ends_refl; rewrite ?orb_true_r; reflexivity.
Qed.
(** The names of arguments do not end like that: there is no dot in them. *)
Lemma letters_app a b : letters (a +:+ b) = letters a ++ letters b.
Proof. induction a as [|x a IH]; [reflexivity|]. cbn. f_equal. exact IH. Qed.
Lemma number_dot z : ~ In "."%char (letters (show_Z z)).
Proof.
  unfold show_Z, letters. assert (U : forall u, ~ In "."%char (String.list_ascii_of_string (NilEmpty.string_of_uint u))).
  { induction u; cbn in *; intuition discriminate. }
  assert (V : forall u, ~ In "."%char (String.list_ascii_of_string (NilZero.string_of_uint u)))
    by (intros []; [cbn; intuition discriminate|apply U..]).
  destruct (Z.to_int z) as [u|u]; cbn [NilZero.string_of_int]; [apply V|].
  specialize (V u). cbn. intuition discriminate.
Qed.
Lemma argument_name i : ~ page ("Argument " +:+ show_Z (Z.of_nat i)).
Proof.
  intros (n & suf & E & I).
  assert (D : In "."%char (letters ("Argument " +:+ show_Z (Z.of_nat i)))).
  { rewrite E, letters_app. apply in_or_app. right.
    repeat (destruct I as [<-|I]; [cbn; tauto|]). destruct I. }
  rewrite letters_app in D. apply in_app_or in D as [D|D].
  - cbn in D. intuition discriminate.
  - exact (number_dot _ D).
Qed.

(** ** What a template gives *)
Lemma tera_parts name env l : proper l -> tera name env (text_of l) = Some (fill name env (pieces_of l)).
Proof. intros P. unfold tera. rewrite parse_parts by exact P. reflexivity. Qed.

Lemma rendered_as shown w name env l v : with_tera w -> (forall x y, shown x y <-> (if escapes name then escape_html x else x) = y) -> proper l ->
  rendered w name env (text_of l) v -> meant shown env l v.
Proof.
  intros T N P R. assert (E := T _ _ _ _ (tera_parts name env l P)).
  pose proof (fun v => fill_filled shown name env l v N) as F.
  unfold rendered in R. rewrite E in R. destruct R as [R|(R & ->)].
  - left. apply F. exact R.
  - right. split; [|reflexivity]. intros v' H. apply F in H. congruence.
Qed.
Lemma rendered_meant w name env l v : with_tera w -> ~ page name -> proper l ->
  rendered w name env (text_of l) v -> meant as_is env l v.
Proof.
  intros T N. apply rendered_as; [exact T|]. rewrite (not_page _ N). intros x y. unfold as_is. split; congruence.
Qed.
Lemma rendered_escaped w name env l v : with_tera w -> page name -> proper l ->
  rendered w name env (text_of l) v -> meant escaped env l v.
Proof. intros T N. apply rendered_as; [exact T|]. rewrite (is_page _ N). exact escape_spec. Qed.

Lemma filled_fun env l v v' : filled as_is env l v -> filled as_is env l v' -> v = v'.
Proof.
  intros H. revert v'. induction H; intros v' H'; inversion H'; subst; [reflexivity|f_equal; auto|].
  unfold as_is in *. f_equal; [congruence|auto].
Qed.
Lemma filled_defined shown env l v a n b : filled shown env l v -> In (Braced a n b) l -> is_Some (env !! n).
Proof.
  induction 1; cbn [In]; [intros []|intros [[=]|I]; auto|].
  intros [[= -> -> ->]|I]; [eexists; eassumption|auto].
Qed.

Lemma parse_ordinary t : ordinary t -> parse InText t = Pieces (map Text (letters t)).
Proof.
  induction t as [|a t IH]; intros H; [reflexivity|].
  assert (Ht : ordinary t).
  { intros x y c Hc E. apply (H (String a x) y c Hc). cbn. rewrite E. reflexivity. }
  destruct (ascii_dec a "{") as [->|N].
  - assert (E : parse InText (String "{" t) = add (Text "{") (parse InText t)).
    { destruct t as [|b t]; [reflexivity|].
      assert (B : b <> "{"%char /\ b <> "%"%char /\ b <> "#"%char).
      { repeat split; intros ->; eapply (H "" t); try reflexivity; cbn; tauto. }
      destruct b as [[] [] [] [] [] [] [] []]; try reflexivity; exfalso; destruct B as (B1 & B2 & B3);
        first [apply B1; reflexivity|apply B2; reflexivity|apply B3; reflexivity]. }
    rewrite E, IH by exact Ht. reflexivity.
  - rewrite parse_other_char by exact N. rewrite IH by exact Ht. reflexivity.
Qed.
Lemma rendered_ordinary w name env t v : with_tera w -> ordinary t -> rendered w name env t v -> v = t.
Proof.
  intros T O R. assert (E : w_render w name env t = Some t).
  { apply T. unfold tera. rewrite parse_ordinary by exact O. f_equal.
    rewrite <- (app_nil_r (map Text (letters t))), fill_words. cbn. f_equal. apply append_nil. }
  destruct R as [R|(R & ->)]; congruence.
Qed.

Definition inert (a : ascii) : Prop := a <> "}"%char /\ a <> """"%char /\ a <> "'"%char /\ a <> "`"%char.
Lemma parse_inert a b m : inert a -> m <> InText ->
  parse m (String a b) = Bad \/ exists m', m' <> InText /\ parse m (String a b) = parse m' b.
Proof.
  intros (A1 & A2 & A3 & A4) M. destruct m; [congruence|..];
    destruct a as [[] [] [] [] [] [] [] []];
    first [left; reflexivity|right; eexists; split; [|reflexivity]; discriminate
          |exfalso; apply A1; reflexivity|exfalso; apply A2; reflexivity|exfalso; apply A3; reflexivity
          |exfalso; apply A4; reflexivity].
Qed.
Lemma parse_unclosed b : (forall c, In c (letters b) -> inert c) -> forall m, m <> InText -> parse m b = Bad.
Proof.
  induction b as [|a b IH]; intros H m M.
  - destruct m; try reflexivity. congruence.
  - destruct (parse_inert a b m) as [E|(m' & M' & E)]; [apply H; left; reflexivity|exact M|exact E|].
    rewrite E. apply IH; [|exact M']. intros c Hc. apply H. right. exact Hc.
Qed.
Lemma rendered_unclosed w name env t v : with_tera w -> unclosed t -> rendered w name env t v -> v = t.
Proof.
  intros T (a & b & E & Ha & Hb) R.
  assert (P : parse InText t = Bad).
  { rewrite E. rewrite parse_words by exact Ha. change (parse InText ("{{" +:+ b)) with (parse Opened b).
    rewrite parse_unclosed by (try exact Hb; discriminate). clear. induction a; cbn; [reflexivity|]. rewrite IHa. reflexivity. }
  assert (N : w_render w name env t = None) by (apply T; unfold tera; rewrite P; reflexivity).
  destruct R as [R|(_ & R)]; congruence.
Qed.

(** ** The programs *)
Lemma entry_value w c p k raw es1 es2 : any_order w -> plain_keys c -> process_from w c = Ret (Ok p) ->
  env_entries c = es1 ++ (k, Some raw) :: es2 -> (forall o, In (k, o) es2 -> ~ binds w (k, o)) ->
  ~ (k = "NOTIFY_SOCKET" /\ pc_type c = Notify) ->
  exists u m v, selects (w_uid w) (w_user w) (pc_uid c) (pc_user c) u /\ env_after w u es1 m /\
    rendered w k m raw v /\ sees (p_env p) k v.
Proof.
  intros O P B E L S. destruct (program_env_after w c p O B) as (u & m & U & A & Pr).
  destruct (env_after_last w u _ m A k es1 (Some raw) es2 E Logic.I L) as (m1 & A1 & v & R & G).
  exists u, m1, v. split; [exact U|]. split; [exact A1|]. split; [exact R|].
  assert (Hk : (match pc_type c with Notify => <["NOTIFY_SOCKET" := "/run/cinit-notify.socket"]> m | _ => m end) !! k = Some v).
  { destruct (pc_type c); try exact G. rewrite lookup_insert_ne; [exact G|]. intros Ek. apply S. auto. }
  eapply presents_sees; [exact Pr| |exact Hk].
  intros k' Hk'. assert (In k' nine \/ named c k' \/ k' = "NOTIFY_SOCKET") as [I|[I| ->]].
  { assert (Q : is_Some (m !! k') \/ k' = "NOTIFY_SOCKET").
    { destruct (pc_type c); try (left; exact Hk'). destruct (decide (k' = "NOTIFY_SOCKET")); [right; assumption|].
      rewrite lookup_insert_ne in Hk' by congruence. left. exact Hk'. }
    destruct Q as [Q|Q]; [|tauto].
    destruct (in_dec string_dec k' nine) as [I|I]; [tauto|].
    destruct (in_dec string_dec k' (map fst (env_entries c))) as [J|J].
    - right. left. apply in_map_iff in J as ([k2 o] & Ek & J). cbn in Ek. subst. exists o. exact J.
    - exfalso. rewrite (env_after_untouched w u _ m k' A) in Q.
      + rewrite decide_False in Q by exact I. destruct Q. discriminate.
      + intros o Ho _. apply J. apply in_map_iff. exists (k', o). auto. }
  - apply nine_no_eq, I.
  - apply P, I.
  - unfold no_eq. cbn. intuition discriminate.
Qed.

Theorem variable_template w c p k l es1 es2 : with_tera w -> any_order w -> plain_keys c ->
  process_from w c = Ret (Ok p) -> env_entries c = es1 ++ (k, Some (text_of l)) :: es2 ->
  (forall o, In (k, o) es2 -> ~ binds w (k, o)) -> ~ (k = "NOTIFY_SOCKET" /\ pc_type c = Notify) ->
  ~ page k -> proper l ->
  exists u m v, selects (w_uid w) (w_user w) (pc_uid c) (pc_user c) u /\ env_after w u es1 m /\
    meant as_is m l v /\ sees (p_env p) k v.
Proof.
  intros T O P B E L S N Pl. destruct (entry_value w c p k _ es1 es2 O P B E L S) as (u & m & v & U & A & R & V).
  exists u, m, v. split; [exact U|]. split; [exact A|]. split; [|exact V]. eapply rendered_meant; eassumption.
Qed.

Theorem page_template w c p k l es1 es2 : with_tera w -> any_order w -> plain_keys c ->
  process_from w c = Ret (Ok p) -> env_entries c = es1 ++ (k, Some (text_of l)) :: es2 ->
  (forall o, In (k, o) es2 -> ~ binds w (k, o)) -> page k -> proper l ->
  exists u m v, selects (w_uid w) (w_user w) (pc_uid c) (pc_user c) u /\ env_after w u es1 m /\
    meant escaped m l v /\ sees (p_env p) k v.
Proof.
  intros T O P B E L N Pl. destruct (entry_value w c p k _ es1 es2 O P B E L) as (u & m & v & U & A & R & V).
  { intros (-> & _). apply is_page in N. discriminate N. }
  exists u, m, v. split; [exact U|]. split; [exact A|]. split; [|exact V]. eapply rendered_escaped; eassumption.
Qed.

Theorem variable_too_early w c p k l a n b es1 es2 : with_tera w -> any_order w -> plain_keys c ->
  process_from w c = Ret (Ok p) -> env_entries c = es1 ++ (k, Some (text_of l)) :: es2 ->
  (forall o, In (k, o) es2 -> ~ binds w (k, o)) -> ~ (k = "NOTIFY_SOCKET" /\ pc_type c = Notify) ->
  proper l -> In (Braced a n b) l -> ~ In n nine -> (forall o, In (n, o) es1 -> ~ binds w (n, o)) ->
  sees (p_env p) k (text_of l).
Proof.
  intros T O P B E L S Pl I Nn F.
  destruct (entry_value w c p k _ es1 es2 O P B E L S) as (u & m & v & U & A & R & V).
  assert (M : meant (fun x y => (if escapes k then escape_html x else x) = y) m l v) by (eapply rendered_as; try eassumption; reflexivity).
  destruct M as [M|(_ & ->)]; [|exact V]. exfalso.
  destruct (filled_defined _ _ _ _ _ _ _ M I) as (x & X).
  rewrite (env_after_untouched w u es1 m n A F), decide_False in X by exact Nn. discriminate.
Qed.

Theorem argument_template w c p i l : with_tera w -> any_order w -> process_from w c = Ret (Ok p) ->
  nth_error (pc_args c) i = Some (text_of l) -> proper l ->
  exists m v, presents (p_env p) m /\ nth_error (p_args p) (S i) = Some v /\ meant as_is m l v.
Proof.
  intros T O B E Pl. destruct (program_args w c p O B) as (m & Pr & _ & _ & A).
  destruct (A i _ E) as (v & V & R). exists m, v. split; [exact Pr|]. split; [exact V|].
  eapply rendered_meant; eauto using argument_name.
Qed.

Theorem raw_variable w c p k raw es1 es2 : with_tera w -> any_order w -> plain_keys c ->
  process_from w c = Ret (Ok p) -> env_entries c = es1 ++ (k, Some raw) :: es2 ->
  (forall o, In (k, o) es2 -> ~ binds w (k, o)) -> ~ (k = "NOTIFY_SOCKET" /\ pc_type c = Notify) ->
  ordinary raw \/ unclosed raw -> sees (p_env p) k raw.
Proof.
  intros T O P B E L S H. destruct (entry_value w c p k _ es1 es2 O P B E L S) as (u & m & v & U & A & R & V).
  assert (v = raw) as -> by (destruct H; eauto using rendered_ordinary, rendered_unclosed). exact V.
Qed.

Theorem raw_argument w c p i raw : with_tera w -> any_order w -> process_from w c = Ret (Ok p) ->
  nth_error (pc_args c) i = Some raw -> ordinary raw \/ unclosed raw -> nth_error (p_args p) (S i) = Some raw.
Proof.
  intros T O B E H. destruct (program_args w c p O B) as (m & Pr & _ & _ & A).
  destruct (A i _ E) as (v & V & R).
  assert (v = raw) as -> by (destruct H; eauto using rendered_ordinary, rendered_unclosed). exact V.
Qed.

(** ** The messages *)
Lemma arguments_render err w env args : forall i,
  snd (arguments_say err w env i args) = cstrings "Could not unwrap arg" (render_args w env i args).
Proof.
  induction args as [|x args IH]; intros i; cbn [arguments_say render_args cstrings]; [reflexivity|].
  destruct (cstring _ _) as [a|]; cbn; [|reflexivity]. specialize (IH (S i)).
  destruct (arguments_say err w env (S i) args) as [more rest]. cbn in *. subst rest.
  destruct (cstrings _ _); reflexivity.
Qed.
Theorem build_builds err w c : snd (build err w c) = process_from w c.
Proof.
  unfold build, process_from.
  destruct (is_cronjob (pc_type c) && negb (is_nil (pc_before c))); [reflexivity|].
  destruct (map_id (pc_uid c) _ _ _) as [u|]; [|reflexivity].
  destruct (map_id (pc_gid c) _ _ _) as [g|]; [|reflexivity].
  destruct (pc_path c) as [path|]; [|reflexivity].
  destruct (flatten_to_strings _ _) as [es|]; [|reflexivity]. cbn.
  destruct (cstring _ path) as [a0|]; [|reflexivity]. cbn.
  pose proof (arguments_render err w (program_env w c u) (pc_args c) 0) as A.
  destruct (arguments_say _ _ _ _ _) as [more args]. cbn in *. subst args. reflexivity.
Qed.

Lemma contains_letters c v : contains c v = true <-> In c (letters v).
Proof.
  induction v as [|a v IH]; cbn; [split; [discriminate|tauto]|].
  rewrite orb_true_iff. rewrite IH. unfold letters. split; intros [H|H]; auto.
  - apply Ascii.eqb_eq in H. auto.
  - left. subst. apply Ascii.eqb_refl.
Qed.
Lemma looks_braces v : looks_like_tera_template v = true <-> braces v.
Proof. unfold looks_like_tera_template, braces. rewrite orb_true_iff, !contains_letters. tauto. Qed.

Lemma entry_about err w env k raw :
  about w k ("environment variable " +:+ k) ("Environment variable " +:+ k) env raw (entry_says err w env (k, Some raw)).
Proof.
  unfold entry_says. destruct (w_render w k env raw) as [v|] eqn:R.
  - destruct (looks_like_tera_template v) eqn:L.
    + eapply ab_braces; [exact R|apply looks_braces, L|]. unfold warned, twice. rewrite !append_assoc. reflexivity.
    + eapply ab_silent; [exact R|]. intros B. apply looks_braces in B. congruence.
  - eapply ab_fails with (e := err raw); [exact R|]. unfold warned, twice. rewrite !append_assoc. reflexivity.
Qed.
Lemma argument_about err w env i raw :
  about w ("Argument " +:+ show_Z (Z.of_nat i)) ("argument " +:+ show_Z (Z.of_nat i)) ("Argument " +:+ show_Z (Z.of_nat i))
    env raw (argument_says err w env i raw).
Proof.
  unfold argument_says. destruct (w_render w _ env raw) as [v|] eqn:R.
  - destruct (looks_like_tera_template v) eqn:L.
    + eapply ab_braces; [exact R|apply looks_braces, L|]. unfold warned, twice. rewrite !append_assoc. reflexivity.
    + eapply ab_silent; [exact R|]. intros B. apply looks_braces in B. congruence.
  - eapply ab_fails with (e := err raw); [exact R|]. unfold warned, twice. rewrite !append_assoc. reflexivity.
Qed.

Fixpoint per_entry (err : string -> string) (w : world) (env : gmap string string) (es : list (string * option string)) : list (list message) :=
  match es with [] => [] | e :: r => entry_says err w env e :: per_entry err w (copy_entry w env e) r end.
Lemma per_entry_all err w es : forall env, entries_say err w env es = concat (per_entry err w env es).
Proof. induction es as [|e es IH]; intros env; cbn; [reflexivity|]. rewrite IH. reflexivity. Qed.
Lemma per_entry_length err w es : forall env, length (per_entry err w env es) = length es.
Proof. induction es as [|e es IH]; intros env; cbn; [reflexivity|]. rewrite IH. reflexivity. Qed.
Lemma per_entry_nth err w es1 e es2 : forall env,
  nth_error (per_entry err w env (es1 ++ e :: es2)) (length es1) = Some (entry_says err w (fold_left (copy_entry w) es1 env) e).
Proof. induction es1 as [|x es1 IH]; intros env; cbn; [reflexivity|]. apply IH. Qed.

Fixpoint per_argument (err : string -> string) (w : world) (env : gmap string string) (i : nat) (args : list string) : list (list message) :=
  match args with [] => [] | x :: r => argument_says err w env i x :: per_argument err w env (S i) r end.
Lemma per_argument_all err w env args : forall i said l, arguments_say err w env i args = (said, Ret l) ->
  said = concat (per_argument err w env i args).
Proof.
  induction args as [|x args IH]; intros i said l; cbn.
  - intros [= <- _]. reflexivity.
  - destruct (cstring _ _) as [a|]; [|discriminate].
    destruct (arguments_say err w env (S i) args) as [more rest] eqn:E.
    destruct rest as [r|]; [|discriminate]. intros [= <- _]. f_equal. eapply IH, E.
Qed.
Lemma per_argument_length err w env args : forall i, length (per_argument err w env i args) = length args.
Proof. induction args as [|x args IH]; intros i; cbn; [reflexivity|]. rewrite IH. reflexivity. Qed.
Lemma per_argument_nth err w env args : forall i k, nth_error (per_argument err w env i args) k =
  match nth_error args k with Some x => Some (argument_says err w env (i + k) x) | None => None end.
Proof.
  induction args as [|x args IH]; intros i [|k]; cbn; try reflexivity.
  - rewrite Nat.add_0_r. reflexivity.
  - rewrite IH, Nat.add_succ_r. reflexivity.
Qed.

Lemma socket_given w c u : is_Some (convert_env w (pc_env c) u !! "NOTIFY_SOCKET") <->
  exists o, In ("NOTIFY_SOCKET", o) (env_entries c) /\ binds w ("NOTIFY_SOCKET", o).
Proof.
  unfold convert_env. rewrite copy_flat. fold (env_entries c).
  pose proof (env_after_fold w u (env_entries c)) as A. split.
  - intros (v & V). destruct (Exists_dec (fun e => fst e = "NOTIFY_SOCKET" /\ binds w e) (env_entries c)) as [X|X].
    + intros [k [raw|]]; cbn.
      * destruct (string_dec k "NOTIFY_SOCKET"); [left|right]; tauto.
      * destruct (string_dec k "NOTIFY_SOCKET"); [|right; tauto]. destruct (w_env w k); [left|right]; intuition discriminate.
    + apply List.Exists_exists in X as ([k o] & I & Ek & B). cbn in Ek. subst. exists o. auto.
    + exfalso. rewrite (env_after_untouched w u _ _ "NOTIFY_SOCKET" A) in V.
      * vm_compute in V. discriminate.
      * intros o Io B. apply X. apply List.Exists_exists. exists ("NOTIFY_SOCKET", o). auto.
  - intros (o & I & B).
    revert I B. generalize (sanitise_env (get_default_env w) u). clear A.
    induction (env_entries c) as [|e es IH]; intros m I B; [destruct I|]. cbn [fold_left].
    destruct I as [->|I]; [|apply IH; assumption]. apply copy_present.
    destruct o as [raw|]; cbn in *; [rewrite lookup_insert; eauto|].
    destruct (w_env w "NOTIFY_SOCKET"); [rewrite lookup_insert; eauto|congruence].
Qed.

Theorem messages err w c said p : any_order w -> build err w c = (said, Ret (Ok p)) ->
  exists u m env_said socket_said arg_said,
    selects (w_uid w) (w_user w) (pc_uid c) (pc_user c) u /\ presents (p_env p) m /\
    said = concat env_said ++ socket_said ++ concat arg_said /\
    length env_said = length (env_entries c) /\ length arg_said = length (pc_args c) /\
    (forall es1 k o es2, env_entries c = es1 ++ (k, o) :: es2 ->
      exists m1 s, env_after w u es1 m1 /\ nth_error env_said (length es1) = Some s /\
      match o with
      | None => s = []
      | Some raw => about w k ("environment variable " +:+ k) ("Environment variable " +:+ k) m1 raw s
      end) /\
    (forall i raw, nth_error (pc_args c) i = Some raw ->
      exists s, nth_error arg_said i = Some s /\
      about w ("Argument " +:+ show_Z (Z.of_nat i)) ("argument " +:+ show_Z (Z.of_nat i)) ("Argument " +:+ show_Z (Z.of_nat i)) m raw s) /\
    (if_given w c socket_said).
Proof.
  intros O B.
  assert (PF : process_from w c = Ret (Ok p)) by (rewrite <- (build_builds err), B; reflexivity).
  revert B. unfold build.
  destruct (is_cronjob (pc_type c) && negb (is_nil (pc_before c))); [discriminate|].
  destruct (map_id (pc_uid c) _ _ _) as [u|] eqn:U; [|discriminate].
  destruct (map_id (pc_gid c) _ _ _) as [g|]; [|discriminate].
  destruct (pc_path c) as [path|]; [|discriminate].
  destruct (flatten_to_strings w (program_env w c u)) as [es|] eqn:F; [|discriminate].
  destruct (cstring _ path) as [a0|]; [|discriminate].
  destruct (arguments_say err w (program_env w c u) 0 (pc_args c)) as [more args] eqn:A.
  destruct args as [l|]; [|discriminate]. cbn. intros [= <- <-].
  exists u, (program_env w c u), (per_entry err w (sanitise_env (get_default_env w) u) (env_entries c)), (notify_says w c u),
    (per_argument err w (program_env w c u) 0 (pc_args c)).
  split; [apply map_id_spec; exact U|]. split; [eapply flatten_presents; eassumption|].
  split; [rewrite <- app_assoc, per_entry_all, <- (per_argument_all _ _ _ _ _ _ _ A); reflexivity|].
  split; [apply per_entry_length|]. split; [apply per_argument_length|]. split; [|split].
  - intros es1 k o es2 E. rewrite E. eexists _, _. split; [apply env_after_fold|]. split; [apply per_entry_nth|].
    destruct o as [raw|]; [apply entry_about|reflexivity].
  - intros i raw E. rewrite per_argument_nth, E. eexists. split; [reflexivity|]. apply argument_about.
  - unfold if_given, notify_says.
    pose proof (socket_given w c u) as G. destruct (pc_type c) eqn:T.
    2: { destruct (convert_env w (pc_env c) u !! "NOTIFY_SOCKET") as [v|] eqn:V.
      - left. split; [split; [reflexivity|apply G; eauto]|reflexivity].
      - right. split; [|reflexivity]. intros (_ & X). apply G in X. destruct X. discriminate. }
    all: right; split; [intros ([=] & _)|reflexivity].
Qed.

Lemma env_after_fun w u es : forall m m', env_after w u es m -> env_after w u es m' -> m = m'.
Proof.
  intros m m' H. revert m'. induction H as [m H|es m k raw v H IH R|es m k v H IH E|es m k H IH E]; intros m' H'.
  - inversion H' as [m2 H2 E2|es' m2 k' raw' v' H2 R2 Ee|es' m2 k' v' H2 E2 Ee|es' m2 k' H2 E2 Ee]; try (destruct es'; discriminate).
    subst. apply map_eq. intros i. rewrite H, H2. reflexivity.
  - inversion H' as [m2 H2 E2|es' m2 k' raw' v' H2 R2 Ee|es' m2 k' v' H2 E2 Ee|es' m2 k' H2 E2 Ee]; try (destruct es; discriminate);
      apply app_inj_tail in Ee as (-> & Ee); try discriminate. injection Ee as -> ->.
    rewrite (IH _ H2). f_equal. rewrite (IH _ H2) in R. destruct R as [R|(R & ->)], R2 as [R2|(R2 & ->)]; congruence.
  - inversion H' as [m2 H2 E2|es' m2 k' raw' v' H2 R2 Ee|es' m2 k' v' H2 E2 Ee|es' m2 k' H2 E2 Ee]; try (destruct es; discriminate);
      apply app_inj_tail in Ee as (-> & Ee); try discriminate; injection Ee as ->; [|congruence].
    rewrite (IH _ H2). congruence.
  - inversion H' as [m2 H2 E2|es' m2 k' raw' v' H2 R2 Ee|es' m2 k' v' H2 E2 Ee|es' m2 k' H2 E2 Ee]; try (destruct es; discriminate);
      apply app_inj_tail in Ee as (-> & Ee); try discriminate; injection Ee as ->; [congruence|].
    subst. apply IH. assumption.
Qed.

Theorem quiet err w c said p : any_order w -> build err w c = (said, Ret (Ok p)) ->
  exists u m, selects (w_uid w) (w_user w) (pc_uid c) (pc_user c) u /\ presents (p_env p) m /\
  (said = [] <->
    (forall es1 k raw es2 m1, env_entries c = es1 ++ (k, Some raw) :: es2 -> env_after w u es1 m1 -> ~ suspicious w k m1 raw) /\
    (forall i raw, nth_error (pc_args c) i = Some raw -> ~ suspicious w ("Argument " +:+ show_Z (Z.of_nat i)) m raw) /\
    ~ (pc_type c = Notify /\ exists o, In ("NOTIFY_SOCKET", o) (env_entries c) /\ binds w ("NOTIFY_SOCKET", o))).
Proof.
  intros O B. destruct (messages err w c said p O B) as (u & m & es & ss & ars & U & Pr & E & Le & La & He & Ha & Hs).
  exists u, m. split; [exact U|]. split; [exact Pr|].
  assert (AB : forall name what What env raw s, about w name what What env raw s -> s = [] <-> ~ suspicious w name env raw).
  { intros name what What env raw s A. unfold suspicious. inversion A as [s' e R W|s' v R Bv W|v R Bv]; subst; clear A.
    - unfold warned in W. subst. split; [discriminate|]. intros X. exfalso. apply X. left. exact R.
    - unfold warned in W. subst. split; [discriminate|]. intros X. exfalso. apply X. right. eauto.
    - split; [|reflexivity]. intros _ [X|(v' & X & Y)]; [congruence|]. assert (v' = v) by congruence. subst. auto. }
  split.
  - intros ->. symmetry in E. apply app_eq_nil in E as (E1 & E2). apply app_eq_nil in E2 as (E2 & E3).
    assert (N : forall (l : list (list message)) i s, concat l = [] -> nth_error l i = Some s -> s = []).
    { clear. intros l. induction l as [|x l IH]; intros [|i] s H K; try discriminate; cbn in H; apply app_eq_nil in H as (H1 & H2).
      - injection K as <-. exact H1.
      - eapply IH; eassumption. }
    split; [|split].
    + intros es1 k raw es2 m1 Ee A. destruct (He es1 k (Some raw) es2 Ee) as (m2 & s & A2 & Hn & Ab).
      assert (m1 = m2) as -> by (eapply env_after_fun; eassumption). apply (proj1 (AB _ _ _ _ _ _ Ab)). exact (N _ _ _ E1 Hn).
    + intros i raw Hi. destruct (Ha i raw Hi) as (s & Hn & Ab). apply (proj1 (AB _ _ _ _ _ _ Ab)). exact (N _ _ _ E3 Hn).
    + destruct Hs as [(G & ->)|(G & _)]; [discriminate|exact G].
  - intros (H1 & H2 & H3). rewrite E.
    assert (N : forall (l : list (list message)), (forall i s, nth_error l i = Some s -> s = []) -> concat l = []).
    { clear. intros l. induction l as [|x l IH]; intros H; [reflexivity|]. cbn. rewrite (H 0%nat x eq_refl). cbn.
      apply IH. intros i s K. apply (H (S i) s K). }
    assert (C1 : concat es = []).
    { apply N. intros i s Hi. assert (Li : (i < length (env_entries c))%nat) by (rewrite <- Le; apply nth_error_Some; congruence).
      destruct (nth_error (env_entries c) i) as [[k o]|] eqn:Ne; [|apply nth_error_None in Ne; lia].
      destruct (nth_error_split _ _ Ne) as (es1 & es2 & Ee & <-).
      destruct (He es1 k o es2 Ee) as (m1 & s' & A & Hn & Ab). rewrite Hi in Hn. injection Hn as <-.
      destruct o as [raw|]; [|exact Ab]. apply (proj2 (AB _ _ _ _ _ _ Ab)). eapply H1; eassumption. }
    assert (C2 : concat ars = []).
    { apply N. intros i s Hi. assert (Li : (i < length (pc_args c))%nat) by (rewrite <- La; apply nth_error_Some; congruence).
      destruct (nth_error (pc_args c) i) as [raw|] eqn:Ne; [|apply nth_error_None in Ne; lia].
      destruct (Ha i raw Ne) as (s' & Hn & Ab). rewrite Hi in Hn. injection Hn as <-.
      apply (proj2 (AB _ _ _ _ _ _ Ab)). apply H2. exact Ne. }
    rewrite C1, C2. destruct Hs as [(G & _)|(_ & ->)]; [contradiction|reflexivity].
Qed.

(** ** The default environment *)
Theorem forwarded w c p : any_order w -> plain_keys c -> process_from w c = Ret (Ok p) ->
  forall k, In k ["LANG"; "LANGUAGE"; "PATH"; "TERM"] -> (forall o, In (k, o) (env_entries c) -> ~ binds w (k, o)) ->
  sees (p_env p) k (match w_env w k with Some v => v | None => "" end).
Proof.
  intros O P B k Hk Hn. destruct (well_known w c p O P B) as (u & _ & W).
  assert (I : In k nine) by (cbn in *; tauto). destruct (W k I) as (_ & V). specialize (V Hn).
  unfold default_value in V. repeat (destruct Hk as [<-|Hk]; [exact V|]). destruct Hk.
Qed.
Theorem replaced w c p : any_order w -> plain_keys c -> process_from w c = Ret (Ok p) ->
  exists u, selects (w_uid w) (w_user w) (pc_uid c) (pc_user c) u /\
  forall k v, In (k, v) [("HOME", utf8_lossy (u_dir u)); ("PWD", utf8_lossy (u_dir u)); ("USER", u_name u); ("LOGNAME", u_name u); ("SHELL", "/bin/sh")] ->
  (forall o, In (k, o) (env_entries c) -> ~ binds w (k, o)) -> sees (p_env p) k v.
Proof.
  intros O P B. destruct (well_known w c p O P B) as (u & U & W). exists u. split; [exact U|].
  intros k v Hk Hn.
  assert (I : In k nine /\ v = default_value w u k).
  { repeat (destruct Hk as [Hk|Hk]; [injection Hk as <- <-; split; [cbn; tauto|reflexivity]|]). destruct Hk. }
  destruct I as (I & ->). exact (proj2 (W k I) Hn).
Qed.
