(** What is logged of what a program writes to a terminal. *)
From stdpp Require Import gmap strings.
From Coq Require Import Ascii ZArith List Bool Lia.
From Verif Require Import Base RStr ProcessModel ChildModel FdModel PtyModel SpecStr SpecText SpecPty TextProofs.
Import ListNotations.
Local Open Scope string_scope.
Local Open Scope list_scope.
Local Open Scope Z_scope.

(** Carriage returns only before line feeds and at the end. *)
Definition tame (l : list Z) : Prop := forall a b, l = a ++ 13 :: b -> b = [] \/ exists c, b = 10 :: c.
Definition less (l : list Z) : list Z := List.filter (fun b => negb (b =? 13)) l.
Fixpoint drop_cr (s : string) : string :=
  match s with
  | EmptyString => EmptyString
  | String c r => if Ascii.eqb c CR then drop_cr r else String c (drop_cr r)
  end.

Lemma tame_cons b l : tame (b :: l) -> tame l.
Proof. intros H x y E. apply (H (b :: x) y). rewrite E. reflexivity. Qed.
Lemma tame_drop a l : tame (a ++ l) -> tame l.
Proof. induction a; cbn; [auto|]. intros H. apply IHa. eapply tame_cons. exact H. Qed.
Lemma tame_take a l : tame (a ++ l) -> tame a.
Proof. intros H x y E. subst a. destruct (H x (y ++ l)) as [K|[c K]]; [rewrite <- app_assoc; reflexivity| |]; destruct y; [auto|discriminate|auto|]. cbn in K. inversion K. eauto. Qed.
Lemma tame_add b l : b <> 13 -> tame l -> tame (b :: l).
Proof. intros N H [|x a] y E; inversion E; subst; [congruence|]. eapply H. reflexivity. Qed.
Lemma tame_high u l : Forall (fun b => 128 <= b) u -> tame l -> tame (u ++ l).
Proof. induction 1; cbn; [auto|]. intros T. apply tame_add; [lia|auto]. Qed.
Lemma less_app a b : less (a ++ b) = less a ++ less b.
Proof. apply filter_app. Qed.
Lemma less_high u : Forall (fun b => 128 <= b) u -> less u = u.
Proof. induction 1; cbn; [reflexivity|]. destruct (Z.eqb_spec x 13); [lia|]. cbn. f_equal. exact IHForall. Qed.

Lemma encode_kinds c : scalar c -> (0 <= c < 128 /\ encode c = [c]) \/ (Forall (fun b => 128 <= b) (encode c) /\ encode c <> []).
Proof.
  intros S. unfold encode. destruct (Z.ltb_spec c 128); [left; unfold scalar in S; split; [lia|reflexivity]|]. right.
  destruct (Z.ltb_spec c 2048); [|destruct (Z.ltb_spec c 65536)]; (split; [|discriminate]); repeat constructor;
    try (assert (0 <= c mod 64) by (apply Z.mod_pos_bound; lia); lia); try (assert (0 <= c / 64 mod 64) by (apply Z.mod_pos_bound; lia); lia);
    try (assert (0 <= c / 4096 mod 64) by (apply Z.mod_pos_bound; lia); lia);
    try (assert (0 <= c / 64) by (apply Z.div_pos; lia); lia); try (assert (0 <= c / 4096) by (apply Z.div_pos; lia); lia);
    try (assert (0 <= c / 262144) by (apply Z.div_pos; lia); lia).
Qed.

Lemma high_prefix v : forall rest tail, Forall (fun b => 128 <= b) v -> tame rest -> less rest = v ++ tail -> exists tail', rest = v ++ tail'.
Proof.
  induction v as [|b v IH]; intros rest tail F T E; [exists rest; reflexivity|]. inversion F; subst.
  destruct rest as [|r rest]; [discriminate|]. cbn in E. destruct (Z.eqb_spec r 13) as [->|N]; cbn in E.
  - destruct (T [] rest eq_refl) as [->|[c ->]]; cbn in E; [discriminate|]. inversion E. lia.
  - inversion E; subst. destruct (IH rest tail) as [t ->]; auto; [eapply tame_cons; eauto|]. exists t. reflexivity.
Qed.

Lemma salvaged_less l o : salvaged l o -> (forall b, In b l -> 0 <= b <= 255) -> tame l -> salvaged (less l) (less o) /\ tame o.
Proof.
  induction 1 as [|c rest out S H IH|u rest out Nn No Sh Mx H IH]; intros Rg T.
  - split; [constructor|exact T].
  - assert (R' : forall b, In b rest -> 0 <= b <= 255) by (intros b K; apply Rg; apply in_or_app; auto).
    destruct (IH R' (tame_drop _ _ T)) as [I1 I2]. destruct (encode_kinds c S) as [[Rc E]|[Hi Ne]].
    + rewrite E in *. cbn [app]. cbn [less List.filter] in *. destruct (Z.eqb_spec c 13) as [->|N]; cbn [negb].
      * split; [exact I1|]. destruct (T [] rest eq_refl) as [->|[x ->]].
        -- rewrite (salvaged_unique _ _ H _ sv_nil). intros [|? a] y K; [inversion K; auto|destruct a; discriminate].
        -- assert (exists o', out = 10 :: o') as [o' ->].
           { assert (Sc : scalar 10) by (left; lia). assert (exists z, salvaged x z) as [z Hz].
             { assert (Q := salvaged_inv _ _ H). destruct Q as [[Q _]|[Q|Q]]; [discriminate| |].
               - destruct Q as (c' & rr & oo & X & _ & S' & Z). destruct (encode_kinds c' S') as [[_ E']|[Hi Ne]]; rewrite ?E' in *; [inversion X; subst; eauto|].
                 destruct (encode c'); [congruence|]. inversion X; subst. inversion Hi. lia.
               - destruct Q as (u' & rr & oo & X & _ & _ & Nx & _). exfalso. apply (Nx 10 x Sc). rewrite <- X. reflexivity. }
             exists z. apply (salvaged_unique _ _ H). exact (sv_char 10 x z Sc Hz). }
           intros [|? a] y K; inversion K; subst; [right; eauto|]. exact (I2 a y H2).
      * split; [|apply tame_add; auto]. pose proof (sv_char c _ _ S I1) as Q. rewrite E in Q. exact Q.
    + rewrite !less_app, (less_high _ Hi). split; [apply sv_char; auto|apply tame_high; auto].
  - assert (R' : forall b, In b rest -> 0 <= b <= 255) by (intros b K; apply Rg; apply in_or_app; auto).
    destruct (IH R' (tame_drop _ _ T)) as [I1 I2].
    assert (Hu : Forall (fun b => 128 <= b) u).
    { destruct Sh as [(c & v & S & E)|L].
      - destruct (encode_kinds c S) as [[Rc E']|[Hi Ne]].
        + exfalso. rewrite E' in E. destruct u as [|b [|? ?]]; [congruence| |discriminate]. inversion E; subst. apply (No b rest S). rewrite E'. reflexivity.
        + rewrite E in Hi. apply Forall_app in Hi. tauto.
      - destruct u as [|b [|? ?]]; try discriminate. constructor; [|constructor]. destruct (Z_lt_le_dec b 128); [|auto]. exfalso.
        assert (S : scalar b) by (left; specialize (Rg b (or_introl eq_refl)); lia). destruct (encode_kinds b S) as [[_ E']|[Hi Ne]].
        + apply (No b rest S). rewrite E'. reflexivity.
        + revert Hi. unfold encode. destruct (Z.ltb_spec b 128); [|lia]. inversion 1. lia. }
    assert (Hx : Forall (fun b => 128 <= b) (encode 65533)) by (vm_compute; repeat constructor; intros X; discriminate X).
    rewrite !less_app, (less_high _ Hu), (less_high _ Hx). split; [|apply tame_high; auto].
    assert (Hc : forall c w, scalar c -> encode c = u ++ w -> Forall (fun b => 128 <= b) w).
    { intros c w S E. destruct (encode_kinds c S) as [[Rc E']|[Hi Ne]].
      - exfalso. rewrite E' in E. destruct u as [|b u']; [congruence|]. inversion E; subst. inversion Hu; subst. lia.
      - rewrite E in Hi. apply Forall_app in Hi. tauto. }
    apply sv_bad; auto.
    + intros c tail S E. destruct (app_compare _ _ _ _ E) as [[X Y]|[(b & t & X & Y)|(b & t & X & Y)]].
      * apply (No c rest S). rewrite X. reflexivity.
      * destruct (high_prefix (b :: t) rest tail (Hc _ _ S X) (tame_drop _ _ T) Y) as [tail' Z]. apply (No c tail' S). rewrite Z, X, <- app_assoc. reflexivity.
      * apply (No c (b :: t ++ rest) S). rewrite X, <- app_assoc. reflexivity.
    + intros b tail E (c & v & S & X). destruct rest as [|r rest]; [discriminate|]. cbn in E. destruct (Z.eqb_spec r 13) as [->|N]; cbn in E.
      * destruct (tame_drop _ _ T [] rest eq_refl) as [->|[y ->]]; cbn in E; [discriminate|]. inversion E; subst. rewrite <- app_assoc in X. pose proof (Hc _ _ S X) as Q. inversion Q. lia.
      * inversion E; subst. apply (Mx b rest eq_refl). exists c, v. auto.
Qed.

(** ** Texts *)
Lemma bytes_drop s : bytes (drop_cr s) = less (bytes s).
Proof.
  induction s as [|c s IH]; [reflexivity|]. cbn [drop_cr]. rewrite bytes_cons. cbn [less List.filter]. destruct (Ascii.eqb_spec c CR) as [->|N]; cbn [negb].
  - exact IH.
  - destruct (Z.eqb_spec (byte c) 13) as [E|E]; [|cbn [negb]; rewrite bytes_cons, IH; reflexivity].
    exfalso. apply N. unfold byte in E. change 13 with (Z.of_N 13) in E. apply N2Z.inj in E. rewrite <- (ascii_N_embedding c), E. reflexivity.
Qed.
Lemma drop_app a b : drop_cr (a +:+ b) = drop_cr a +:+ drop_cr b.
Proof. apply bytes_inj. rewrite bytes_drop, !bytes_app, less_app, !bytes_drop. reflexivity. Qed.
Lemma drop_free s : free_of CR s -> drop_cr s = s.
Proof.
  induction s as [|c s IH]; intros F; [reflexivity|]. cbn. destruct (Ascii.eqb_spec c CR) as [->|N]; [exfalso; apply F; left; reflexivity|].
  f_equal. apply IH. intros X. apply F. right. exact X.
Qed.
Lemma expand_tame s : free_of CR s -> tame (bytes (expand s)).
Proof.
  induction s as [|c s IH]; intros F; [intros [|? ?] ? E; discriminate|]. assert (G : free_of CR s) by (intros X; apply F; right; exact X).
  specialize (IH G). cbn [expand]. destruct (Ascii.eqb_spec c LF) as [->|N].
  - rewrite !bytes_cons. intros [|x a] y E; inversion E; subst; [right; eexists; reflexivity|]. destruct a as [|x a]; [discriminate|]. inversion H1; subst. exact (IH a y H2).
  - rewrite bytes_cons. apply tame_add; [|exact IH]. intros E. apply F. left. unfold byte in E. change 13 with (Z.of_N 13) in E. apply N2Z.inj in E. rewrite <- (ascii_N_embedding c), E. reflexivity.
Qed.
Lemma drop_expand s : free_of CR s -> drop_cr (expand s) = s.
Proof.
  induction s as [|c s IH]; intros F; [reflexivity|]. assert (G : free_of CR s) by (intros X; apply F; right; exact X). specialize (IH G).
  cbn [expand]. destruct (Ascii.eqb_spec c LF) as [->|N]; cbn [drop_cr].
  - change (Ascii.eqb CR CR) with true. change (Ascii.eqb LF CR) with false. cbn iota. rewrite IH. reflexivity.
  - destruct (Ascii.eqb_spec c CR) as [->|]; [exfalso; apply F; left; reflexivity|]. rewrite IH. reflexivity.
Qed.

(** *** Carriage returns in a line *)
Lemma split_cr s : free_of CR s \/ exists a b, s = a +:+ String CR b /\ free_of CR a.
Proof.
  induction s as [|c s [IH|(a & b & -> & IH)]]; [left; intros []| |].
  - destruct (Ascii.ascii_dec c CR) as [->|N]; [right; exists "", s; split; [reflexivity|intros []]|left; intros [X|X]; auto].
  - destruct (Ascii.ascii_dec c CR) as [->|N]; [right; exists "", (a +:+ String CR b); split; [reflexivity|intros []]|].
    right. exists (String c a), b. split; [reflexivity|intros [X|X]; auto].
Qed.
Lemma byte_cr : byte CR = 13. Proof. reflexivity. Qed.
Lemma byte_lf : byte LF = 10. Proof. reflexivity. Qed.
Lemma byte_is_lf c : byte c = 10 -> c = LF.
Proof. intros E. unfold byte in E. change 10 with (Z.of_N 10) in E. apply N2Z.inj in E. rewrite <- (ascii_N_embedding c), E. reflexivity. Qed.
Lemma free_app c a b : free_of c (a +:+ b) <-> free_of c a /\ free_of c b.
Proof.
  assert (E : chars (a +:+ b) = chars a ++ chars b) by (induction a as [|x a IHa]; [reflexivity|]; change (String x a +:+ b) with (String x (a +:+ b)); cbn [chars app]; f_equal; exact IHa).
  unfold free_of. rewrite E. rewrite in_app_iff. tauto.
Qed.

(** A piece without line feed, followed by something that starts with a byte other
    than a line feed or by nothing. *)
Lemma piece l rest : free_of LF l -> tame (bytes (l +:+ rest)) -> free_of CR l \/ exists a, l = a +:+ String CR "" /\ free_of CR a.
Proof.
  intros F T. destruct (split_cr l) as [H|(a & b & -> & H)]; [auto|]. right. exists a. split; [|exact H]. f_equal. f_equal.
  destruct b as [|c b]; [reflexivity|]. exfalso. rewrite !bytes_app, !bytes_cons, <- app_assoc in T. cbn [app] in T. rewrite byte_cr in T.
  destruct (T (bytes a) _ eq_refl) as [X|[x X]]; [discriminate|]. inversion X. apply byte_is_lf in H1. apply free_app in F. destruct F as [_ F]. apply F. right. left. exact H1.
Qed.

Definition keep (l : string) : bool := negb (String.eqb l "").
Lemma keep_true l : keep l = true <-> l <> "".
Proof. unfold keep. destruct (String.eqb_spec l ""); cbn; split; congruence. Qed.

Lemma lines_drop text ls : lines_are text ls -> tame (bytes text) ->
  exists ls', lines_are (drop_cr text) ls' /\ trimmed (List.filter keep ls) (List.filter keep ls').
Proof.
  induction 1 as [|l Ne F|l rest ls F Nc H IH|l rest ls F H IH]; intros T.
  - exists []. split; constructor.
  - assert (K : keep l = true) by (apply keep_true; auto). cbn [List.filter]. rewrite K.
    destruct (piece l "" F) as [Q|(a & -> & Q)].
    + intros x y E. apply (T x y). rewrite <- E, bytes_app, app_nil_r. reflexivity.
    + exists [l]. rewrite (drop_free _ Q). split; [constructor; auto|]. cbn. rewrite K. constructor; auto. constructor.
    + rewrite drop_app, (drop_free _ Q). cbn [drop_cr]. change (Ascii.eqb CR CR) with true. cbn iota.
      replace (a +:+ "") with a by (clear; induction a as [|x a IHa]; [reflexivity|]; change (String x a +:+ "") with (String x (a +:+ "")); f_equal; exact IHa).
      destruct a as [|c a].
      * exists []. split; [constructor|]. apply tr_blank. constructor.
      * exists [String c a]. split; [apply la_last; [discriminate|]; apply free_app in F; tauto|]. cbn. apply tr_cr; [discriminate|exact Q|constructor].
  - assert (Q : free_of CR l).
    { destruct (piece l (String LF rest) F T) as [Q|(a & -> & _)]; [exact Q|]. exfalso. exact (Nc a eq_refl). }
    rewrite bytes_app, bytes_cons in T. destruct IH as (ls' & L' & Tr); [apply (tame_drop (bytes l ++ [byte LF])); rewrite <- app_assoc; exact T|].
    exists (l :: ls'). split.
    + rewrite drop_app, (drop_free _ Q). cbn [drop_cr]. change (Ascii.eqb line_feed CR) with false. cbn iota. apply la_lf; auto.
    + cbn [List.filter]. destruct (keep l) eqn:K; [|exact Tr]. apply tr_plain; auto. apply keep_true; auto.
  - assert (Q : free_of CR l).
    { destruct (split_cr l) as [Q|(a & b & -> & Q)]; [exact Q|]. exfalso. rewrite !bytes_app, !bytes_cons, <- app_assoc in T. cbn [app] in T. rewrite byte_cr in T.
      destruct (T (bytes a) _ eq_refl) as [X|[x X]].
      - destruct b; discriminate.
      - destruct b as [|c b]; [discriminate|]. rewrite bytes_cons in X. inversion X. apply byte_is_lf in H1. apply free_app in F. destruct F as [_ F]. apply F. right. left. exact H1. }
    rewrite bytes_app, !bytes_cons in T. destruct IH as (ls' & L' & Tr); [apply (tame_drop (bytes l ++ [byte CR; byte LF])); rewrite <- app_assoc; exact T|].
    exists (l :: ls'). split.
    + rewrite drop_app, (drop_free _ Q). cbn [drop_cr]. change (Ascii.eqb carriage_return CR) with true. change (Ascii.eqb line_feed CR) with false. cbn iota.
      apply la_lf; auto. intros l' E. subst l. apply free_app in Q. destruct Q as [_ Q]. apply Q. left. reflexivity.
    + cbn [List.filter]. destruct (keep l) eqn:K; [|exact Tr]. apply tr_plain; auto. apply keep_true; auto.
Qed.
Lemma trimmed_app a a' b b' : trimmed a a' -> trimmed b b' -> trimmed (a ++ b) (a' ++ b').
Proof. induction 1; intros T; cbn; [exact T|apply tr_blank; auto|apply tr_cr; auto|apply tr_plain; auto]. Qed.

(** ** Chunks *)
Lemma entries_drop cs ls : entries cs ls -> (forall c, In c cs -> tame (bytes c)) ->
  exists ls', entries (map drop_cr cs) ls' /\ trimmed ls ls'.
Proof.
  induction 1 as [|c text ls cs rest S L H IH]; intros T.
  - exists []. split; constructor.
  - destruct IH as (rest' & E' & Tr'); [intros c' K; apply T; right; exact K|].
    destruct (salvaged_less _ _ S (bytes_range c) (T c (or_introl eq_refl))) as [S' T'].
    destruct (lines_drop _ _ L T') as (ls' & L' & Tr). exists (List.filter keep ls' ++ rest'). split; [|apply trimmed_app; assumption].
    cbn [map]. eapply en_chunk; [|exact L'|exact E']. rewrite !bytes_drop. exact S'.
Qed.
Lemma joined_tame cs : tame (bytes (joined cs)) -> forall c, In c cs -> tame (bytes c).
Proof.
  induction cs as [|c cs IH]; intros T c' K; [destruct K|]. change (joined (c :: cs)) with (c +:+ joined cs) in T. rewrite bytes_app in T. destruct K as [->|K]; [eapply tame_take; exact T|].
  apply IH; [eapply tame_drop; exact T|exact K].
Qed.
Lemma joined_drop cs : joined (map drop_cr cs) = drop_cr (joined cs).
Proof. induction cs as [|c cs IH]; [reflexivity|]. cbn [map]. change (joined (c :: cs)) with (c +:+ joined cs). change (joined (drop_cr c :: map drop_cr cs)) with (drop_cr c +:+ joined (map drop_cr cs)). rewrite drop_app. f_equal. exact IH. Qed.

Theorem terminal_entries s cs ls : free_of CR s -> joined cs = expand s -> entries cs ls ->
  exists ds ls', joined ds = s /\ entries ds ls' /\ trimmed ls ls'.
Proof.
  intros F J E. destruct (entries_drop cs ls E) as (ls' & E' & T).
  - apply joined_tame. rewrite J. apply expand_tame. exact F.
  - exists (map drop_cr cs), ls'. split; [|auto]. rewrite joined_drop, J. apply drop_expand. exact F.
Qed.

(** ** No carriage returns out of nowhere *)
Lemma salvaged_no_cr l o : salvaged l o -> ~ In 13 l -> ~ In 13 o.
Proof.
  induction 1 as [|c rest out S H IH|u rest out _ _ _ _ H IH]; intros N K; [exact (N K)| |].
  - rewrite in_app_iff in *. destruct K as [K|K]; [auto|]. apply IH; [|exact K]. tauto.
  - rewrite in_app_iff in *. destruct K as [K|K]; [vm_compute in K; intuition discriminate|]. apply IH; [|exact K]. tauto.
Qed.
Lemma bytes_cr s : In 13 (bytes s) <-> In CR (chars s).
Proof.
  induction s as [|c s IH]; [cbn; tauto|]. rewrite bytes_cons. cbn [chars In]. rewrite IH. assert (byte c = 13 <-> c = CR); [|tauto].
  split; [|intros ->; reflexivity]. intros E. unfold byte in E. change 13 with (Z.of_N 13) in E. apply N2Z.inj in E. rewrite <- (ascii_N_embedding c), E. reflexivity.
Qed.
Lemma lines_no_cr text ls : lines_are text ls -> free_of CR text -> forall l, In l ls -> free_of CR l.
Proof.
  induction 1 as [|l Ne F|l rest ls F Nc H IH|l rest ls F H IH]; intros T x K; [destruct K| | |].
  - destruct K as [<-|[]]. exact T.
  - apply free_app in T. destruct T as [T1 T2]. destruct K as [<-|K]; [exact T1|]. apply IH; [|exact K]. intros X. apply T2. right. exact X.
  - apply free_app in T. destruct T as [T1 T2]. destruct K as [<-|K]; [exact T1|]. apply IH; [|exact K]. intros X. apply T2. right. right. exact X.
Qed.
Theorem entries_no_cr ds ls : entries ds ls -> free_of CR (joined ds) -> forall l, In l ls -> free_of CR l.
Proof.
  induction 1 as [|c text ls cs rest S L H IH]; intros T l K; [destruct K|].
  change (joined (c :: cs)) with (c +:+ joined cs) in T. apply free_app in T. destruct T as [T1 T2]. apply in_app_or in K. destruct K as [K|K]; [|exact (IH T2 l K)].
  apply filter_In in K. destruct K as [K _]. revert K. apply (lines_no_cr _ _ L). unfold free_of. rewrite <- bytes_cr. apply (salvaged_no_cr _ _ S). rewrite bytes_cr. exact T1.
Qed.

Lemma expanded t text cs ls : t_oflag t = 1 + 4 -> free_of carriage_return text ->
  joined cs = through t text -> entries cs ls -> exists ds ls', joined ds = text /\ entries ds ls' /\ trimmed ls ls'.
Proof. intros E F J. unfold through in J. rewrite E in J. exact (terminal_entries text cs ls F J). Qed.
