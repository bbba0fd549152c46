(** Proofs about configuration merging and loading. *)
From Coq Require Import String Ascii ZArith List Bool Sorted Permutation Lia.
From Verif Require Import Base ConfigModel SpecConfig.
Import ListNotations.
Local Open Scope string_scope.
Local Open Scope list_scope.

(** * Strings in byte order *)

Lemma str_ltb_compare a b : String.ltb a b = true <-> String.compare a b = Lt.
Proof. unfold String.ltb. destruct (String.compare a b); split; congruence. Qed.

Lemma ascii_compare_lt a b : Ascii.compare a b = Lt <-> (N_of_ascii a < N_of_ascii b)%N.
Proof. unfold Ascii.compare. apply N.compare_lt_iff. Qed.
Lemma ascii_compare_eq a b : Ascii.compare a b = Eq <-> a = b.
Proof.
  unfold Ascii.compare. rewrite N.compare_eq_iff. split; [|congruence].
  intros H. rewrite <- (ascii_N_embedding a), <- (ascii_N_embedding b), H. reflexivity.
Qed.

Lemma compare_refl a : String.compare a a = Eq.
Proof. induction a as [|x a IH]; cbn; [reflexivity|]. rewrite (proj2 (ascii_compare_eq x x) eq_refl). auto. Qed.
Lemma compare_eq a b : String.compare a b = Eq <-> a = b.
Proof. split; [apply String.compare_eq_iff|intros ->; apply compare_refl]. Qed.

Lemma compare_lt_trans : forall a b c,
  String.compare a b = Lt -> String.compare b c = Lt -> String.compare a c = Lt.
Proof.
  induction a as [|x a IH]; intros b c; destruct b as [|y b]; destruct c as [|z c]; cbn; try congruence.
  intros H1 H2.
  destruct (Ascii.compare x y) eqn:E1; destruct (Ascii.compare y z) eqn:E2; try discriminate.
  - apply ascii_compare_eq in E1, E2. subst.
    assert (E : Ascii.compare z z = Eq) by (apply ascii_compare_eq; reflexivity). rewrite E. eapply IH; eauto.
  - apply ascii_compare_eq in E1. subst. rewrite E2. reflexivity.
  - apply ascii_compare_eq in E2. subst. rewrite E1. reflexivity.
  - apply ascii_compare_lt in E1, E2. assert (E : Ascii.compare x z = Lt) by (apply ascii_compare_lt; eapply N.lt_trans; eassumption).
    rewrite E. reflexivity.
Qed.

Lemma str_lt_trans a b c : str_lt a b -> str_lt b c -> str_lt a c.
Proof. unfold str_lt. rewrite !str_ltb_compare. apply compare_lt_trans. Qed.
Lemma str_lt_irrefl a : ~ str_lt a a.
Proof.
  unfold str_lt. rewrite str_ltb_compare.
  assert (E : String.compare a a = Eq) by (apply compare_eq; reflexivity). congruence.
Qed.

Definition str_le (a b : string) : Prop := String.leb a b = true.
Lemma str_le_iff a b : str_le a b <-> str_lt a b \/ a = b.
Proof.
  unfold str_le, str_lt. rewrite str_ltb_compare. unfold String.leb.
  destruct (String.compare a b) eqn:E.
  - apply compare_eq in E. intuition.
  - intuition.
  - split; [discriminate|]. intros [H|H]; [congruence|].
    apply compare_eq in H. congruence.
Qed.
Lemma str_le_trans a b c : str_le a b -> str_le b c -> str_le a c.
Proof.
  rewrite !str_le_iff. intros [H|H] [K|K]; subst; auto. left. eapply str_lt_trans; eauto.
Qed.

(** * Sorting and deduplication *)

Lemma insert_sorted_in x l y : In y (insert_sorted x l) <-> y = x \/ In y l.
Proof.
  induction l as [|z r IH]; cbn; [intuition|].
  destruct (String.leb x z); cbn; rewrite ?IH; intuition.
Qed.
Lemma sort_strings_in l y : In y (sort_strings l) <-> In y l.
Proof. induction l as [|x r IH]; cbn; [intuition|]. rewrite insert_sorted_in, IH. intuition. Qed.

Lemma insert_sorted_sorted x l : StronglySorted str_le l -> StronglySorted str_le (insert_sorted x l).
Proof.
  induction l as [|z r IH]; intros S; cbn; [repeat constructor|].
  inversion S as [|? ? S1 S2]; subst.
  destruct (String.leb x z) eqn:E.
  - constructor; [constructor; auto|]. constructor; [exact E|].
    eapply Forall_impl; [|exact S2]. intros a Ha. eapply str_le_trans; eauto.
  - constructor; [auto|]. apply Forall_forall. intros y Hy. apply insert_sorted_in in Hy.
    destruct Hy as [->|Hy].
    + destruct (String.leb_total x z) as [H|H]; [congruence|exact H].
    + eapply Forall_forall in S2; eauto.
Qed.
Lemma sort_strings_sorted l : StronglySorted str_le (sort_strings l).
Proof. induction l; cbn; [constructor|]. apply insert_sorted_sorted; auto. Qed.

Lemma dedup_in l y : In y (dedup l) <-> In y l.
Proof.
  induction l as [|x r IH]; [cbn; intuition|].
  destruct r as [|z r']; [cbn; intuition|].
  change (In y (if String.eqb x z then dedup (z :: r') else x :: dedup (z :: r')) <-> In y (x :: z :: r')).
  destruct (String.eqb x z) eqn:E.
  - apply String.eqb_eq in E. subst. rewrite IH. cbn. intuition.
  - cbn [In] in *. rewrite IH. reflexivity.
Qed.
Lemma dedup_sorted l : StronglySorted str_le l -> StronglySorted str_lt (dedup l).
Proof.
  induction l as [|x r IH]; intros S; [cbn; constructor|].
  inversion S as [|? ? S1 S2]; subst.
  destruct r as [|z r']; [cbn; repeat constructor|].
  change (StronglySorted str_lt (if String.eqb x z then dedup (z :: r') else x :: dedup (z :: r'))).
  destruct (String.eqb x z) eqn:E; [auto|].
  constructor; [auto|]. apply Forall_forall. intros y Hy. apply (proj1 (dedup_in _ _)) in Hy.
  assert (Hxz : str_lt x z).
  { inversion S2 as [|? ? H _]; subst. apply str_le_iff in H. destruct H as [H|H]; [auto|].
    apply String.eqb_neq in E. contradiction. }
  destruct Hy as [<-|Hy]; [auto|].
  inversion S1 as [|? ? _ H]; subst. eapply Forall_forall in H; [|exact Hy].
  apply str_le_iff in H. destruct H as [H|<-]; [|auto]. eapply str_lt_trans; eauto.
Qed.

Lemma prune_in l y : In y (prune_duplicates l) <-> In y l.
Proof. unfold prune_duplicates. rewrite dedup_in, sort_strings_in. reflexivity. Qed.
Lemma prune_sorted l : StronglySorted str_lt (prune_duplicates l).
Proof. apply dedup_sorted, sort_strings_sorted. Qed.

Lemma sorted_ext l : forall l', StronglySorted str_lt l -> StronglySorted str_lt l' ->
  (forall x, In x l <-> In x l') -> l = l'.
Proof.
  induction l as [|a r IH]; intros l' S S' H.
  - destruct l' as [|b r']; [reflexivity|]. exfalso. apply (H b). left. reflexivity.
  - destruct l' as [|b r']; [exfalso; apply (H a); left; reflexivity|].
    inversion S as [|? ? S1 S2]; inversion S' as [|? ? S1' S2']; subst.
    rewrite Forall_forall in S2, S2'.
    assert (a = b).
    { assert (Ha := proj1 (H a) (or_introl eq_refl)). assert (Hb := proj2 (H b) (or_introl eq_refl)).
      destruct Ha as [Ha|Ha]; [auto|]. destruct Hb as [Hb|Hb]; [auto|].
      exfalso. apply (str_lt_irrefl a). eapply str_lt_trans; [apply S2, Hb|apply S2', Ha]. }
    subst b. f_equal. apply IH; auto. intros x. split; intros Hx.
    + destruct (proj1 (H x) (or_intror Hx)) as [<-|K]; auto.
      exfalso. eapply str_lt_irrefl. apply (S2 a Hx).
    + destruct (proj2 (H x) (or_intror Hx)) as [<-|K]; auto.
      exfalso. eapply str_lt_irrefl. apply (S2' a Hx).
Qed.

(** * Two fragments *)

Lemma two_snoc {A} (P : A -> Prop) l a : two P (l ++ [a]) <-> two P l \/ (Exists P l /\ P a).
Proof.
  split.
  - intros (l1 & x & l2 & y & l3 & E & Hx & Hy).
    destruct l3 as [|z l3' _] using rev_ind.
    + right. rewrite app_comm_cons, app_assoc in E. apply app_inj_tail in E. destruct E as [-> ->].
      split; [|auto]. apply Exists_exists. exists x. split; [apply in_elt|auto].
    + left. rewrite app_comm_cons, !app_assoc, app_comm_cons, app_assoc in E.
      apply app_inj_tail in E. destruct E as [-> ->].
      exists l1, x, l2, y, l3'. rewrite <- !app_assoc. cbn. rewrite <- ?app_assoc. auto.
  - intros [(l1 & x & l2 & y & l3 & -> & Hx & Hy)|[HE Ha]].
    + exists l1, x, l2, y, (l3 ++ [a]). split; [|auto]. rewrite <- !app_assoc. cbn. rewrite <- ?app_assoc. reflexivity.
    + apply Exists_exists in HE. destruct HE as (x & Hin & Hx). apply in_split in Hin.
      destruct Hin as (l1 & l2 & ->). exists l1, x, l2, a, []. rewrite <- app_assoc. auto.
Qed.

Lemma two_perm {A} (P : A -> Prop) l :
  two P l <-> exists a b r, Permutation (a :: b :: r) l /\ P a /\ P b.
Proof.
  split.
  - intros (l1 & a & l2 & b & l3 & -> & Ha & Hb). exists a, b, (l1 ++ l2 ++ l3). split; [|auto].
    apply Permutation_cons_app. rewrite !app_assoc. apply Permutation_cons_app. reflexivity.
  - intros (a & b & r & H & Ha & Hb).
    assert (Hin : In a l) by (eapply Permutation_in; [exact H|left; reflexivity]).
    apply in_split in Hin. destruct Hin as (l1 & l2 & ->).
    apply Permutation_cons_app_inv in H.
    assert (Hin : In b (l1 ++ l2)) by (eapply Permutation_in; [exact H|left; reflexivity]).
    apply in_app_or in Hin. destruct Hin as [Hin|Hin]; apply in_split in Hin; destruct Hin as (m1 & m2 & ->).
    + exists m1, b, m2, a, l2. rewrite <- app_assoc. cbn. auto.
    + exists l1, a, m1, b, m2. auto.
Qed.

Lemma two_permutation {A} (P : A -> Prop) l l' : Permutation l l' -> two P l -> two P l'.
Proof.
  intros H K. apply two_perm in K. destruct K as (a & b & r & K & Ha & Hb).
  apply two_perm. exists a, b, r. split; [|auto]. transitivity l; auto.
Qed.

Lemma conflict_permutation fs fs' : Permutation fs fs' -> conflict fs -> conflict fs'.
Proof.
  intros H K. unfold conflict in *.
  destruct K as [K|[K|[K|[K|[K|[K|K]]]]]];
    [left|right; left|right; right; left|do 3 right; left|do 4 right; left|do 5 right; left|do 6 right];
    try (eapply two_permutation; eassumption).
  apply Exists_exists in K. destruct K as (f & Hin & Hf). apply Exists_exists. exists f. split; [|auto].
  eapply Permutation_in; eauto.
Qed.

(** * The fold *)

Definition option_inv {B} (field : proc_config -> option B) fs (r : option B) : Prop :=
  the_only field fs r /\ ~ two (has field) fs.

Lemma option_step {B} (field : proc_config -> option B) fs (acc : option B) f :
  option_inv field fs acc -> ~ two (has field) (fs ++ [f]) ->
  option_inv field (fs ++ [f]) (opt_or acc (field f)).
Proof.
  intros [H N] N'. split; [|auto]. intros v.
  assert (A : Exists (has field) fs <-> exists w, acc = Some w).
  { rewrite Exists_exists. split.
    - intros (g & Hin & Hg). unfold has in Hg. destruct (field g) as [w|] eqn:E; [|congruence].
      exists w. apply H. eauto.
    - intros (w & Hw). apply H in Hw. destruct Hw as (g & Hin & Hg). exists g. split; auto. unfold has. congruence. }
  assert (N2 : (exists w, acc = Some w) -> field f = None).
  { intros W. apply A in W. destruct (field f) eqn:E; [|reflexivity]. exfalso. apply N'. apply two_snoc.
    right. split; auto. unfold has. congruence. }
  destruct acc as [w|]; cbn.
  - unfold the_only in H. rewrite H. split.
    + intros (g & Hin & Hg). exists g. split; auto. apply in_or_app; auto.
    + intros (g & Hin & Hg). apply in_app_or in Hin. destruct Hin as [Hin|[<-|[]]]; [eauto|].
      rewrite N2 in Hg by eauto. discriminate.
  - split.
    + intros Hv. exists f. split; auto. apply in_or_app. right. left. reflexivity.
    + intros (g & Hin & Hg). apply in_app_or in Hin. destruct Hin as [Hin|[<-|[]]]; [|auto].
      assert (@None B = Some v) by (apply H; eauto). discriminate.
Qed.

Lemma opt_or_comm {B} (field : proc_config -> option B) fs (acc : option B) f :
  the_only field fs acc -> ~ two (has field) (fs ++ [f]) ->
  opt_or (field f) acc = opt_or acc (field f).
Proof.
  intros H N'. destruct acc as [w|]; destruct (field f) eqn:E; cbn; auto.
  exfalso. apply N'. apply two_snoc. right. split; [|unfold has; congruence].
  destruct (proj1 (H w) eq_refl) as (g & Hin & Hg). apply Exists_exists. exists g. split; auto. unfold has; congruence.
Qed.

Definition no_cron (f : proc_config) : Prop := is_cronjob (pc_type f) = false.

Definition block (f : proc_config) : Prop := pathless f /\ no_cron f.

Definition shape (fs : list proc_config) (acc : proc_config) : Prop :=
  (pc_path acc = None /\ Forall pathless fs /\
   (exists fs0 x, fs = fs0 ++ [x] /\ Forall no_cron fs0 /\ pc_type acc = pc_type x) /\
   pc_args acc = concat (map pc_args (rev fs)) /\ pc_env acc = concat (map pc_env (rev fs))) \/
  (exists l1 p l2, fs = l1 ++ p :: l2 /\ pc_path p <> None /\ pc_path acc = pc_path p /\
   Forall block l1 /\ Forall block l2 /\ pc_type acc = pc_type p /\
   pc_args acc = pc_args p ++ concat (map pc_args (rev l1)) ++ concat (map pc_args l2) /\
   pc_env acc = pc_env p ++ concat (map pc_env (rev l1)) ++ concat (map pc_env l2)).

Definition list_inv (field : proc_config -> list string) (fs : list proc_config) (r : list string) : Prop :=
  (forall x, In x r <-> exists f, In f fs /\ In x (field f)) /\
  (2 <= length fs -> StronglySorted str_lt r)%nat /\
  (forall f, fs = [f] -> r = field f).

Record acc_inv (fs : list proc_config) (acc : proc_config) : Prop := {
  ai_name : forall f, In f fs -> pc_name f = pc_name acc;
  ai_workdir : option_inv pc_workdir fs (pc_workdir acc);
  ai_uid : option_inv pc_uid fs (pc_uid acc);
  ai_gid : option_inv pc_gid fs (pc_gid acc);
  ai_user : option_inv pc_user fs (pc_user acc);
  ai_group : option_inv pc_group fs (pc_group acc);
  ai_before : list_inv pc_before fs (pc_before acc);
  ai_after : list_inv pc_after fs (pc_after acc);
  ai_caps : list_inv pc_caps fs (pc_caps acc);
  ai_pty : pc_pty acc = existsb pc_pty fs;
  ai_shape : shape fs acc
}.

Lemma two_single {A} (P : A -> Prop) a : ~ two P [a].
Proof.
  intros (l1 & x & l2 & y & l3 & E & _). apply (f_equal (@length A)) in E.
  rewrite app_length in E. cbn in E. rewrite app_length in E. cbn in E. lia.
Qed.

Lemma option_single {B} (field : proc_config -> option B) f : option_inv field [f] (field f).
Proof.
  split; [|apply two_single]. intros v. split.
  - intros H. exists f. split; [left; reflexivity|auto].
  - intros (g & [<-|[]] & H). auto.
Qed.
Lemma list_single field f : list_inv field [f] (field f).
Proof.
  split; [|split].
  - intros x. split; [intros H; exists f; split; [left|]; auto|]. intros (g & [<-|[]] & H). auto.
  - cbn. lia.
  - intros g E. inversion E. reflexivity.
Qed.

Lemma acc_inv_single f : acc_inv [f] f.
Proof.
  split; try apply option_single; try apply list_single.
  - intros g [<-|[]]. reflexivity.
  - cbn. destruct (pc_pty f); reflexivity.
  - destruct (pc_path f) eqn:E.
    + right. exists [], f, []. cbn. rewrite !app_nil_r. repeat split; auto. congruence.
    + left. cbn. rewrite !app_nil_r. repeat split; auto.
      exists [], f. repeat split; auto.
Qed.

Lemma list_step field fs acc f l : fs <> [] -> list_inv field fs acc ->
  (forall x, In x l <-> In x acc \/ In x (field f)) ->
  list_inv field (fs ++ [f]) (prune_duplicates l).
Proof.
  intros Hne (H & _) Hl. split; [|split].
  - intros x. rewrite prune_in, Hl, H. split.
    + intros [(g & Hin & Hg)|Hx]; [exists g|exists f]; (split; [apply in_or_app|auto]); auto. right; left; reflexivity.
    + intros (g & Hin & Hg). apply in_app_or in Hin. destruct Hin as [Hin|[<-|[]]]; eauto.
  - intros _. apply prune_sorted.
  - intros g E. destruct fs as [|a [|b r]]; [congruence|discriminate|discriminate].
Qed.

Lemma conflict_two {B} (field : proc_config -> option B) fs acc f :
  the_only field fs acc -> is_some (field f) && is_some acc = true -> two (has field) (fs ++ [f]).
Proof.
  intros H E. apply andb_true_iff in E. destruct E as [E1 E2].
  destruct (field f) eqn:F; [|discriminate]. destruct acc as [w|]; [|discriminate].
  apply two_snoc. right. split; [|unfold has; congruence].
  destruct (proj1 (H w) eq_refl) as (g & Hin & Hg). apply Exists_exists. exists g. split; auto. unfold has; congruence.
Qed.

Lemma no_conflict_two {B} (field : proc_config -> option B) fs acc f :
  option_inv field fs acc -> is_some (field f) && is_some acc = false -> ~ two (has field) (fs ++ [f]).
Proof.
  intros [H N] E T. apply two_snoc in T. destruct T as [T|[T Hf]]; [auto|].
  apply Exists_exists in T. destruct T as (g & Hin & Hg). unfold has in *.
  destruct (field f); [|congruence]. destruct (field g) as [w|] eqn:G; [|congruence].
  assert (K : acc = Some w) by (apply H; eauto). rewrite K in E. discriminate.
Qed.

Lemma path_shape fs acc : shape fs acc -> ~ two (has pc_path) fs /\
  (pc_path acc = None <-> Forall pathless fs) /\ (Exists (has pc_path) fs <-> pc_path acc <> None).
Proof.
  intros [(H1 & H2 & H3)|(l1 & p & l2 & -> & Hp & Hpp & B1 & B2 & _)].
  - split; [|split].
    + intros (l1 & a & l2 & b & l3 & -> & Ha & _). rewrite Forall_forall in H2. apply Ha, H2, in_elt.
    + intuition.
    + split; [|congruence]. intros E. apply Exists_exists in E. destruct E as (g & Hin & Hg).
      rewrite Forall_forall in H2. exfalso. apply Hg, H2, Hin.
  - split; [|split].
    + intros T. apply two_perm in T. destruct T as (a & b & r & HP & Ha & Hb).
      assert (HP' : Permutation (a :: b :: r) (p :: l1 ++ l2)).
      { rewrite HP. symmetry. apply Permutation_middle. }
      assert (Q : forall x, In x (l1 ++ l2) -> ~ has pc_path x).
      { intros x Hx K. apply in_app_or in Hx. rewrite Forall_forall in B1, B2.
        destruct Hx as [Hx|Hx]; [apply B1 in Hx|apply B2 in Hx]; apply K, Hx. }
      assert (Hin : In p (a :: b :: r)) by (eapply Permutation_in; [symmetry; exact HP'|left; reflexivity]).
      assert (Ea : a = p).
      { assert (K : In a (p :: l1 ++ l2)) by (eapply Permutation_in; [exact HP'|left; reflexivity]).
        destruct K as [K|K]; [auto|]. exfalso. eapply Q; eauto. }
      subst a. apply Permutation_cons_inv in HP'.
      assert (K : In b (l1 ++ l2)) by (eapply Permutation_in; [exact HP'|left; reflexivity]).
      eapply Q; eauto.
    + split; [congruence|]. intros F. exfalso. apply Hp. rewrite Forall_forall in F. apply F, in_elt.
    + split; [congruence|]. intros _. apply Exists_exists. exists p. split; [apply in_elt|auto].
Qed.

(** No conflict can be seen in what has been merged onto a path. *)
Lemma shape_path_cron fs acc : shape fs acc -> pc_path acc <> None -> ~ Exists pathless_cronjob fs.
Proof.
  intros [(H & _)|(l1 & p & l2 & -> & Hp & Hpp & B1 & B2 & _)] N E; [congruence|].
  apply Exists_exists in E. destruct E as (g & Hin & Hg1 & t & Ht).
  rewrite Forall_forall in B1, B2. apply in_app_or in Hin. destruct Hin as [Hin|[<-|Hin]].
  - apply B1 in Hin. destruct Hin as [_ Hin]. unfold no_cron in Hin. rewrite Ht in Hin. discriminate.
  - congruence.
  - apply B2 in Hin. destruct Hin as [_ Hin]. unfold no_cron in Hin. rewrite Ht in Hin. discriminate.
Qed.

Lemma acc_inv_no_conflict fs acc : acc_inv fs acc -> Exists (has pc_path) fs -> ~ conflict fs.
Proof.
  intros I E. pose proof (path_shape _ _ (ai_shape _ _ I)) as (T & _ & P). apply P in E.
  unfold conflict. intros [K|[K|[K|[K|[K|[K|K]]]]]]; auto.
  - apply (ai_workdir _ _ I); auto.
  - apply (ai_uid _ _ I); auto.
  - apply (ai_gid _ _ I); auto.
  - apply (ai_user _ _ I); auto.
  - apply (ai_group _ _ I); auto.
  - eapply shape_path_cron; eauto. apply (ai_shape _ _ I).
Qed.

Lemma in_snoc {A} (x y : A) l : In x (l ++ [y]) <-> In x l \/ x = y.
Proof. rewrite in_app_iff. cbn. intuition. Qed.

(** A pathless cronjob among fragments with a later fragment is a conflict. *)
Definition cron_then (fs : list proc_config) : Prop :=
  exists l1 f l2, fs = l1 ++ f :: l2 /\ pathless_cronjob f /\ (l1 <> [] \/ l2 <> []).

Lemma conflict_snoc fs f : conflict fs -> conflict (fs ++ [f]).
Proof.
  unfold conflict. rewrite !two_snoc, Exists_app. tauto.
Qed.

Lemma merge_step fs acc f : fs <> [] -> acc_inv fs acc -> pc_name f = pc_name acc ->
  (exists acc', merge acc f = Ret (Ok acc') /\ acc_inv (fs ++ [f]) acc') \/
  (exists e, merge acc f = Ret (Err e) /\ conflict (fs ++ [f])).
Proof.
  intros Hne I Hn. unfold merge. rewrite Hn, String.eqb_refl. cbn [negb].
  pose proof (path_shape _ _ (ai_shape _ _ I)) as (T & PN & PE).
  assert (Nm : forall g, In g (fs ++ [f]) -> pc_name g = pc_name acc).
  { intros g Hg. apply in_snoc in Hg. destruct Hg as [Hg| ->]; [apply (ai_name _ _ I); auto|auto]. }
  destruct (pc_path acc) as [pa|] eqn:EP.
  - unfold merge_into.
    destruct (is_some (pc_path f)) eqn:E1.
    { right. eexists. split; [reflexivity|]. left. apply two_snoc. right. split; [apply PE; congruence|].
      unfold has. destruct (pc_path f); [congruence|discriminate]. }
    destruct (is_some (pc_workdir f) && is_some (pc_workdir acc)) eqn:E2.
    { right. eexists. split; [reflexivity|]. right; left. eapply conflict_two; [apply (ai_workdir _ _ I)|auto]. }
    destruct (is_some (pc_uid f) && is_some (pc_uid acc)) eqn:E3.
    { right. eexists. split; [reflexivity|]. right; right; left. eapply conflict_two; [apply (ai_uid _ _ I)|auto]. }
    destruct (is_some (pc_gid f) && is_some (pc_gid acc)) eqn:E4.
    { right. eexists. split; [reflexivity|]. do 3 right; left. eapply conflict_two; [apply (ai_gid _ _ I)|auto]. }
    destruct (is_some (pc_user f) && is_some (pc_user acc)) eqn:E5.
    { right. eexists. split; [reflexivity|]. do 4 right; left. eapply conflict_two; [apply (ai_user _ _ I)|auto]. }
    destruct (is_some (pc_group f) && is_some (pc_group acc)) eqn:E6.
    { right. eexists. split; [reflexivity|]. do 5 right; left. eapply conflict_two; [apply (ai_group _ _ I)|auto]. }
    assert (Pf : pc_path f = None) by (destruct (pc_path f); [discriminate|reflexivity]).
    destruct (is_cronjob (pc_type f)) eqn:E7.
    { right. eexists. split; [reflexivity|]. do 6 right. apply Exists_app. right. constructor. split; auto.
      destruct (pc_type f); try discriminate. eauto. }
    left. eexists. split; [reflexivity|]. split; cbn.
    + exact Nm.
    + apply option_step; [apply I|eapply no_conflict_two; [apply I|auto]].
    + apply option_step; [apply I|eapply no_conflict_two; [apply I|auto]].
    + apply option_step; [apply I|eapply no_conflict_two; [apply I|auto]].
    + apply option_step; [apply I|eapply no_conflict_two; [apply I|auto]].
    + apply option_step; [apply I|eapply no_conflict_two; [apply I|auto]].
    + eapply list_step; [auto|apply I|]. intros x. rewrite in_app_iff. reflexivity.
    + eapply list_step; [auto|apply I|]. intros x. rewrite in_app_iff. reflexivity.
    + eapply list_step; [auto|apply I|]. intros x. rewrite in_app_iff. reflexivity.
    + rewrite existsb_app. cbn. rewrite orb_false_r, (ai_pty _ _ I). reflexivity.
    + right. destruct (ai_shape _ _ I) as [(H & _)|(l1 & p & l2 & -> & Hp & Hpp & B1 & B2 & Ht & Ha & He)]; [congruence|].
      exists l1, p, (l2 ++ [f]). rewrite <- app_assoc. cbn. repeat split; auto.
      * apply Forall_app. split; auto. repeat constructor; auto.
      * rewrite Ha, map_app, concat_app. cbn. rewrite app_nil_r, <- !app_assoc. reflexivity.
      * rewrite He, map_app, concat_app. cbn. rewrite app_nil_r, <- !app_assoc. reflexivity.
  - unfold merge_into. rewrite EP. cbn [is_some].
    destruct (is_some (pc_workdir acc) && is_some (pc_workdir f)) eqn:E2.
    { right. eexists. split; [reflexivity|]. right; left. rewrite andb_comm in E2. eapply conflict_two; [apply (ai_workdir _ _ I)|auto]. }
    destruct (is_some (pc_uid acc) && is_some (pc_uid f)) eqn:E3.
    { right. eexists. split; [reflexivity|]. right; right; left. rewrite andb_comm in E3. eapply conflict_two; [apply (ai_uid _ _ I)|auto]. }
    destruct (is_some (pc_gid acc) && is_some (pc_gid f)) eqn:E4.
    { right. eexists. split; [reflexivity|]. do 3 right; left. rewrite andb_comm in E4. eapply conflict_two; [apply (ai_gid _ _ I)|auto]. }
    destruct (is_some (pc_user acc) && is_some (pc_user f)) eqn:E5.
    { right. eexists. split; [reflexivity|]. do 4 right; left. rewrite andb_comm in E5. eapply conflict_two; [apply (ai_user _ _ I)|auto]. }
    destruct (is_some (pc_group acc) && is_some (pc_group f)) eqn:E6.
    { right. eexists. split; [reflexivity|]. do 5 right; left. rewrite andb_comm in E6. eapply conflict_two; [apply (ai_group _ _ I)|auto]. }
    destruct (ai_shape _ _ I) as [(_ & Hall & (fs0 & x & Hx & Hc & Ht) & Ha & He)|(l1 & p & l2 & -> & Hp & Hpp & _)];
      [|congruence].
    destruct (is_cronjob (pc_type acc)) eqn:E7.
    { right. eexists. split; [reflexivity|]. do 6 right. apply Exists_app. left. apply Exists_exists. exists x.
      split; [rewrite Hx; apply in_snoc; auto|]. split.
      - rewrite Forall_forall in Hall. apply Hall. rewrite Hx. apply in_snoc; auto.
      - rewrite Ht in E7. destruct (pc_type x); try discriminate. eauto. }
    rewrite andb_comm in E2, E3, E4, E5, E6.
    left. eexists. split; [reflexivity|]. split; cbn.
    + intros g Hg. rewrite Hn. auto.
    + erewrite (opt_or_comm pc_workdir fs); [|apply I|eapply no_conflict_two; [apply I|auto]].
      apply option_step; [apply I|eapply no_conflict_two; [apply I|auto]].
    + erewrite (opt_or_comm pc_uid fs); [|apply I|eapply no_conflict_two; [apply I|auto]].
      apply option_step; [apply I|eapply no_conflict_two; [apply I|auto]].
    + erewrite (opt_or_comm pc_gid fs); [|apply I|eapply no_conflict_two; [apply I|auto]].
      apply option_step; [apply I|eapply no_conflict_two; [apply I|auto]].
    + erewrite (opt_or_comm pc_user fs); [|apply I|eapply no_conflict_two; [apply I|auto]].
      apply option_step; [apply I|eapply no_conflict_two; [apply I|auto]].
    + erewrite (opt_or_comm pc_group fs); [|apply I|eapply no_conflict_two; [apply I|auto]].
      apply option_step; [apply I|eapply no_conflict_two; [apply I|auto]].
    + eapply list_step; [auto|apply I|]. intros y. rewrite in_app_iff. tauto.
    + eapply list_step; [auto|apply I|]. intros y. rewrite in_app_iff. tauto.
    + eapply list_step; [auto|apply I|]. intros y. rewrite in_app_iff. tauto.
    + rewrite existsb_app. cbn. rewrite orb_false_r, (ai_pty _ _ I), orb_comm. reflexivity.
    + assert (Hc' : Forall no_cron fs).
      { rewrite Hx. apply Forall_app. split; auto. repeat constructor. unfold no_cron. congruence. }
      destruct (pc_path f) as [pf|] eqn:Pf.
      * right. exists fs, f, []. cbn. rewrite app_nil_r. repeat split; auto; try congruence.
        -- apply Forall_forall. intros g Hg. rewrite Forall_forall in Hall, Hc'. split; auto.
        -- rewrite app_nil_r, He. reflexivity.
      * left. repeat split; auto.
        -- apply Forall_app. split; auto.
        -- exists fs, f. auto.
        -- rewrite Ha, rev_app_distr. reflexivity.
        -- rewrite He, rev_app_distr. reflexivity.
Qed.

Lemma two_app {A} (P : A -> Prop) l l' : two P l -> two P (l ++ l').
Proof.
  intros (l1 & x & l2 & y & l3 & -> & Hx & Hy). exists l1, x, l2, y, (l3 ++ l').
  rewrite <- !app_assoc. cbn. rewrite <- !app_assoc. auto.
Qed.
Lemma conflict_app fs fs' : conflict fs -> conflict (fs ++ fs').
Proof.
  unfold conflict. intros [K|[K|[K|[K|[K|[K|K]]]]]];
    [left|right; left|right; right; left|do 3 right; left|do 4 right; left|do 5 right; left|do 6 right];
    try (apply two_app; assumption). apply Exists_app. auto.
Qed.

Lemma merge_all_spec : forall fs acc fs0, fs0 <> [] -> acc_inv fs0 acc ->
  (forall f, In f fs -> pc_name f = pc_name acc) ->
  (exists r, merge_all acc fs = Ret (Ok r) /\ acc_inv (fs0 ++ fs) r) \/
  (exists e, merge_all acc fs = Ret (Err e) /\ conflict (fs0 ++ fs)).
Proof.
  induction fs as [|f rest IH]; intros acc fs0 Hne I Hn; cbn [merge_all].
  - left. exists acc. rewrite app_nil_r. auto.
  - assert (Hf : pc_name f = pc_name acc) by (apply Hn; left; reflexivity).
    destruct (merge_step fs0 acc f Hne I Hf) as [(acc' & -> & I')|(e & -> & C)].
    + assert (Hacc : pc_name acc' = pc_name acc).
      { rewrite <- Hf. symmetry. apply (ai_name _ _ I'). apply in_snoc; auto. }
      destruct (IH acc' (fs0 ++ [f])) as [(r & -> & R)|(e & -> & C)].
      * destruct fs0; discriminate.
      * auto.
      * intros g Hg. rewrite Hacc. apply Hn. right. auto.
      * left. exists r. rewrite <- app_assoc in R. auto.
      * right. exists e. rewrite <- app_assoc in C. auto.
    + right. exists e. split; auto.
      replace (fs0 ++ f :: rest) with ((fs0 ++ [f]) ++ rest) by (rewrite <- app_assoc; reflexivity).
      apply conflict_app. auto.
Qed.

Lemma merge_fragments_spec fs : fs <> [] -> same_name fs ->
  (exists r, merge_fragments fs = Ret (Ok r) /\ acc_inv fs r) \/
  (exists e, merge_fragments fs = Ret (Err e) /\ conflict fs).
Proof.
  intros Hne Hs. destruct fs as [|f rest]; [congruence|]. cbn [merge_fragments].
  apply (merge_all_spec rest f [f]); [discriminate|apply acc_inv_single|].
  intros g Hg. apply Hs; [right; auto|left; reflexivity].
Qed.

(** * C03: rejected exactly on conflicts *)

Theorem merge_rejects fs : same_name fs -> Exists (has pc_path) fs ->
  (conflict fs <-> exists e, merge_fragments fs = Ret (Err e)) /\
  (~ conflict fs <-> exists r, merge_fragments fs = Ret (Ok r)).
Proof.
  intros Hs He. assert (Hne : fs <> []) by (intros ->; inversion He).
  destruct (merge_fragments_spec fs Hne Hs) as [(r & E & I)|(e & E & C)].
  - pose proof (acc_inv_no_conflict _ _ I He) as N. rewrite E. split; split; intros H.
    + contradiction.
    + destruct H as [e H]. discriminate.
    + eauto.
    + auto.
  - rewrite E. split; split; intros H.
    + eauto.
    + auto.
    + contradiction.
    + destruct H as [r H]. discriminate.
Qed.

(** * C02: what an accepted merge contains *)

Theorem merge_contents fs r : same_name fs -> Exists (has pc_path) fs ->
  merge_fragments fs = Ret (Ok r) ->
  exists l1 p l2, fs = l1 ++ p :: l2 /\ pc_path p <> None /\ Forall pathless l1 /\ Forall pathless l2 /\
    pc_name r = pc_name p /\ pc_path r = pc_path p /\ pc_type r = pc_type p /\
    pc_args r = pc_args p ++ concat (map pc_args (rev l1)) ++ concat (map pc_args l2) /\
    pc_env r = pc_env p ++ concat (map pc_env (rev l1)) ++ concat (map pc_env l2).
Proof.
  intros Hs He E. assert (Hne : fs <> []) by (intros ->; inversion He).
  destruct (merge_fragments_spec fs Hne Hs) as [(r' & E' & I)|(e & E' & C)]; [|congruence].
  assert (r' = r) by congruence. subst r'.
  pose proof (path_shape _ _ (ai_shape _ _ I)) as (_ & _ & P). apply P in He.
  destruct (ai_shape _ _ I) as [(H & _)|(l1 & p & l2 & HH & Hp & Hpp & B1 & B2 & Ht & Ha & Hen)]; [congruence|].
  exists l1, p, l2. repeat split; auto.
  - eapply Forall_impl; [|exact B1]. intros a []; auto.
  - eapply Forall_impl; [|exact B2]. intros a []; auto.
  - symmetry. apply (ai_name _ _ I). rewrite HH. apply in_elt.
Qed.

Theorem merge_fields fs r : same_name fs -> Exists (has pc_path) fs ->
  merge_fragments fs = Ret (Ok r) ->
  the_only pc_path fs (pc_path r) /\ the_only pc_workdir fs (pc_workdir r) /\
  the_only pc_uid fs (pc_uid r) /\ the_only pc_gid fs (pc_gid r) /\
  the_only pc_user fs (pc_user r) /\ the_only pc_group fs (pc_group r) /\
  (pc_pty r = true <-> exists f, In f fs /\ pc_pty f = true) /\
  ((2 <= length fs)%nat -> union_of pc_before fs (pc_before r) /\ union_of pc_after fs (pc_after r) /\
                    union_of pc_caps fs (pc_caps r)) /\
  (forall f, fs = [f] -> r = f).
Proof.
  intros Hs He E. assert (Hne : fs <> []) by (intros ->; inversion He).
  destruct (merge_contents fs r Hs He E) as (l1 & p & l2 & HH & Hp & B1 & B2 & _ & Hpp & _).
  destruct (merge_fragments_spec fs Hne Hs) as [(r' & E' & I)|(e & E' & C)]; [|congruence].
  assert (r' = r) by congruence. subst r'.
  repeat apply conj.
  - intros v. rewrite Hpp. split.
    + intros H. exists p. split; [rewrite HH; apply in_elt|auto].
    + intros (f & Hin & Hf). rewrite HH in Hin. rewrite Forall_forall in B1, B2. unfold pathless in *.
      apply in_app_or in Hin. destruct Hin as [Hin|[<-|Hin]]; [rewrite B1 in Hf by auto|auto|rewrite B2 in Hf by auto]; discriminate.
  - apply I.
  - apply I.
  - apply I.
  - apply I.
  - apply I.
  - rewrite (ai_pty _ _ I), existsb_exists. auto.
  - rewrite (ai_pty _ _ I), existsb_exists. auto.
  - intros L. split; [|split]; split; try (apply I; auto; fail).
  - intros f ->. cbn in E. congruence.
Qed.

(** * C01: the order does not matter *)

Lemma the_only_ext {B} (field : proc_config -> option B) fs fs' r r' :
  (forall f, In f fs <-> In f fs') -> the_only field fs r -> the_only field fs' r' -> r = r'.
Proof.
  intros Hp H H'.
  destruct r as [v|].
  - destruct (proj1 (H v) eq_refl) as (f & Hin & Hf). symmetry. apply H'. exists f. split; [apply Hp|]; auto.
  - destruct r' as [v|]; [|reflexivity].
    destruct (proj1 (H' v) eq_refl) as (f & Hin & Hf). apply H. exists f. split; [apply Hp|]; auto.
Qed.

Lemma union_ext field fs fs' r r' :
  (forall f, In f fs <-> In f fs') -> union_of field fs r -> union_of field fs' r' -> r = r'.
Proof.
  intros Hp [S H] [S' H']. apply sorted_ext; auto. intros x. rewrite H, H'.
  split; intros (f & Hin & Hf); exists f; (split; [apply Hp|]; auto).
Qed.

Theorem merge_order fs fs' : same_name fs -> Exists (has pc_path) fs -> Permutation fs fs' ->
  ((exists e, merge_fragments fs = Ret (Err e)) /\ (exists e, merge_fragments fs' = Ret (Err e))) \/
  (exists r r', merge_fragments fs = Ret (Ok r) /\ merge_fragments fs' = Ret (Ok r') /\ order_free r r').
Proof.
  intros Hs He HP.
  assert (HPi : forall f, In f fs <-> In f fs').
  { intros f. split; apply Permutation_in; [auto|symmetry; auto]. }
  assert (Hs' : same_name fs') by (intros f g Hf Hg; apply Hs; apply HPi; auto).
  assert (He' : Exists (has pc_path) fs').
  { apply Exists_exists in He. destruct He as (f & Hin & Hf). apply Exists_exists. exists f. split; [apply HPi|]; auto. }
  destruct (merge_rejects fs Hs He) as [[R1 R2] _]. destruct (merge_rejects fs' Hs' He') as [[R1' R2'] _].
  assert (Hne : fs <> []) by (intros ->; inversion He).
  assert (Hne' : fs' <> []) by (intros ->; inversion He').
  destruct (merge_fragments_spec fs Hne Hs) as [(r & E & I)|(e & E & C)].
  - destruct (merge_fragments_spec fs' Hne' Hs') as [(r' & E' & I')|(e' & E' & C')].
    + right. exists r, r'. split; [auto|split; [auto|]].
      destruct (merge_contents _ _ Hs He E) as (l1 & p & l2 & HH & Hp & B1 & B2 & Hnm & Hpp & Ht & _).
      destruct (merge_contents _ _ Hs' He' E') as (l1' & p' & l2' & HH' & Hp' & B1' & B2' & Hnm' & Hpp' & Ht' & _).
      assert (Epp : p = p').
      { assert (K : In p fs') by (apply HPi; rewrite HH; apply in_elt). rewrite HH' in K.
        rewrite Forall_forall in B1', B2'. unfold pathless in *. apply in_app_or in K.
        destruct K as [K|[K|K]]; [apply B1' in K|auto|apply B2' in K]; contradiction. }
      subst p'.
      destruct (merge_fields _ _ Hs He E) as (F1 & F2 & F3 & F4 & F5 & F6 & F7 & F8 & F9).
      destruct (merge_fields _ _ Hs' He' E') as (F1' & F2' & F3' & F4' & F5' & F6' & F7' & F8' & F9').
      assert (HL : pc_before r = pc_before r' /\ pc_after r = pc_after r' /\ pc_caps r = pc_caps r').
      { destruct (Nat.leb 2 (length fs)) eqn:L.
        - apply Nat.leb_le in L. assert (L' : (2 <= length fs')%nat) by (rewrite <- (Permutation_length HP); auto).
          specialize (F8 L). specialize (F8' L'). destruct F8 as (U1 & U2 & U3). destruct F8' as (U1' & U2' & U3').
          repeat split; eapply union_ext; eauto.
        - apply Nat.leb_gt in L. destruct fs as [|f [|g rest]]; [congruence| |cbn in L; lia].
          apply Permutation_length_1_inv in HP. subst fs'.
          rewrite (F9 f eq_refl), (F9' f eq_refl). auto. }
      unfold order_free. repeat split; try (eapply the_only_ext; eauto; fail); try congruence; try apply HL.
      apply eq_true_iff_eq. rewrite F7, F7'. split; intros (f & Hin & Hf); exists f; (split; [apply HPi|]; auto).
    + exfalso. apply (conflict_permutation _ fs) in C'; [|symmetry; auto].
      apply R1 in C'. destruct C'. congruence.
  - left. split; [eauto|]. apply R1'. eapply conflict_permutation; eauto.
Qed.

(** * C04: the dictionary of programs *)

Definition dict_ok (seen : list proc_config) (d : dict) : Prop :=
  NoDup (map fst d) /\
  (forall n, In n (map fst d) <-> In n (map pc_name seen)) /\
  (forall n c, In (n, c) d -> pc_name c = n /\ merge_fragments (fragments n seen) = Ret (Ok c)).

Lemma fragments_app n l l' : fragments n (l ++ l') = fragments n l ++ fragments n l'.
Proof. apply filter_app. Qed.
Lemma fragments_same n l : same_name (fragments n l).
Proof.
  intros f g Hf Hg. unfold fragments in *. apply filter_In in Hf, Hg.
  destruct Hf as [_ Hf]. destruct Hg as [_ Hg]. apply String.eqb_eq in Hf, Hg. congruence.
Qed.
Lemma fragments_ne n l : fragments n l <> [] <-> In n (map pc_name l).
Proof.
  split.
  - destruct (fragments n l) as [|c r] eqn:E; [congruence|]. intros _.
    assert (K : In c (fragments n l)) by (rewrite E; left; reflexivity).
    apply filter_In in K. destruct K as [K1 K2]. apply String.eqb_eq in K2. subst. apply in_map. auto.
  - intros H. apply in_map_iff in H. destruct H as (c & <- & Hc). intros E.
    assert (K : In c (fragments (pc_name c) l)) by (apply filter_In; split; [auto|apply String.eqb_refl]).
    rewrite E in K. inversion K.
Qed.

Lemma merge_all_snoc fs : forall acc f r, merge_all acc fs = Ret (Ok r) ->
  merge_all acc (fs ++ [f]) = merge r f.
Proof.
  induction fs as [|g rest IH]; intros acc f r H; cbn in *.
  - inversion H; subst. destruct (merge r f) as [[x|x]|x]; reflexivity.
  - destruct (merge acc g) as [[x|x]|x]; try discriminate. apply IH; auto.
Qed.
Lemma merge_fragments_snoc fs f r : merge_fragments fs = Ret (Ok r) ->
  merge_fragments (fs ++ [f]) = merge r f.
Proof. destruct fs as [|g rest]; [discriminate|]. cbn. apply merge_all_snoc. Qed.

Lemma merge_all_err fs : forall acc fs' e, merge_all acc fs = Ret (Err e) ->
  merge_all acc (fs ++ fs') = Ret (Err e).
Proof.
  induction fs as [|g rest IH]; intros acc fs' e H; cbn in *; [discriminate|].
  destruct (merge acc g) as [[x|x]|x]; try discriminate; auto.
Qed.
Lemma merge_fragments_err fs fs' e : merge_fragments fs = Ret (Err e) ->
  merge_fragments (fs ++ fs') = Ret (Err e).
Proof. destruct fs as [|g rest]; [discriminate|]. cbn. apply merge_all_err. Qed.

Lemma dict_get_in n d c : dict_get n d = Some c -> In (n, c) d.
Proof.
  unfold dict_get. destruct (find _ d) as [[m c']|] eqn:E; [|discriminate].
  intros H. inversion H; subst. apply find_some in E. destruct E as [E1 E2]. cbn in E2.
  apply String.eqb_eq in E2. subst. auto.
Qed.
Lemma dict_get_none n d : dict_get n d = None -> ~ In n (map fst d).
Proof.
  unfold dict_get. destruct (find _ d) as [[m c']|] eqn:E; [discriminate|].
  intros _ H. apply in_map_iff in H. destruct H as ([m c] & <- & H).
  apply (find_none _ _ E) in H. cbn in H. rewrite String.eqb_refl in H. discriminate.
Qed.
Lemma dict_remove_in n d m c : In (m, c) (dict_remove n d) <-> In (m, c) d /\ m <> n.
Proof.
  unfold dict_remove. rewrite filter_In. cbn. rewrite negb_true_iff, String.eqb_neq. reflexivity.
Qed.
Lemma dict_remove_fst n d m : In m (map fst (dict_remove n d)) <-> In m (map fst d) /\ m <> n.
Proof.
  rewrite !in_map_iff. split.
  - intros ([m' c] & <- & H). apply dict_remove_in in H. split; [exists (m', c); split; [reflexivity|apply H]|apply H].
  - intros [([m' c] & <- & H) Hn]. exists (m', c). split; [reflexivity|]. apply dict_remove_in. auto.
Qed.
Lemma dict_remove_nodup n d : NoDup (map fst d) -> NoDup (map fst (dict_remove n d)).
Proof.
  induction d as [|[m c] r IH]; cbn; [auto|]. intros H. inversion H as [|? ? H1 H2]; subst.
  destruct (String.eqb m n); cbn; [auto|]. constructor; [|auto].
  intros K. apply dict_remove_fst in K. apply H1, K.
Qed.
Lemma dict_remove_twice n d : dict_remove n (dict_remove n d) = dict_remove n d.
Proof.
  induction d as [|[m c] r IH]; cbn; [reflexivity|]. destruct (String.eqb m n) eqn:E; cbn; [auto|].
  rewrite E. cbn. f_equal. auto.
Qed.

Lemma dict_insert_ok seen d c c' : dict_ok seen d ->
  pc_name c' = pc_name c ->
  merge_fragments (fragments (pc_name c) seen ++ [c]) = Ret (Ok c') ->
  dict_ok (seen ++ [c]) (dict_insert (pc_name c) c' d).
Proof.
  intros (H1 & H2 & H3) Hn Hm. unfold dict_insert. repeat apply conj.
  - cbn. constructor; [|apply dict_remove_nodup; auto]. intros K. apply dict_remove_fst in K. apply K. reflexivity.
  - intros n. cbn. rewrite dict_remove_fst, H2, map_app, in_app_iff. cbn.
    destruct (string_dec n (pc_name c)) as [->|E]; intuition.
  - intros n c0 [E|E].
    + inversion E; subst. split; auto. rewrite fragments_app. cbn. rewrite String.eqb_refl. auto.
    + apply dict_remove_in in E. destruct E as [E1 E2]. apply H3 in E1. destruct E1 as [E1 E3]. split; auto.
      rewrite fragments_app. cbn. destruct (String.eqb (pc_name c) n) eqn:F.
      * apply String.eqb_eq in F. congruence.
      * rewrite app_nil_r. auto.
Qed.

Lemma merge_loop_spec : forall programs seen d, dict_ok seen d ->
  (exists d', merge_loop programs d = Ret (Ok d') /\ dict_ok (seen ++ programs) d') \/
  (merge_loop programs d = Ret (Err CONFIG_EXIT) /\
   exists n e, In n (map pc_name (seen ++ programs)) /\
     merge_fragments (fragments n (seen ++ programs)) = Ret (Err e)).
Proof.
  induction programs as [|c rest IH]; intros seen d Hd; cbn [merge_loop].
  - left. exists d. rewrite app_nil_r. auto.
  - replace (seen ++ c :: rest) with ((seen ++ [c]) ++ rest) by (rewrite <- app_assoc; reflexivity).
    assert (Hd' := Hd). destruct Hd' as (H1 & H2 & H3).
    destruct (dict_get (pc_name c) d) as [process|] eqn:G.
    + apply dict_get_in in G. destruct (H3 _ _ G) as [Hn Hm].
      pose proof (merge_fragments_snoc _ c _ Hm) as Hs.
      assert (Hspec := merge_fragments_spec (fragments (pc_name c) seen ++ [c])).
      assert (EQ : fragments (pc_name c) seen ++ [c] = fragments (pc_name c) (seen ++ [c])).
      { rewrite fragments_app. cbn. rewrite String.eqb_refl. reflexivity. }
      destruct Hspec as [(r & E & I)|(e & E & C)].
      * destruct (fragments (pc_name c) seen); discriminate.
      * rewrite EQ. apply fragments_same.
      * rewrite <- Hs, E. 
        assert (Hr : pc_name r = pc_name c).
        { symmetry. apply (ai_name _ _ I). apply in_snoc; auto. }
        rewrite Hr.
        assert (DT : dict_insert (pc_name c) r (dict_remove (pc_name c) d) = dict_insert (pc_name c) r d)
          by (unfold dict_insert; rewrite dict_remove_twice; reflexivity).
        rewrite DT. apply IH. apply dict_insert_ok; auto.
      * rewrite <- Hs, E. right. split; [reflexivity|]. exists (pc_name c), e. split.
        -- rewrite !map_app, !in_app_iff. cbn. auto.
        -- rewrite fragments_app, <- EQ. apply merge_fragments_err. auto.
    + apply IH. apply dict_insert_ok; auto.
      assert (K : fragments (pc_name c) seen = []).
      { apply dict_get_none in G. rewrite H2, <- fragments_ne in G.
        destruct (fragments (pc_name c) seen); [reflexivity|]. exfalso. apply G. discriminate. }
      rewrite K. reflexivity.
Qed.

Lemma merge_loop_start programs :
  (exists d', merge_loop programs [] = Ret (Ok d') /\ dict_ok programs d') \/
  (merge_loop programs [] = Ret (Err CONFIG_EXIT) /\
   exists n e, In n (map pc_name programs) /\ merge_fragments (fragments n programs) = Ret (Err e)).
Proof.
  apply (merge_loop_spec programs [] []). split; [constructor|]. split; [reflexivity|]. intros n c [].
Qed.

Theorem merge_dropins_total drain programs : some_order drain ->
  (exists out, merge_dropins drain programs = Ret (Ok out)) \/
  (merge_dropins drain programs = Ret (Err CONFIG_EXIT) /\
   exists n e, In n (map pc_name programs) /\ merge_fragments (fragments n programs) = Ret (Err e)).
Proof.
  intros Hd. unfold merge_dropins.
  destruct (merge_loop_start programs) as [(d & -> & _)|(-> & H)]; [left; eauto|right; auto].
Qed.

Theorem merge_dropins_spec drain programs out : some_order drain ->
  merge_dropins drain programs = Ret (Ok out) ->
  NoDup (map pc_name out) /\
  (forall n, In n (map pc_name out) <-> In n (map pc_name programs)) /\
  (forall c, In c out -> merge_fragments (fragments (pc_name c) programs) = Ret (Ok c)).
Proof.
  intros Hd. unfold merge_dropins.
  destruct (merge_loop_start programs) as [(d & -> & H1 & H2 & H3)|(-> & H)]; [|discriminate].
  intros E. inversion E; subst; clear E.
  assert (M : map pc_name (map snd (drain d)) = map fst (drain d)).
  { rewrite map_map. apply map_ext_in. intros [n c] Hin. cbn.
    apply (Permutation_in _ (Hd d)) in Hin. apply H3 in Hin. apply Hin. }
  rewrite M. assert (P : Permutation (map fst (drain d)) (map fst d)) by (apply Permutation_map, Hd).
  repeat apply conj.
  - eapply Permutation_NoDup; [symmetry; exact P|auto].
  - intros n. rewrite <- H2. split; apply Permutation_in; [auto|symmetry; auto].
  - intros c Hc. apply in_map_iff in Hc. destruct Hc as ([n c'] & <- & Hin). cbn.
    apply (Permutation_in _ (Hd d)) in Hin. destruct (H3 _ _ Hin) as [E K]. rewrite E. auto.
Qed.

(** Accepted iff every program's own fragments merge. *)
Theorem merge_dropins_accepts drain programs : some_order drain ->
  (exists out, merge_dropins drain programs = Ret (Ok out)) <->
  (forall n, In n (map pc_name programs) -> exists c, merge_fragments (fragments n programs) = Ret (Ok c)).
Proof.
  intros Hd. split.
  - intros (out & E) n Hn. destruct (merge_dropins_spec _ _ _ Hd E) as (_ & H2 & H3).
    apply H2, in_map_iff in Hn. destruct Hn as (c & <- & Hc). exists c. auto.
  - intros H. destruct (merge_dropins_total drain programs Hd) as [K|(_ & n & e & Hn & Hm)]; [auto|].
    apply H in Hn. destruct Hn as [c Hc]. congruence.
Qed.

(** Any order of all fragments loads the same programs. *)
Theorem load_order drain drain' programs programs' : some_order drain -> some_order drain' ->
  Permutation programs programs' ->
  (forall n, In n (map pc_name programs) -> Exists (has pc_path) (fragments n programs)) ->
  (merge_dropins drain programs = Ret (Err CONFIG_EXIT) /\
   merge_dropins drain' programs' = Ret (Err CONFIG_EXIT)) \/
  (exists out out', merge_dropins drain programs = Ret (Ok out) /\
     merge_dropins drain' programs' = Ret (Ok out') /\
     length out = length out' /\
     forall c, In c out -> exists c', In c' out' /\ order_free c c').
Proof.
  intros Hd Hd' HP Hpath.
  assert (HF : forall n, Permutation (fragments n programs) (fragments n programs')).
  { intros n. unfold fragments. clear -HP. induction HP; cbn; auto.
    - destruct (String.eqb _ _); auto.
    - destruct (String.eqb (pc_name y) n), (String.eqb (pc_name x) n); auto. apply perm_swap.
    - etransitivity; eauto. }
  assert (HN : forall n, In n (map pc_name programs) <-> In n (map pc_name programs')).
  { intros n. split; apply Permutation_in, Permutation_map; [auto|symmetry; auto]. }
  assert (HM : forall n, In n (map pc_name programs) ->
    ((exists e, merge_fragments (fragments n programs) = Ret (Err e)) /\
     (exists e, merge_fragments (fragments n programs') = Ret (Err e))) \/
    (exists r r', merge_fragments (fragments n programs) = Ret (Ok r) /\
       merge_fragments (fragments n programs') = Ret (Ok r') /\ order_free r r')).
  { intros n Hn. apply merge_order; auto. apply fragments_same. }
  destruct (merge_dropins_total drain programs Hd) as [(out & E)|(E & n & e & Hn & He)].
  - destruct (merge_dropins_total drain' programs' Hd') as [(out' & E')|(E' & n & e & Hn & He)].
    + right. exists out, out'. split; [auto|]. split; [auto|].
      destruct (merge_dropins_spec _ _ _ Hd E) as (N & S & M).
      destruct (merge_dropins_spec _ _ _ Hd' E') as (N' & S' & M').
      split.
      * rewrite <- (map_length pc_name out), <- (map_length pc_name out').
        apply Permutation_length. apply NoDup_Permutation; auto. intros n. rewrite S, S'. auto.
      * intros c Hc. assert (Hn : In (pc_name c) (map pc_name programs)) by (apply S, in_map; auto).
        destruct (HM _ Hn) as [[(e & K) _]|(r & r' & K & K' & O)]; [rewrite M in K by auto; discriminate|].
        rewrite M in K by auto. inversion K; subst r.
        assert (Hn' : In (pc_name c) (map pc_name out')) by (apply S', HN; auto).
        apply in_map_iff in Hn'. destruct Hn' as (c' & En & Hc').
        exists c'. split; auto. apply M' in Hc'. rewrite En in Hc'. congruence.
    + exfalso. apply HN in Hn. destruct (merge_dropins_spec _ _ _ Hd E) as (N & S & M).
      destruct (HM n Hn) as [[(e' & K) _]|(r & r' & _ & K & _)]; [|congruence].
      apply S, in_map_iff in Hn. destruct Hn as (c & <- & Hc). apply M in Hc. congruence.
  - left. split; auto.
    destruct (merge_dropins_total drain' programs' Hd') as [(out' & E')|(E' & _)]; auto.
    exfalso. destruct (merge_dropins_spec _ _ _ Hd' E') as (N & S & M).
    destruct (HM n Hn) as [[_ (e' & K)]|(r & r' & K & _)]; [|congruence].
    apply HN, S, in_map_iff in Hn. destruct Hn as (c & <- & Hc). apply M in Hc. congruence.
Qed.

(** * C05: reading the tree *)

Section NodeInd.
  Context (P : node -> Prop).
  Context (Hm : P NoMetadata) (Hf : forall c, P (File c)) (Hs : P Special) (Hd : P (Dir None)).
  Context (Hds : forall es, (forall u m, In (Entry u m) es -> P m) -> P (Dir (Some es))).
  Fixpoint node_ind' (n : node) : P n.
  Proof.
    destruct n as [| | |[es|]]; [exact Hm|apply Hf|exact Hs| |exact Hd].
    apply Hds. induction es as [|e r IH]; [intros u m []|].
    intros u m [E|Hin]; [|exact (IH u m Hin)].
    destruct e as [|u' m']; [discriminate|]. injection E as _ <-. apply node_ind'.
  Defined.
End NodeInd.

Definition read_entries : list dirent -> outcome (result (list string) Z) :=
  fix go (l : list dirent) : outcome (result (list string) Z) :=
         match l with
         | [] => Ret (Ok [])
         | BadEntry :: _ => Ret (Err CONFIG_EXIT)
         | Entry false _ :: _ => Panic "called `Option::unwrap()` on a `None` value"
         | Entry true m :: rest =>
             match read_config m with
             | Panic s => Panic s
             | Ret (Err e) => Ret (Err e)
             | Ret (Ok content) =>
                 match go rest with
                 | Ret (Ok more) => Ret (Ok (content ++ more))
                 | other => other
                 end
             end
         end.
Lemma read_dir es : read_config (Dir (Some es)) = read_entries es.
Proof. reflexivity. Qed.

Inductive read_spec (root : node) : outcome (result (list string) Z) -> Prop :=
| read_ok ps contents : listing root ps contents -> ~ broken root -> ~ non_utf8 root ->
    read_spec root (Ret (Ok contents))
| read_err : broken root -> read_spec root (Ret (Err CONFIG_EXIT))
| read_panic s : non_utf8 root -> read_spec root (Panic s).

Lemma node_at_leaf_file c p n : node_at (File c) p n -> p = [] /\ n = File c.
Proof. intros H. inversion H; auto. Qed.

Lemma dir_broken es : broken (Dir (Some es)) <->
  In BadEntry es \/ exists u m, In (Entry u m) es /\ broken m.
Proof.
  split.
  - intros (p & n & H & U). inversion H; subst.
    + inversion U; subst; auto.
    + right. exists u, m. split; [eapply nth_error_In; eauto|]. exists p0, n. auto.
  - intros [H|(u & m & Hin & p & n & H & U)].
    + exists [], (Dir (Some es)). split; constructor; auto.
    + apply In_nth_error in Hin. destruct Hin as [i Hi]. exists (i :: p), n. split; auto. econstructor; eauto.
Qed.
Lemma dir_non_utf8 es : non_utf8 (Dir (Some es)) <->
  (exists m, In (Entry false m) es) \/ exists u m, In (Entry u m) es /\ non_utf8 m.
Proof.
  split.
  - intros (p & es' & m & H & Hin). inversion H; subst.
    + left. eauto.
    + right. exists u, m0. split; [eapply nth_error_In; eauto|]. exists p0, es', m. auto.
  - intros [(m & Hin)|(u & m & Hin & p & es' & m' & H & K)].
    + exists [], es, m. split; [constructor|auto].
    + apply In_nth_error in Hin. destruct Hin as [i Hi]. exists (i :: p), es', m'. split; auto. econstructor; eauto.
Qed.

(** The same, for the entries of a directory from some position on. *)
Definition shift_path (p : list nat) : list nat := match p with [] => [] | i :: r => S i :: r end.

Lemma listing_cons m es ps cs qs ds :
  listing m ps cs -> listing (Dir (Some es)) qs ds ->
  listing (Dir (Some (Entry true m :: es))) (map (cons 0%nat) ps ++ map shift_path qs) (cs ++ ds).
Proof.
  intros (N1 & F1 & C1) (N2 & F2 & C2).
  assert (Qne : forall q, In q qs -> exists i r, q = i :: r).
  { intros q Hq. apply In_nth_error in Hq. destruct Hq as [k Hk].
    assert (exists d, nth_error ds k = Some d).
    { clear -F2 Hk. revert k Hk. induction F2; intros [|k] Hk; cbn in *; try discriminate; eauto. }
    destruct H as [d Hd].
    assert (K : file_at (Dir (Some es)) q d).
    { clear -F2 Hk Hd. revert k Hk Hd. induction F2; intros [|k] Hk Hd; cbn in *; try discriminate.
      - inversion Hk; inversion Hd; subst; auto.
      - eauto. }
    inversion K; subst. eauto. }
  split; [|split].
  - assert (NA : NoDup (map (cons 0%nat) ps)).
    { apply FinFun.Injective_map_NoDup; auto. intros a b E. inversion E; auto. }
    assert (NB : NoDup (map shift_path qs)).
    { clear -N2 Qne. induction N2 as [|q qs Hq N IH]; cbn; constructor.
      - intros K. apply in_map_iff in K. destruct K as (q' & E & Hq').
        destruct (Qne q (or_introl eq_refl)) as (i & r & ->).
        destruct (Qne q' (or_intror Hq')) as (j & r' & ->). cbn in E. inversion E; subst. auto.
      - apply IH. intros x Hx. apply Qne. right. auto. }
    clear -NA NB Qne. induction ps as [|p ps IH]; cbn; [auto|].
    inversion NA as [|? ? A1 A2]; subst. constructor; [|auto].
    rewrite in_app_iff. intros [K|K]; [auto|].
    apply in_map_iff in K. destruct K as (q & E & Hq). destruct (Qne q Hq) as (i & r & ->). discriminate.
  - apply Forall2_app.
    + clear -F1. induction F1; cbn; constructor; auto. unfold file_at in *. econstructor; [reflexivity|auto].
    + clear -F2. induction F2 as [|q d qs ds H F IH]; cbn; constructor; auto.
      inversion H; subst. cbn. unfold file_at. econstructor; [cbn; eassumption|eassumption].
  - intros p s H. inversion H; subst. destruct i as [|i]; cbn in *.
    + match goal with K : Some _ = Some _ |- _ => inversion K; subst end.
      apply in_or_app. left. apply in_map. eapply C1; eauto.
    + apply in_or_app. right. apply in_map_iff. exists (i :: p0). split; [reflexivity|].
      eapply C2. econstructor; eauto.
Qed.

Theorem read_config_spec root : read_spec root (read_config root).
Proof.
  induction root as [|c| | |es IH] using node_ind'.
  - apply read_err. exists [], NoMetadata. split; constructor.
  - destruct c as [c|].
    + cbn. apply (read_ok _ [[]]).
      * split; [repeat constructor; auto|]. split; [repeat constructor|].
        intros p s H. apply node_at_leaf_file in H. destruct H as [-> _]. left. reflexivity.
      * intros (p & n & H & U). apply node_at_leaf_file in H. destruct H as [_ ->]. inversion U.
      * intros (p & es & m & H & _). apply node_at_leaf_file in H. destruct H as [_ H]. discriminate.
    + apply read_err. exists [], (File None). split; constructor.
  - cbn. apply (read_ok _ []).
    + split; [constructor|]. split; [constructor|]. intros p s H. inversion H.
    + intros (p & n & H & U). inversion H; subst. inversion U.
    + intros (p & es & m & H & _). inversion H.
  - apply read_err. exists [], (Dir None). split; constructor.
  - rewrite read_dir. induction es as [|e es IHes].
    + cbn. apply (read_ok _ []).
      * split; [constructor|]. split; [constructor|]. intros p s H. inversion H; subst. destruct i; discriminate.
      * intros H. apply dir_broken in H. destruct H as [[]|(u & m & [] & _)].
      * intros H. apply dir_non_utf8 in H. destruct H as [(m & [])|(u & m & [] & _)].
    + assert (IHe : forall u m, In (Entry u m) es -> read_spec m (read_config m)) by (intros u m Hin; eapply IH; right; eauto).
      specialize (IHes IHe). clear IHe. destruct e as [|[|] m].
      * cbn. apply read_err. apply dir_broken. left. left. reflexivity.
      * cbn [read_entries]. fold read_entries.
        assert (Hm := IH true m (or_introl eq_refl)).
        inversion Hm as [ps cs L B U E|B E|s U E].
        -- inversion IHes as [qs ds L' B' U' E'|B' E'|s' U' E'].
           ++ eapply read_ok; [eapply listing_cons; eauto| |].
              ** intros H. apply dir_broken in H. destruct H as [[H|H]|(u & m' & [H|H] & H')].
                 --- discriminate.
                 --- apply B', dir_broken. auto.
                 --- inversion H; subst. auto.
                 --- apply B', dir_broken. right. eauto.
              ** intros H. apply dir_non_utf8 in H. destruct H as [(m' & [H|H])|(u & m' & [H|H] & H')].
                 --- discriminate.
                 --- apply U', dir_non_utf8. eauto.
                 --- inversion H; subst. auto.
                 --- apply U', dir_non_utf8. right. eauto.
           ++ apply read_err. apply dir_broken. apply dir_broken in B'.
              destruct B' as [B'|(u & m' & H & H')]; [left; right; auto|right; exists u, m'; split; [right|]; auto].
           ++ apply read_panic. apply dir_non_utf8. apply dir_non_utf8 in U'.
              destruct U' as [(m' & H)|(u & m' & H & H')]; [left; exists m'; right; auto|right; exists u, m'; split; [right|]; auto].
        -- apply read_err. apply dir_broken. right. exists true, m. split; [left|]; auto.
        -- apply read_panic. apply dir_non_utf8. right. exists true, m. split; [left|]; auto.
      * cbn. apply read_panic. apply dir_non_utf8. left. exists m. left. reflexivity.
Qed.

Lemma node_at_fun root p n : forall n', node_at root p n -> node_at root p n' -> n = n'.
Proof.
  intros n' H. revert n'. induction H as [n|es i u m p n Hi H IH]; intros n' K; inversion K; subst; auto.
  rewrite Hi in *. match goal with E : Some _ = Some _ |- _ => inversion E; subst end. auto.
Qed.

(** Loading: all or nothing. *)
Theorem load_all_or_nothing yaml drain root : some_order drain -> ~ non_utf8 root ->
  (* something unreadable, or a file that is no valid configuration *)
  ((broken root \/ (exists p s, file_at root p s /\ yaml s = None)) ->
    parse_config yaml drain root = Ret (Err CONFIG_EXIT)) /\
  (* otherwise exactly the fragments of all the files, each file once *)
  (~ broken root -> (forall p s, file_at root p s -> yaml s <> None) ->
    exists ps contents parsed, listing root ps contents /\ map yaml contents = map Some parsed /\
      parse_config yaml drain root = merge_dropins drain (concat parsed)).
Proof.
  intros Hd Hu. unfold parse_config.
  assert (R := read_config_spec root). inversion R as [ps cs L B U E|B E|s U E].
  - split.
    + intros [H|(p & s & Hp & Hy)]; [contradiction|].
      unfold parse_raw_config. destruct (forallb _ cs) eqn:F; [|reflexivity].
      exfalso. destruct L as (_ & L2 & L3). 
      assert (Hin : In s cs).
      { apply L3 in Hp as Hin. clear -L2 Hin Hp.
        assert (D : forall s', file_at root p s' -> s' = s).
        { intros s' H'. pose proof (node_at_fun _ _ _ _ Hp H') as K. congruence. }
        induction L2; [inversion Hin|]. destruct Hin as [<-|Hin]; [left; symmetry|right]; auto. 
        symmetry. auto. }
      rewrite forallb_forall in F. apply F in Hin. rewrite Hy in Hin. discriminate.
    + intros _ Hy. exists ps, cs.
      exists (map (fun s => match yaml s with Some l => l | None => [] end) cs).
      split; [auto|].
      assert (Hall : forall s, In s cs -> yaml s <> None).
      { intros s Hs. destruct L as (_ & L2 & _). apply In_nth_error in Hs. destruct Hs as [k Hk].
        assert (exists p, file_at root p s) as [p Hp]; [|eapply Hy; eauto].
        clear -L2 Hk. revert k Hk. induction L2; intros [|k] Hk; cbn in *; try discriminate.
        - inversion Hk; subst; eauto.
        - eauto. }
      split.
      * rewrite map_map. apply map_ext_in. intros s Hs. apply Hall in Hs. destruct (yaml s); congruence.
      * unfold parse_raw_config.
        assert (F : forallb (fun s => is_some (yaml s)) cs = true).
        { apply forallb_forall. intros s Hs. apply Hall in Hs. destruct (yaml s); [reflexivity|congruence]. }
        rewrite F. reflexivity.
  - split; [intros _; reflexivity|]. intros NB. contradiction.
  - contradiction.
Qed.
