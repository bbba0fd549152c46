(** Proofs about the dump of the harness. *)
From stdpp Require Import gmap strings.
From Coq Require Import Ascii ZArith List Bool Lia Permutation.
From Verif Require Import Base RStr ChildModel SpecStr SpecText SpecLog SpecRun SpecChild NotifyProofs LogProofs RunForge DebugProofs HarnessModel SpecHarness.
Import ListNotations.
Local Open Scope string_scope.
Local Open Scope list_scope.
Local Open Scope Z_scope.

(** * Variables *)
Lemma variable_iff e k v : variable e = Some (k, v) <-> is_variable e k v.
Proof.
  unfold variable, is_variable. destruct e as [|a r].
  - split; [discriminate|]. intros (E & b & t & -> & _). discriminate.
  - pose proof (splitn2_spec "=" r) as S. destruct (splitn2 "=" r) as [h [t|]].
    + destruct S as [-> F]. split.
      * intros E. injection E as <- <-. split; [reflexivity|]. exists a, h. auto.
      * intros (E & b & q & -> & Fq). cbn in E. injection E as <- E. apply app_char_inj in E; [|assumption..]. destruct E as [<- <-]. reflexivity.
    + destruct S as [<- F]. split; [discriminate|]. intros (E & b & q & -> & Fq). cbn in E. injection E as <- ->. exfalso.
      apply (proj1 (free_app _ _ _)) in F. destruct F as [_ F]. apply F. now left.
Qed.
Definition vars_of (l : list string) : list (string * string) := flat_map (fun e => match variable e with Some x => [x] | None => [] end) l.
Lemma variables_of l vs : variables l vs <-> vs = vars_of l.
Proof.
  split.
  - induction 1 as [|e k v l vs H _ IH|e l vs H _ IH]; [reflexivity| |]; unfold vars_of; cbn [flat_map]; fold (vars_of l); rewrite <- IH.
    + apply variable_iff in H. rewrite H. reflexivity.
    + destruct (variable e) as [[k v]|] eqn:E; [|reflexivity]. apply variable_iff in E. contradiction (H _ _ E).
  - intros ->. induction l as [|e l IH]; [constructor|]. unfold vars_of. cbn [flat_map]. fold (vars_of l). destruct (variable e) as [[k v]|] eqn:E.
    + apply variable_iff in E. constructor; assumption.
    + apply vs_skip; [|exact IH]. intros k v K. apply variable_iff in K. congruence.
Qed.

(** * The pieces *)
Lemma sapp_assoc a b c : ((a +:+ b) +:+ c)%string = (a +:+ (b +:+ c))%string.
Proof. induction a as [|x a IH]; [reflexivity|]. exact (f_equal (String x) IH). Qed.
Lemma sapp_nil a : (a +:+ "")%string = a.
Proof. induction a as [|x a IH]; [reflexivity|]. exact (f_equal (String x) IH). Qed.
Fixpoint glue (l : list string) : string := match l with [] => "" | t :: r => t +:+ glue r end.
Lemma glue_app a b : glue (a ++ b) = glue a +:+ glue b.
Proof. induction a as [|x a IH]; [reflexivity|]. cbn. rewrite IH, sapp_assoc. reflexivity. Qed.
Lemma dumped_ret l : dumped (map Ret l) = (glue l, true).
Proof. induction l as [|t l IH]; [reflexivity|]. cbn. rewrite IH. reflexivity. Qed.
Definition good (x : outcome string) : Prop := exists t, x = Ret t.
Lemma dumped_good l : snd (dumped l) = true <-> Forall good l.
Proof.
  induction l as [|[t|m] l IH]; cbn.
  - split; auto.
  - destruct (dumped l) as [r ok]. cbn in *. rewrite IH. split; intros H; [constructor; [exists t; reflexivity|exact H]|inversion H; assumption].
  - split; [discriminate|]. intros H. inversion H as [|? ? [t E] _]. discriminate.
Qed.
Lemma glue_lines l : glue (map (fun t => t +:+ nl) l) = unlines l.
Proof. induction l as [|t l IH]; [reflexivity|]. cbn [map glue unlines]. rewrite IH, sapp_assoc. reflexivity. Qed.
Lemma unlines_app a b : unlines (a ++ b) = (unlines a +:+ unlines b)%string.
Proof. induction a as [|x a IH]; [reflexivity|]. cbn [app unlines]. rewrite IH, sapp_assoc. reflexivity. Qed.

Definition cap_texts (s : self) (order : list Z) : list string :=
  flat_map (fun x => if nonempty (letters s x) then ["      " +:+ cap_name x +:+ ": " +:+ letters s x] else []) order.
Lemma cap_loop_printed s order : cap_loop s true order = map Ret (map (fun t => t +:+ nl) (cap_texts s order)).
Proof.
  induction order as [|x order IH]; [reflexivity|]. cbn [cap_loop cap_texts flat_map]. destruct (nonempty (letters s x)); [|exact IH].
  cbn [app map]. fold (cap_texts s order). rewrite IH, !sapp_assoc. reflexivity.
Qed.
Definition cap_strings (s : self) (order : list Z) : list string :=
  match cap_texts s order with [] => [" {}" +:+ nl] | l => nl :: map (fun t => t +:+ nl) l end.
Lemma cap_loop_texts s order : cap_loop s false order = map Ret (cap_strings s order).
Proof.
  unfold cap_strings. induction order as [|x order IH]; [reflexivity|]. cbn [cap_loop cap_texts flat_map]. destruct (nonempty (letters s x)) eqn:N; [|exact IH].
  cbn [app map]. fold (cap_texts s order). rewrite cap_loop_printed. cbn [map]. rewrite !sapp_assoc. reflexivity.
Qed.
Definition block_of (s : self) (order : list Z) : list string :=
  match cap_texts s order with [] => ["    capabilities: {}"] | l => "    capabilities:" :: l end.
Lemma block_text s order : ("    capabilities:" +:+ glue (cap_strings s order))%string = unlines (block_of s order).
Proof.
  unfold cap_strings, block_of. destruct (cap_texts s order) as [|t l]; [reflexivity|].
  cbn [glue]. rewrite glue_lines. reflexivity.
Qed.

Definition lines_of (order : list Z) (s : self) : list string :=
  ["programs:"; "  - args:"] ++ map (fun a => "      - '" +:+ a +:+ "'") (se_args s) ++
  ["    workdir: '" +:+ se_dir s +:+ "'"; "    uid: " +:+ show_Z (se_uid s); "    gid: " +:+ show_Z (se_gid s); "    groups:"] ++
  map (fun g => "      - " +:+ show_Z g) (se_groups s) ++
  ["    pty: " +:+ (if se_tty s then "true" else "false")] ++ block_of s order ++
  ["    env:"] ++ map (fun x => "      " +:+ fst x +:+ ": '" +:+ snd x +:+ "'") (vars_of (se_env s)) ++ [""].

Lemma pieces_readable order s : Forall good (pieces order s) <-> readable s.
Proof.
  unfold pieces, readable. rewrite !Forall_app, cap_loop_texts.
  assert (R : forall l, Forall good (map Ret l)) by (intros l; apply Forall_forall; intros x K; apply in_map_iff in K; destruct K as (t & <- & _); exists t; reflexivity).
  assert (U : forall a f, good (utf8 a f) <-> utf8_valid a = true).
  { intros a f. unfold utf8. destruct (utf8_valid a); split; intros H; [reflexivity|eexists; reflexivity|destruct H as [t H]; discriminate|discriminate]. }
  assert (A : Forall good (map (fun a => utf8 a (fun a => "      - '" +:+ a +:+ "'" +:+ nl)) (se_args s)) <-> forall a, In a (se_args s) -> utf8_valid a = true).
  { rewrite Forall_forall. split; intros H x K.
    - apply (U x (fun a => "      - '" +:+ a +:+ "'" +:+ nl)). apply H. apply in_map_iff. exists x. auto.
    - apply in_map_iff in K. destruct K as (a & <- & K). apply U. auto. }
  assert (D : Forall good [utf8 (se_dir s) (fun d => "    workdir: '" +:+ d +:+ "'" +:+ nl); Ret ("    uid: " +:+ show_Z (se_uid s) +:+ nl); Ret ("    gid: " +:+ show_Z (se_gid s) +:+ nl); Ret ("    groups:" +:+ nl)] <-> utf8_valid (se_dir s) = true).
  { rewrite <- (U (se_dir s) (fun d => "    workdir: '" +:+ d +:+ "'" +:+ nl)). split; [intros H; inversion H; assumption|]. intros H. constructor; [exact H|]. repeat (constructor; [eexists; reflexivity|]). constructor. }
  assert (V : Forall good (flat_map (fun entry => match variable entry with None => [] | Some (k, v) => [if utf8_valid k && utf8_valid v then Ret ("      " +:+ k +:+ ": '" +:+ v +:+ "'" +:+ nl) else Panic "not UTF-8"] end) (se_env s)) <->
    forall e k v, In e (se_env s) -> is_variable e k v -> utf8_valid k = true /\ utf8_valid v = true).
  { rewrite Forall_forall. split.
    - intros H e k v K W. apply variable_iff in W. apply andb_true_iff. destruct (utf8_valid k && utf8_valid v) eqn:B; [reflexivity|]. exfalso.
      assert (G : good (Panic "not UTF-8")); [|destruct G; discriminate]. apply H. apply in_flat_map. exists e. split; [exact K|]. rewrite W, B. now left.
    - intros H x K. apply in_flat_map in K. destruct K as (e & K & X). destruct (variable e) as [[k v]|] eqn:E; [|destruct X]. destruct X as [<-|[]].
      apply variable_iff in E. destruct (H e k v K E) as [-> ->]. eexists. reflexivity. }
  rewrite A, D, V. split.
  - intros (_ & H1 & H2 & _ & _ & _ & _ & H3 & _). auto.
  - intros (H1 & H2 & H3).
    assert (G : Forall good (map (fun g => Ret ("      - " +:+ show_Z g +:+ nl)) (se_groups s))).
    { apply Forall_forall. intros x K. apply in_map_iff in K. destruct K as (g & <- & _). eexists. reflexivity. }
    assert (O : forall t, good (Ret t)) by (intros t; exists t; reflexivity).
    assert (E : forall l, (forall x, In x l -> good x) -> Forall good l) by (intros l K; apply Forall_forall; exact K).
    split; [|split; [exact H1|split; [exact H2|split; [exact G|split; [|split; [apply R|split; [|split; [exact H3|]]]]]]]];
      apply E; intros x K; cbn [In] in K; intuition (subst; auto).
Qed.

Lemma glue_ended {A} (f g : A -> string) l : (forall a, g a = (f a +:+ nl)%string) -> glue (map g l) = unlines (map f l).
Proof. intros H. induction l as [|x l IH]; [reflexivity|]. cbn [map glue unlines]. rewrite IH, H, sapp_assoc. reflexivity. Qed.
Lemma unlines_cons t r : unlines (t :: r) = (t +:+ nl +:+ unlines r)%string.
Proof. reflexivity. Qed.
Lemma map_utf8 (f : string -> string) l : (forall a, In a l -> utf8_valid a = true) -> map (fun a => utf8 a f) l = map Ret (map f l).
Proof. intros H. rewrite map_map. apply map_ext_in. intros a K. unfold utf8. rewrite H by exact K. reflexivity. Qed.
Lemma dump_text order s : readable s -> dump order s = (unlines (lines_of order s), true).
Proof.
  intros (A & D & V). unfold dump, pieces. rewrite (map_utf8 (fun a => "      - '" +:+ a +:+ "'" +:+ nl) _ A), cap_loop_texts.
  unfold utf8. rewrite D.
  replace (flat_map _ (se_env s)) with (map (@Ret string) (map (fun x => "      " +:+ fst x +:+ ": '" +:+ snd x +:+ "'" +:+ nl) (vars_of (se_env s)))).
  2:{ unfold vars_of. clear A D. induction (se_env s) as [|e l IH]; [reflexivity|]. cbn [flat_map]. rewrite map_app, map_app, IH by (intros ? ? ? K; apply V; now right). f_equal.
      destruct (variable e) as [[k v]|] eqn:E; [|reflexivity]. apply variable_iff in E. destruct (V e k v (or_introl eq_refl) E) as [-> ->]. reflexivity. }
  rewrite <- (map_map (fun g => "      - " +:+ show_Z g +:+ nl) (@Ret string)).
  change [Ret ("programs:" +:+ nl); Ret ("  - args:" +:+ nl)] with (map (@Ret string) (map (fun t => t +:+ nl) ["programs:"; "  - args:"])).
  change [Ret ("    env:" +:+ nl)] with (map (@Ret string) (map (fun t => t +:+ nl) ["    env:"])).
  change [Ret nl] with (map (@Ret string) (map (fun t => t +:+ nl) [""])).
  change [Ret ("    pty: " +:+ (if se_tty s then "true" else "false") +:+ nl); Ret "    capabilities:"] with (map (@Ret string) ["    pty: " +:+ (if se_tty s then "true" else "false") +:+ nl; "    capabilities:"]).
  change [Ret ("    workdir: '" +:+ se_dir s +:+ "'" +:+ nl); Ret ("    uid: " +:+ show_Z (se_uid s) +:+ nl); Ret ("    gid: " +:+ show_Z (se_gid s) +:+ nl); Ret ("    groups:" +:+ nl)] with
    (map (@Ret string) ["    workdir: '" +:+ se_dir s +:+ "'" +:+ nl; "    uid: " +:+ show_Z (se_uid s) +:+ nl; "    gid: " +:+ show_Z (se_gid s) +:+ nl; "    groups:" +:+ nl]).
  rewrite <- !map_app, dumped_ret. f_equal. unfold lines_of. rewrite !unlines_app, !glue_app, !glue_lines.
  rewrite (glue_ended (fun a => "      - '" +:+ a +:+ "'")) by (intros; rewrite !sapp_assoc; reflexivity).
  rewrite (glue_ended (fun g => "      - " +:+ show_Z g)) by (intros; rewrite !sapp_assoc; reflexivity).
  rewrite (glue_ended (fun x : string * string => "      " +:+ fst x +:+ ": '" +:+ snd x +:+ "'")) by (intros; rewrite !sapp_assoc; reflexivity).
  rewrite <- block_text. cbn [glue]. rewrite !unlines_cons, !sapp_assoc. change (unlines []) with "". reflexivity.
Qed.

(** * The capabilities *)
Lemma cap_name_spec name x : In (name, x) linux_caps <-> In x all_caps /\ cap_name x = name.
Proof.
  assert (T : map (fun x => (cap_name x, x)) all_caps = linux_caps) by (vm_compute; reflexivity).
  rewrite <- T, in_map_iff. split.
  - intros (y & E & K). injection E as <- <-. auto.
  - intros (K & <-). exists x. auto.
Qed.
Lemma cap_names_apart x y : In x all_caps -> In y all_caps -> cap_name x = cap_name y -> x = y.
Proof.
  intros Hx Hy E. assert (N : List.NoDup (map fst linux_caps)).
  { apply NoDup_ListNoDup. apply (bool_decide_eq_true_1 (base.NoDup (map fst linux_caps))). vm_compute. reflexivity. }
  assert (Kx : In (cap_name x, x) linux_caps) by (apply cap_name_spec; auto).
  assert (Ky : In (cap_name x, y) linux_caps) by (apply cap_name_spec; auto).
  revert N Kx Ky. generalize (cap_name x). generalize linux_caps. intros l n N. induction l as [|[m z] l IH]; [intros []|]. cbn in N. inversion N as [|? ? N1 N2]; subst.
  intros [Ex|Kx] [Ey|Ky].
  - congruence.
  - injection Ex as -> ->. exfalso. apply N1. apply in_map_iff. exists (n, y). auto.
  - injection Ey as -> ->. exfalso. apply N1. apply in_map_iff. exists (n, x). auto.
  - auto.
Qed.
Lemma cap_name_plain x c : In x all_caps -> (c = ":"%char \/ c = "010"%char) -> free_of c (cap_name x).
Proof.
  intros Hx Hc K. assert (T : forallb (fun n => forallb (fun a => negb (Ascii.eqb a ":") && negb (Ascii.eqb a "010")) (chars n)) (map cap_name all_caps) = true) by (vm_compute; reflexivity).
  rewrite forallb_forall in T. specialize (T (cap_name x)). rewrite forallb_forall in T.
  specialize (T (in_map cap_name _ _ Hx) c K). destruct Hc as [-> | ->]; discriminate.
Qed.
Lemma letters_spec s x : in_sets s x (letters s x).
Proof.
  unfold letters, has. constructor; match goal with |- context [bool_decide ?P] => destruct (bool_decide_reflect P) end; auto.
Qed.
Lemma in_sets_letters s x t : in_sets s x t -> t = letters s x.
Proof.
  unfold letters, has. intros [e p i a E P I A].
  assert (Ee : e = if bool_decide (x ∈ se_eff s) then "e" else "") by (destruct (bool_decide_reflect (x ∈ se_eff s)); tauto).
  assert (Ep : p = if bool_decide (x ∈ se_prm s) then "p" else "") by (destruct (bool_decide_reflect (x ∈ se_prm s)); tauto).
  assert (Ei : i = if bool_decide (x ∈ se_inh s) then "i" else "") by (destruct (bool_decide_reflect (x ∈ se_inh s)); tauto).
  assert (Ea : a = if bool_decide (x ∈ se_amb s) then "a" else "") by (destruct (bool_decide_reflect (x ∈ se_amb s)); tauto).
  rewrite Ee, Ep, Ei, Ea.
  reflexivity.
Qed.
Lemma letters_held s x : nonempty (letters s x) = true <-> held s x.
Proof.
  unfold letters, has, held. repeat match goal with |- context [bool_decide ?P] => destruct (bool_decide_reflect P) end; cbn; intuition discriminate.
Qed.
Lemma letters_free s x c : free_of c "epia" -> free_of c (letters s x).
Proof.
  unfold letters, free_of. intros F K. apply F. clear F. destruct (has (se_eff s) x), (has (se_prm s) x), (has (se_inh s) x), (has (se_amb s) x); vm_compute in K |- *; tauto.
Qed.
Lemma letters_same s s' x : letters s x = letters s' x ->
  (x ∈ se_eff s <-> x ∈ se_eff s') /\ (x ∈ se_prm s <-> x ∈ se_prm s') /\ (x ∈ se_inh s <-> x ∈ se_inh s') /\ (x ∈ se_amb s <-> x ∈ se_amb s').
Proof.
  unfold letters, has. repeat match goal with |- context [bool_decide ?P] => destruct (bool_decide_reflect P) end; intros E; solve [discriminate E|tauto].
Qed.
Lemma cap_texts_in s order line : In line (cap_texts s order) <-> exists x, In x order /\ held s x /\ line = "      " +:+ cap_name x +:+ ": " +:+ letters s x.
Proof.
  unfold cap_texts. rewrite in_flat_map. split; intros (x & K & H); exists x.
  - destruct (nonempty (letters s x)) eqn:N; [|destruct H]. apply letters_held in N. destruct H as [<-|[]]. auto.
  - destruct H as [H ->]. split; [exact K|]. apply letters_held in H. rewrite H. now left.
Qed.
Lemma cap_line_name x y t u : In x all_caps -> In y all_caps -> ("      " +:+ cap_name x +:+ ": " +:+ t)%string = ("      " +:+ cap_name y +:+ ": " +:+ u)%string -> x = y /\ t = u.
Proof.
  intros Hx Hy E. do 6 apply (f_equal (fun s => match s with String _ r => r | "" => "" end)) in E. cbn in E.
  apply (app_char_inj ":") in E; [|apply cap_name_plain; auto..]. destruct E as [E1 E2]. injection E2 as E2. split; [|exact E2]. apply cap_names_apart; assumption.
Qed.
Lemma block_of_spec s order : Permutation order all_caps -> cap_block s (block_of s order).
Proof.
  intros P. assert (I : forall line, In line (cap_texts s order) <-> cap_line s line).
  { intros line. rewrite cap_texts_in. split.
    - intros (x & K & H & ->). exists (cap_name x), x, (letters s x). split; [apply cap_name_spec; split; [|reflexivity]; eapply Permutation_in; eauto|]. auto using letters_spec.
    - intros (name & x & t & K & H & W & ->). apply cap_name_spec in K. destruct K as [K <-]. apply in_sets_letters in W. subst t. exists x. split; [|auto]. eapply Permutation_in; [symmetry|]; eauto. }
  unfold block_of. destruct (cap_texts s order) as [|t l] eqn:T.
  - left. split; [reflexivity|]. intros name x K H. apply (I ("      " +:+ name +:+ ": " +:+ letters s x)). exists name, x, (letters s x). auto using letters_spec.
  - right. exists (t :: l). split; [reflexivity|]. split; [discriminate|]. split; [|exact I]. rewrite <- T. clear T I t l.
    assert (N : List.NoDup order) by (eapply Permutation_NoDup; [symmetry; exact P|]; apply NoDup_ListNoDup, (bool_decide_eq_true_1 (base.NoDup all_caps)); vm_compute; reflexivity).
    assert (A : forall x, In x order -> In x all_caps) by (intros x K; eapply Permutation_in; eauto). clear P.
    induction order as [|x order IH]; [constructor|]. inversion N as [|? ? N1 N2]; subst. assert (B : forall y, In y order -> In y all_caps) by (intros y K; apply A; now right). specialize (IH N2 B).
    unfold cap_texts. cbn [flat_map]. fold (cap_texts s order). destruct (nonempty (letters s x)); [|exact IH]. cbn [app]. constructor; [|exact IH].
    intros K. apply cap_texts_in in K. destruct K as (y & K & _ & E). apply cap_line_name in E; [|apply A; now left|apply B; exact K]. destruct E as [-> _]. contradiction.
Qed.

Theorem dump_complete order s : snd (dump order s) = true <-> readable s.
Proof. unfold dump. rewrite dumped_good. apply pieces_readable. Qed.
Theorem dump_page order s : Permutation order all_caps -> readable s -> exists text, dump order s = (text, true) /\ page s text.
Proof.
  intros P R. exists (unlines (lines_of order s)). split; [apply dump_text; exact R|]. exists (block_of s order), (vars_of (se_env s)).
  split; [apply block_of_spec; exact P|]. split; [apply variables_of; reflexivity|]. reflexivity.
Qed.

(** * Reading back *)
Definition deep (l : string) : Prop := exists r, l = ("      " +:+ r)%string.
Lemma runs_split a : forall a' w w' r r', Forall deep a -> Forall deep a' -> ~ deep w -> ~ deep w' -> a ++ w :: r = a' ++ w' :: r' -> a = a' /\ w = w' /\ r = r'.
Proof.
  induction a as [|x a IH]; intros [|y a'] w w' r r' A A' W W' E; cbn in E; inversion E; subst.
  - auto.
  - inversion A'; contradiction.
  - inversion A; contradiction.
  - inversion A; inversion A'; subst. destruct (IH a' w w' r r') as (-> & -> & ->); auto.
Qed.
Ltac shallow := let r := fresh in let H := fresh in intros [r H]; discriminate H.
Lemma deep_map {A} (f : A -> string) l : (forall x, deep (f x)) -> Forall deep (map f l).
Proof. intros H. induction l; constructor; auto. Qed.
Lemma map_inj {A} (f : A -> string) l l' : (forall x y, In x l -> In y l' -> f x = f y -> x = y) -> map f l = map f l' -> l = l'.
Proof.
  revert l'. induction l as [|x l IH]; intros [|y l'] H E; cbn in E; try discriminate; [reflexivity|]. injection E as E1 E2.
  f_equal; [apply H; auto; now left|]. apply IH; [intros; apply H; auto; now right|exact E2].
Qed.
Ltac behead E := repeat (apply (f_equal (fun s => match s with String _ r => r | "" => "" end)) in E; cbn in E).
Lemma tail_eq a r r' : String a r = String a r' -> r = r'.
Proof. intros E. injection E. auto. Qed.
Lemma quoted_inj p a b : free_of "'" a -> free_of "'" b -> (p +:+ a +:+ "'")%string = (p +:+ b +:+ "'")%string -> a = b.
Proof.
  intros A B. induction p as [|c p IH]; intros E.
  - apply (app_char_inj "'" a b "" "") in E; [exact (proj1 E)|assumption..].
  - apply tail_eq in E. auto.
Qed.
Lemma prefix_inj p a b : (p +:+ a)%string = (p +:+ b)%string -> a = b.
Proof. induction p as [|c p IH]; intros E; [exact E|]. apply tail_eq in E. auto. Qed.
Lemma suffix_inj a : forall b p, (a +:+ p)%string = (b +:+ p)%string -> a = b.
Proof.
  intros b p E. assert (L : forall x y, String.length (x +:+ y) = (String.length x + String.length y)%nat).
  { induction x as [|c x IH]; intros y; [reflexivity|]. exact (f_equal S (IH y)). }
  revert b E. induction a as [|c a IH]; intros [|d b] E.
  - reflexivity.
  - apply (f_equal String.length) in E. rewrite !L in E. cbn in E. lia.
  - apply (f_equal String.length) in E. rewrite !L in E. cbn in E. lia.
  - injection E as -> E. f_equal. auto.
Qed.
Lemma env_line_inj k v k' v' : tame k -> tame k' -> tame v -> tame v' ->
  ("      " +:+ k +:+ ": '" +:+ v +:+ "'")%string = ("      " +:+ k' +:+ ": '" +:+ v' +:+ "'")%string -> (k, v) = (k', v').
Proof.
  intros [K _] [K' _] [V _] [V' _] E. apply prefix_inj in E.
  change (k +:+ ": '" +:+ v +:+ "'")%string with (k +:+ (": " +:+ String "'" (v +:+ "'")))%string in E.
  change (k' +:+ ": '" +:+ v' +:+ "'")%string with (k' +:+ (": " +:+ String "'" (v' +:+ "'")))%string in E.
  rewrite <- !sapp_assoc in E.
  assert (C : forall t, free_of "'" t -> free_of "'" (t +:+ ": ")) by (intros t F; apply free_app; split; [exact F|]; vm_compute; intuition discriminate).
  apply (app_char_inj "'") in E; [|apply C; assumption..]. destruct E as [E1 E2]. apply suffix_inj in E1. subst k'.
  f_equal. apply (quoted_inj "" v v'); assumption.
Qed.
Lemma cap_block_deep s b : cap_block s b -> (b = ["    capabilities: {}"] \/ exists l, b = "    capabilities:" :: l /\ Forall deep l) /\ Forall (free_of "010") b.
Proof.
  intros [[-> _]|(l & -> & _ & _ & H)].
  - split; [now left|]. constructor; [vm_compute; intuition discriminate|constructor].
  - assert (D : forall t, In t l -> deep t /\ free_of "010" t).
    { intros t K. apply H in K. destruct K as (name & x & u & K & _ & W & ->). apply cap_name_spec in K. destruct K as [K <-]. apply in_sets_letters in W. subst u. split; [eexists; reflexivity|].
      apply free_app. split; [vm_compute; intuition discriminate|]. apply free_app. split; [apply cap_name_plain; auto|]. apply free_app. split; [vm_compute; intuition discriminate|]. apply letters_free. vm_compute. intuition discriminate. }
    split.
    + right. exists l. split; [reflexivity|]. apply Forall_forall. intros t K. apply D. exact K.
    + constructor; [vm_compute; intuition discriminate|]. apply Forall_forall. intros t K. apply D. exact K.
Qed.
Definition page_lines (s : self) (block : list string) (vs : list (string * string)) : list string :=
  ["programs:"; "  - args:"] ++ map (fun a => "      - '" +:+ a +:+ "'") (se_args s) ++
  ["    workdir: '" +:+ se_dir s +:+ "'"; "    uid: " +:+ show_Z (se_uid s); "    gid: " +:+ show_Z (se_gid s); "    groups:"] ++
  map (fun g => "      - " +:+ show_Z g) (se_groups s) ++
  ["    pty: " +:+ (if se_tty s then "true" else "false")] ++ block ++
  ["    env:"] ++ map (fun x => "      " +:+ fst x +:+ ": '" +:+ snd x +:+ "'") vs ++ [""].
Ltac lf := solve [vm_compute; intuition discriminate].
Lemma vars_in l k v : In (k, v) (vars_of l) -> exists e, In e l /\ is_variable e k v.
Proof.
  unfold vars_of. rewrite in_flat_map. intros (e & K & H). exists e. split; [exact K|]. destruct (variable e) as [[a b]|] eqn:E; [|destruct H].
  destruct H as [H|[]]. injection H as -> ->. apply variable_iff. exact E.
Qed.
Lemma page_free s b : tame_self s -> cap_block s b -> Forall (free_of line_feed) (page_lines s b (vars_of (se_env s))).
Proof.
  intros (A & [_ D] & V) B. apply cap_block_deep in B. destruct B as [_ B]. change line_feed with "010"%char.
  assert (P : forall p t, free_of "010" p -> free_of "010" t -> free_of "010" (p +:+ t)) by (intros; apply free_app; auto).
  assert (N : forall z, free_of "010" (show_Z z)) by (intros z; apply show_Z_free; lf).
  unfold page_lines. apply Forall_app; split; [|apply Forall_app; split; [|apply Forall_app; split; [|apply Forall_app; split; [|apply Forall_app; split; [|apply Forall_app; split; [|apply Forall_app; split; [|apply Forall_app; split]]]]]]].
  - repeat (constructor; [lf|]). constructor.
  - apply Forall_forall. intros x K. apply in_map_iff in K. destruct K as (a & <- & K). apply A in K. destruct K as [_ K]. apply P; [lf|]. apply P; [exact K|lf].
  - constructor; [apply P; [lf|]; apply P; [exact D|lf]|]. constructor; [apply P; [lf|]; apply N|]. constructor; [apply P; [lf|]; apply N|]. constructor; [lf|constructor].
  - apply Forall_forall. intros x K. apply in_map_iff in K. destruct K as (a & <- & K). apply P; [lf|]. apply N.
  - constructor; [|constructor]. apply P; [lf|]. destruct (se_tty s); lf.
  - exact B.
  - constructor; [lf|constructor].
  - apply Forall_forall. intros x K. apply in_map_iff in K. destruct K as ([k v] & <- & K). apply vars_in in K. destruct K as (e & K & W). destruct (V _ _ _ K W) as [[_ K1] [_ K2]].
    cbn [fst snd]. apply P; [lf|]. apply P; [exact K1|]. apply P; [lf|]. apply P; [exact K2|lf].
  - constructor; [lf|constructor].
Qed.
Lemma caps_same s s' l : (forall line, In line l <-> cap_line s line) -> (forall line, In line l <-> cap_line s' line) ->
  forall name x, In (name, x) linux_caps -> letters s x = letters s' x.
Proof.
  intros H H' name x K.
  assert (Q : forall s s', (forall line, cap_line s line -> cap_line s' line) -> held s x -> letters s x = letters s' x).
  { clear -K. intros s s' I W. destruct (I ("      " +:+ name +:+ ": " +:+ letters s x)) as (name' & y & t & K' & W' & T & E).
    - exists name, x, (letters s x). auto using letters_spec.
    - apply cap_name_spec in K, K'. destruct K as [K <-], K' as [K' <-]. apply cap_line_name in E; [|assumption..]. destruct E as [<- ->]. apply in_sets_letters. exact T. }
  assert (I : forall line, cap_line s line -> cap_line s' line) by (intros line W; apply H', H; exact W).
  assert (I' : forall line, cap_line s' line -> cap_line s line) by (intros line W; apply H, H'; exact W).
  destruct (nonempty (letters s x)) eqn:N; [apply Q; [exact I|]; apply letters_held; exact N|].
  destruct (nonempty (letters s' x)) eqn:N'; [symmetry; apply Q; [exact I'|]; apply letters_held; exact N'|].
  destruct (letters s x); [|discriminate]. destruct (letters s' x); [reflexivity|discriminate].
Qed.
Lemma caps_none s s' : (forall name x, In (name, x) linux_caps -> ~ held s x) -> (forall name x, In (name, x) linux_caps -> ~ held s' x) ->
  forall name x, In (name, x) linux_caps -> letters s x = letters s' x.
Proof.
  intros H H' name x K. specialize (H _ _ K). specialize (H' _ _ K).
  destruct (nonempty (letters s x)) eqn:N; [apply letters_held in N; contradiction|]. destruct (nonempty (letters s' x)) eqn:N'; [apply letters_held in N'; contradiction|].
  destruct (letters s x); [|discriminate]. destruct (letters s' x); [reflexivity|discriminate].
Qed.
Lemma blocks_split s s' b b' r r' : cap_block s b -> cap_block s' b' -> b ++ "    env:" :: r = b' ++ "    env:" :: r' ->
  r = r' /\ forall name x, In (name, x) linux_caps -> letters s x = letters s' x.
Proof.
  intros B B' E. pose proof (proj1 (cap_block_deep _ _ B)) as D. pose proof (proj1 (cap_block_deep _ _ B')) as D'.
  destruct B as [[-> N]|(l & -> & _ & _ & I)], B' as [[-> N']|(l' & -> & _ & _ & I')]; try discriminate E.
  - injection E as ->. split; [reflexivity|]. eapply caps_none; eassumption.
  - destruct D as [D|(k & D & F)]; [discriminate|]. injection D as <-. destruct D' as [D'|(k' & D' & F')]; [discriminate|]. injection D' as <-.
    injection E as E. apply runs_split in E; [|assumption|assumption|shallow|shallow]. destruct E as (<- & _ & <-). split; [reflexivity|]. eapply caps_same; eassumption.
Qed.
Theorem page_reads_back s s' text : tame_self s -> tame_self s' -> page s text -> page s' text -> alike s s'.
Proof.
  intros T T' (b & vs & B & W & ->) (b' & vs' & B' & W' & E). apply variables_of in W, W'. subst vs vs'.
  change (unlines (page_lines s b (vars_of (se_env s))) = unlines (page_lines s' b' (vars_of (se_env s')))) in E.
  assert (L : page_lines s b (vars_of (se_env s)) = page_lines s' b' (vars_of (se_env s'))).
  { eapply physical_unique; [apply each_ended_physical, page_free; assumption|]. rewrite <- unlines_ended, E, unlines_ended. apply each_ended_physical, page_free; assumption. }
  clear E. unfold page_lines in L. cbn [app] in L. injection L as L.
  destruct T as (A & [D _] & V), T' as (A' & [D' _] & V').
  apply runs_split in L; [|apply deep_map; intros a; eexists; reflexivity|apply deep_map; intros a; eexists; reflexivity|shallow|shallow].
  destruct L as (La & Lw & L). injection L as Lu Lg L.
  apply runs_split in L; [|apply deep_map; intros a; eexists; reflexivity|apply deep_map; intros a; eexists; reflexivity|shallow|shallow].
  destruct L as (Lr & Lp & L). apply (blocks_split s s') in L; [|assumption..]. destruct L as [L C].
  apply runs_split in L; [|apply deep_map; intros a; eexists; reflexivity|apply deep_map; intros a; eexists; reflexivity|shallow|shallow].
  destruct L as (Lv & _). split; [|split; [|split; [|split; [|split; [|split; [|split]]]]]].
  - eapply map_inj; [|exact La]. intros x y Hx Hy. apply (quoted_inj "      - '"); [apply A; exact Hx|apply A'; exact Hy].
  - apply (quoted_inj "    workdir: '"); assumption.
  - apply DebugProofs.show_Z_inj. exact Lu.
  - apply DebugProofs.show_Z_inj. exact Lg.
  - eapply map_inj; [|exact Lr]. intros x y _ _ E. apply (prefix_inj "      - ") in E. apply DebugProofs.show_Z_inj. exact E.
  - apply (prefix_inj "    pty: ") in Lp. destruct (se_tty s), (se_tty s'); (reflexivity || discriminate).
  - intros name x K. apply letters_same. eapply C. exact K.
  - assert (X : vars_of (se_env s) = vars_of (se_env s')).
    { eapply map_inj; [|exact Lv]. intros [k v] [k' v'] H H' E. apply vars_in in H, H'. destruct H as (e & H & K), H' as (e' & H' & K').
      destruct (V _ _ _ H K) as [? ?], (V' _ _ _ H' K') as [? ?]. apply env_line_inj; assumption. }
    intros vs. rewrite !variables_of, X. reflexivity.
Qed.
Theorem dump_reads_back order order' s s' text : Permutation order all_caps -> Permutation order' all_caps -> tame_self s -> tame_self s' ->
  dump order s = (text, true) -> dump order' s' = (text, true) -> alike s s'.
Proof.
  intros P P' T T' E E'.
  destruct (dump_page order s P) as (t & F & G); [apply (dump_complete order); rewrite E; reflexivity|].
  destruct (dump_page order' s' P') as (t' & F' & G'); [apply (dump_complete order'); rewrite E'; reflexivity|].
  rewrite E in F. injection F as <-. rewrite E' in F'. injection F' as <-. eapply page_reads_back; eassumption.
Qed.

(** * Breaking off *)
Lemma dumped_broken l m r : dumped (map Ret l ++ Panic m :: r) = (glue l, false).
Proof. induction l as [|t l IH]; [reflexivity|]. cbn [map app dumped glue]. rewrite IH. reflexivity. Qed.
Lemma dumped_broken' l m r r' : dumped ((map Ret l ++ Panic m :: r) ++ r') = (glue l, false).
Proof. rewrite <- app_assoc. apply dumped_broken. Qed.
Lemma first_bad {A} (ok : A -> bool) l : (forall x, In x l -> ok x = true) \/ exists before a after, l = before ++ a :: after /\ (forall x, In x before -> ok x = true) /\ ok a = false.
Proof.
  induction l as [|a l IH]; [left; intros x []|]. destruct (ok a) eqn:E; [|right; exists [], a, l; split; [reflexivity|]; split; [intros x []|exact E]].
  destruct IH as [IH|(b & x & r & -> & B & X)]; [left; intros x [<-|K]; auto|]. right. exists (a :: b), x, r. split; [reflexivity|]. split; [intros y [<-|K]; auto|exact X].
Qed.
Lemma env_pieces l : flat_map (fun entry => match variable entry with None => [] | Some (k, v) => [if utf8_valid k && utf8_valid v then Ret ("      " +:+ k +:+ ": '" +:+ v +:+ "'" +:+ nl) else Panic "not UTF-8"] end) l =
  map (fun x => if utf8_valid (fst x) && utf8_valid (snd x) then Ret ("      " +:+ fst x +:+ ": '" +:+ snd x +:+ "'" +:+ nl)%string else Panic "not UTF-8") (vars_of l).
Proof. unfold vars_of. induction l as [|e l IH]; [reflexivity|]. cbn [flat_map]. rewrite IH, map_app. f_equal. destruct (variable e) as [[k v]|]; reflexivity. Qed.
Theorem dump_broken order s : Permutation order all_caps -> snd (dump order s) = false -> broken s (fst (dump order s)).
Proof.
  intros P F. destruct (first_bad utf8_valid (se_args s)) as [A|(before & a & after & E & B & N)].
  2:{ assert (D : dump order s = (unlines (["programs:"; "  - args:"] ++ map (fun a => "      - '" +:+ a +:+ "'") before), false)).
      { unfold dump, pieces. rewrite E, map_app. cbn [map]. rewrite (map_utf8 (fun a => "      - '" +:+ a +:+ "'" +:+ nl) before B). unfold utf8 at 1. rewrite N.
        change [Ret ("programs:" +:+ nl); Ret ("  - args:" +:+ nl)] with (map (@Ret string) (map (fun t => t +:+ nl) ["programs:"; "  - args:"])).
        rewrite unlines_app, <- !app_assoc, app_assoc, <- map_app. cbn [app]. rewrite dumped_broken, glue_app, glue_lines. f_equal. f_equal.
        apply glue_ended. intros x. rewrite !sapp_assoc. reflexivity. }
      rewrite D. eapply br_arg; eassumption. }
  destruct (utf8_valid (se_dir s)) eqn:W.
  2:{ assert (D : dump order s = (unlines (["programs:"; "  - args:"] ++ map (fun a => "      - '" +:+ a +:+ "'") (se_args s)), false)).
      { unfold dump, pieces. rewrite (map_utf8 (fun a => "      - '" +:+ a +:+ "'" +:+ nl) _ A). unfold utf8 at 1. rewrite W.
        change [Ret ("programs:" +:+ nl); Ret ("  - args:" +:+ nl)] with (map (@Ret string) (map (fun t => t +:+ nl) ["programs:"; "  - args:"])).
        rewrite unlines_app, app_assoc, <- map_app. cbn [app]. rewrite dumped_broken, glue_app, glue_lines. f_equal. f_equal.
        apply glue_ended. intros x. rewrite !sapp_assoc. reflexivity. }
      rewrite D. apply br_dir; assumption. }
  destruct (first_bad (fun x : string * string => utf8_valid (fst x) && utf8_valid (snd x)) (vars_of (se_env s))) as [V|(before & [k v] & after & E & B & N)].
  { exfalso. assert (R : readable s).
    { split; [exact A|]. split; [exact W|]. intros e k v K I. apply variable_iff in I. apply andb_true_iff. apply (V (k, v)). unfold vars_of. apply in_flat_map. exists e. split; [exact K|]. rewrite I. now left. }
    apply (dump_complete order) in R. congruence. }
  assert (D : dump order s = (unlines (["programs:"; "  - args:"] ++ map (fun a => "      - '" +:+ a +:+ "'") (se_args s) ++
      ["    workdir: '" +:+ se_dir s +:+ "'"; "    uid: " +:+ show_Z (se_uid s); "    gid: " +:+ show_Z (se_gid s); "    groups:"] ++
      map (fun g => "      - " +:+ show_Z g) (se_groups s) ++
      ["    pty: " +:+ (if se_tty s then "true" else "false")] ++ block_of s order ++
      ["    env:"] ++ map (fun x => "      " +:+ fst x +:+ ": '" +:+ snd x +:+ "'") before), false)).
  { unfold dump, pieces. rewrite (map_utf8 (fun a => "      - '" +:+ a +:+ "'" +:+ nl) _ A), cap_loop_texts, env_pieces, E, map_app. cbn [map fst snd] in N |- *. rewrite N. unfold utf8. rewrite W.
    replace (map _ before) with (map (@Ret string) (map (fun x => "      " +:+ fst x +:+ ": '" +:+ snd x +:+ "'" +:+ nl) before)).
    2:{ rewrite map_map. apply map_ext_in. intros x K. rewrite (B x K). reflexivity. }
    rewrite <- (map_map (fun g => "      - " +:+ show_Z g +:+ nl) (@Ret string)).
    change [Ret ("programs:" +:+ nl); Ret ("  - args:" +:+ nl)] with (map (@Ret string) (map (fun t => t +:+ nl) ["programs:"; "  - args:"])).
    change [Ret ("    env:" +:+ nl)] with (map (@Ret string) (map (fun t => t +:+ nl) ["    env:"])).
    change [Ret ("    pty: " +:+ (if se_tty s then "true" else "false") +:+ nl); Ret "    capabilities:"] with (map (@Ret string) ["    pty: " +:+ (if se_tty s then "true" else "false") +:+ nl; "    capabilities:"]).
    change [Ret ("    workdir: '" +:+ se_dir s +:+ "'" +:+ nl); Ret ("    uid: " +:+ show_Z (se_uid s) +:+ nl); Ret ("    gid: " +:+ show_Z (se_gid s) +:+ nl); Ret ("    groups:" +:+ nl)] with
      (map (@Ret string) ["    workdir: '" +:+ se_dir s +:+ "'" +:+ nl; "    uid: " +:+ show_Z (se_uid s) +:+ nl; "    gid: " +:+ show_Z (se_gid s) +:+ nl; "    groups:" +:+ nl]).
    rewrite !unlines_app. rewrite !app_assoc, <- !map_app, dumped_broken'. f_equal. rewrite !glue_app, !glue_lines.
    rewrite (glue_ended (fun a => "      - '" +:+ a +:+ "'")) by (intros; rewrite !sapp_assoc; reflexivity).
    rewrite (glue_ended (fun g => "      - " +:+ show_Z g)) by (intros; rewrite !sapp_assoc; reflexivity).
    rewrite (glue_ended (fun x : string * string => "      " +:+ fst x +:+ ": '" +:+ snd x +:+ "'")) by (intros; rewrite !sapp_assoc; reflexivity).
    rewrite <- block_text. cbn [glue]. rewrite !unlines_cons, !sapp_assoc. change (unlines []) with "". reflexivity. }
  rewrite D. cbn [fst]. eapply br_env; [exact A|exact W|apply block_of_spec; exact P|apply variables_of; reflexivity|exact E| |].
  - intros x y K. apply andb_true_iff. exact (B _ K).
  - intros K. apply andb_true_iff in K. cbn [fst snd] in N. rewrite K in N. discriminate N.
Qed.
