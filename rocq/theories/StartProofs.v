From stdpp Require Import gmap strings.
From Coq Require Import Ascii ZArith List Bool Lia Relations.
From Verif Require Import Base RStr CronModel ConfigModel ProcessModel EnvModel DepModel MainModel LogModel TemplModel StartModel
  SpecConfig SpecEnv SpecDep SpecMain SpecStart ConfigProofs EnvProofs DepProofs MainProofs TemplProofs.
From Verif Require FaultProofs.
Import ListNotations.
Local Open Scope string_scope.
Local Open Scope list_scope.

(** * Computations with messages *)
Lemma texts_app l a b : texts_of l (a ++ b) = texts_of l a ++ texts_of l b.
Proof. unfold texts_of. rewrite List.filter_app, map_app. reflexivity. Qed.
Lemma texts_cons l m ms : texts_of l (m :: ms) = (if (rank (fst m) =? rank l)%Z then [snd m] else []) ++ texts_of l ms.
Proof. unfold texts_of. cbn [List.filter]. destruct (rank (fst m) =? rank l)%Z; reflexivity. Qed.

Definition mild (ms : list message) : Prop := Forall (fun m => fst m = LWarn \/ fst m = LTrace) ms.
Lemma mild_texts ms : mild ms -> texts_of LError ms = [] /\ texts_of LInfo ms = [].
Proof.
  induction 1 as [|m ms H _ [IH1 IH2]]; [split; reflexivity|]. rewrite !texts_cons, IH1, IH2.
  destruct H as [->| ->]; split; reflexivity.
Qed.

Definition errors_fit {A} (errors : list string) (r : outcome (result A Z)) : Prop :=
  match r with Ret (Ok _) => errors = [] | Ret (Err _) => errors <> [] | Panic _ => True end.
Definition fair {A} (C : string -> Prop) (x : told (result A Z)) : Prop :=
  texts_of LInfo (fst x) = [] /\ Forall C (texts_of LError (fst x)) /\ errors_fit (texts_of LError (fst x)) (snd x).

Lemma fair_done {A} C (a : A) : fair C (done (Ok a)).
Proof. split; [reflexivity|]. split; [constructor|reflexivity]. Qed.
Lemma fair_impl {A} (C D : string -> Prop) (x : told (result A Z)) : (forall s, C s -> D s) -> fair C x -> fair D x.
Proof. intros H (I & F & E). split; [exact I|]. split; [|exact E]. eapply List.Forall_impl; [exact H|exact F]. Qed.
Lemma fair_mild {A} C ms (a : A) : mild ms -> fair C (ms, Ret (Ok a)).
Proof. intros M. destruct (mild_texts _ M) as [E I]. split; [exact I|]. cbn [fst snd]. rewrite E. split; [constructor|reflexivity]. Qed.
Lemma fair_then {A B} C (x : told (result A Z)) (f : A -> told (result B Z)) : fair C x ->
  (forall a, snd x = Ret (Ok a) -> fair C (f a)) ->
  fair C (then_ x (fun r => match r with Err e => done (Err e) | Ok a => f a end)).
Proof.
  intros (I & F & E) H. unfold then_. destruct (snd x) as [[a|e]|m] eqn:Sx.
  - destruct (H a eq_refl) as (I' & F' & E'). unfold tell, fair. cbn [fst snd]. cbn in E. rewrite !texts_app, I, I', E. auto.
  - unfold tell, fair. cbn [fst snd done]. rewrite app_nil_r. auto.
  - unfold fair. cbn [fst snd]. cbn. auto.
Qed.
Lemma fair_bad {A} (C : string -> Prop) x e : C x -> @fair A C ([(LError, x)], Ret (Err e)).
Proof. intros H. split; [reflexivity|]. split; [repeat constructor; exact H|discriminate]. Qed.
Lemma fair_both {A} (C : string -> Prop) x e : C x -> @fair A C (both LError x, Ret (Err e)).
Proof. intros H. split; [reflexivity|]. split; [repeat constructor; exact H|discriminate]. Qed.
Lemma fair_panic {A} (C : string -> Prop) m : @fair A C ([], Panic m).
Proof. split; [reflexivity|]. split; [constructor|exact Logic.I]. Qed.

Lemma snd_then {A B} (x : told A) (f : A -> told B) : snd (then_ x f) = obind (snd x) (fun a => snd (f a)).
Proof. unfold then_. destruct (snd x); reflexivity. Qed.
Lemma snd_tell {A} l (x : told A) : snd (tell l x) = snd x.
Proof. reflexivity. Qed.

(** * The checks *)
Lemma kernel_run t release : snd (kernel_says t release) = Ret (check_kernel_version release).
Proof.
  unfold kernel_says, check_kernel_version. destruct release as [r|]; [|reflexivity].
  destruct (split_on "."%char (utf8_lossy r)) as [|a [|b l]]; [reflexivity|reflexivity|].
  destruct (parse_u32 a) as [M|]; [|reflexivity]. destruct (parse_u32 b) as [m|]; [|reflexivity].
  destruct ((M <? 4) || ((M =? 4) && (m <? 3)))%Z; reflexivity.
Qed.
Lemma user_run uid : snd (user_says uid) = Ret (check_user uid).
Proof. unfold user_says, check_user. destruct (uid =? 0)%Z; reflexivity. Qed.
Lemma checks_run t release uid : snd (checks_say t release uid) = Ret (do_startup_checks release uid).
Proof.
  unfold checks_say, do_startup_checks. rewrite snd_then, kernel_run. cbn.
  destruct (check_kernel_version release); [apply user_run|reflexivity].
Qed.

Lemma kernel_fair t path root k : fair (reason t path root k) (kernel_says t (m_release k)).
Proof.
  assert (T : forall e, check_kernel_version (m_release k) = Err e -> too_old (m_release k)).
  { intros e E. destruct (startup_exact (m_release k) 0) as [[[P|P] _]|[_ D]]; [congruence|exact P|].
    unfold do_startup_checks in D. rewrite E in D. discriminate. }
  pose proof (kernel_run t (m_release k)) as R. revert R T. unfold kernel_says.
  destruct (m_release k) as [r|] eqn:Hr; [|intros _ _; apply fair_mild; repeat constructor].
  destruct (split_on "."%char (utf8_lossy r)) as [|a [|b l]]; [intros _ _; apply fair_mild; repeat constructor..|].
  destruct (parse_u32 a) as [M|]; [|intros _ _; apply fair_mild; repeat constructor].
  destruct (parse_u32 b) as [m|]; [|intros _ _; apply fair_mild; repeat constructor].
  destruct ((M <? 4) || ((M =? 4) && (m <? 3)))%Z; [|intros _ _; apply fair_done].
  intros R T. injection R as R. symmetry in R. specialize (T _ R). rewrite <- Hr in T.
  split; [reflexivity|]. split; [|discriminate].
  repeat (apply List.Forall_cons; [eapply rs_kernel; [exact T|cbn; tauto]|]). apply List.Forall_nil.
Qed.
Lemma user_fair t path root k : fair (reason t path root k) (user_says (m_uid k)).
Proof.
  unfold user_says. destruct (Z.eqb_spec (m_uid k) 0) as [E|E]; [apply fair_done|].
  split; [reflexivity|]. split; [|discriminate]. repeat (apply List.Forall_cons; [eapply rs_root; [exact E|cbn; tauto]|]). apply List.Forall_nil.
Qed.
Lemma checks_fair t path root k : fair (reason t path root k) (checks_say t (m_release k) (m_uid k)).
Proof. apply fair_then; [apply kernel_fair|]. intros [] _. apply user_fair. Qed.

(** * Reading *)
Section TreeInd.
  Context (P : tree -> Prop).
  Context (Hm : P TMissing) (Hf : forall c, P (TFile c)) (Hs : P TSpecial) (Hd : P (TDir None)).
  Context (Hds : forall es, (forall n u t, In (TEntry n u t) es -> P t) -> P (TDir (Some es))).
  Fixpoint tree_ind' (t : tree) : P t.
  Proof.
    destruct t as [| | |[es|]]; [exact Hm|apply Hf|exact Hs| |exact Hd].
    apply Hds. induction es as [|e r IH]; [intros n u t []|].
    intros n u t [E|Hin]; [|exact (IH n u t Hin)].
    destruct e as [|n' u' t']; [discriminate|]. injection E as _ _ <-. apply tree_ind'.
  Defined.
End TreeInd.

Definition nameless_entries : list entry -> list dirent :=
  fix go (l : list entry) : list dirent :=
    match l with
    | [] => []
    | TBad :: r => BadEntry :: go r
    | TEntry _ u t :: r => Entry u (nameless t) :: go r
    end.
Lemma nameless_dir es : nameless (TDir (Some es)) = Dir (Some (nameless_entries es)).
Proof. reflexivity. Qed.
Definition entries_read (t : texts) (path : string) : list entry -> told (result (list string) Z) :=
  fix go (l : list entry) : told (result (list string) Z) :=
         match l with
         | [] => done (Ok [])
         | TBad :: _ => ([(LError, "Failed to read " +:+ path +:+ ": " +:+ t_path t path)], Ret (Err CONFIG_EXIT))
         | TEntry _ false _ :: _ => ([], Panic "called `Option::unwrap()` on a `None` value")
         | TEntry name true m :: rest =>
             then_ (reading_says t (join path name) m) (fun r =>
               match r with
               | Err e => done (Err e)
               | Ok content => then_ (go rest) (fun r => match r with Err e => done (Err e) | Ok more => done (Ok (content ++ more)) end)
               end)
         end.
Lemma reading_dir t path es : reading_says t path (TDir (Some es)) = entries_read t path es.
Proof. reflexivity. Qed.

Lemma reading_run t n : forall path, snd (reading_says t path n) = read_config (nameless n).
Proof.
  induction n as [|[c|]| | |es IH] using tree_ind'; intros path; try reflexivity.
  rewrite reading_dir, nameless_dir, read_dir. induction es as [|[|name [|] m] es IHes]; [reflexivity|reflexivity| |reflexivity].
  cbn [entries_read nameless_entries read_entries]. fold (entries_read t path). fold read_entries. fold nameless_entries.
  rewrite snd_then, (IH name true m (or_introl eq_refl)). cbn.
  destruct (read_config (nameless m)) as [[c|e]|s]; [|reflexivity|reflexivity]. cbn.
  rewrite snd_then, IHes by (intros n' u' t' Hin; eapply IH; right; exact Hin).
  destruct (read_entries (nameless_entries es)) as [[c'|e]|s]; reflexivity.
Qed.

(** What the messages about reading suppose. *)
Inductive unread (t : texts) (path : string) (root : tree) : string -> Prop :=
| ur_missing p : at_path path root p TMissing -> unread t path root ("Failed to read metadata of " +:+ p +:+ ": " +:+ t_path t p)
| ur_file p : at_path path root p (TFile None) -> unread t path root ("Failed to read file " +:+ p +:+ ": " +:+ t_path t p)
| ur_dir p : at_path path root p (TDir None) -> unread t path root ("Failed to get directory content of " +:+ p +:+ ": " +:+ t_path t p)
| ur_entry p entries : at_path path root p (TDir (Some entries)) -> In TBad entries ->
    unread t path root ("Failed to read " +:+ p +:+ ": " +:+ t_path t p).
Lemma unread_reason t path root k x : unread t path root x -> reason t path root k x.
Proof. intros []; [apply rs_missing|apply rs_file|apply rs_dir|eapply rs_entry]; eassumption. Qed.

Lemma ends_with_iff suffix s : ends_with suffix s = true <-> exists q, s = q +:+ suffix.
Proof.
  induction s as [|c s IH]; cbn [ends_with].
  - rewrite orb_false_r, String.eqb_eq. split.
    + intros ->. exists "". reflexivity.
    + intros ([|c q] & E); [symmetry; exact E|discriminate].
  - rewrite orb_true_iff, String.eqb_eq, IH. split.
    + intros [->|(q & ->)]; [exists ""; reflexivity|exists (String c q); reflexivity].
    + intros ([|c' q] & E); [left; symmetry; exact E|]. injection E as -> ->. right. exists q. reflexivity.
Qed.
Lemma join_joined path name : joined path name (join path name).
Proof.
  unfold joined, join. destruct path as [|c path]; [left; split; [left; reflexivity|reflexivity]|].
  change (is_nil (list_ascii_of_string (String c path))) with false. cbn [orb].
  destruct (ends_with "/" (String c path)) eqn:E.
  - left. split; [right; apply ends_with_iff; exact E|reflexivity].
  - right. split; [discriminate|]. split; [|reflexivity]. intros q K.
    assert (ends_with "/" (String c path) = true) by (apply ends_with_iff; exists q; exact K). congruence.
Qed.

Lemma reading_fair t n : forall path, fair (unread t path n) (reading_says t path n).
Proof.
  induction n as [|[c|]| | |es IH] using tree_ind'; intros path.
  - apply fair_bad, ur_missing, ap_here.
  - apply fair_done.
  - apply fair_bad, ur_file, ap_here.
  - apply fair_mild. repeat constructor.
  - apply fair_bad, ur_dir, ap_here.
  - rewrite reading_dir.
    assert (G : forall l, (forall e, In e l -> In e es) -> fair (unread t path (TDir (Some es))) (entries_read t path l)).
    { induction l as [|[|name [|] m] l IHl]; intros Sub.
      - apply fair_done.
      - apply fair_bad. eapply ur_entry; [apply ap_here|]. apply Sub. left. reflexivity.
      - cbn [entries_read]. fold (entries_read t path). assert (Hin : In (TEntry name true m) es) by (apply Sub; left; reflexivity).
        apply fair_then.
        + eapply fair_impl; [|apply (IH name true m Hin)].
          intros x []; [apply ur_missing|apply ur_file|apply ur_dir|eapply ur_entry; [|eassumption]];
            (eapply ap_below; [exact Hin|apply join_joined|eassumption]).
        + intros c _. apply fair_then; [apply IHl; intros e He; apply Sub; right; exact He|]. intros more _. apply fair_done.
      - apply fair_panic. }
    apply G. auto.
Qed.

Lemma reading_files t n : forall path raw s, snd (reading_says t path n) = Ret (Ok raw) -> In s raw ->
  exists p, at_path path n p (TFile (Some s)).
Proof.
  induction n as [|[c|]| | |es IH] using tree_ind'; intros path raw s R Hs; try discriminate R.
  - cbn in R. injection R as <-. destruct Hs as [<-|[]]. exists path. apply ap_here.
  - cbn in R. injection R as <-. destruct Hs.
  - rewrite reading_dir in R.
    assert (G : forall l raw, (forall e, In e l -> In e es) -> snd (entries_read t path l) = Ret (Ok raw) -> In s raw ->
      exists p, at_path path (TDir (Some es)) p (TFile (Some s))).
    { clear raw R Hs. induction l as [|[|name [|] m] l IHl]; intros raw Sub R Hs; try discriminate R.
      - cbn in R. injection R as <-. destruct Hs.
      - cbn [entries_read] in R. fold (entries_read t path) in R. rewrite snd_then in R.
        assert (Hin : In (TEntry name true m) es) by (apply Sub; left; reflexivity).
        destruct (snd (reading_says t (join path name) m)) as [[c|e]|x] eqn:E; [|discriminate R|discriminate R]. cbn in R.
        rewrite snd_then in R. destruct (snd (entries_read t path l)) as [[more|e]|x] eqn:E'; [|discriminate R|discriminate R]. cbn in R.
        injection R as <-. apply in_app_or in Hs. destruct Hs as [Hs|Hs].
        + destruct (IH name true m Hin _ _ _ E Hs) as (p & Hp). exists p. eapply ap_below; [exact Hin|apply join_joined|exact Hp].
        + apply (IHl more); [|reflexivity|exact Hs]. intros e He. apply Sub. right. exact He. }
    exact (G es raw (fun e He => He) R Hs).
Qed.

(** * Parsing *)
Lemma parsing_run t yaml raw : snd (parsing_says t yaml raw) = Ret (parse_raw_config yaml raw).
Proof. unfold parsing_says, parse_raw_config. destruct (forallb _ raw); reflexivity. Qed.
Lemma yaml_errors t l : texts_of LError (map (fun s => (LError, t_yaml t s)) l) = map (t_yaml t) l.
Proof. induction l as [|s l IH]; [reflexivity|]. cbn [map]. rewrite texts_cons, IH. reflexivity. Qed.
Lemma yaml_infos t l : texts_of LInfo (map (fun s => (LError, t_yaml t s)) l) = [].
Proof. induction l as [|s l IH]; [reflexivity|]. cbn [map]. rewrite texts_cons, IH. reflexivity. Qed.
Lemma parsing_errors t yaml raw : forallb (fun s => is_some (yaml s)) raw = false ->
  texts_of LError (fst (parsing_says t yaml raw)) =
  "Could not parse config: " :: map (t_yaml t) (List.filter (fun s => negb (is_some (yaml s))) raw).
Proof.
  intros E. unfold parsing_says. rewrite E. cbn [fst]. rewrite !texts_app, yaml_errors. cbn. rewrite app_nil_r. reflexivity.
Qed.
Lemma parsing_fair t (C : string -> Prop) yaml raw :
  (forall s, In s raw -> yaml s = None -> C "Could not parse config: " /\ C (t_yaml t s)) -> fair C (parsing_says t yaml raw).
Proof.
  intros H. destruct (forallb (fun s => is_some (yaml s)) raw) eqn:E.
  - unfold parsing_says. rewrite E. apply fair_done.
  - split; [|split].
    + unfold parsing_says. rewrite E. cbn [fst]. rewrite !texts_app, yaml_infos. reflexivity.
    + rewrite (parsing_errors _ _ _ E).
      assert (K : exists s, In s raw /\ yaml s = None).
      { clear -E. induction raw as [|s raw IH]; [discriminate E|]. cbn in E. destruct (yaml s) eqn:Y; cbn in E.
        - destruct (IH E) as (s' & Hs & Y'). exists s'. split; [right; exact Hs|exact Y'].
        - exists s. split; [left; reflexivity|exact Y]. }
      constructor.
      * destruct K as (s & Hs & Y). apply (H s Hs Y).
      * apply List.Forall_forall. intros x Hx. apply in_map_iff in Hx. destruct Hx as (s & <- & Hs).
        apply filter_In in Hs. destruct Hs as [Hs Y]. apply (H s Hs). destruct (yaml s); [discriminate Y|reflexivity].
    + rewrite parsing_run, (parsing_errors _ _ _ E). unfold parse_raw_config. rewrite E. discriminate.
Qed.

(** * Merging *)
Inductive clash (fs : list proc_config) : string -> Prop :=
| cl_path n : two (has pc_path) (fragments n fs) -> clash fs ("Duplicate program found for name " +:+ n)
| cl_field n f : two (fun c => sets c f) (fragments n fs) -> clash fs ("Configuration drop-in for " +:+ n +:+ " contains duplicate field " +:+ f)
| cl_type n : Exists pathless_cronjob (fragments n fs) -> clash fs ("Configuration drop-in for " +:+ n +:+ " changes type to cronjob").
Lemma clash_app fs fs' x : clash fs x -> clash (fs ++ fs') x.
Proof.
  intros []; [apply cl_path|apply cl_field|apply cl_type]; rewrite fragments_app; [apply two_app; assumption..|].
  apply List.Exists_app. left. assumption.
Qed.
Lemma two_impl {A} (P Q : A -> Prop) l : (forall a, P a -> Q a) -> two P l -> two Q l.
Proof. intros H (l1 & x & l2 & y & l3 & E & Hx & Hy). exists l1, x, l2, y, l3. auto. Qed.

Lemma merge_true fs acc f e n : fs <> [] -> acc_inv fs acc -> pc_name f = pc_name acc -> pc_name f = n ->
  merge acc f = Ret (Err e) ->
  match e with
  | PathSpecified m => m = n /\ two (has pc_path) (fs ++ [f])
  | InvalidFieldSpecified m x => m = n /\ two (fun c => sets c x) (fs ++ [f])
  | CronjobSpecified m => m = n /\ Exists pathless_cronjob (fs ++ [f])
  end.
Proof.
  intros Hne I Hn En. unfold merge. rewrite Hn, String.eqb_refl. cbn [negb].
  assert (Ea : pc_name acc = n) by congruence.
  pose proof (path_shape _ _ (ai_shape _ _ I)) as (T & PN & PE).
  destruct (pc_path acc) as [pa|] eqn:EP.
  - unfold merge_into.
    destruct (is_some (pc_path f)) eqn:E1.
    { intros E. injection E as <-. split; [auto|]. apply two_snoc. right. split; [apply PE; congruence|].
      unfold has. destruct (pc_path f); [congruence|discriminate]. }
    destruct (is_some (pc_workdir f) && is_some (pc_workdir acc)) eqn:E2.
    { intros E. injection E as <-. split; [auto|]. eapply two_impl; [intros c; apply se_workdir|].
      eapply (conflict_two pc_workdir); [apply (ai_workdir _ _ I)|exact E2]. }
    destruct (is_some (pc_uid f) && is_some (pc_uid acc)) eqn:E3.
    { intros E. injection E as <-. split; [auto|]. eapply two_impl; [intros c; apply se_uid|].
      eapply (conflict_two pc_uid); [apply (ai_uid _ _ I)|exact E3]. }
    destruct (is_some (pc_gid f) && is_some (pc_gid acc)) eqn:E4.
    { intros E. injection E as <-. split; [auto|]. eapply two_impl; [intros c; apply se_gid|].
      eapply (conflict_two pc_gid); [apply (ai_gid _ _ I)|exact E4]. }
    destruct (is_some (pc_user f) && is_some (pc_user acc)) eqn:E5.
    { intros E. injection E as <-. split; [auto|]. eapply two_impl; [intros c; apply se_user|].
      eapply (conflict_two pc_user); [apply (ai_user _ _ I)|exact E5]. }
    destruct (is_some (pc_group f) && is_some (pc_group acc)) eqn:E6.
    { intros E. injection E as <-. split; [auto|]. eapply two_impl; [intros c; apply se_group|].
      eapply (conflict_two pc_group); [apply (ai_group _ _ I)|exact E6]. }
    assert (Pf : pc_path f = None) by (destruct (pc_path f); [discriminate|reflexivity]).
    destruct (is_cronjob (pc_type f)) eqn:E7; [|discriminate].
    intros E. injection E as <-. split; [auto|]. apply List.Exists_app. right. constructor. split; [auto|].
    destruct (pc_type f); try discriminate. eauto.
  - unfold merge_into. rewrite EP. cbn [is_some].
    destruct (is_some (pc_workdir acc) && is_some (pc_workdir f)) eqn:E2.
    { intros E. injection E as <-. split; [auto|]. eapply two_impl; [intros c; apply se_workdir|]. rewrite andb_comm in E2.
      eapply (conflict_two pc_workdir); [apply (ai_workdir _ _ I)|exact E2]. }
    destruct (is_some (pc_uid acc) && is_some (pc_uid f)) eqn:E3.
    { intros E. injection E as <-. split; [auto|]. eapply two_impl; [intros c; apply se_uid|]. rewrite andb_comm in E3.
      eapply (conflict_two pc_uid); [apply (ai_uid _ _ I)|exact E3]. }
    destruct (is_some (pc_gid acc) && is_some (pc_gid f)) eqn:E4.
    { intros E. injection E as <-. split; [auto|]. eapply two_impl; [intros c; apply se_gid|]. rewrite andb_comm in E4.
      eapply (conflict_two pc_gid); [apply (ai_gid _ _ I)|exact E4]. }
    destruct (is_some (pc_user acc) && is_some (pc_user f)) eqn:E5.
    { intros E. injection E as <-. split; [auto|]. eapply two_impl; [intros c; apply se_user|]. rewrite andb_comm in E5.
      eapply (conflict_two pc_user); [apply (ai_user _ _ I)|exact E5]. }
    destruct (is_some (pc_group acc) && is_some (pc_group f)) eqn:E6.
    { intros E. injection E as <-. split; [auto|]. eapply two_impl; [intros c; apply se_group|]. rewrite andb_comm in E6.
      eapply (conflict_two pc_group); [apply (ai_group _ _ I)|exact E6]. }
    destruct (is_cronjob (pc_type acc)) eqn:E7; [|discriminate].
    destruct (ai_shape _ _ I) as [(_ & Hall & (fs0 & x & Hx & Hc & Ht) & Ha & He)|(l1 & p & l2 & -> & Hp & Hpp & _)];
      [|congruence].
    intros E. injection E as <-. split; [auto|]. apply List.Exists_app. left. apply List.Exists_exists. exists x.
    split; [rewrite Hx; apply in_snoc; auto|]. split.
    + rewrite List.Forall_forall in Hall. apply Hall. rewrite Hx. apply in_snoc; auto.
    + rewrite Ht in E7. destruct (pc_type x); try discriminate. eauto.
Qed.

Lemma merging_run : forall programs d, snd (merging_says programs d) = merge_loop programs d.
Proof.
  induction programs as [|c rest IH]; intros d; cbn [merging_says merge_loop]; [reflexivity|].
  destruct (dict_get (pc_name c) d) as [p|]; [|apply IH]. destruct (merge p c) as [[m|e]|x]; [apply IH|reflexivity|reflexivity].
Qed.

Lemma merging_fair : forall programs seen d, dict_ok seen d -> fair (clash (seen ++ programs)) (merging_says programs d).
Proof.
  induction programs as [|c rest IH]; intros seen d Hd; cbn [merging_says]; [apply fair_done|].
  replace (seen ++ c :: rest) with ((seen ++ [c]) ++ rest) by (rewrite <- app_assoc; reflexivity).
  assert (Hd' := Hd). destruct Hd' as (H1 & H2 & H3).
  assert (EQ : fragments (pc_name c) seen ++ [c] = fragments (pc_name c) (seen ++ [c])).
  { rewrite fragments_app. cbn. rewrite String.eqb_refl. reflexivity. }
  destruct (dict_get (pc_name c) d) as [process|] eqn:G.
  - apply dict_get_in in G. destruct (H3 _ _ G) as [Hn Hm].
    pose proof (merge_fragments_snoc _ c _ Hm) as Hs.
    assert (Fne : fragments (pc_name c) seen <> []) by (intros K; rewrite K in Hm; discriminate).
    destruct (merge process c) as [[merged|e]|m] eqn:M.
    + assert (Hr : pc_name merged = pc_name c).
      { destruct (merge_fragments_spec (fragments (pc_name c) seen ++ [c])) as [(r & E & I)|(e & E & _)].
        - destruct (fragments (pc_name c) seen); discriminate.
        - rewrite EQ. apply fragments_same.
        - rewrite Hs in E. injection E as <-. symmetry. apply (ai_name _ _ I). apply in_snoc; auto.
        - rewrite Hs in E. discriminate. }
      rewrite Hr.
      assert (DT : dict_insert (pc_name c) merged (dict_remove (pc_name c) d) = dict_insert (pc_name c) merged d)
        by (unfold dict_insert; rewrite dict_remove_twice; reflexivity).
      rewrite DT. apply IH. apply dict_insert_ok; auto.
    + apply fair_both, clash_app.
      destruct (merge_fragments_spec (fragments (pc_name c) seen) Fne (fragments_same _ _)) as [(r & E & I)|(e' & E & _)];
        [|congruence].
      assert (r = process) by congruence. subst r.
      pose proof (merge_true _ _ c e (pc_name c) Fne I (eq_sym Hn) eq_refl M) as K. rewrite EQ in K.
      destruct e as [m|m x|m]; destruct K as [-> K]; [apply cl_path|apply cl_field|apply cl_type]; exact K.
    + apply fair_panic.
  - apply IH. apply dict_insert_ok; auto.
    assert (K : fragments (pc_name c) seen = []).
    { apply dict_get_none in G. rewrite H2, <- fragments_ne in G.
      destruct (fragments (pc_name c) seen); [reflexivity|]. exfalso. apply G. discriminate. }
    rewrite K. reflexivity.
Qed.

(** * The configuration *)
Lemma config_run t yaml drain path root : snd (config_says t yaml drain path root) = parse_config yaml drain (nameless root).
Proof.
  unfold config_says, parse_config. rewrite snd_then, reading_run.
  destruct (read_config (nameless root)) as [[raw|e]|m]; [|reflexivity|reflexivity]. cbn.
  rewrite snd_then, parsing_run. cbn. destruct (parse_raw_config yaml raw) as [ps|e]; [|reflexivity].
  rewrite snd_then, merging_run. unfold merge_dropins. destruct (merge_loop ps []) as [[d|e]|m]; reflexivity.
Qed.

Lemma read_parsed k raw : read_config (m_files k) = Ret (Ok raw) -> forallb (fun s => is_some (m_yaml k s)) raw = true ->
  read_as k (map (fun s => match m_yaml k s with Some l => l | None => [] end) raw).
Proof.
  intros R F. pose proof (read_config_spec (m_files k)) as Sp. rewrite R in Sp. inversion Sp as [ps cs L B U E| |]; subst.
  exists ps, raw. split; [exact L|]. rewrite map_map. apply map_ext_in. intros s Hs. rewrite forallb_forall in F.
  specialize (F s Hs). destruct (m_yaml k s); [reflexivity|discriminate F].
Qed.

Lemma config_fair t path root k : m_files k = nameless root ->
  fair (reason t path root k) (config_says t (m_yaml k) (m_drain k) path root).
Proof.
  intros Hf. unfold config_says. apply fair_then.
  { eapply fair_impl; [intros x; apply unread_reason|apply reading_fair]. }
  intros raw R. apply fair_then.
  { apply parsing_fair. intros s Hs Y. destruct (reading_files _ _ _ _ _ R Hs) as (p & Hp).
    split; (eapply rs_yaml; [exact Hp|exact Y|cbn; tauto]). }
  intros ps P. rewrite parsing_run in P. injection P as P. unfold parse_raw_config in P.
  destruct (forallb _ raw) eqn:F; [|discriminate P]. injection P as <-.
  rewrite reading_run, <- Hf in R. pose proof (read_parsed k raw R F) as RA.
  apply fair_then; [|intros d _; apply fair_done].
  eapply fair_impl; [|apply (merging_fair _ [] [])].
  - intros x [n T|n f T|n T]; [eapply rs_path|eapply rs_field|eapply rs_type]; eassumption.
  - split; [constructor|]. split; [reflexivity|]. intros n c [].
Qed.

(** * The programs *)
Lemma mild_app a b : mild a -> mild b -> mild (a ++ b).
Proof. intros Ha Hb. apply List.Forall_app. auto. Qed.
Lemma mild_twice m : mild (TemplModel.twice m).
Proof. repeat constructor; cbn; tauto. Qed.
Lemma entries_mild err w es : forall env, mild (entries_say err w env es).
Proof.
  induction es as [|[key [raw|]] es IH]; intros env; cbn [entries_say]; [constructor| |].
  - apply mild_app; [|apply IH]. cbn [entry_says]. destruct (w_render w key env raw) as [v|]; [|apply mild_twice].
    destruct (looks_like_tera_template v); [apply mild_twice|constructor].
  - apply mild_app; [constructor|apply IH].
Qed.
Lemma argument_mild err w env i raw : mild (argument_says err w env i raw).
Proof.
  unfold argument_says. destruct (w_render w _ env raw) as [v|]; [|apply mild_twice].
  destruct (looks_like_tera_template v); [apply mild_twice|constructor].
Qed.
Lemma arguments_mild err w env args : forall i, mild (fst (arguments_say err w env i args)).
Proof.
  induction args as [|x args IH]; intros i; cbn [arguments_say]; [constructor|].
  destruct (cstring _ _) as [a|]; [|apply argument_mild]. specialize (IH (S i)).
  destruct (arguments_say err w env (S i) args) as [more rest]. cbn [fst] in *. apply mild_app; [apply argument_mild|exact IH].
Qed.
Lemma notify_mild w c u : mild (notify_says w c u).
Proof.
  unfold notify_says. destruct (pc_type c); try constructor.
  destruct (convert_env w (pc_env c) u !! "NOTIFY_SOCKET"); repeat constructor; cbn; tauto.
Qed.
Lemma build_mild err w c : mild (fst (build err w c)).
Proof.
  unfold build. destruct (is_cronjob (pc_type c) && negb (is_nil (pc_before c))); [constructor|].
  destruct (map_id (pc_uid c) _ _ _) as [u|]; [|constructor].
  destruct (map_id (pc_gid c) _ _ _) as [g|]; [|constructor].
  assert (M : mild (entries_say err w (sanitise_env (get_default_env w) u) (concat (pc_env c)) ++ notify_says w c u))
    by (apply mild_app; [apply entries_mild|apply notify_mild]).
  destruct (pc_path c) as [path|]; [|exact M].
  destruct (flatten_to_strings _ _) as [es|]; [|exact M].
  destruct (cstring _ path) as [a0|]; [|exact M].
  pose proof (arguments_mild err w (program_env w c u) (pc_args c) 0) as A.
  destruct (arguments_say _ _ _ _ _) as [more args]. cbn [fst] in *. apply mild_app; [exact M|exact A].
Qed.

(** The error a program is refused with is the fault it has. *)
Lemma refused_for w c e : process_from w c = Ret (Err e) ->
  match e with
  | CronjobDependency => is_cronjob (pc_type c) = true /\ pc_before c <> []
  | UserGroupInvalid => (forall u, ~ selects (w_uid w) (w_user w) (pc_uid c) (pc_user c) u) \/
      (forall g, ~ selects (w_gid w) (w_group w) (pc_gid c) (pc_group c) g)
  | PathMissing => pc_path c = None
  end.
Proof.
  unfold process_from. destruct (is_cronjob (pc_type c) && negb (is_nil (pc_before c))) eqn:B.
  { intros E. injection E as <-. apply andb_true_iff in B. destruct B as [B1 B2]. split; [exact B1|]. intros K. rewrite K in B2. discriminate B2. }
  assert (MI : forall T id name (by_id : Z -> option (option T)) by_name e', map_id id name by_id by_name = Err e' -> e' = UserGroupInvalid).
  { intros T id name by_id by_name e' E. unfold map_id in E. destruct id, name; try congruence;
        repeat match type of E with context [match ?x with _ => _ end] => destruct x end; congruence. }
  destruct (map_id (pc_uid c) _ _ _) as [u|e1] eqn:U.
  2:{ intros E. injection E as <-. pose proof (MI _ _ _ _ _ _ U) as K. subst e1. left. apply map_id_err. exact U. }
  destruct (map_id (pc_gid c) _ _ _) as [g|e1] eqn:G.
  2:{ intros E. injection E as <-. pose proof (MI _ _ _ _ _ _ G) as K. subst e1. right. apply map_id_err. exact G. }
  destruct (pc_path c) as [path|] eqn:P; [|intros E; injection E as <-; reflexivity].
  destruct (flatten_to_strings _ _) as [es|]; cbn; [|discriminate].
  destruct (cstring _ path) as [a0|]; cbn; [|discriminate].
  destruct (cstrings _ _) as [args|]; cbn; discriminate.
Qed.

Lemma builds_run t w configs : snd (builds_say t w configs) = build_processes w configs.
Proof.
  induction configs as [|c rest IH]; cbn [builds_say build_processes]; [reflexivity|].
  rewrite snd_then, build_builds. destruct (process_from w c) as [[p|e]|m]; cbn; [|reflexivity|reflexivity].
  rewrite snd_then, IH. destruct (build_processes w rest) as [[ps|e]|m]; reflexivity.
Qed.

Section Programs.
  Context (t : texts) (path : string) (root : tree) (k : machine).
  Context (parsed : list (list proc_config)) (configs : list proc_config).
  Context (R : read_as k parsed) (M : merged (concat parsed) configs).

  Lemma builds_fair l : (forall c, In c l -> In c configs) -> fair (reason t path root k) (builds_say t (m_world k) l).
  Proof.
    induction l as [|c l IH]; intros Sub; cbn [builds_say]; [apply fair_done|].
    pose proof (build_mild (t_tera t) (m_world k) c) as Mi. pose proof (build_builds (t_tera t) (m_world k) c) as B.
    unfold then_ at 1. destruct (build (t_tera t) (m_world k) c) as [ms r]. cbn [fst snd] in *.
    destruct (mild_texts _ Mi) as [ME MI].
    destruct r as [[p|e]|m]; [| |split; [exact MI|cbn [fst]; rewrite ME; split; [constructor|exact Logic.I]]].
    - assert (F : fair (reason t path root k) (then_ (builds_say t (m_world k) l)
        (fun rs => match rs with Err e => done (Err e) | Ok ps => done (Ok (p :: ps)) end))).
      { apply fair_then; [apply IH; intros c' Hc'; apply Sub; right; exact Hc'|]. intros ps _. apply fair_done. }
      destruct F as (F1 & F2 & F3). unfold tell, fair. cbn [fst snd]. rewrite !texts_app, ME, MI. cbn [app]. auto.
    - symmetry in B. apply refused_for in B. assert (Hc : In c configs) by (apply Sub; left; reflexivity).
      assert (F : reason t path root k ("Program " +:+ pc_name c +:+ " contains error: " +:+ build_text e)).
      { destruct e; cbn [build_text].
        - eapply rs_before; [exact R|exact M|exact Hc|apply B|apply B].
        - eapply rs_user; [exact R|exact M|exact Hc|exact B].
        - eapply rs_no_path; [exact R|exact M|exact Hc|exact B]. }
      destruct (@fair_both (list process) _ _ ANALYSE_EXIT F) as (F1 & F2 & F3).
      unfold tell, fair. cbn [fst snd] in *. rewrite !texts_app, ME, MI. cbn [app]. auto.
  Qed.

  Lemma dependencies_fair order toposort : any_perm order -> finds_cycles toposort ->
    fair (reason t path root k) (dependencies_say order toposort configs).
  Proof.
    intros Ho Ht. unfold dependencies_say.
    destruct (with_nodes_spec order toposort configs (proj1 M) Ho Ht) as [(m & -> & _)|(e & -> & O & _)]; [apply fair_done|].
    destruct e as [i|i p|i p|i]; cbn [offender] in O; cbn [dependency_text].
    - destruct (nth_error configs i) as [c|] eqn:E; [|apply fair_panic]. apply fair_both.
      eapply rs_cycle; [exact R|exact M|exact E|exact O].
    - destruct O as (c & n & E & En & K). rewrite E, En. apply fair_both.
      eapply rs_after; [exact R|exact M|eapply nth_error_In; exact E|eapply nth_error_In; exact En|exact K].
    - destruct O as (c & n & E & En & K). rewrite E, En. apply fair_both.
      eapply rs_unknown_before; [exact R|exact M|eapply nth_error_In; exact E|eapply nth_error_In; exact En|exact K].
    - destruct O as (c & n & E & En & K). rewrite E. apply fair_both.
      eapply rs_cronjob; [exact R|exact M|eapply nth_error_In; exact E|exact En|exact K].
  Qed.

  Lemma jobs_err tz : forall jobs c clock e id, with_jobs_from tz c jobs clock = Ret (Err (e, id)) ->
    exists s, In (id, Some s) jobs /\ parse_timer s = Ret (Err e).
  Proof.
    intros jobs c clock e id E. destruct (with_jobs_result tz jobs c clock) as [(id' & s & e' & Hin & P & E')|[_ (c' & E')]].
    - intros m. congruence.
    - rewrite E in E'. injection E' as <- <-. eauto.
    - congruence.
  Qed.
  Lemma timers_fair tz clock : fair (reason t path root k) (timers_say tz clock configs).
  Proof.
    unfold timers_say. set (jobs := map _ _).
    destruct (with_jobs tz jobs clock) as [[c|[why id]]|m] eqn:W; [apply fair_done| |apply fair_panic].
    apply jobs_err in W. destruct W as (s & Hin & P). unfold jobs in Hin. apply in_map_iff in Hin.
    destruct Hin as ([i c] & E & Hin). cbn [fst snd] in E. injection E as -> T. apply filter_In in Hin. destruct Hin as [Hin _].
    apply enumerate_in in Hin. rewrite Hin. apply fair_both.
    eapply rs_timer; [exact R|exact M|eapply nth_error_In; exact Hin| |apply FaultProofs.timer_refused; exact P].
    unfold timer_text in T. destruct (pc_type c); congruence.
  Qed.

  Lemma analysis_fair : honest k -> fair (reason t path root k) (analysis_says t k configs).
  Proof.
    intros (_ & Ho & Ht & _). unfold analysis_says. apply fair_then; [apply builds_fair; auto|]. intros ps _.
    pose proof (dependencies_fair (m_order k) (m_toposort k) Ho Ht) as (D1 & D2 & D3).
    unfold then_ at 1. destruct (dependencies_say (m_order k) (m_toposort k) configs) as [dm dr]. cbn [fst snd] in *.
    destruct dr as [dr|m]; [|split; [exact D1|split; [exact D2|exact Logic.I]]].
    pose proof (timers_fair (m_zone k) (m_clock k)) as (T1 & T2 & T3).
    unfold then_. destruct (timers_say (m_zone k) (m_clock k) configs) as [tm tr]. cbn [fst snd] in *.
    destruct tr as [tr|m].
    2:{ unfold tell, fair. cbn [fst snd]. rewrite !texts_app, D1, T1. split; [reflexivity|]. split; [|exact Logic.I].
        apply List.Forall_app. auto. }
    destruct (m_sockets k) eqn:So; cbn [negb].
    2:{ unfold tell, fair. cbn [fst snd]. rewrite !texts_app, D1, T1. split; [reflexivity|]. split.
        - apply List.Forall_app. split; [exact D2|]. apply List.Forall_app. split; [exact T2|]. constructor; [apply rs_sockets; exact So|constructor].
        - cbn. intros K. apply app_eq_nil in K. destruct K as [_ K]. apply app_eq_nil in K. destruct K as [_ K]. discriminate K. }
    unfold tell, fair. cbn [fst snd]. rewrite !texts_app, D1, T1.
    destruct dr as [dm'|e]; cbn in D3.
    - destruct tr as [cr|e]; cbn in T3.
      + rewrite D3, T3. destruct (m_epoll k); (split; [reflexivity|]); cbn; (split; [constructor|]); [reflexivity|exact Logic.I].
      + split; [reflexivity|]. cbn. rewrite app_nil_r. split; [apply List.Forall_app; auto|].
        intros K. apply app_eq_nil in K. tauto.
    - split; [reflexivity|]. cbn. rewrite app_nil_r. split; [apply List.Forall_app; auto|].
      intros K. apply app_eq_nil in K. tauto.
  Qed.
End Programs.

(** * The analysis and the whole *)
Lemma dependencies_run order toposort configs :
  snd (dependencies_say order toposort configs) = build_dependency_manager order toposort configs.
Proof.
  unfold dependencies_say, build_dependency_manager.
  destruct (with_nodes order toposort (enumerate configs)) as [[m|e]|x]; [reflexivity| |reflexivity]. cbn.
  destruct e as [i|i p|i p|i]; cbn [dependency_text]; destruct (nth_error configs i) as [c|]; try reflexivity.
  - destruct (nth_error (pc_after c) p); reflexivity.
  - destruct (nth_error (pc_before c) p); reflexivity.
Qed.
Lemma timers_run tz clock configs : snd (timers_say tz clock configs) = build_cron tz clock configs.
Proof.
  unfold timers_say, build_cron. destruct (with_jobs _ _ _) as [[c|[why id]]|x]; [reflexivity| |reflexivity]. cbn.
  destruct (nth_error configs id); reflexivity.
Qed.
Lemma analysis_run t k configs : snd (analysis_says t k configs) = manager_from k configs.
Proof.
  unfold analysis_says, manager_from. rewrite snd_then, builds_run.
  destruct (build_processes (m_world k) configs) as [[ps|e]|m]; [|reflexivity|reflexivity]. cbn.
  rewrite snd_then, dependencies_run. destruct (build_dependency_manager _ _ configs) as [d|m]; [|reflexivity]. cbn.
  rewrite snd_then, timers_run. destruct (build_cron _ _ configs) as [c|m]; [|reflexivity]. cbn.
  destruct (m_sockets k); [|reflexivity]. cbn. destruct d as [d|]; [|reflexivity]. destruct c as [c|]; [|reflexivity].
  destruct (m_epoll k); reflexivity.
Qed.

Theorem start_runs t path root k : m_files k = nameless root -> snd (start_says t path root k) = run k.
Proof.
  intros Hf. unfold start_says, run. rewrite snd_tell, snd_then, checks_run. cbn.
  destruct (do_startup_checks (m_release k) (m_uid k)) as [u|e]; [|reflexivity].
  rewrite snd_tell, snd_then, config_run, <- Hf.
  destruct (parse_config (m_yaml k) (m_drain k) (m_files k)) as [[cs|e]|m]; [|reflexivity|reflexivity]. cbn.
  rewrite snd_then, analysis_run. destruct (manager_from k cs) as [[a|e]|m]; [|reflexivity|reflexivity]. cbn.
  destruct (m_setup k); reflexivity.
Qed.

(** What the log before the event loop is like, given how it ends. *)
Definition tells (C : string -> Prop) (path : string) (x : told boot) : Prop :=
  Forall C (texts_of LError (fst x)) /\
  match snd x with
  | Ret (Exits _) => texts_of LError (fst x) <> []
  | Ret (EntersLoop _ _) => texts_of LError (fst x) = []
  | Panic _ => True
  end /\
  texts_of LInfo (fst x) = firstn (phases (snd x)) (milestones path).

Lemma config_exit k configs e : honest k -> parse_config (m_yaml k) (m_drain k) (m_files k) = Ret configs ->
  configs = Err e -> e = 1%Z.
Proof.
  intros Hh E ->. destruct (load_cases k Hh) as [[_ L]|[_ (parsed & R & L)]]; rewrite L in E.
  - injection E as <-. reflexivity.
  - destruct (merge_dropins_total (m_drain k) (concat parsed) (proj1 Hh)) as [(out & K)|[K _]]; rewrite K in E; [discriminate E|].
    injection E as <-. reflexivity.
Qed.
Lemma config_no_panic k m : honest k -> parse_config (m_yaml k) (m_drain k) (m_files k) <> Panic m.
Proof.
  intros Hh E. destruct (load_cases k Hh) as [[_ L]|[_ (parsed & R & L)]]; rewrite L in E; [discriminate E|].
  destruct (merge_dropins_total (m_drain k) (concat parsed) (proj1 Hh)) as [(out & K)|[K _]]; rewrite K in E; discriminate E.
Qed.
Lemma analysis_exit k configs e : unique_names configs -> honest k -> manager_from k configs = Ret (Err e) -> e = 2%Z.
Proof.
  intros U Hh E. destruct (analysis_exact k configs U Hh) as [[_ K]|[_ (a & K & _)]]; [intros m; congruence| |congruence].
  rewrite K in E. injection E as <-. reflexivity.
Qed.

Theorem start_tells t path root k : honest k -> m_files k = nameless root -> tells (reason t path root k) path (start_says t path root k).
Proof.
  intros Hh Hf. unfold start_says.
  pose proof (checks_fair t path root k) as (C1 & C2 & C3). pose proof (checks_run t (m_release k) (m_uid k)) as CR.
  unfold then_ at 1. destruct (checks_say t (m_release k) (m_uid k)) as [cm cr]. cbn [fst snd] in *. subst cr. cbn in C3.
  destruct (do_startup_checks (m_release k) (m_uid k)) as [u|e] eqn:DC.
  2:{ unfold tell, tells. cbn [fst snd done]. rewrite app_nil_r, !texts_app, C1.
      assert (e = 5%Z) by (destruct (startup_exact (m_release k) (m_uid k)) as [[_ K]|[_ K]]; rewrite K in DC; [injection DC as <-; reflexivity|discriminate DC]).
      subst e. split; [exact C2|]. split; [exact C3|reflexivity]. }
  pose proof (config_fair t path root k Hf) as (F1 & F2 & F3). pose proof (config_run t (m_yaml k) (m_drain k) path root) as FR.
  rewrite <- Hf in FR.
  unfold then_ at 1. destruct (config_says t (m_yaml k) (m_drain k) path root) as [fm fr]. cbn [fst snd] in *. subst fr.
  destruct (parse_config (m_yaml k) (m_drain k) (m_files k)) as [[configs|e]|m] eqn:PC; cbn in F3.
  3:{ exfalso. exact (config_no_panic k m Hh PC). }
  2:{ unfold tell, tells; cbn [fst snd done]; rewrite ?app_nil_r;
        repeat (rewrite ?texts_app, ?texts_cons; cbn [fst snd rank Z.eqb app]); rewrite ?C1, ?C3, ?F1; cbn.
      assert (e = 1%Z) by (eapply config_exit; [exact Hh|exact PC|reflexivity]). subst e.
      split; [exact F2|]. split; [exact F3|reflexivity]. }
  assert (MG : exists parsed, read_as k parsed /\ merged (concat parsed) configs).
  { destruct (load_cases k Hh) as [[_ L]|[_ (parsed & R & L)]]; rewrite L in PC; [discriminate PC|].
    exists parsed. split; [exact R|]. exact (merge_dropins_spec _ _ _ (proj1 Hh) PC). }
  destruct MG as (parsed & R & M).
  pose proof (analysis_fair t path root k parsed configs R M Hh) as (A1 & A2 & A3). pose proof (analysis_run t k configs) as AR.
  unfold then_. destruct (analysis_says t k configs) as [am ar]. cbn [fst snd] in *. subst ar.
  destruct (manager_from k configs) as [[a|e]|m] eqn:MF; cbn in A3.
  - destruct (m_setup k) eqn:Se; unfold tell, tells; cbn [fst snd done];
      repeat (rewrite ?texts_app, ?texts_cons; cbn [fst snd rank Z.eqb app]); rewrite ?C1, ?C3, ?F1, ?F3, ?A1, ?A3; cbn.
    + split; [constructor|]. split; reflexivity.
    + split; [constructor; [apply rs_setup; exact Se|constructor]|]. split; [discriminate|reflexivity].
  - assert (e = 2%Z) by (eapply analysis_exit; [exact (proj1 M)|exact Hh|exact MF]). subst e.
    unfold tell, tells; cbn [fst snd done];
      repeat (rewrite ?texts_app, ?texts_cons; cbn [fst snd rank Z.eqb app]); rewrite ?C1, ?C3, ?F1, ?F3, ?A1; cbn.
    rewrite !app_nil_r. split; [exact A2|]. split; [exact A3|reflexivity].
  - unfold tell, tells; cbn [fst snd done];
      repeat (rewrite ?texts_app, ?texts_cons; cbn [fst snd rank Z.eqb app]); rewrite ?C1, ?C3, ?F1, ?F3, ?A1; cbn.
    split; [exact A2|]. split; [exact Logic.I|reflexivity].
Qed.

(** * All files that do not parse *)
Lemma read_complete path n p s : at_path path n p s -> forall raw c, s = TFile (Some c) -> read_config (nameless n) = Ret (Ok raw) -> In c raw.
Proof.
  induction 1 as [path n|path entries name n path' p s Hin J H IH]; intros raw c -> R.
  - cbn in R. injection R as <-. left. reflexivity.
  - rewrite nameless_dir, read_dir in R. revert raw R. induction entries as [|e entries IHe]; [destruct Hin|]. intros raw R.
    destruct Hin as [->|Hin].
    + cbn [nameless_entries read_entries] in R. fold read_entries in R. fold nameless_entries in R.
      destruct (read_config (nameless n)) as [[raw1|]|] eqn:E; try discriminate R.
      destruct (read_entries (nameless_entries entries)) as [[raw2|]|]; try discriminate R.
      injection R as <-. apply in_or_app. left. eapply IH; reflexivity.
    + destruct e as [|nm [|] m]; [discriminate R| |discriminate R].
      cbn [nameless_entries read_entries] in R. fold read_entries in R. fold nameless_entries in R.
      destruct (read_config (nameless m)) as [[raw1|]|]; try discriminate R.
      destruct (read_entries (nameless_entries entries)) as [[raw2|]|] eqn:E; try discriminate R.
      injection R as <-. apply in_or_app. right. apply (IHe Hin raw2). reflexivity.
Qed.

Theorem every_file_reported t path root k p s : honest k -> m_files k = nameless root -> ~ precondition_fails k -> ~ broken (m_files k) ->
  at_path path root p (TFile (Some s)) -> m_yaml k s = None -> In (t_yaml t s) (texts_of LError (fst (start_says t path root k))).
Proof.
  intros Hh Hf NP NB A Y. unfold start_says. unfold then_ at 1. rewrite checks_run.
  destruct (startup_exact (m_release k) (m_uid k)) as [[P _]|[_ ->]]; [exfalso; exact (NP P)|].
  unfold then_ at 1. unfold tell at 1 2 3. cbn [fst snd].
  assert (R : exists raw, read_config (m_files k) = Ret (Ok raw)).
  { pose proof (read_config_spec (m_files k)) as Sp. inversion Sp as [ps cs L B U E|B E|x U E]; [eexists; reflexivity| |].
    - exfalso. exact (NB B).
    - exfalso. destruct Hh as (_ & _ & _ & Hu). exact (Hu U). }
  destruct R as (raw & R). assert (Hs : In s raw) by (rewrite Hf in R; eapply read_complete; [exact A|reflexivity|exact R]).
  assert (F : forallb (fun s => is_some (m_yaml k s)) raw = false).
  { destruct (forallb (fun s => is_some (m_yaml k s)) raw) eqn:F; [|reflexivity]. rewrite forallb_forall in F. specialize (F s Hs).
    rewrite Y in F. discriminate F. }
  assert (K : In (t_yaml t s) (texts_of LError (fst (config_says t (m_yaml k) (m_drain k) path root))) /\
              exists e, snd (config_says t (m_yaml k) (m_drain k) path root) = Ret (Err e)).
  { split.
    - unfold config_says. unfold then_ at 1. rewrite reading_run, <- Hf, R.
      unfold then_ at 1. rewrite parsing_run. unfold parse_raw_config. rewrite F. unfold tell. cbn [fst snd done].
      rewrite !app_nil_r, !texts_app, (parsing_errors _ _ _ F). apply in_or_app. right. right.
      apply in_map_iff. exists s. split; [reflexivity|]. apply filter_In. split; [exact Hs|]. rewrite Y. reflexivity.
    - rewrite config_run, <- Hf. unfold parse_config. rewrite R. unfold parse_raw_config. rewrite F. eexists. reflexivity. }
  destruct K as (K & e & E). rewrite E. unfold tell. cbn [fst snd done]. rewrite !texts_app. apply in_or_app. right. apply in_or_app. right.
  apply in_or_app. right. apply in_or_app. left. exact K.
Qed.

Theorem start_reasons t path root k : honest k -> m_files k = nameless root ->
  snd (start_says t path root k) = run k /\
  Forall (reason t path root k) (texts_of LError (fst (start_says t path root k))) /\
  (forall code, run k = Ret (Exits code) -> texts_of LError (fst (start_says t path root k)) <> []) /\
  (forall configs a, run k = Ret (EntersLoop configs a) -> texts_of LError (fst (start_says t path root k)) = []).
Proof.
  intros Hh Hf. pose proof (start_runs t path root k Hf) as R. destruct (start_tells t path root k Hh Hf) as (T1 & T2 & _).
  split; [exact R|]. split; [exact T1|]. rewrite R in T2. split.
  - intros code E. rewrite E in T2. exact T2.
  - intros configs a E. rewrite E in T2. exact T2.
Qed.
Theorem start_progress t path root k : honest k -> m_files k = nameless root ->
  texts_of LInfo (fst (start_says t path root k)) = firstn (phases (run k)) (milestones path).
Proof.
  intros Hh Hf. destruct (start_tells t path root k Hh Hf) as (_ & _ & T3). rewrite (start_runs t path root k Hf) in T3. exact T3.
Qed.
