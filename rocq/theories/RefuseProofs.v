(** Lemmas about the errors with which cinit refuses to start. *)
From stdpp Require Import gmap strings.
From Coq Require Import Ascii ZArith List Bool Lia Relations.
From Verif Require Import Base RStr CronModel ConfigModel ProcessModel EnvModel DepModel MainModel LogModel TemplModel StartModel
  SpecConfig SpecEnv SpecDep SpecMain SpecStart SpecRefuse ConfigProofs EnvProofs DepProofs MainProofs TemplProofs StartProofs StartProofs2.
From Verif Require FaultProofs SpecFault.
Import ListNotations.
Local Open Scope string_scope.
Local Open Scope list_scope.

(** Nothing worse than warnings, and what is repeated is one of them. *)
Definition modest (ms : list message) : Prop := texts_of LError ms = [] /\ incl (texts_of LTrace ms) (texts_of LWarn ms).
Lemma modest_nil : modest [].
Proof. split; [reflexivity|intros x []]. Qed.
Lemma modest_app a b : modest a -> modest b -> modest (a ++ b).
Proof.
  intros (A & A') (B & B'). unfold modest. rewrite !texts_app, A, B. split; [reflexivity|]. apply incl_app; [apply incl_appl; exact A'|apply incl_appr; exact B'].
Qed.
Lemma modest_warn x : modest [(LWarn, x)].
Proof. split; [reflexivity|intros y []]. Qed.
Lemma modest_twice x : modest (TemplModel.twice x).
Proof. split; [reflexivity|]. intros y K. exact K. Qed.
Lemma modest_info x : modest [(LInfo, x)].
Proof. split; [reflexivity|intros y []]. Qed.

Lemma entries_modest err w es : forall env, modest (entries_say err w env es).
Proof.
  induction es as [|[key [raw|]] es IH]; intros env; cbn [entries_say]; [apply modest_nil| |].
  - apply modest_app; [|apply IH]. cbn [entry_says]. destruct (w_render w key env raw) as [v|]; [|apply modest_twice].
    destruct (looks_like_tera_template v); [apply modest_twice|apply modest_nil].
  - apply modest_app; [apply modest_nil|apply IH].
Qed.
Lemma argument_modest err w env i raw : modest (argument_says err w env i raw).
Proof.
  unfold argument_says. destruct (w_render w _ env raw) as [v|]; [|apply modest_twice].
  destruct (looks_like_tera_template v); [apply modest_twice|apply modest_nil].
Qed.
Lemma arguments_modest err w env args : forall i, modest (fst (arguments_say err w env i args)).
Proof.
  induction args as [|x args IH]; intros i; cbn [arguments_say]; [apply modest_nil|].
  destruct (cstring _ _) as [a|]; [|apply argument_modest]. specialize (IH (S i)).
  destruct (arguments_say err w env (S i) args) as [more rest]. cbn [fst] in *. apply modest_app; [apply argument_modest|exact IH].
Qed.
Lemma notify_modest w c u : modest (notify_says w c u).
Proof.
  unfold notify_says. destruct (pc_type c); try apply modest_nil.
  destruct (convert_env w (pc_env c) u !! "NOTIFY_SOCKET"); [split; [reflexivity|intros y []]|apply modest_nil].
Qed.
Lemma build_modest err w c : modest (fst (build err w c)).
Proof.
  unfold build. destruct (is_cronjob (pc_type c) && negb (is_nil (pc_before c))); [apply modest_nil|].
  destruct (map_id (pc_uid c) _ _ _) as [u|]; [|apply modest_nil].
  destruct (map_id (pc_gid c) _ _ _) as [g|]; [|apply modest_nil].
  assert (M : modest (entries_say err w (sanitise_env (get_default_env w) u) (concat (pc_env c)) ++ notify_says w c u))
    by (apply modest_app; [apply entries_modest|apply notify_modest]).
  destruct (pc_path c) as [path|]; [|exact M].
  destruct (flatten_to_strings _ _) as [es|]; [|exact M].
  destruct (cstring _ path) as [a0|]; [|exact M].
  pose proof (arguments_modest err w (program_env w c u) (pc_args c) 0) as A.
  destruct (arguments_say _ _ _ _ _) as [more args]. cbn [fst] in *. apply modest_app; [exact M|exact A].
Qed.

(** A log that ends with the errors [errors], repeated as far as [echo]. *)
Definition ends_in (ms : list message) (errors echo : list string) : Prop :=
  texts_of LError ms = errors /\ exists said, texts_of LTrace ms = said ++ echo /\ incl said (texts_of LWarn ms).
Lemma ends_app a b errors echo : modest a -> ends_in b errors echo -> ends_in (a ++ b) errors echo.
Proof.
  intros (A & A') (B & said & B' & I). unfold ends_in. rewrite !texts_app, A, B, B'. split; [reflexivity|].
  exists (texts_of LTrace a ++ said). rewrite app_assoc. split; [reflexivity|]. apply incl_app; [apply incl_appl; exact A'|apply incl_appr; exact I].
Qed.
Lemma ends_none ms : modest ms -> ends_in ms [] [].
Proof. intros (A & B). split; [exact A|]. exists (texts_of LTrace ms). rewrite app_nil_r. auto. Qed.
Lemma ends_error x : ends_in [(LError, x)] [x] [].
Proof. split; [reflexivity|]. exists []. split; [reflexivity|intros y []]. Qed.
Lemma ends_both x : ends_in (both LError x) [x] [x].
Proof. split; [reflexivity|]. exists []. split; [reflexivity|intros y []]. Qed.

Lemma then_err {A B} (x : told (result A Z)) (f : A -> told (result B Z)) e :
  snd (then_ x (fun r => match r with Err e => done (Err e) | Ok a => f a end)) = Ret (Err e) ->
  (snd x = Ret (Err e) /\ fst (then_ x (fun r => match r with Err e => done (Err e) | Ok a => f a end)) = fst x) \/
  exists a, snd x = Ret (Ok a) /\ snd (f a) = Ret (Err e) /\
    fst (then_ x (fun r => match r with Err e => done (Err e) | Ok a => f a end)) = fst x ++ fst (f a).
Proof.
  intros H. destruct (then_ret _ _ _ H) as ([a|e'] & X & F & E); [right; exists a; auto|]. left. cbn in F. injection F as <-.
  split; [exact X|]. rewrite E. apply app_nil_r.
Qed.

(** * The checks *)
Lemma note_modest t release l : version_note t release l -> modest l.
Proof. intros []; [apply modest_warn|apply modest_warn|apply modest_nil]. Qed.
Lemma checks_refuse t k e : snd (checks_say t (m_release k) (m_uid k)) = Ret (Err e) -> e = 5%Z /\
  exists errors, ends_in (fst (checks_say t (m_release k) (m_uid k))) errors [] /\
    forall path root, grounds t path root k 5 errors [].
Proof.
  intros H. assert (E5 : e = 5%Z).
  { rewrite checks_run in H. injection H as H. destruct (startup_exact (m_release k) (m_uid k)) as [[_ K]|[_ K]]; rewrite K in H; [injection H as <-; reflexivity|discriminate H]. }
  split; [exact E5|]. subst e. unfold checks_say in *.
  assert (KE : forall r, check_kernel_version (m_release k) = r -> match r with Ok _ => ~ too_old (m_release k) | Err _ => too_old (m_release k) end).
  { intros r <-. destruct (startup_exact (m_release k) 0) as [[[P|P] D]|[P D]]; [congruence| |]; unfold do_startup_checks in D;
      destruct (check_kernel_version (m_release k)); try discriminate D; auto using or_intror. }
  destruct (then_err _ _ _ H) as [(X & ->)|([] & X & U & ->)].
  - rewrite kernel_run in X. injection X as X. specialize (KE _ X). eexists. split; [|intros path root; apply gr_kernel; exact KE].
    revert X. clear. unfold check_kernel_version, kernel_says. destruct (m_release k) as [r|]; [|discriminate].
    destruct (split_on "."%char (utf8_lossy r)) as [|a [|b l]]; try discriminate.
    destruct (parse_u32 a) as [M|]; [|discriminate]. destruct (parse_u32 b) as [m|]; [|discriminate].
    destruct ((M <? 4) || ((M =? 4) && (m <? 3)))%Z; [|discriminate]. intros _. split; [reflexivity|]. exists []. split; [reflexivity|intros y []].
  - pose proof (kernel_note _ _ X) as N. rewrite kernel_run in X. injection X as X. specialize (KE _ X).
    revert U. unfold user_says. destruct (Z.eqb_spec (m_uid k) 0) as [E|E]; [discriminate|]. intros _.
    eexists. split; [|intros path root; apply gr_root; [exact KE|exact E]]. cbn [fst]. apply ends_app; [eapply note_modest; exact N|].
    split; [reflexivity|]. exists []. split; [reflexivity|intros y []].
Qed.
Lemma checks_pass t k u : snd (checks_say t (m_release k) (m_uid k)) = Ret (Ok u) -> modest (fst (checks_say t (m_release k) (m_uid k))) /\ ~ precondition_fails k.
Proof.
  intros H. split.
  - unfold checks_say in *. destruct (then_ok _ _ _ H) as ([] & X & U & ->). apply modest_app; [eapply note_modest; apply kernel_note; exact X|].
    revert U. unfold user_says. destruct (m_uid k =? 0)%Z; [intros _; apply modest_nil|discriminate].
  - rewrite checks_run in H. injection H as H. destruct (startup_exact (m_release k) (m_uid k)) as [[_ K]|[P K]]; [congruence|exact P].
Qed.

(** * Reading *)
Lemma ignoring_modest l : modest (map ignoring l).
Proof. induction l as [|x l IH]; [apply modest_nil|]. apply (modest_app [ignoring x]); [apply modest_warn|exact IH]. Qed.
Lemma reading_pass t n path raw : snd (reading_says t path n) = Ret (Ok raw) -> modest (fst (reading_says t path n)) /\ holds n raw.
Proof.
  intros H. split; [destruct (reading_note _ _ _ _ H) as (l & _ & ->); apply ignoring_modest|].
  revert path raw H. induction n as [|[c|]| | |es IH] using tree_ind'; intros path raw R; try discriminate R.
  - injection R as <-. constructor.
  - injection R as <-. constructor.
  - rewrite reading_dir in R. constructor. revert raw R. induction es as [|[|name [|] m] es IHes]; intros raw R; try discriminate R; [injection R as <-; constructor|].
    cbn [entries_read] in R. fold (entries_read t path) in R.
    destruct (then_ok _ _ _ R) as (c & X & F & _). destruct (then_ok _ _ _ F) as (more & Y & Z & _). injection Z as <-.
    constructor; [eapply IH; [left; reflexivity|exact X]|]. apply (IHes (fun n u t H => IH n u t (or_intror H)) _ Y).
Qed.
Lemma reading_refuse t n : forall path e, snd (reading_says t path n) = Ret (Err e) ->
  exists x, first_unread t path n x /\ ends_in (fst (reading_says t path n)) [x] [].
Proof.
  induction n as [|[c|]| | |es IH] using tree_ind'; intros path e R; try discriminate R.
  - eexists. split; [constructor|apply ends_error].
  - eexists. split; [constructor|apply ends_error].
  - eexists. split; [constructor|apply ends_error].
  - rewrite reading_dir in *.
    enough (G : forall before l, hold before l -> exists x, first_unread t path (TDir (Some (before ++ es))) x /\ ends_in (fst (entries_read t path es)) [x] [])
      by exact (G [] [] ho_nil).
    induction es as [|[|name [|] m] es IHes]; intros before l Hb; try discriminate R.
    + eexists. split; [eapply fu_entry; exact Hb|apply ends_error].
    + cbn [entries_read] in *. fold (entries_read t path) in *. destruct (then_err _ _ _ R) as [(X & ->)|(c & X & F & ->)].
      * destruct (IH name true m (or_introl eq_refl) _ _ X) as (x & U & E). exists x. split; [|exact E].
        eapply fu_below; [exact Hb|apply join_joined|exact U].
      * destruct (reading_pass _ _ _ _ X) as (Mo & Ho).
        destruct (then_err _ _ _ F) as [(Y & ->)|(more & Y & Z & _)]; [|discriminate Z].
        destruct (IHes (fun n u t H => IH n u t (or_intror H)) Y (before ++ [TEntry name true m]) (l ++ c)) as (x & U & E).
        { clear -Hb Ho. induction Hb as [|nm t rest a b A _ IHb]; cbn.
          - rewrite <- (app_nil_r c). constructor; [exact Ho|constructor].
          - rewrite <- app_assoc. constructor; [exact A|exact IHb]. }
        rewrite <- app_assoc in U. exists x. split; [exact U|]. apply ends_app; [exact Mo|exact E].
Qed.

(** * Merging *)
Lemma merging_refuse : forall programs seen d e, dict_ok seen d -> snd (merging_says programs d) = Ret (Err e) ->
  exists a c b x, seen ++ programs = a ++ c :: b /\ ~ unmergeable a /\ misfit a c x /\ ends_in (fst (merging_says programs d)) [x] [x].
Proof.
  induction programs as [|c rest IH]; intros seen d e0 Hd R; [discriminate R|]. cbn [merging_says] in *.
  replace (seen ++ c :: rest) with ((seen ++ [c]) ++ rest) by (rewrite <- app_assoc; reflexivity).
  assert (Hd' := Hd). destruct Hd' as (H1 & H2 & H3).
  assert (EQ : fragments (pc_name c) seen ++ [c] = fragments (pc_name c) (seen ++ [c])).
  { rewrite fragments_app. cbn. rewrite String.eqb_refl. reflexivity. }
  destruct (dict_get (pc_name c) d) as [process|] eqn:G.
  - apply dict_get_in in G. destruct (H3 _ _ G) as [Hn Hm].
    pose proof (merge_fragments_snoc _ c _ Hm) as Hs.
    assert (Fne : fragments (pc_name c) seen <> []) by (intros K; rewrite K in Hm; discriminate).
    destruct (merge process c) as [[merged|e]|m] eqn:M; [| |discriminate R].
    + assert (Hr : pc_name merged = pc_name c).
      { destruct (merge_fragments_spec (fragments (pc_name c) seen ++ [c])) as [(r & E & I)|(e & E & _)].
        - destruct (fragments (pc_name c) seen); discriminate.
        - rewrite EQ. apply fragments_same.
        - rewrite Hs in E. injection E as <-. symmetry. apply (ai_name _ _ I). apply in_snoc; auto.
        - rewrite Hs in E. discriminate. }
      rewrite Hr in *.
      assert (DT : dict_insert (pc_name c) merged (dict_remove (pc_name c) d) = dict_insert (pc_name c) merged d)
        by (unfold dict_insert; rewrite dict_remove_twice; reflexivity).
      rewrite DT in *. eapply IH; [|exact R]. apply dict_insert_ok; auto.
    + rewrite <- app_assoc. exists seen, c, rest, (merge_text e). split; [reflexivity|]. split; [|split; [|apply ends_both]].
      * intros (n & e' & In' & E'). apply H2 in In'. apply in_map_iff in In'. destruct In' as ([n' c'] & <- & J). cbn in E'.
        destruct (H3 _ _ J) as [_ K]. congruence.
      * destruct (merge_fragments_spec (fragments (pc_name c) seen) Fne (fragments_same _ _)) as [(r & E & I)|(e' & E & _)];
          [|congruence].
        assert (r = process) by congruence. subst r.
        pose proof (merge_true _ _ c e (pc_name c) Fne I (eq_sym Hn) eq_refl M) as K. rewrite EQ in K.
        destruct e as [m|m x|m]; destruct K as [-> K]; [apply mi_path|apply mi_field|apply mi_type]; exact K.
  - eapply IH; [|exact R]. apply dict_insert_ok; auto.
    assert (K : fragments (pc_name c) seen = []).
    { apply dict_get_none in G. rewrite H2, <- fragments_ne in G.
      destruct (fragments (pc_name c) seen); [reflexivity|]. exfalso. apply G. discriminate. }
    rewrite K. reflexivity.
Qed.

Lemma config_refuse t path root k e : honest k -> m_files k = nameless root -> ~ precondition_fails k ->
  snd (config_says t (m_yaml k) (m_drain k) path root) = Ret (Err e) -> e = 1%Z /\
  exists errors echo, ends_in (fst (config_says t (m_yaml k) (m_drain k) path root)) errors echo /\ grounds t path root k 1 errors echo.
Proof.
  intros Hh Hf NP H. split.
  { eapply config_exit; [exact Hh| |reflexivity]. rewrite Hf, <- (config_run t _ _ path). exact H. }
  unfold config_says in *. destruct (then_err _ _ _ H) as [(X & ->)|(raw & X & F & ->)].
  { destruct (reading_refuse _ _ _ _ X) as (x & U & E). exists [x], []. split; [exact E|]. apply gr_unread; assumption. }
  destruct (reading_pass _ _ _ _ X) as (Mo & Ho). rewrite reading_run, <- Hf in X.
  destruct (then_err _ _ _ F) as [(Y & ->)|(ps & Y & G & ->)].
  - eexists _, _. split; [apply ends_app; [exact Mo|]|eapply gr_yaml; [exact NP|exact Ho|reflexivity|]].
    + rewrite parsing_run in Y. unfold parse_raw_config in Y. destruct (forallb _ raw) eqn:Fo; [discriminate Y|]. 
      split; [apply parsing_errors; exact Fo|]. exists []. split; [|intros y []]. unfold parsing_says. rewrite Fo. cbn [fst]. rewrite !texts_app. cbn.
      replace (texts_of LTrace _) with (@nil string); [reflexivity|]. clear. induction (List.filter _ raw) as [|s l IH]; [reflexivity|]. cbn [map]. rewrite texts_cons, <- IH. reflexivity.
    + rewrite parsing_run in Y. unfold parse_raw_config in Y. destruct (forallb _ raw) eqn:Fo; [discriminate Y|]. clear -Fo. intros K.
      induction raw as [|s raw IH]; [discriminate Fo|]. cbn in *. destruct (is_some (m_yaml k s)); cbn in *; [auto|discriminate K].
  - rewrite (parsing_silent _ _ _ _ Y). rewrite parsing_run in Y. unfold parse_raw_config in Y. destruct (forallb _ raw) eqn:Fo; [|discriminate Y]. injection Y as <-.
    pose proof (read_parsed k raw X Fo) as RA.
    destruct (then_err _ _ _ G) as [(Z & ->)|(d & Z & L & _)]; [|discriminate L].
    destruct (merging_refuse _ [] [] _ ltac:(split; [constructor|split; [reflexivity|intros n c []]]) Z) as (a & c & b & x & E & U & Mi & En).
    exists [x], [x]. split; [apply ends_app; [exact Mo|exact En]|]. eapply gr_merge; [exact NP|exact RA|exact E|exact U|exact Mi].
Qed.
Lemma config_pass t path root k configs : honest k -> m_files k = nameless root ->
  snd (config_says t (m_yaml k) (m_drain k) path root) = Ret (Ok configs) -> modest (fst (config_says t (m_yaml k) (m_drain k) path root)) /\
  exists parsed, read_as k parsed /\ merged (concat parsed) configs.
Proof.
  intros Hh Hf H. split; [destruct (config_note _ _ _ _ _ _ H) as (l & _ & ->); apply ignoring_modest|].
  rewrite config_run, <- Hf in H. destruct (load_cases k Hh) as [[_ L]|[_ (parsed & R & L)]]; rewrite L in H; [discriminate H|].
  exists parsed. split; [exact R|]. exact (merge_dropins_spec _ _ _ (proj1 Hh) H).
Qed.

(** * Programs *)
Lemma wrong_of w c e : process_from w c = Ret (Err e) -> wrong w c (build_text e).
Proof.
  assert (MI : forall T id name (by_id : Z -> option (option T)) by_name e', map_id id name by_id by_name = Err e' -> e' = UserGroupInvalid).
  { intros T id name by_id by_name e' E. unfold map_id in E. destruct id, name; try congruence;
        repeat match type of E with context [match ?x with _ => _ end] => destruct x end; congruence. }
  unfold process_from. destruct (is_cronjob (pc_type c) && negb (is_nil (pc_before c))) eqn:B.
  { intros E. injection E as <-. apply wr_before. apply andb_true_iff in B. destruct B as [B1 B2]. split; [exact B1|]. intros K. rewrite K in B2. discriminate B2. }
  assert (NB : ~ runs_before c).
  { intros (B1 & B2). rewrite B1 in B. destruct (pc_before c); [contradiction|discriminate B]. }
  destruct (map_id (pc_uid c) _ _ _) as [u|e1] eqn:U.
  2:{ intros E. injection E as <-. pose proof (MI _ _ _ _ _ _ U) as K. subst e1. apply wr_user; [exact NB|]. left. apply map_id_err. exact U. }
  destruct (map_id (pc_gid c) _ _ _) as [g|e1] eqn:G.
  2:{ intros E. injection E as <-. pose proof (MI _ _ _ _ _ _ G) as K. subst e1. apply wr_user; [exact NB|]. right. apply map_id_err. exact G. }
  assert (NN : ~ nobody w c).
  { intros [K|K]; apply map_id_err in K; congruence. }
  destruct (pc_path c) as [path|] eqn:P; [|intros E; injection E as <-; apply wr_path; assumption].
  destruct (flatten_to_strings _ _) as [es|]; cbn; [|discriminate].
  destruct (cstring _ path) as [a0|]; cbn; [|discriminate].
  destruct (cstrings _ _) as [args|]; cbn; discriminate.
Qed.
Lemma built_fine w c p : process_from w c = Ret (Ok p) -> ~ program_fault w c.
Proof.
  intros H F. destruct (build_processes_spec w [c]) as [(_ & K)|(K & _)].
  - intros m K. cbn in K. rewrite H in K. discriminate K.
  - cbn in K. rewrite H in K. discriminate K.
  - apply (K c); [left; reflexivity|exact F].
Qed.
Lemma builds_refuse t w configs e : snd (builds_say t w configs) = Ret (Err e) ->
  exists a c b why, configs = a ++ c :: b /\ (forall x, In x a -> ~ program_fault w x) /\ wrong w c why /\
    let x := "Program " +:+ pc_name c +:+ " contains error: " +:+ why in ends_in (fst (builds_say t w configs)) [x] [x].
Proof.
  induction configs as [|c configs IH]; intros H; [discriminate H|]. cbn [builds_say] in *.
  destruct (then_ret _ _ _ H) as ([p|e'] & X & F & E); rewrite E; rewrite build_builds in X.
  - destruct (then_err _ _ _ F) as [(Y & ->)|(ps & Y & Z & _)]; [|discriminate Z].
    destruct (IH Y) as (a & c' & b & why & -> & A & W & En). exists (c :: a), c', b, why. split; [reflexivity|]. split; [|split; [exact W|]].
    + intros x [<-|K]; [eapply built_fine; exact X|auto].
    + apply ends_app; [apply build_modest|exact En].
  - exists [], c, configs, (build_text e'). split; [reflexivity|]. split; [intros x []|]. split; [apply wrong_of; exact X|].
    apply ends_app; [apply build_modest|apply ends_both].
Qed.
Lemma builds_pass t w configs ps : snd (builds_say t w configs) = Ret (Ok ps) ->
  modest (fst (builds_say t w configs)) /\ (forall x, In x configs -> ~ program_fault w x).
Proof.
  intros H. destruct (builds_note _ _ _ _ H) as (saids & A & ->). clear H. induction A as [|c said configs saids (p & B) A (IH1 & IH2)].
  - split; [apply modest_nil|intros x []].
  - split.
    + cbn. apply modest_app; [|exact IH1]. change said with (fst (said, Ret (@Ok process build_error p))). rewrite <- B. apply build_modest.
    + intros x [<-|K]; [|auto]. eapply built_fine. rewrite <- (build_builds (t_tera t)), B. reflexivity.
Qed.

(** * Dependencies and timers *)
Definition doubled (l : list string) : list message := concat (map (both LError) l).
Lemma doubled_errors l : texts_of LError (doubled l) = l.
Proof. induction l as [|x l IH]; [reflexivity|]. unfold doubled in *. cbn. f_equal. exact IH. Qed.
Lemma doubled_traces l : texts_of LTrace (doubled l) = l.
Proof. induction l as [|x l IH]; [reflexivity|]. unfold doubled in *. cbn. f_equal. exact IH. Qed.
Definition fails {A} (r : result A Z) : Prop := match r with Ok _ => False | Err _ => True end.
Lemma dependencies_part order toposort configs r : unique_names configs -> any_perm order -> finds_cycles toposort ->
  snd (dependencies_say order toposort configs) = Ret r ->
  exists d, tangled configs d /\ fst (dependencies_say order toposort configs) = doubled d /\ (fails r -> d <> []).
Proof.
  intros U Ho Ht H. revert H. unfold dependencies_say.
  destruct (with_nodes_spec order toposort configs U Ho Ht) as [(m & -> & Rk & Nc & Ac & _)|(e & -> & O & N)].
  - intros H. injection H as <-. exists []. split; [apply td_none; intros K; apply K; auto|]. split; [reflexivity|intros []].
  - assert (G : forall x, tangle configs x -> exists d, tangled configs d /\ both LError x = doubled d /\ (fails r -> d <> [])).
    { intros x T. exists [x]. split; [apply td_one; [exact N|exact T]|]. split; [reflexivity|discriminate]. }
    destruct e as [i|i p|i p|i]; cbn [offender] in O; cbn [dependency_text].
    + destruct (nth_error configs i) as [c|] eqn:E; [|discriminate]. intros _. apply G. eapply ta_cycle; [exact E|exact O].
    + destruct O as (c & n & E & En & K). rewrite E, En. intros _. apply G. apply ta_after; [eapply nth_error_In; exact E|eapply nth_error_In; exact En|exact K].
    + destruct O as (c & n & E & En & K). rewrite E, En. intros _. apply G. apply ta_before; [eapply nth_error_In; exact E|eapply nth_error_In; exact En|exact K].
    + destruct O as (c & n & E & En & K). rewrite E. intros _. apply G. eapply ta_cronjob; [eapply nth_error_In; exact E|exact En|exact K].
Qed.

(** The first job that is refused. *)
Lemma jobs_first tz : forall jobs c clock e id, with_jobs_from tz c jobs clock = Ret (Err (e, id)) ->
  exists a s b, jobs = a ++ (id, Some s) :: b /\ parse_timer s = Ret (Err e) /\ forall i s' e', In (i, Some s') a -> parse_timer s' <> Ret (Err e').
Proof.
  induction jobs as [|[i raw] jobs IH]; intros c clock e id H; [discriminate H|]. cbn in H. destruct raw as [s|]; [|discriminate H].
  destruct (parse_timer s) as [[d|e1]|m] eqn:P; [| |discriminate H].
  - destruct clock as [|now clock]; [discriminate H|]. destruct (next_execution tz d now) as [x|m]; [|discriminate H]. cbn in H.
    destruct (insert_job (timer c) x i) as [tm|m]; [|discriminate H]. cbn in H.
    destruct (IH _ _ _ _ H) as (a & s' & b & -> & P' & A). exists ((i, Some s) :: a), s', b. split; [reflexivity|]. split; [exact P'|].
    intros j s2 e2 [K|K]; [injection K as <- <-; congruence|eauto].
  - injection H as <- <-. exists [], s, jobs. split; [reflexivity|]. split; [exact P|intros i' s' e' []].
Qed.
Lemma filter_split {A} (f : A -> bool) l : forall a x b, List.filter f l = a ++ x :: b ->
  exists l1 l2, l = l1 ++ x :: l2 /\ List.filter f l1 = a.
Proof.
  induction l as [|y l IH]; intros a x b H; [destruct a; discriminate H|]. cbn in H. destruct (f y) eqn:F.
  - destruct a as [|z a]; cbn in H; injection H as -> H.
    + exists [], l. split; reflexivity.
    + destruct (IH _ _ _ H) as (l1 & l2 & -> & E). exists (z :: l1), l2. cbn. rewrite F, E. split; reflexivity.
  - destruct (IH _ _ _ H) as (l1 & l2 & -> & E). exists (y :: l1), l2. cbn. rewrite F, E. split; reflexivity.
Qed.
Lemma timers_part tz clock configs r : snd (timers_say tz clock configs) = Ret r ->
  exists u, untimed configs u /\ fst (timers_say tz clock configs) = doubled u /\ (fails r -> u <> []).
Proof.
  intros H. revert H. unfold timers_say. set (jobs := map _ _).
  assert (J : forall (l : list (nat * proc_config)) i c s, In (i, c) l -> pc_type c = CronJob s ->
    In (i, Some s) (map (fun e => (fst e, timer_text (snd e))) (List.filter (fun e => is_cronjob (pc_type (snd e))) l))).
  { intros l i c s K T. apply in_map_iff. exists (i, c). cbn. unfold timer_text. rewrite T. split; [reflexivity|]. apply filter_In. split; [exact K|]. cbn. rewrite T. reflexivity. }
  destruct (with_jobs tz jobs clock) as [[c|[why id]]|m] eqn:W; [| |discriminate].
  - intros H. injection H as <-. exists []. split; [|split; [reflexivity|intros []]]. apply um_none.
    intros c' why Hc (s & T & F). destruct (with_jobs_result tz jobs {| timers := []; timer := [] |} clock) as [(id & s' & e & _ & _ & E)|[Hn _]].
    + intros m E. unfold with_jobs in W. congruence.
    + unfold with_jobs in W. congruence.
    + apply In_nth_error in Hc. destruct Hc as (i & Hi). apply (Hn i s why).
      * apply (J _ i c'); [apply enumerate_in; exact Hi|exact T].
      * apply FaultProofs.timer_refused. exact F.
  - apply jobs_first in W. destruct W as (a & s & b & E & P & A). unfold jobs in E.
    apply map_eq_app in E. destruct E as (l1 & l2 & E & Ea & Eb). apply map_eq_cons in Eb. destruct Eb as ([i c] & l3 & -> & Ei & _).
    cbn in Ei. injection Ei as -> T. destruct (filter_split _ _ _ _ _ E) as (e1 & e2 & Ee & Ef).
    assert (Hc : nth_error configs id = Some c) by (apply enumerate_in; rewrite Ee; apply in_or_app; right; left; reflexivity).
    rewrite Hc. intros _. exists ["Timer parse error for program '" +:+ pc_name c +:+ "': " +:+ why]. split; [|split; [reflexivity|discriminate]].
    apply um_first with (a := map snd e1) (b := map snd e2).
    + rewrite <- (map_snd_enumerate configs), Ee, map_app. reflexivity.
    + intros x w Hx (s' & T' & F'). apply in_map_iff in Hx. destruct Hx as ([j x'] & <- & Hx). cbn in T'.
      apply (A j s' w); [|apply FaultProofs.timer_refused; exact F']. rewrite <- Ea, <- Ef. eapply J; [exact Hx|exact T'].
    + exists s. split; [unfold timer_text in T; destruct (pc_type c); congruence|]. apply FaultProofs.timer_refused. exact P.
Qed.

Lemma analysis_refuse t path root k parsed configs e : honest k -> ~ precondition_fails k -> read_as k parsed -> merged (concat parsed) configs ->
  snd (analysis_says t k configs) = Ret (Err e) -> e = 2%Z /\
  exists errors echo, ends_in (fst (analysis_says t k configs)) errors echo /\ grounds t path root k 2 errors echo.
Proof.
  intros Hh NP R M H. split; [eapply analysis_exit; [exact (proj1 M)|exact Hh|rewrite <- (analysis_run t); exact H]|].
  unfold analysis_says in *. destruct (then_err _ _ _ H) as [(X & ->)|(ps & X & F & ->)].
  { destruct (builds_refuse _ _ _ _ X) as (a & c & b & why & E & A & W & En). eexists _, _. split; [exact En|]. eapply gr_program; eassumption. }
  destruct (builds_pass _ _ _ _ X) as (Mo & Nf). destruct (then_ret _ _ _ F) as (dep & Y & G & ->). destruct (then_ret _ _ _ G) as (cron & Z & L & ->).
  destruct Hh as (_ & Ho & Ht & _).
  destruct (dependencies_part _ _ _ _ (proj1 M) Ho Ht Y) as (d & Td & Ed & Fd). destruct (timers_part _ _ _ _ Z) as (u & Tu & Eu & Fu).
  rewrite Ed, Eu.
  match goal with |- context [doubled u ++ fst ?x] => assert (S : fst x = if m_sockets k then [] else [(LError, "Could not setup sockets: " +:+ t_sockets t)]) end.
  { destruct (m_sockets k); [|reflexivity]. cbn. destruct dep; [|reflexivity]. destruct cron; [|reflexivity]. destruct (m_epoll k); reflexivity. }
  eexists _, _. split.
  - apply ends_app; [exact Mo|]. rewrite S. split; [|exists []; split; [|intros y []]]; rewrite !texts_app, ?doubled_errors, ?doubled_traces.
    + reflexivity.
    + replace (texts_of LTrace (if m_sockets k then _ else _)) with (@nil string) by (destruct (m_sockets k); reflexivity). rewrite app_nil_r. reflexivity.
  - replace (texts_of LError (if m_sockets k then _ else _)) with (if m_sockets k then [] else ["Could not setup sockets: " +:+ t_sockets t])
      by (destruct (m_sockets k); reflexivity).
    eapply gr_analysis; try eassumption. destruct (m_sockets k); [|auto]. cbn in L. destruct dep; [|left; apply Fd; exact Logic.I].
    destruct cron; [|right; left; apply Fu; exact Logic.I]. destruct (m_epoll k); discriminate L.
Qed.
Lemma analysis_pass t k configs a : snd (analysis_says t k configs) = Ret (Ok a) -> modest (fst (analysis_says t k configs)).
Proof.
  intros H. destruct (analysis_note _ _ _ _ H) as (saids & A & ->). clear H. induction A as [|c said configs saids (p & B) A IH]; [apply modest_nil|].
  cbn. apply modest_app; [|exact IH]. change said with (fst (said, Ret (@Ok process build_error p))). rewrite <- B. apply build_modest.
Qed.

Theorem start_refuses t path root k code : honest k -> m_files k = nameless root -> run k = Ret (Exits code) ->
  exists errors echo, ends_in (fst (start_says t path root k)) errors echo /\ grounds t path root k code errors echo.
Proof.
  intros Hh Hf H. rewrite <- (start_runs t path root k Hf) in H. unfold start_says in *. rewrite snd_tell in H. unfold tell at 1. cbn [fst].
  assert (I : forall x ms errors echo, ends_in ms errors echo -> ends_in ((LInfo, x) :: ms) errors echo).
  { intros x ms errors echo E. apply (ends_app [(LInfo, x)]); [apply modest_info|exact E]. }
  destruct (then_ret _ _ _ H) as ([u|e] & X & F & ->).
  2:{ destruct (checks_refuse _ _ _ X) as (-> & errors & E & G). cbn in F. injection F as <-. exists errors, []. cbn [fst done]. rewrite app_nil_r.
      split; [apply I; exact E|apply G]. }
  destruct (checks_pass _ _ _ X) as (M1 & NP). rewrite snd_tell in F. unfold tell at 1. cbn [fst].
  destruct (then_ret _ _ _ F) as ([configs|e] & Y & G & ->).
  2:{ destruct (config_refuse _ _ _ _ _ Hh Hf NP Y) as (-> & errors & echo & E & K). cbn in G. injection G as <-. exists errors, echo. cbn [fst done].
      rewrite app_nil_r. split; [|exact K]. apply I, ends_app; [exact M1|]. apply I, I. exact E. }
  destruct (config_pass _ _ _ _ _ Hh Hf Y) as (M2 & parsed & R & M). rewrite snd_tell in G. unfold tell at 1. cbn [fst].
  destruct (then_ret _ _ _ G) as ([a|e] & Z & L & ->).
  2:{ destruct (analysis_refuse _ path root _ _ _ _ Hh NP R M Z) as (-> & errors & echo & E & K). cbn in L. injection L as <-. exists errors, echo. cbn [fst done].
      rewrite app_nil_r. split; [|exact K]. apply I, ends_app; [exact M1|]. apply I, I, ends_app; [exact M2|]. apply I. exact E. }
  rewrite snd_tell in L. unfold tell. destruct (m_setup k) eqn:Se; [discriminate L|]. cbn in L. injection L as <-.
  eexists _, _. split.
  - apply I, ends_app; [exact M1|]. apply I, I, ends_app; [exact M2|]. apply I, ends_app; [eapply analysis_pass; exact Z|]. apply I, ends_error.
  - eapply gr_setup; [exact NP|exact R|exact M| |exact Se]. rewrite analysis_run in Z.
    destruct (analysis_exact k configs (proj1 M) Hh) as [[_ K]|[K _]]; [intros m; congruence|congruence|exact K].
Qed.
Theorem start_refuse t path root k code : honest k -> m_files k = nameless root -> run k = Ret (Exits code) ->
  exists errors echo, grounds t path root k code errors echo /\
    texts_of LError (fst (start_says t path root k)) = errors /\
    exists said, texts_of LTrace (fst (start_says t path root k)) = said ++ echo /\ incl said (texts_of LWarn (fst (start_says t path root k))).
Proof. intros Hh Hf H. destruct (start_refuses t path root k code Hh Hf H) as (errors & echo & E & G). exists errors, echo. split; [exact G|exact E]. Qed.
