(** Lemmas about the warnings before the event loop. *)
From stdpp Require Import gmap strings.
From Coq Require Import Ascii ZArith List Bool Lia Relations.
From Verif Require Import Base RStr CronModel ConfigModel ProcessModel EnvModel DepModel MainModel LogModel TemplModel StartModel
  SpecConfig SpecEnv SpecDep SpecMain SpecStart ConfigProofs EnvProofs DepProofs MainProofs TemplProofs StartProofs.
Import ListNotations.
Local Open Scope string_scope.
Local Open Scope list_scope.

(** * A successful start *)
Lemma then_ret {A B} (x : told A) (f : A -> told B) r : snd (then_ x f) = Ret r ->
  exists a, snd x = Ret a /\ snd (f a) = Ret r /\ fst (then_ x f) = fst x ++ fst (f a).
Proof. unfold then_. destruct (snd x) as [a|m]; [|discriminate]. intros H. exists a. auto. Qed.
Lemma then_ok {A B} (x : told (result A Z)) (f : A -> told (result B Z)) b :
  snd (then_ x (fun r => match r with Err e => done (Err e) | Ok a => f a end)) = Ret (Ok b) ->
  exists a, snd x = Ret (Ok a) /\ snd (f a) = Ret (Ok b) /\
    fst (then_ x (fun r => match r with Err e => done (Err e) | Ok a => f a end)) = fst x ++ fst (f a).
Proof.
  intros H. destruct (then_ret _ _ _ H) as ([a|e] & X & F & E); [|discriminate F]. exists a. auto.
Qed.

Lemma kernel_note t release : snd (kernel_says t release) = Ret (Ok tt) -> version_note t release (fst (kernel_says t release)).
Proof.
  unfold kernel_says. destruct release as [r|]; [|intros _; apply vn_unread; reflexivity].
  pose proof (version_split (utf8_lossy r)) as V.
  destruct (split_on "."%char (utf8_lossy r)) as [|a [|b l]].
  - intros _. apply vn_unknown; [reflexivity|]. intros M m K. apply V in K. destruct K as (x & y & z & E & _). discriminate E.
  - intros _. apply vn_unknown; [reflexivity|]. intros M m K. apply V in K. destruct K as (x & y & z & E & _). discriminate E.
  - destruct (parse_u32 a) as [M|] eqn:Ea.
    2:{ intros _. apply vn_unknown; [reflexivity|]. intros M m K. apply V in K. destruct K as (x & y & z & E & K & _). congruence. }
    destruct (parse_u32 b) as [m|] eqn:Eb.
    2:{ intros _. apply vn_unknown; [reflexivity|]. intros M' m K. apply V in K. destruct K as (x & y & z & E & _ & K). congruence. }
    destruct ((M <? 4) || ((M =? 4) && (m <? 3)))%Z; [discriminate|]. intros _. eapply vn_known; [reflexivity|]. apply V. exists a, b, l. split; [reflexivity|split; eassumption].
Qed.

Definition ignoring (p : string) : message := (LWarn, "Ignoring file " +:+ p).
Lemma reading_note t n : forall path raw, snd (reading_says t path n) = Ret (Ok raw) ->
  exists l, ignored path n l /\ fst (reading_says t path n) = map ignoring l.
Proof.
  induction n as [|[c|]| | |es IH] using tree_ind'; intros path raw R; try discriminate R.
  - exists []. split; [constructor|reflexivity].
  - exists [path]. split; [constructor|reflexivity].
  - rewrite reading_dir in *.
    assert (G : exists l, ignored_in path es l /\ fst (entries_read t path es) = map ignoring l).
    { revert raw R. induction es as [|[|name [|] m] es IHes]; intros raw R; try discriminate R; [exists []; split; [constructor|reflexivity]|].
      cbn [entries_read] in *. fold (entries_read t path) in *.
      destruct (then_ok _ _ _ R) as (c & X & F & ->). destruct (then_ok _ _ _ F) as (more & Y & _ & ->).
      destruct (IH name true m (or_introl eq_refl) _ _ X) as (a & Ia & ->).
      destruct (IHes (fun n u t H => IH n u t (or_intror H)) _ Y) as (b & Ib & ->).
      exists (a ++ b). cbn [fst done]. rewrite map_app, app_nil_r. split; [|reflexivity]. econstructor; [apply join_joined|exact Ia|exact Ib]. }
    destruct G as (l & I & E). exists l. split; [constructor; exact I|exact E].
Qed.
Lemma parsing_silent t yaml raw ps : snd (parsing_says t yaml raw) = Ret (Ok ps) -> fst (parsing_says t yaml raw) = [].
Proof. unfold parsing_says. destruct (forallb _ _); [reflexivity|discriminate]. Qed.
Lemma merging_silent : forall programs d d', snd (merging_says programs d) = Ret (Ok d') -> fst (merging_says programs d) = [].
Proof.
  induction programs as [|c programs IH]; intros d d' H; [reflexivity|]. cbn in *. destruct (dict_get (pc_name c) d) as [process|]; [|eauto].
  destruct (merge process c) as [[m|e]|x]; [eauto|discriminate H|discriminate H].
Qed.
Lemma config_note t yaml drain path root configs : snd (config_says t yaml drain path root) = Ret (Ok configs) ->
  exists l, ignored path root l /\ fst (config_says t yaml drain path root) = map ignoring l.
Proof.
  unfold config_says. intros H. destruct (then_ok _ _ _ H) as (raw & X & F & ->). destruct (then_ok _ _ _ F) as (ps & Y & G & ->).
  destruct (then_ok _ _ _ G) as (d & Z & _ & ->). destruct (reading_note _ _ _ _ X) as (l & I & ->). exists l. split; [exact I|].
  rewrite (parsing_silent _ _ _ _ Y), (merging_silent _ _ _ Z). cbn. apply app_nil_r.
Qed.

Definition builds_with (t : texts) (w : world) (c : proc_config) (said : list message) : Prop := exists p, build (t_tera t) w c = (said, Ret (Ok p)).
Lemma builds_note t w configs : forall ps, snd (builds_say t w configs) = Ret (Ok ps) ->
  exists saids, List.Forall2 (builds_with t w) configs saids /\ fst (builds_say t w configs) = concat saids.
Proof.
  induction configs as [|c configs IH]; intros ps H; cbn [builds_say] in *; [exists []; split; [constructor|reflexivity]|].
  destruct (then_ret _ _ _ H) as ([p|e] & X & F & E); [|discriminate F]. rewrite E. destruct (then_ok _ _ _ F) as (rest & Y & _ & ->).
  destruct (IH _ Y) as (saids & A & ->). exists (fst (build (t_tera t) w c) :: saids). split.
  - constructor; [|exact A]. exists p. rewrite <- X. apply surjective_pairing.
  - cbn. rewrite app_nil_r. reflexivity.
Qed.
Lemma analysis_note t k configs a : snd (analysis_says t k configs) = Ret (Ok a) ->
  exists saids, List.Forall2 (builds_with t (m_world k)) configs saids /\ fst (analysis_says t k configs) = concat saids.
Proof.
  unfold analysis_says. intros H. destruct (then_ok _ _ _ H) as (ps & X & F & ->). destruct (then_ret _ _ _ F) as (dep & Y & G & ->).
  destruct (then_ret _ _ _ G) as (cron & Z & L & ->). destruct (builds_note _ _ _ _ X) as (saids & A & ->). exists saids. split; [exact A|].
  destruct (negb (m_sockets k)); [discriminate L|]. destruct dep as [dep|]; [|discriminate L]. destruct cron as [cron|]; [|discriminate L].
  destruct (m_epoll k); [|discriminate L]. cbn [fst done].
  assert (D : fst (dependencies_say (m_order k) (m_toposort k) configs) = []).
  { revert Y. unfold dependencies_say. destruct (with_nodes _ _ _) as [[m|e]|x]; [reflexivity|destruct (dependency_text configs e); discriminate|discriminate]. }
  assert (T : fst (timers_say (m_zone k) (m_clock k) configs) = []).
  { revert Z. unfold timers_say. destruct (with_jobs _ _ _) as [[m|[why id]]|x]; [reflexivity|destruct (nth_error configs id); discriminate|discriminate]. }
  rewrite D, T. cbn. apply app_nil_r.
Qed.

Theorem start_log t path root k configs a : m_files k = nameless root -> run k = Ret (EntersLoop configs a) ->
  exists note files saids, version_note t (m_release k) note /\ ignored path root files /\
    List.Forall2 (fun c said => exists p, build (t_tera t) (m_world k) c = (said, Ret (Ok p))) configs saids /\
    fst (start_says t path root k) =
      [(LInfo, "Starting up")] ++ note ++ [(LInfo, "Config is at " +:+ path); (LInfo, "Parsing config")] ++
      map (fun p => (LWarn, "Ignoring file " +:+ p)) files ++ [(LInfo, "Perform analysis on programs")] ++ concat saids ++
      [(LInfo, "Spawning processes")].
Proof.
  intros Hf Hr. rewrite <- (start_runs t path root k Hf) in Hr. unfold start_says in *. unfold tell at 1. cbn [fst]. rewrite snd_tell in Hr.
  destruct (then_ret _ _ _ Hr) as ([[]|e] & X & F & ->); [|discriminate F]. unfold checks_say in *.
  destruct (then_ok _ _ _ X) as ([] & K & U & ->).
  assert (E : fst (user_says (m_uid k)) = []) by (revert U; unfold user_says; destruct (m_uid k =? 0)%Z; [reflexivity|discriminate]).
  rewrite E, app_nil_r. rewrite snd_tell in F. unfold tell at 1. cbn [fst].
  destruct (then_ret _ _ _ F) as ([cs|e] & Y & G & ->); [|discriminate G]. rewrite snd_tell in G. unfold tell at 1. cbn [fst].
  destruct (then_ret _ _ _ G) as ([a'|e] & Z & L & ->); [|discriminate L]. rewrite snd_tell in L. unfold tell at 1. cbn [fst].
  destruct (m_setup k); [|discriminate L]. cbn in L. injection L as -> _.
  destruct (config_note _ _ _ _ _ _ Y) as (files & I & ->). destruct (analysis_note _ _ _ _ Z) as (saids & A & ->).
  exists (fst (kernel_says t (m_release k))), files, saids. split; [apply kernel_note; exact K|]. split; [exact I|]. split; [exact A|]. reflexivity.
Qed.

(** * Warnings whatever happens *)
Definition wary (C : string -> Prop) {A} (x : told A) : Prop := Forall C (texts_of LWarn (fst x)).
Lemma wary_then {A B} C (x : told A) (f : A -> told B) : wary C x -> (forall a, snd x = Ret a -> wary C (f a)) -> wary C (then_ x f).
Proof.
  intros X F. unfold then_. destruct (snd x) as [a|m]; [|exact X]. unfold wary, tell in *. cbn [fst]. rewrite texts_app. apply List.Forall_app. split; [exact X|].
  exact (F a eq_refl).
Qed.
Lemma wary_tell {A} C l (x : told A) : Forall C (texts_of LWarn l) -> wary C x -> wary C (tell l x).
Proof. intros L X. unfold wary, tell in *. cbn [fst]. rewrite texts_app. apply List.Forall_app. auto. Qed.
Lemma wary_none {A} C (x : told A) : texts_of LWarn (fst x) = [] -> wary C x.
Proof. intros H. unfold wary. rewrite H. constructor. Qed.
Lemma wary_impl {A} (C D : string -> Prop) (x : told A) : (forall s, C s -> D s) -> wary C x -> wary D x.
Proof. intros H. apply List.Forall_impl. exact H. Qed.

Lemma note_wary t path root k l : version_note t (m_release k) l -> Forall (caution t path root k) (texts_of LWarn l).
Proof.
  intros [H|r H N|r M m H V]; cbn; [constructor; [apply ca_unread; exact H|constructor]|constructor; [apply ca_unknown; assumption|constructor]|constructor].
Qed.
Lemma kernel_wary t path root k : wary (caution t path root k) (kernel_says t (m_release k)).
Proof.
  destruct (snd (kernel_says t (m_release k))) as [[[]|e]|m] eqn:E.
  - apply note_wary. apply kernel_note. exact E.
  - apply wary_none. revert E. unfold kernel_says. destruct (m_release k) as [r|]; [|discriminate].
    destruct (split_on "."%char (utf8_lossy r)) as [|a [|b l]]; try discriminate. destruct (parse_u32 a); try discriminate. destruct (parse_u32 b); try discriminate.
    destruct (_ || _); [reflexivity|discriminate].
  - rewrite kernel_run in E. discriminate E.
Qed.
Lemma user_wary C uid : wary C (user_says uid).
Proof. apply wary_none. unfold user_says. destruct (uid =? 0)%Z; reflexivity. Qed.

Definition special_below (path : string) (n : tree) (x : string) : Prop := exists p, at_path path n p TSpecial /\ x = "Ignoring file " +:+ p.
Lemma reading_wary t n : forall path, wary (special_below path n) (reading_says t path n).
Proof.
  induction n as [|[c|]| | |es IH] using tree_ind'; intros path; try (apply wary_none; reflexivity).
  - constructor; [exists path; split; [constructor|reflexivity]|constructor].
  - rewrite reading_dir.
    assert (G : forall l, (forall e, In e l -> In e es) -> wary (special_below path (TDir (Some es))) (entries_read t path l)).
    { induction l as [|[|name [|] m] l IHl]; intros Sub; try (apply wary_none; reflexivity).
      cbn [entries_read]. fold (entries_read t path). assert (Hin : In (TEntry name true m) es) by (apply Sub; left; reflexivity).
      apply wary_then.
      - eapply wary_impl; [|apply (IH name true m Hin)]. intros x (p & A & ->). exists p. split; [|reflexivity]. eapply ap_below; [exact Hin|apply join_joined|exact A].
      - intros [c|e] _; [|apply wary_none; reflexivity]. apply wary_then; [apply IHl; intros e He; apply Sub; right; exact He|].
        intros [more|e] _; apply wary_none; reflexivity. }
    apply G. auto.
Qed.
Lemma errors_warn l : (forall m, In m l -> fst m <> LWarn) -> texts_of LWarn l = [].
Proof.
  induction l as [|[lv x] l IH]; intros H; [reflexivity|]. rewrite texts_cons, IH by (intros m K; apply H; right; exact K).
  specialize (H _ (or_introl eq_refl)). cbn in *. destruct lv; [|contradiction|..]; reflexivity.
Qed.
Lemma parsing_wary C t yaml raw : wary C (parsing_says t yaml raw).
Proof.
  apply wary_none. unfold parsing_says. destruct (forallb _ _); [reflexivity|]. cbn [fst]. apply errors_warn. intros m K.
  apply in_app_or in K. destruct K as [[<-|[]]|K]; [discriminate|]. apply in_app_or in K. destruct K as [K|[<-|[]]]; [|discriminate].
  apply in_map_iff in K. destruct K as (x & <- & _). discriminate.
Qed.
Lemma merging_wary C : forall programs d, wary C (merging_says programs d).
Proof.
  induction programs as [|c programs IH]; intros d; [apply wary_none; reflexivity|]. cbn. destruct (dict_get (pc_name c) d) as [process|]; [|auto].
  destruct (merge process c) as [[m|e]|x]; [auto|apply wary_none; reflexivity|apply wary_none; reflexivity].
Qed.
Lemma config_wary (C : string -> Prop) t yaml drain path root : (forall p, at_path path root p TSpecial -> C ("Ignoring file " +:+ p)) ->
  wary C (config_says t yaml drain path root).
Proof.
  intros H. apply wary_then; [eapply wary_impl; [|apply reading_wary]; intros x (p & A & ->); auto|].
  intros [raw|e] _; [|apply wary_none; reflexivity]. apply wary_then; [apply parsing_wary|].
  intros [ps|e] _; [|apply wary_none; reflexivity]. apply wary_then; [apply merging_wary|]. intros [d|e] _; apply wary_none; reflexivity.
Qed.
Lemma builds_wary (C : string -> Prop) t w configs : (forall c x, In c configs -> In (LWarn, x) (fst (build (t_tera t) w c)) -> C x) -> wary C (builds_say t w configs).
Proof.
  induction configs as [|c configs IH]; intros H; [apply wary_none; reflexivity|]. cbn [builds_say]. apply wary_then.
  - unfold wary, texts_of. apply List.Forall_forall. intros x K. apply in_map_iff in K. destruct K as ([lv y] & E & K). cbn in E. subst y.
    apply filter_In in K. destruct K as [K R]. cbn in R. destruct lv; try discriminate R. eapply H; [left; reflexivity|exact K].
  - intros [p|e] _; [|apply wary_none; reflexivity]. apply wary_then; [apply IH; intros c' x Hc; apply H; right; exact Hc|].
    intros [ps|e] _; apply wary_none; reflexivity.
Qed.
Lemma analysis_wary (C : string -> Prop) t k configs : (forall c x, In c configs -> In (LWarn, x) (fst (build (t_tera t) (m_world k) c)) -> C x) -> wary C (analysis_says t k configs).
Proof.
  intros H. apply wary_then; [apply builds_wary; exact H|]. intros [ps|e] _; [|apply wary_none; reflexivity]. apply wary_then.
  - apply wary_none. unfold dependencies_say. destruct (with_nodes _ _ _) as [[m|e]|x]; [reflexivity|destruct (dependency_text configs e); reflexivity|reflexivity].
  - intros dep _. apply wary_then.
    + apply wary_none. unfold timers_say. destruct (with_jobs _ _ _) as [[m|[why id]]|x]; [reflexivity|destruct (nth_error configs id); reflexivity|reflexivity].
    + intros cron _. apply wary_none. destruct (negb (m_sockets k)); [reflexivity|]. destruct dep; [|reflexivity]. destruct cron; [|reflexivity]. destruct (m_epoll k); reflexivity.
Qed.

Theorem start_cautions t path root k : honest k -> m_files k = nameless root ->
  Forall (caution t path root k) (texts_of LWarn (fst (start_says t path root k))).
Proof.
  intros Hh Hf. change (wary (caution t path root k) (start_says t path root k)). unfold start_says. apply wary_tell; [constructor|]. apply wary_then.
  { apply wary_then; [apply kernel_wary|]. intros [[]|e] _; [apply user_wary|apply wary_none; reflexivity]. }
  intros [[]|e] _; [|apply wary_none; reflexivity]. apply wary_tell; [constructor|]. apply wary_then; [apply config_wary; intros p A; apply ca_special; exact A|].
  intros [configs|e] PC; [|apply wary_none; reflexivity]. rewrite config_run, <- Hf in PC.
  assert (MG : exists parsed, read_as k parsed /\ merged (concat parsed) configs).
  { destruct (load_cases k Hh) as [[_ L]|[_ (parsed & R & L)]]; rewrite L in PC; [discriminate PC|].
    exists parsed. split; [exact R|]. exact (merge_dropins_spec _ _ _ (proj1 Hh) PC). }
  destruct MG as (parsed & R & M). apply wary_tell; [constructor|]. apply wary_then; [apply analysis_wary; intros c x Hc K; eapply ca_program; eassumption|].
  intros [a|e] _; [|apply wary_none; reflexivity]. apply wary_tell; [constructor|]. apply wary_none. destruct (m_setup k); reflexivity.
Qed.
