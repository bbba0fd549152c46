(** Lemmas about the messages at DEBUG level before the event loop. *)
From stdpp Require Import gmap strings.
From Coq Require Import Ascii ZArith List Bool Lia Relations Permutation.
From Verif Require Import Base RStr CronModel ConfigModel ProcessModel EnvModel DepModel MainModel LogModel TemplModel StartModel BeginModel
  SpecConfig SpecEnv SpecDep SpecMain SpecStart SpecRefuse SpecBegin ConfigProofs EnvProofs DepProofs MainProofs TemplProofs StartProofs StartProofs2 RefuseProofs.
Import ListNotations.
Local Open Scope string_scope.
Local Open Scope list_scope.

(** * Messages at DEBUG level come in addition *)
Definition calm {A} (x : told A) : Prop := quieter (fst x) = fst x.
Definition lowers {A} (x y : told A) : Prop := snd x = snd y /\ quieter (fst x) = fst y.
Lemma quieter_app a b : quieter (a ++ b) = quieter a ++ quieter b.
Proof. apply List.filter_app. Qed.
Lemma lowers_calm {A} (x : told A) : calm x -> lowers x x.
Proof. intros C. split; [reflexivity|exact C]. Qed.
Lemma calm_done {A} (a : A) : calm (done a).
Proof. reflexivity. Qed.
Lemma calm_tell {A} l (x : told A) : quieter l = l -> calm x -> calm (tell l x).
Proof. intros L C. unfold calm, tell in *. cbn [fst]. rewrite quieter_app, L, C. reflexivity. Qed.
Lemma calm_then {A B} (x : told A) (f : A -> told B) : calm x -> (forall a, calm (f a)) -> calm (then_ x f).
Proof. intros X F. unfold then_. destruct (snd x) as [a|m]; [apply calm_tell; [exact X|apply F]|exact X]. Qed.
Lemma lowers_tell {A} l l' (x y : told A) : quieter l = l' -> lowers x y -> lowers (tell l x) (tell l' y).
Proof. intros L [S Q]. split; [exact S|]. unfold tell. cbn [fst]. rewrite quieter_app, L, Q. reflexivity. Qed.
Lemma lowers_added {A} l (x y : told A) : quieter l = [] -> lowers x y -> lowers (tell l x) y.
Proof. intros L [S Q]. split; [exact S|]. unfold tell. cbn [fst]. rewrite quieter_app, L, Q. reflexivity. Qed.
Lemma lowers_then {A B} (x y : told A) (f g : A -> told B) : lowers x y -> (forall a, lowers (f a) (g a)) -> lowers (then_ x f) (then_ y g).
Proof.
  intros [S Q] F. unfold then_. rewrite S. destruct (snd y) as [a|m]; [apply lowers_tell; [exact Q|apply F]|split; [reflexivity|exact Q]].
Qed.

Lemma mild_calm ms : mild ms -> quieter ms = ms.
Proof.
  induction ms as [|[l x] ms IH]; intros H; [reflexivity|]. inversion H as [|? ? L R]; subst.
  destruct L as [E|E]; cbn in E; subst l; cbn; f_equal; exact (IH R).
Qed.
Lemma user_calm uid : calm (user_says uid).
Proof. unfold user_says. destruct (uid =? 0)%Z; reflexivity. Qed.
Lemma reading_calm t n : forall path, calm (reading_says t path n).
Proof.
  induction n as [|[c|]| | |es IH] using tree_ind'; intros path; try reflexivity.
  rewrite reading_dir. induction es as [|[|name [|] m] es IHes]; try reflexivity.
  cbn [entries_read]. fold (entries_read t path). apply calm_then; [apply (IH name true m); left; reflexivity|]. intros [c|e]; [|reflexivity].
  apply calm_then; [apply IHes; intros n u t' H; apply (IH n u t'); right; exact H|]. intros [d|e]; reflexivity.
Qed.
Lemma yaml_calm t l : quieter (map (fun s => (LError, t_yaml t s)) l) = map (fun s => (LError, t_yaml t s)) l.
Proof. induction l as [|s l IH]; [reflexivity|]. cbn. f_equal. exact IH. Qed.
Lemma parsing_calm t yaml raw : calm (parsing_says t yaml raw).
Proof. unfold parsing_says, calm. destruct (forallb _ _); [reflexivity|]. cbn [fst]. rewrite !quieter_app, yaml_calm. reflexivity. Qed.
Lemma merging_calm : forall programs d, calm (merging_says programs d).
Proof.
  induction programs as [|c rest IH]; intros d; [reflexivity|]. cbn [merging_says]. destruct (dict_get (pc_name c) d) as [p|]; [|apply IH].
  destruct (merge p c) as [[m|e]|m]; [apply IH|reflexivity|reflexivity].
Qed.
Lemma builds_calm t w : forall configs, calm (builds_say t w configs).
Proof.
  induction configs as [|c rest IH]; [reflexivity|]. cbn [builds_say]. apply calm_then; [apply mild_calm, build_mild|]. intros [p|e]; [|reflexivity].
  apply calm_then; [exact IH|]. intros [ps|e]; reflexivity.
Qed.
Lemma dependencies_calm order toposort configs : calm (dependencies_say order toposort configs).
Proof.
  unfold dependencies_say. destruct (with_nodes _ _ _) as [[m|e]|m]; [reflexivity| |reflexivity]. destruct (dependency_text configs e); reflexivity.
Qed.
Lemma timers_calm tz clock configs : calm (timers_say tz clock configs).
Proof.
  unfold timers_say. destruct (with_jobs _ _ _) as [[m|[why id]]|m]; [reflexivity| |reflexivity]. destruct (nth_error configs id); reflexivity.
Qed.

Lemma kernel_lowers t release : lowers (kernel_logs t release) (kernel_says t release).
Proof.
  unfold kernel_logs, kernel_says. destruct release as [r|]; [|split; reflexivity].
  destruct (split_on "."%char (utf8_lossy r)) as [|a [|b l]]; try (split; reflexivity).
  destruct (parse_u32 a) as [M|]; [|split; reflexivity]. destruct (parse_u32 b) as [m|]; [|split; reflexivity].
  destruct ((M <? 4) || ((M =? 4) && (m <? 3)))%Z; split; reflexivity.
Qed.
Lemma checks_lowers t release uid : lowers (checks_log t release uid) (checks_say t release uid).
Proof.
  apply lowers_then; [apply kernel_lowers|]. intros [u|e]; apply lowers_calm; [apply user_calm|reflexivity].
Qed.
Lemma config_lowers t yaml drain path root : lowers (config_logs t yaml drain path root) (config_says t yaml drain path root).
Proof.
  apply lowers_then; [apply lowers_calm, reading_calm|]. intros [raw|e]; [|apply lowers_calm; reflexivity].
  apply lowers_added; [reflexivity|]. apply lowers_calm.
  apply calm_then; [apply parsing_calm|]. intros [ps|e]; [|reflexivity]. apply calm_then; [apply merging_calm|]. intros [d|e]; reflexivity.
Qed.
Lemma jobs_quiet show tz : forall jobs clock, quieter (jobs_log show tz jobs clock) = [].
Proof.
  induction jobs as [|[i c] rest IH]; intros clock; [reflexivity|]. cbn [jobs_log]. destruct (timer_text c) as [raw|]; [|reflexivity].
  destruct (parse_timer raw) as [[desc|e]|m]; [|reflexivity|reflexivity]. destruct clock as [|now clock]; [reflexivity|].
  destruct (next_execution tz desc now) as [u|m]; [|reflexivity]. cbn. apply IH.
Qed.
Lemma timers_lowers show tz clock configs : lowers (timers_log show tz clock configs) (timers_say tz clock configs).
Proof.
  unfold timers_log. apply lowers_added; [apply jobs_quiet|]. apply lowers_calm, timers_calm.
Qed.
Lemma sockets_quiet d k : quieter (sockets_log d k) = [].
Proof. unfold sockets_log. destruct (m_sockets k); [reflexivity|]. destruct (a_first d); reflexivity. Qed.
Lemma analysis_lowers t d k configs : lowers (analysis_logs t d k configs) (analysis_says t k configs).
Proof.
  apply lowers_then; [apply lowers_calm, builds_calm|]. intros [ps|e]; [|apply lowers_calm; reflexivity].
  apply lowers_then; [apply lowers_calm, dependencies_calm|]. intros dep. apply lowers_then; [apply timers_lowers|]. intros cron.
  apply lowers_added; [apply sockets_quiet|]. apply lowers_calm.
  destruct (negb (m_sockets k)); [reflexivity|]. destruct dep; [|reflexivity]. destruct cron; [|reflexivity]. destruct (m_epoll k); reflexivity.
Qed.
Theorem start_lowers t d path root k : lowers (start_logs t d path root k) (start_says t path root k).
Proof.
  apply lowers_tell; [reflexivity|]. apply lowers_then; [apply checks_lowers|]. intros [u|e]; [|apply lowers_calm; reflexivity].
  apply lowers_tell; [reflexivity|]. apply lowers_then; [apply config_lowers|]. intros [configs|e]; [|apply lowers_calm; reflexivity].
  apply lowers_tell; [reflexivity|]. apply lowers_then; [apply analysis_lowers|]. intros [a|e]; [|apply lowers_calm; reflexivity].
  apply lowers_tell; [reflexivity|]. destruct (m_setup k); split; reflexivity.
Qed.
Theorem logs_run t d path root k : m_files k = nameless root -> snd (start_logs t d path root k) = run k.
Proof. intros Hf. rewrite (proj1 (start_lowers t d path root k)). apply start_runs. exact Hf. Qed.

(** * The messages at DEBUG level *)
Definition low (ms : list message) : list string := texts_of LDebug ms.
Lemma low_app a b : low (a ++ b) = low a ++ low b.
Proof. apply texts_app. Qed.
Lemma calm_low ms : quieter ms = ms -> low ms = [].
Proof.
  intros Q. assert (H : forall m, In m ms -> is_debug m = false).
  { intros m K. rewrite <- Q in K. apply filter_In in K. destruct K as [_ K]. destruct (is_debug m); [discriminate K|reflexivity]. }
  clear Q. induction ms as [|[l x] ms IH]; [reflexivity|]. unfold low in *. rewrite texts_cons, IH; [|intros m K; apply H; right; exact K].
  specialize (H _ (or_introl eq_refl)). destruct l; try reflexivity. discriminate H.
Qed.

Lemma kernel_low t release : kernel_detail release (low (fst (kernel_logs t release))).
Proof.
  unfold kernel_logs. destruct release as [r|]; [|apply kd_unknown; discriminate].
  pose proof (version_split (utf8_lossy r)) as V.
  destruct (split_on "."%char (utf8_lossy r)) as [|a [|b l]].
  - apply kd_unknown. intros r' M m E K. injection E as <-. apply V in K. destruct K as (x & y & z & E & _). discriminate E.
  - apply kd_unknown. intros r' M m E K. injection E as <-. apply V in K. destruct K as (x & y & z & E & _). discriminate E.
  - destruct (parse_u32 a) as [M|] eqn:Ea.
    2:{ apply kd_unknown. intros r' M m E K. injection E as <-. apply V in K. destruct K as (x & y & z & E & K & _). congruence. }
    destruct (parse_u32 b) as [m|] eqn:Eb.
    2:{ apply kd_unknown. intros r' M' m E K. injection E as <-. apply V in K. destruct K as (x & y & z & E & _ & K). congruence. }
    assert (W : version (utf8_lossy r) M m) by (apply V; exists a, b, l; split; [reflexivity|split; assumption]).
    destruct ((M <? 4) || ((M =? 4) && (m <? 3)))%Z eqn:C.
    + apply kd_old. exists r, M, m. split; [reflexivity|]. split; [exact W|]. lia.
    + eapply kd_known; [reflexivity|exact W|]. intros (r' & M' & m' & E & W' & L). injection E as <-. apply V in W, W'.
      destruct W as (x & y & z & E & E1 & E2). destruct W' as (x' & y' & z' & E' & E1' & E2'). rewrite E in E'. injection E' as <- <- <-.
      rewrite E1 in E1'. rewrite E2 in E2'. injection E1' as <-. injection E2' as <-. lia.
Qed.

Lemma glue_concat raw : String.concat "" raw = glued raw.
Proof.
  induction raw as [|s raw IH]; [reflexivity|]. destruct raw as [|s' raw].
  - cbn. symmetry. apply TemplProofs.append_nil.
  - change (String.concat "" (s :: s' :: raw)) with (s +:+ String.concat "" (s' :: raw)). rewrite IH. reflexivity.
Qed.

Definition job (e : nat * proc_config) : bool := is_cronjob (pc_type (snd e)).
Definition timed (e : nat * proc_config) : nat * option string := (fst e, timer_text (snd e)).
Lemma jobs_announced show tz : forall es c clock r, with_jobs_from tz c (map timed (List.filter job es)) clock = Ret r ->
  announced show tz (map snd es) clock (low (jobs_log show tz (List.filter job es) clock)).
Proof.
  induction es as [|[i p] es IH]; intros c clock r H; [constructor|]. cbn [List.filter map snd] in *. unfold job at 1 in H. unfold job at 1. cbn [snd] in *.
  destruct (is_cronjob (pc_type p)) eqn:J; [|apply an_program; [intros s' T; rewrite T in J; discriminate J|eapply IH; exact H]].
  assert (T : exists s, pc_type p = CronJob s /\ timer_text p = Some s) by (unfold timer_text; destruct (pc_type p); try discriminate J; eauto).
  destruct T as (s & T & E). cbn [map timed fst snd with_jobs_from jobs_log] in *. rewrite E in *.
  destruct (parse_timer s) as [[d|why]|m] eqn:P; [|apply an_refused; apply timer_fault_parse; exists s, why; split; assumption|discriminate H].
  destruct clock as [|now clock]; [discriminate H|]. destruct (next_execution tz d now) as [u|m] eqn:N; [|discriminate H]. cbn [obind] in H.
  destruct (insert_job (timer c) u i) as [tm|m]; [|discriminate H]. cbn [obind] in H.
  change (announced show tz (p :: map snd es) (now :: clock) (first_run show p u :: low (jobs_log show tz (List.filter job es) clock))).
  eapply an_cronjob; [exact T|apply CronTextProofs.spells_parse; exact P|exact N|]. eapply IH. exact H.
Qed.
Lemma timers_announced show tz clock configs r : snd (timers_log show tz clock configs) = Ret r ->
  announced show tz configs clock (low (fst (timers_log show tz clock configs))).
Proof.
  unfold timers_log. unfold tell. cbn [fst snd]. rewrite low_app, (calm_low _ (timers_calm tz clock configs)), app_nil_r. unfold timers_say.
  destruct (with_jobs tz _ clock) as [j|m] eqn:W; [|discriminate]. intros _.
  pose proof (jobs_announced show tz (enumerate configs) _ _ _ W) as A. rewrite map_snd_enumerate in A. exact A.
Qed.

Lemma low_then {A B} (x : told A) (f : A -> told B) r : snd (then_ x f) = Ret r ->
  exists a, snd x = Ret a /\ snd (f a) = Ret r /\ low (fst (then_ x f)) = low (fst x) ++ low (fst (f a)).
Proof. intros H. destruct (then_ret _ _ _ H) as (a & X & F & ->). exists a. rewrite low_app. auto. Qed.

Lemma analysis_low t d k configs r : snd (analysis_logs t d k configs) = Ret r ->
  (exists e c, r = Err e /\ In c configs /\ program_fault (m_world k) c /\ low (fst (analysis_logs t d k configs)) = []) \/
  ((forall c, In c configs -> ~ program_fault (m_world k) c) /\ exists l, announced (a_rfc3339 d) (m_zone k) configs (m_clock k) l /\
    low (fst (analysis_logs t d k configs)) = l ++ (if m_sockets k then [first_socket; second_socket] else if a_first d then [first_socket] else [])).
Proof.
  unfold analysis_logs. intros H. destruct (low_then _ _ _ H) as (ps & X & F & ->). rewrite (calm_low _ (builds_calm t (m_world k) configs)). cbn [app].
  destruct ps as [ps|e].
  2:{ left. injection F as <-. destruct (builds_refuse _ _ _ _ X) as (a & c & b & why & -> & _ & W & _). exists e, c. split; [reflexivity|].
      split; [apply in_or_app; right; left; reflexivity|]. split; [|reflexivity]. destruct W as [B|_ B|_ _ B]; [left; exact B| |right; right; right; exact B].
      right. destruct B as [B|B]; [left; exact B|right; left; exact B]. }
  right. split; [apply (builds_pass _ _ _ _ X)|].
  destruct (low_then _ _ _ F) as (dep & Y & G & ->). rewrite (calm_low _ (dependencies_calm _ _ configs)). cbn [app].
  destruct (low_then _ _ _ G) as (cron & Z & L & ->). eexists. split; [eapply timers_announced; exact Z|]. f_equal.
  unfold tell. cbn [fst]. rewrite low_app.
  match goal with |- _ ++ low (fst ?x) = _ => assert (C : calm x) end.
  { destruct (negb (m_sockets k)); [reflexivity|]. destruct dep; [|reflexivity]. destruct cron; [|reflexivity]. destruct (m_epoll k); reflexivity. }
  rewrite (calm_low _ C), app_nil_r. unfold sockets_log. destruct (m_sockets k); [reflexivity|]. destruct (a_first d); reflexivity.
Qed.

Lemma listed_in root ps cs p s : listing root ps cs -> file_at root p s -> In s cs.
Proof.
  intros (_ & L2 & L3) Hp. apply L3 in Hp as Hin. clear L3.
  assert (D : forall s', file_at root p s' -> s' = s) by (intros s' H'; pose proof (node_at_fun _ _ _ _ Hp H') as K; congruence).
  clear Hp. induction L2 as [|q c qs cs H L2 IH]; [destruct Hin|]. destruct Hin as [<-|Hin]; [left; apply D; exact H|right; apply IH; exact Hin].
Qed.
Lemma config_low t path root k r : m_files k = nameless root -> snd (config_logs t (m_yaml k) (m_drain k) path root) = Ret r ->
  (exists e, r = Err e /\ broken (m_files k) /\ low (fst (config_logs t (m_yaml k) (m_drain k) path root)) = []) \/
  (exists raw, holds root raw /\ low (fst (config_logs t (m_yaml k) (m_drain k) path root)) = [complete raw] /\
    ((exists e s, r = Err e /\ In s raw /\ m_yaml k s = None) \/
     ~ broken (m_files k) /\ (forall p s, file_at (m_files k) p s -> m_yaml k s <> None))).
Proof.
  intros Hf. unfold config_logs. intros H. destruct (low_then _ _ _ H) as (raw & X & F & ->). rewrite (calm_low _ (reading_calm t root path)). cbn [app].
  pose proof (read_config_spec (m_files k)) as Sp. rewrite Hf, <- (reading_run t root path), X in Sp.
  destruct raw as [raw|e]; [|left; injection F as <-; exists e; split; [reflexivity|]; split; [rewrite Hf; inversion Sp; assumption|reflexivity]].
  right. destruct (reading_pass _ _ _ _ X) as (_ & Ho). exists raw. split; [exact Ho|]. rewrite snd_tell in F. unfold tell. cbn [fst]. rewrite low_app. split.
  { match goal with |- _ ++ low (fst ?x) = _ => assert (C : calm x) end.
    { apply calm_then; [apply parsing_calm|]. intros [ps|e]; [|reflexivity]. apply calm_then; [apply merging_calm|]. intros [d|e]; reflexivity. }
    rewrite (calm_low _ C), app_nil_r, glue_concat. reflexivity. }
  destruct (then_ret _ _ _ F) as (ps & Y & G & _). rewrite parsing_run in Y. unfold parse_raw_config in Y.
  destruct (forallb (fun s => is_some (m_yaml k s)) raw) eqn:Fo.
  - right. inversion Sp as [qs cs Li B U E| |]; subst cs. rewrite Hf. split; [exact B|]. intros p s Hp E'. rewrite forallb_forall in Fo. specialize (Fo s (listed_in _ _ _ _ _ Li Hp)).
    rewrite E' in Fo. discriminate Fo.
  - left. injection Y as <-. injection G as <-. exists CONFIG_EXIT. clear -Fo. induction raw as [|s raw IH]; [discriminate Fo|]. cbn in Fo.
    destruct (m_yaml k s) eqn:E; [|exists s; split; [reflexivity|]; split; [left; reflexivity|exact E]]. destruct (IH Fo) as (s' & A & B & C). exists s'. split; [exact A|].
    split; [right; exact B|exact C].
Qed.

Theorem start_details t d path root k r : honest k -> m_files k = nameless root -> run k = Ret r ->
  details (a_rfc3339 d) (a_first d) root k r (texts_of LDebug (fst (start_logs t d path root k))).
Proof.
  intros Hh Hf Hr. pose proof Hr as R0. rewrite <- (logs_run t d path root k Hf) in R0. fold (low (fst (start_logs t d path root k))).
  pose proof (run_exact k r Hh Hr) as Ex. unfold start_logs in *. rewrite snd_tell in R0. unfold tell at 1. cbn [fst]. rewrite low_app. change (low [_]) with (@nil string). cbn [app].
  destruct (low_then _ _ _ R0) as (c & X & F & ->). clear R0.
  assert (V : kernel_detail (m_release k) (low (fst (checks_log t (m_release k) (m_uid k))))).
  { clear F. unfold checks_log in *. destruct (low_then _ _ _ X) as (v & _ & _ & ->).
    match goal with |- kernel_detail _ (_ ++ low (fst ?x)) => assert (C : calm x) by (destruct v; [apply user_calm|reflexivity]) end.
    rewrite (calm_low _ C), app_nil_r. apply kernel_low. }
  rewrite (proj1 (checks_lowers t (m_release k) (m_uid k))), checks_run in X. injection X as X.
  set (v := low (fst (checks_log t (m_release k) (m_uid k)))) in *. clearbody v.
  assert (P : (precondition_fails k /\ c = Err 5%Z) \/ (~ precondition_fails k /\ c = Ok tt)).
  { destruct (startup_exact (m_release k) (m_uid k)) as [[P K]|[P K]]; rewrite K in X; subst c; [left|right]; split; try reflexivity; exact P. }
  destruct P as [(P & ->)|(P & ->)].
  { injection F as <-. cbn [fst done low texts_of List.filter map]. rewrite app_nil_r. apply de_checks; assumption. }
  rewrite snd_tell in F. unfold tell at 1. cbn [fst]. rewrite low_app. change (low [_; _]) with (@nil string). cbn [app].
  destruct Ex as [(P' & _)|(_ & Ex)]; [contradiction|].
  destruct (low_then _ _ _ F) as (cs & Y & G & ->). clear F X.
  destruct (config_low t path root k cs Hf Y) as [(e & -> & Br & ->)|(raw & Ho & -> & C)].
  { injection G as <-. cbn [fst done low texts_of List.filter map]. rewrite app_nil_r. 
    assert (E : e = 1%Z).
    { rewrite (proj1 (config_lowers _ _ _ _ _)), config_run, <- Hf in Y. eapply config_exit; [exact Hh|exact Y|reflexivity]. }
    subst e. apply de_unread; assumption. }
  assert (Cf : parse_config (m_yaml k) (m_drain k) (m_files k) = Ret cs).
  { rewrite Hf, <- (config_run t _ _ path), <- (proj1 (config_lowers _ _ _ _ _)). exact Y. }
  destruct cs as [configs|e].
  2:{ injection G as <-. cbn [fst done low texts_of List.filter map]. rewrite app_nil_r.
      assert (E : e = 1%Z) by (eapply config_exit; [exact Hh|exact Cf|reflexivity]). subst e.
      destruct C as [(e' & s & _ & K & N)|(Br & Al)]; [eapply de_unparsed; eassumption|].
      destruct Ex as [(U & _)|(_ & parsed & RA & [(Um & _)|(_ & configs & _ & Ex)])].
      - exfalso. destruct U as [U|(p & s & U & N)]; [contradiction|]. exact (Al p s U N).
      - eapply de_unmerged; eassumption.
      - destruct Ex as [(_ & K)|[(_ & _ & K)|(_ & _ & a & K & _)]]; discriminate K. }
  destruct C as [(e' & s & K & _)|(Br & Al)]; [discriminate K|].
  assert (MG : exists parsed, read_as k parsed /\ merged (concat parsed) configs).
  { destruct (load_cases k Hh) as [[_ L]|[_ (parsed & R & L)]]; rewrite L in Cf; [discriminate Cf|].
    exists parsed. split; [exact R|]. exact (merge_dropins_spec _ _ _ (proj1 Hh) Cf). }
  destruct MG as (parsed & RA & M).
  rewrite snd_tell in G. unfold tell at 1. cbn [fst]. rewrite low_app. change (low [_]) with (@nil string). cbn [app].
  destruct (low_then _ _ _ G) as (a & Z & L & ->). clear G.
  assert (An : (analysis_fails k configs /\ a = Err 2%Z) \/ (~ analysis_fails k configs /\ exists b, a = Ok b)).
  { rewrite (proj1 (analysis_lowers _ _ _ _)), analysis_run in Z. destruct (analysis_exact k configs (proj1 M) Hh) as [(A & K)|(A & b & K & _)]; [intros m; congruence| |].
    - rewrite K in Z. injection Z as <-. left. split; [exact A|reflexivity].
    - rewrite K in Z. injection Z as <-. right. split; [exact A|]. exists b. reflexivity. }
  destruct (analysis_low t d k configs a Z) as [(e & p & -> & Ip & Pf & ->)|(Nf & l & Al' & ->)].
  { injection L as <-. destruct An as [(_ & E)|(_ & b & E)]; [|discriminate E]. injection E as ->.
    cbn [fst done low texts_of List.filter map app]. eapply de_program; eassumption. }
  destruct An as [(A & ->)|(A & b & ->)].
  { injection L as <-. cbn [fst done low texts_of List.filter map]. rewrite app_nil_r. eapply de_analysis; eassumption. }
  assert (So : m_sockets k = true) by (destruct (m_sockets k) eqn:So; [reflexivity|]; exfalso; apply A; right; right; right; exact So).
  rewrite So. rewrite snd_tell in L. unfold tell. cbn [fst]. rewrite low_app. change (low [_]) with (@nil string). cbn [app].
  destruct (m_setup k) eqn:Se; cbn [snd] in L; injection L as <-; cbn [fst low texts_of List.filter map rank Z.eqb].
  - rewrite <- app_assoc. eapply (de_loop _ _ _ _ v raw parsed configs b l); assumption.
  - rewrite app_nil_r. eapply de_setup; eassumption.
Qed.
