(** What appears on cinit's stdout and stderr. *)
From stdpp Require Import gmap strings.
From Coq Require Import Ascii ZArith List Bool Lia.
From Verif Require Import Base RStr SpecStr SpecText ProcessModel ConfigModel ManagerModel SpecRun NotifyProofs LogModel SpecLog.
Import ListNotations.
Local Open Scope string_scope.
Local Open Scope list_scope.
Local Open Scope Z_scope.

Lemma sapp_assoc (a b c : string) : ((a +:+ b) +:+ c = a +:+ (b +:+ c))%string.
Proof. induction a as [|x a IH]; [reflexivity|]. exact (f_equal (String x) IH). Qed.
Lemma sapp_nil (a : string) : (a +:+ "" = a)%string.
Proof. induction a as [|x a IH]; [reflexivity|]. exact (f_equal (String x) IH). Qed.
Lemma sapp_cons x (a b : string) : (String x a +:+ b = String x (a +:+ b))%string.
Proof. reflexivity. Qed.

(** * Routing *)
Fixpoint rejoin (ps : list string) : string :=
  match ps with
  | [] => ""
  | [p] => p
  | p :: r => p +:+ "::" +:+ rejoin r
  end.

Lemma parts_cons s : exists p ps, parts s = p :: ps.
Proof.
  destruct s as [|a r]; [now exists "", []|]. cbn [parts].
  assert (G : exists p ps, match parts r with p :: ps => String a p :: ps | [] => [String a ""] end = p :: ps)
    by (destruct (parts r); eauto).
  destruct a as [[] [] [] [] [] [] [] []]; try exact G.
  destruct r as [|b r']; [exact G|]. destruct b as [[] [] [] [] [] [] [] []]; first [exact G|eauto].
Qed.

Lemma rejoin_parts_aux n : forall s, (String.length s < n)%nat -> rejoin (parts s) = s.
Proof.
  induction n as [|n IH]; intros s Hn; [lia|].
  destruct s as [|a r]; [reflexivity|]. cbn [String.length] in Hn.
  assert (G : rejoin (match parts r with p :: ps => String a p :: ps | [] => [String a ""] end) = String a r).
  { specialize (IH r ltac:(lia)). destruct (parts_cons r) as (p & ps & E). rewrite E in IH |- *. subst r. destruct ps; reflexivity. }
  cbn [parts]. destruct a as [[] [] [] [] [] [] [] []]; try exact G.
  destruct r as [|b r']; [exact G|]. destruct b as [[] [] [] [] [] [] [] []]; try exact G.
  clear G. cbn [String.length] in Hn. specialize (IH r' ltac:(lia)). destruct (parts_cons r') as (p & ps & E). rewrite E in IH |- *.
  change (rejoin ("" :: p :: ps)) with ("::" +:+ rejoin (p :: ps))%string. rewrite IH. reflexivity.
Qed.
Lemma rejoin_parts s : rejoin (parts s) = s.
Proof. apply (rejoin_parts_aux (S (String.length s))). lia. Qed.

Lemma rejoin_prefix q : forall p r, exists rest, rejoin ((p :: q) ++ r) = (rejoin (p :: q) +:+ rest)%string.
Proof.
  induction q as [|p' q IH]; intros p r.
  - destruct r as [|x r]; [exists ""; cbn; now rewrite sapp_nil|]. exists ("::" +:+ rejoin (x :: r))%string. reflexivity.
  - destruct (IH p' r) as [rest E]. exists rest.
    change ((p :: p' :: q) ++ r) with (p :: ((p' :: q) ++ r)).
    change (rejoin (p :: p' :: q)) with (p +:+ "::" +:+ rejoin (p' :: q))%string.
    change (rejoin (p :: (p' :: q) ++ r)) with (p +:+ "::" +:+ rejoin ((p' :: q) ++ r))%string. rewrite E.
    now rewrite !sapp_assoc.
Qed.

Lemma parts_eqb_eq a : forall b, parts_eqb a b = true -> a = b.
Proof.
  induction a as [|x a IH]; intros [|y b]; cbn; try discriminate; [reflexivity|].
  intros H. apply andb_true_iff in H as [E H]. apply String.eqb_eq in E. subst. f_equal. auto.
Qed.

Lemma descend_none loggers todo : forall done here,
  (forall q r, todo = q ++ r -> q <> [] -> find_logger loggers (done ++ q) = None) -> descend loggers done todo here = here.
Proof.
  induction todo as [|p ps IH]; intros done here H; cbn [descend]; [reflexivity|].
  rewrite (H [p] ps eq_refl) by discriminate. apply IH. intros q r -> Hq. rewrite <- app_assoc. apply (H (p :: q) r); [reflexivity|discriminate].
Qed.

Lemma in_force_own v r : own_message r -> in_force (initialise v) (r_target r) = (level_for v, ["stdout"]).
Proof.
  intros [_ H]. unfold in_force. apply descend_none. intros q rest Hq Hne. cbn [app].
  unfold find_logger, initialise, lc_loggers, find. cbn [lg_target].
  pose proof (rejoin_parts (r_target r)) as J. rewrite Hq in J.
  destruct q as [|p q]; [contradiction|]. destruct (rejoin_prefix q p rest) as [tail E]. rewrite E in J.
  destruct (H tail) as [H1 H2].
  destruct (parts_eqb (parts "cinit::logging::stdout") (p :: q)) eqn:E1.
  { exfalso. apply parts_eqb_eq in E1. apply H1. rewrite <- J, <- E1. reflexivity. }
  destruct (parts_eqb (parts "cinit::logging::stderr") (p :: q)) eqn:E2; [|reflexivity].
  exfalso. apply parts_eqb_eq in E2. apply H2. rewrite <- J, <- E2. reflexivity.
Qed.

Lemma appended_own v r c : own_message r ->
  appended (initialise v) r c = if console_eqb Stdout c && (rank (r_level r) <=? rank (level_for v))
    then (log_entry (r_time r) (r_level r) "cinit" (r_text r) +:+ String line_feed "")%string else "".
Proof.
  intros H. unfold appended. rewrite (in_force_own _ _ H).
  destruct (rank (r_level r) <=? rank (level_for v)); [|now rewrite andb_false_r]. rewrite andb_true_r.
  destruct c; cbn; [|reflexivity]. rewrite sapp_nil. unfold render, log_entry. cbn [ap_label]. rewrite !sapp_assoc. reflexivity.
Qed.

Lemma appended_program v t out name line c :
  appended (initialise v) (child_record t out name line) c =
    if console_eqb (if out then Stdout else Stderr) c then (log_entry t LInfo name line +:+ String line_feed "")%string else "".
Proof. destruct out, c; cbn; unfold render, log_entry; cbn; rewrite ?sapp_nil, ?sapp_assoc; reflexivity. Qed.

Lemma documented_level v l : 0 <= v <= 2 -> (rank l <=? rank (level_for v)) = true <-> documented v l.
Proof.
  intros Hv. unfold documented, level_for. assert (v = 0 \/ v = 1 \/ v = 2) as [-> | [-> | ->]] by lia; cbn;
    destruct l; cbn; split; intros H; try reflexivity; try discriminate; auto 10;
    try (right; right; right; left; split; [reflexivity|lia]); try (right; right; right; right; split; [reflexivity|lia]);
    exfalso; destruct H as [H|[H|[H|[[H H']|[H H']]]]]; try discriminate; lia.
Qed.

Lemma console_text_ret v rs c : console_text v rs c = Ret (concat_all (map (fun r => appended (initialise v) r c) rs)).
Proof. reflexivity. Qed.

Lemma each_ended_cons l ls : each_ended (l :: ls) = ((l +:+ String line_feed "") +:+ each_ended ls)%string.
Proof. cbn [each_ended]. rewrite sapp_assoc. reflexivity. Qed.

(** * stderr: exactly what the programs wrote to theirs *)
Theorem stderr_exact h rs v : said h rs -> exists es, program_entries false h es /\ console_text v rs Stderr = Ret (each_ended es).
Proof.
  intros H. rewrite console_text_ret. enough (exists es, program_entries false h es /\
    concat_all (map (fun r => appended (initialise v) r Stderr) rs) = each_ended es) as (es & A & B) by (exists es; split; [exact A|now rewrite B]).
  induction H as [|t out name line h rs Ht _ (es & IH1 & IH2)|r h rs Hr _ (es & IH1 & IH2)|ev h rs Hev _ (es & IH1 & IH2)].
  - exists []. split; [constructor|reflexivity].
  - cbn [map concat_all fold_right]. rewrite appended_program. destruct out.
    + exists es. split; [apply pe_there; [discriminate|exact IH1]|exact IH2].
    + exists (log_entry t LInfo name line :: es). split; [now constructor|]. rewrite each_ended_cons, <- IH2. reflexivity.
  - exists es. split; [exact IH1|]. cbn [map concat_all fold_right]. rewrite (appended_own v r Stderr Hr). exact IH2.
  - exists es. split; [|exact IH2]. apply pe_there; [|exact IH1]. intros name line. apply Hev.
Qed.

(** * stdout *)
Lemma not_own_child t out name line : ~ own_message (child_record t out name line).
Proof. intros [_ H]. destruct (H "") as [H1 H2]. destruct out; [apply H1|apply H2]; reflexivity. Qed.

Theorem stdout_exact h rs v : said h rs -> 0 <= v <= 2 -> exists es, stdout_entries v rs es /\ console_text v rs Stdout = Ret (each_ended es).
Proof.
  intros H Hv. rewrite console_text_ret. enough (exists es, stdout_entries v rs es /\
    concat_all (map (fun r => appended (initialise v) r Stdout) rs) = each_ended es) as (es & A & B) by (exists es; split; [exact A|now rewrite B]).
  induction H as [|t out name line h rs Ht _ (es & IH1 & IH2)|r h rs Hr _ (es & IH1 & IH2)|ev h rs Hev _ (es & IH1 & IH2)].
  - exists []. split; [constructor|reflexivity].
  - cbn [map concat_all fold_right]. rewrite appended_program. destruct out.
    + exists (log_entry t LInfo name line :: es). split; [now constructor|]. rewrite each_ended_cons, <- IH2. reflexivity.
    + exists es. split; [now constructor|exact IH2].
  - cbn [map concat_all fold_right]. rewrite (appended_own v r Stdout Hr). cbn [console_eqb andb].
    destruct (rank (r_level r) <=? rank (level_for v)) eqn:E.
    + exists (log_entry (r_time r) (r_level r) "cinit" (r_text r) :: es). split; [|rewrite each_ended_cons, <- IH2; reflexivity].
      apply se_shown; [exact Hr|now apply documented_level|exact IH1].
    + exists es. split; [|exact IH2]. apply se_hidden; [exact Hr| |exact IH1].
      intros D. apply (documented_level v _ Hv) in D. congruence.
  - exists es. auto.
Qed.

(** More than two -v are like none. *)
Theorem very_verbose v rs c : 2 < v -> console_text v rs c = console_text 0 rs c.
Proof.
  intros H. unfold console_text. assert (E : level_for v = level_for 0).
  { unfold level_for. destruct (Z.eqb_spec v 2); [lia|]. destruct (Z.eqb_spec v 1); [lia|]. reflexivity. }
  unfold initialise. rewrite E. reflexivity.
Qed.

(** * One physical line per entry, and who wrote it *)
Lemma free_app c a b : free_of c (a +:+ b)%string <-> free_of c a /\ free_of c b.
Proof.
  unfold free_of. assert (E : chars (a +:+ b)%string = chars a ++ chars b) by (induction a as [|x a IH]; [reflexivity|]; exact (f_equal (cons x) IH)).
  rewrite E, in_app_iff. tauto.
Qed.

Lemma log_entry_free t l name text : stamp t -> free_of line_feed name -> free_of line_feed text -> free_of line_feed (log_entry t l name text).
Proof.
  intros [_ Ht] Hn Hx. unfold log_entry. repeat (apply free_app; split); try assumption; cbn; destruct l; vm_compute; intuition discriminate.
Qed.

Lemma each_ended_physical ls : Forall (free_of line_feed) ls -> physical_lines (each_ended ls) ls.
Proof. induction 1 as [|l ls Hl _ IH]; cbn [each_ended]; constructor; assumption. Qed.

Lemma physical_unique s a : physical_lines s a -> forall b, physical_lines s b -> a = b.
Proof.
  induction 1 as [|l rest ls Hl _ IH]; intros b Hb.
  - inversion Hb as [|l rest ls Hl H E]; [reflexivity|]. destruct l; discriminate.
  - inversion Hb as [E|l' rest' ls' Hl' H E]; [destruct l; discriminate|].
    symmetry in E. apply app_char_inj in E as [-> ->]; [|assumption|assumption]. f_equal. now apply IH.
Qed.

Theorem entry_attributed t l name text t' l' name' text' : stamp t -> stamp t' -> free_of "]" name -> free_of "]" name' ->
  log_entry t l name text = log_entry t' l' name' text' -> t = t' /\ l = l' /\ name = name' /\ text = text'.
Proof.
  intros [Ht _] [Ht' _] Hn Hn' H. unfold log_entry in H. cbn [String.append] in H.
  apply app_char_inj in H as [-> H]; [|assumption|assumption].
  assert (L : forall x, free_of " " (level_name x)) by (intros []; vm_compute; intuition discriminate).
  apply app_char_inj in H as [Hl H]; [|apply L|apply L].
  injection H as H. apply app_char_inj in H as [-> H]; [|assumption|assumption]. injection H as ->.
  repeat split. destruct l, l'; first [reflexivity|discriminate].
Qed.

(** What is logged for programs *)
Lemma lines_free text ls : lines_are text ls -> forall l, In l ls -> free_of line_feed l.
Proof.
  induction 1 as [|l Hl Hf|l rest ls Hf _ _ IH|l rest ls Hf _ IH]; intros x Hx; cbn in Hx.
  - contradiction.
  - destruct Hx as [<-|[]]. assumption.
  - destruct Hx as [<-|Hx]; auto.
  - destruct Hx as [<-|Hx]; auto.
Qed.

Lemma logged_lines configs own h : logged configs own h -> forall out name line, In (ELog out name line) h ->
  line <> "" /\ free_of line_feed line /\ exists id c, nth_error configs id = Some c /\ name = pc_name c.
Proof.
  induction 1 as [own|own fd data id out c text ls rest _ Hc _ Hl _ IH|own ev rest Hch Hlog _ IH]; intros o n l Hin.
  - contradiction.
  - destruct Hin as [H|Hin]; [discriminate|]. apply in_app_or in Hin as [Hin|Hin]; [|eauto].
    apply in_map_iff in Hin as (x & E & Hx). injection E as <- <- <-. apply List.filter_In in Hx as [Hx Hne].
    split; [now destruct x|]. split; [eapply lines_free; eassumption|eauto].
  - destruct Hin as [->|Hin]; [|eauto]. exfalso. now apply (Hlog o n l).
Qed.

Lemma entries_free stream h es : program_entries stream h es ->
  (forall name line, In (ELog stream name line) h -> free_of line_feed name /\ free_of line_feed line) -> Forall (free_of line_feed) es.
Proof.
  induction 1 as [|t name line h es Ht _ IH|ev h es _ _ IH]; intros H.
  - constructor.
  - constructor; [destruct (H name line); [now left|]; now apply log_entry_free|]. apply IH. intros n l K. apply H. now right.
  - apply IH. intros n l K. apply H. now right.
Qed.

Theorem stderr_lines configs own h rs v : logged configs own h -> (forall c, In c configs -> free_of line_feed (pc_name c)) -> said h rs ->
  exists es text, program_entries false h es /\ console_text v rs Stderr = Ret text /\ physical_lines text es /\
    forall es', physical_lines text es' -> es' = es.
Proof.
  intros L N H. destruct (stderr_exact h rs v H) as (es & A & B). exists es, (each_ended es). split; [exact A|]. split; [exact B|].
  assert (P : physical_lines (each_ended es) es).
  { apply each_ended_physical. eapply entries_free; [exact A|]. intros name line K.
    destruct (logged_lines _ _ _ L _ _ _ K) as (_ & F & id & c & E & ->). split; [|exact F]. apply N. eapply nth_error_In. exact E. }
  split; [exact P|]. intros es' P'. eapply physical_unique; eassumption.
Qed.

Lemma stdout_entries_free v rs es : stdout_entries v rs es ->
  (forall r, In r rs -> stamp (r_time r) /\ free_of line_feed (r_text r)) -> Forall (free_of line_feed) es.
Proof.
  assert (X : forall t out name line, free_of line_feed (r_text (child_record t out name line)) -> free_of line_feed name /\ free_of line_feed line).
  { intros t out name line K. cbn [r_text child_record] in K. change ("[" ++ name ++ "] " ++ line)%string with ("[" +:+ name +:+ "] " +:+ line)%string in K.
    apply free_app in K as [_ K]. apply free_app in K as [K1 K]. apply free_app in K as [_ K2]. auto. }
  induction 1 as [|t name line rs es _ IH|t name line rs es _ IH|r rs es Hr _ _ IH|r rs es _ _ _ IH]; intros H.
  - constructor.
  - constructor; [|apply IH; intros r K; apply H; now right]. destruct (H _ (or_introl eq_refl)) as [H1 H2]. apply X in H2 as [? ?]. now apply log_entry_free.
  - apply IH. intros r K. apply H. now right.
  - constructor; [|apply IH; intros r' K; apply H; now right]. destruct (H _ (or_introl eq_refl)) as [H1 H2]. apply log_entry_free; [assumption| |assumption].
    vm_compute. intuition discriminate.
  - apply IH. intros r' K. apply H. now right.
Qed.

Lemma said_texts h rs : said h rs -> (forall out name line, In (ELog out name line) h -> free_of line_feed name /\ free_of line_feed line) ->
  (forall r, In r rs -> own_message r -> free_of line_feed (r_text r)) -> forall r, In r rs -> stamp (r_time r) /\ free_of line_feed (r_text r).
Proof.
  induction 1 as [|t out name line h rs Ht _ IH|r h rs Hr _ IH|ev h rs _ _ IH]; intros N M r' K.
  - contradiction.
  - destruct K as [<-|K]; [|apply IH; [intros o n l X; apply (N o n l); now right|intros x X; apply M; now right|exact K]].
    split; [exact Ht|]. destruct (N out name line (or_introl eq_refl)) as [N1 N2]. cbn [child_record r_text].
    change ("[" ++ name ++ "] " ++ line)%string with ("[" +:+ name +:+ "] " +:+ line)%string.
    repeat (apply free_app; split); try assumption; vm_compute; intuition discriminate.
  - destruct K as [<-|K]; [split; [exact (proj1 Hr)|apply M; [now left|exact Hr]]|]. apply IH; [exact N|intros x X; apply M; now right|exact K].
  - apply IH; [intros o n l X; apply (N o n l); now right|exact M|exact K].
Qed.

Theorem stdout_lines configs own h rs v : logged configs own h -> (forall c, In c configs -> free_of line_feed (pc_name c)) -> said h rs ->
  0 <= v <= 2 -> (forall r, In r rs -> own_message r -> free_of line_feed (r_text r)) ->
  exists es text, stdout_entries v rs es /\ console_text v rs Stdout = Ret text /\ physical_lines text es /\
    forall es', physical_lines text es' -> es' = es.
Proof.
  intros L N H Hv M. destruct (stdout_exact h rs v H Hv) as (es & A & B). exists es, (each_ended es). split; [exact A|]. split; [exact B|].
  assert (P : physical_lines (each_ended es) es).
  { apply each_ended_physical. eapply stdout_entries_free; [exact A|]. apply (said_texts h); [exact H| |exact M]. intros out name line K.
    destruct (logged_lines _ _ _ L _ _ _ K) as (_ & F & id & c & E & ->). split; [|exact F]. apply N. eapply nth_error_In. exact E. }
  split; [exact P|]. intros es' P'. eapply physical_unique; eassumption.
Qed.

(** * Verbosity *)
Theorem verbosity_monotone v v' r c : own_message r -> 0 <= v <= v' -> v' <= 2 -> appended (initialise v) r c <> "" ->
  appended (initialise v') r c = appended (initialise v) r c.
Proof.
  intros Hr Hv Hv' H. rewrite !appended_own in * by assumption. destruct c; cbn [console_eqb andb] in *; [|contradiction].
  destruct (rank (r_level r) <=? rank (level_for v)) eqn:E; [|contradiction].
  replace (rank (r_level r) <=? rank (level_for v')) with true; [reflexivity|]. symmetry. apply documented_level; [lia|].
  apply (documented_level v) in E; [|lia]. unfold documented in *. intuition lia.
Qed.
