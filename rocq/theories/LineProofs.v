(** Proofs about what the senders of notifications can do to the log. *)
From stdpp Require Import gmap strings.
From Coq Require Import Ascii ZArith List Bool Lia.
From Verif Require Import Base RStr CronModel ConfigModel ProcessModel DepModel NotifyModel ManagerModel SysModel MainModel LogModel TraceModel
  SpecStr SpecText SpecLog SpecRun SpecTrace SpecWarn RunInv RunHist RunThms RunFinal LogProofs TraceProofs WarnProofs.
Import ListNotations.
Local Open Scope string_scope.
Local Open Scope list_scope.
Local Open Scope Z_scope.

Lemma number_lf z : free_of line_feed (show_Z z).
Proof.
  assert (U : forall u, free_of line_feed (DecimalString.NilEmpty.string_of_uint u)).
  { unfold free_of. induction u; cbn in *; intuition discriminate. }
  assert (V : forall u, free_of line_feed (DecimalString.NilZero.string_of_uint u))
    by (intros []; [unfold free_of; cbn; intuition discriminate|apply U..]).
  unfold show_Z. destruct (Z.to_int z) as [u|u]; cbn [DecimalString.NilZero.string_of_int]; [apply V|].
  specialize (V u). unfold free_of in *. cbn. intuition discriminate.
Qed.
Lemma lines_lf text ts : lines_are text ts -> forall t, In t ts -> free_of line_feed t.
Proof. induction 1; intros t K; cbn in K; intuition (subst; auto). Qed.
Lemma sets_lf text key value : sets text key value -> free_of line_feed key /\ free_of line_feed value.
Proof.
  intros (l1 & l2 & L & _). pose proof (lines_lf _ _ L (key +:+ "=" +:+ value)) as F. specialize (F ltac:(apply in_or_app; right; left; reflexivity)).
  apply free_app in F as [F1 F]. apply free_app in F as [_ F]. auto.
Qed.

Definition calm_line (x : line) : Prop :=
  match x with Own _ t => free_of line_feed t | Child _ name t => free_of line_feed name /\ free_of line_feed t end.
Lemma free_literal c t : existsb (Ascii.eqb c) (chars t) = false -> free_of c t.
Proof. intros E K. rewrite <- not_true_iff_false in E. apply E. apply existsb_exists. exists c. split; [exact K|apply Ascii.eqb_refl]. Qed.
Ltac lit := apply free_literal; reflexivity.
Ltac calm := repeat (apply free_app; split); try assumption; try apply number_lf; try (solve [lit]).
Ltac all_calm := repeat (apply List.Forall_cons; [unfold calm_line; calm|]); try apply List.Forall_nil.

Section Names.
  Context (configs : list proc_config) (N : forall c, In c configs -> free_of line_feed (pc_name c)).
  Lemma called_lf id : free_of line_feed (called configs id).
  Proof using N. unfold called. destruct (nth_error configs id) as [c|] eqn:E; [apply N; eapply nth_error_In; exact E|lit]. Qed.
  Lemma name_lf id c : nth_error configs id = Some c -> free_of line_feed (pc_name c).
  Proof using N. intros E. apply N. eapply nth_error_In. exact E. Qed.
  Lemma state_lf st : free_of line_feed (state_word st).
  Proof using. destruct st; lit. Qed.
  Lemma told_lf b ev t : match ev with ENotify _ _ _ => False | _ => True end -> told configs b ev = [t] -> free_of line_feed t.
  Proof using N.
    intros NN E. destruct ev; cbn in E; try discriminate E; try contradiction NN; pose proof called_lf as C.
    - apply (f_equal (hd "")) in E. cbn [hd] in E. subst t. calm. apply C.
    - apply (f_equal (hd "")) in E. cbn [hd] in E. subst t. calm; [apply C|apply state_lf].
    - apply (f_equal (hd "")) in E. cbn [hd] in E. subst t. calm. apply C.
    - destruct (rc =? 0); [destruct (kind configs id)|]; apply (f_equal (hd "")) in E; cbn [hd] in E; subst t; calm; apply C.
    - apply (f_equal (hd "")) in E. cbn [hd] in E. subst t. calm.
    - apply (f_equal (hd "")) in E. cbn [hd] in E. subst t. calm.
  Qed.
  Lemma stops_lf : List.Forall calm_line stops.
  Proof using. all_calm. Qed.
  Lemma prepares_lf id c b : nth_error configs id = Some c -> List.Forall calm_line (prepares c b).
  Proof using N. intros E. apply name_lf in E. unfold prepares. destruct (pc_pty c && b); all_calm. Qed.

  Lemma variable_lf why name v x l : free_of line_feed why -> free_of line_feed name -> free_of line_feed (fst x) -> free_of line_feed (snd x) ->
    variable_tells why name v x l -> List.Forall calm_line l.
  Proof using.
    intros W M K V T.
    assert (Told : forall t, told_variable name v x = [t] -> free_of line_feed t).
    { intros t E. destruct x as [key value]. cbn in E, V.
      destruct (String.eqb key "READY"); [destruct (v_state v); try discriminate E; destruct (String.eqb value "1"); try discriminate E|
      destruct (String.eqb key "STOPPING"); [destruct (String.eqb value "1"); try discriminate E|
      destruct (String.eqb key "STATUS"); [|destruct (String.eqb key "MAINPID"); [|discriminate E]; destruct (parse_i32 value); [|discriminate E]; destruct (_ =? _); [discriminate E|]]]];
      apply (f_equal (hd "")) in E; cbn [hd] in E; subst t; calm. }
    destruct T; cbn in K, V; all_calm; auto.
  Qed.
  Lemma variables_lf why name v vars l : free_of line_feed why -> free_of line_feed name ->
    (forall key value, In (key, value) vars -> free_of line_feed key /\ free_of line_feed value) ->
    variables_tell why name v vars l -> List.Forall calm_line l.
  Proof using.
    intros W M K T. induction T as [|v [key value] r a b A T IH]; [constructor|]. destruct (K key value (or_introl eq_refl)) as [K1 K2].
    apply List.Forall_app. split; [eapply variable_lf; [exact W|exact M| | |exact A]; assumption|]. apply IH. intros key' value' I. apply K. right. exact I.
  Qed.
  Lemma junk_lf text ts l : lines_are text ts -> lines_tell ts l -> List.Forall calm_line l.
  Proof using.
    intros L T. pose proof (lines_lf _ _ L) as F. clear L. induction T as [|t ts a b A T IH]; [constructor|]. apply List.Forall_app. split.
    - specialize (F t (or_introl eq_refl)). destruct A; [constructor|..]; try (apply free_app in F as [F1 F]; apply free_app in F as [_ F]); all_calm.
    - apply IH. intros x K. apply F. right. exact K.
  Qed.

  Lemma tells_lf b ev l : ~ explained_apart ev -> (forall out name t, ev = ELog out name t -> free_of line_feed name /\ free_of line_feed t) ->
    tells configs b ev l -> List.Forall calm_line l.
  Proof using N.
    intros A G T. destruct T; try (exfalso; apply A; exact Logic.I); try apply List.Forall_nil; try (apply stops_lf);
      try (match goal with H : told _ _ _ = [_] |- _ => apply told_lf in H; [|exact Logic.I] end; all_calm).
    - all_calm.
    - match goal with H : nth_error _ _ = Some _ |- _ => apply name_lf in H end. all_calm.
    - apply List.Forall_cons; [|apply List.Forall_nil]. cbn. eauto.
    - all_calm.
  Qed.
  Lemma plainly_lf b h l : plainly configs b h l -> (forall ev, In ev h -> ~ explained_apart ev) ->
    (forall out name t, In (ELog out name t) h -> free_of line_feed name /\ free_of line_feed t) -> List.Forall calm_line l.
  Proof using N.
    induction 1 as [|b ev h a ls T P IH]; intros A G; [constructor|]. apply List.Forall_app. split.
    - eapply tells_lf; [apply A; left; reflexivity| |exact T]. intros out name t E. apply (G out). left. exact E.
    - apply IH; [intros x K; apply A; right; exact K|intros out name t K; apply (G out); right; exact K].
  Qed.
  Lemma explained_lf e b q o d evs l : free_of line_feed (d_error d) -> explained e configs b q o d evs l ->
    (forall out name t, In (ELog out name t) evs -> free_of line_feed name /\ free_of line_feed t) -> List.Forall calm_line l.
  Proof using N.
    intros W X G. destruct X.
    - pose proof (name_lf _ _ H0) as M. apply List.Forall_app. split; [eapply prepares_lf; exact H0|]. destruct wo, we; all_calm.
    - apply List.Forall_app. split; [eapply prepares_lf; exact H0|all_calm].
    - apply List.Forall_app. split; [eapply prepares_lf; exact H0|all_calm].
    - apply List.Forall_app. split; [eapply prepares_lf; exact H0|all_calm].
    - all_calm.
    - all_calm.
    - destruct (d_unwritten d); all_calm.
    - all_calm.
    - all_calm.
    - apply List.Forall_app. split; [eapply junk_lf; eassumption|]. eapply variables_lf; [exact W|apply called_lf| |eassumption].
      intros key value K. apply H7 in K. eapply sets_lf. exact K.
    - all_calm.
    - eapply plainly_lf; eassumption.
  Qed.
  Lemma accounts_lf e b q ops h ls : accounts e configs b q ops h ls -> (forall o d, In (o, d) ops -> free_of line_feed (d_error d)) ->
    (forall out name t, In (ELog out name t) h -> free_of line_feed name /\ free_of line_feed t) -> List.Forall calm_line ls.
  Proof using N.
    induction 1 as [|b q o d ops evs h l ls X A IH]; intros W G; [constructor|]. apply List.Forall_app. split.
    - eapply explained_lf; [apply (W o); left; reflexivity|exact X|]. intros out name t K. apply (G out). apply in_or_app. left. exact K.
    - apply IH; [intros o' d' K; apply (W o'); right; exact K|intros out name t K; apply (G out); apply in_or_app; right; exact K].
  Qed.
End Names.

(** What stdout shows without -v. *)
Lemma own_not_child r x out name y : own_message r -> r <> child_record x out name y.
Proof. intros [_ O] ->. destruct out; destruct (O "") as [O1 O2]; [apply O1|apply O2]; reflexivity. Qed.
Lemma entries_lf ls rs : recorded ls rs -> List.Forall calm_line ls -> forall es, stdout_entries 0 rs es -> List.Forall (free_of line_feed) es.
Proof.
  induction 1 as [|r ls rs O Lv R IH|l t r ls rs O Lv T R IH|time out name t ls rs St R IH]; intros C es E.
  - inversion E; subst. constructor.
  - inversion E; subst; try (exfalso; eapply own_not_child; [exact O|reflexivity]).
    + exfalso. match goal with H : documented _ _ |- _ => rewrite Lv in H; unfold documented in H; intuition (congruence || lia) end.
    + apply IH; assumption.
  - inversion C as [|? ? C1 C2]; subst. cbn in C1. inversion E; subst; try (exfalso; eapply own_not_child; [exact O|reflexivity]).
    + apply List.Forall_cons; [|apply IH; assumption]. apply log_entry_free; [apply O|lit|assumption].
    + apply IH; assumption.
  - inversion C as [|? ? C1 C2]; subst. destruct C1 as [C1 C1']. inversion E; subst; try (exfalso; eapply own_not_child; [eassumption|reflexivity]); [|apply IH; assumption].
    apply List.Forall_cons; [|apply IH; assumption].
    match goal with H : _ +:+ "] " +:+ _ = _ +:+ "] " +:+ _ |- _ =>
      assert (F : free_of line_feed (name0 +:+ "] " +:+ line)) by (rewrite H; calm) end.
    apply free_app in F as [F1 F]. apply free_app in F as [_ F]. apply log_entry_free; assumption.
Qed.
Lemma default_lines k e configs s0 ops s ls rs : launched k e configs s0 -> narrate e s0 ops = Some (s, ls) -> recorded ls rs ->
  (forall c, In c configs -> free_of line_feed (pc_name c)) -> (forall o d, In (o, d) ops -> free_of line_feed (d_error d)) ->
  exists es text, stdout_entries 0 rs es /\ console_text 0 rs Stdout = Ret text /\ physical_lines text es /\
    forall es', physical_lines text es' -> es' = es.
Proof.
  intros L H R N W. pose proof (narrated_said _ _ _ _ (log_narrated _ _ _ _ _ _ _ L H) _ R) as S.
  destruct (stdout_exact _ _ 0 S) as (es & E & C); [lia|]. exists es, (each_ended es). split; [exact E|]. split; [exact C|].
  assert (P : physical_lines (each_ended es) es).
  { apply each_ended_physical. eapply entries_lf; [exact R| |exact E]. eapply accounts_lf; [exact N|eapply log_accounts; eassumption|exact W|].
    intros out name t K. destruct (logged_lines _ _ _ (pa_logs _ _ (past_of (narrate_reachable _ _ _ _ _ _ _ L H))) _ _ _ K) as (_ & F & id & c & E' & ->). split; [|exact F].
    apply N. eapply nth_error_In. exact E'. }
  split; [exact P|]. intros es' P'. eapply physical_unique; eassumption.
Qed.
