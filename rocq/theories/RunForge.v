(** The lines of status reports. *)
From stdpp Require Import gmap strings.
From Coq Require Import Ascii ZArith List Bool Lia Permutation Decimal DecimalString.
From Verif Require Import Base RStr CronModel ConfigModel ProcessModel EnvModel DepModel NotifyModel ManagerModel SysModel
  MainModel SpecStr SpecText SpecDep SpecTimer SpecRun SpecLog NotifyProofs RunStep RunInv RunFlow RunHist RunAlive RunStream RunClaims RunLife RunThms RunFinal RunView RunReport LogProofs.
Import ListNotations.
Local Open Scope string_scope.
Local Open Scope list_scope.
Local Open Scope Z_scope.

Lemma show_Z_free c z : free_of c "-0123456789" -> free_of c (show_Z z).
Proof.
  intros H. unfold show_Z. assert (U : forall u, free_of c (NilEmpty.string_of_uint u)).
  { unfold free_of in *. induction u; cbn in *; intuition. }
  assert (V : forall u, free_of c (NilZero.string_of_uint u)) by (intros []; [unfold free_of in *; cbn in *; intuition|apply U..]).
  destruct (Z.to_int z) as [u|u]; cbn [NilZero.string_of_int]; [apply V|]. specialize (V u). unfold free_of in *. cbn in *. intuition.
Qed.

Lemma var_given vars k : forall v, var vars k = Some v -> In (k, v) vars.
Proof.
  induction vars as [|[k' v'] vars IH]; cbn; intros v H; [discriminate|].
  destruct (String.eqb_spec k' k) as [->|N]; [left; congruence|right; auto].
Qed.

Lemma app_free_r c a b : free_of c (a +:+ b)%string -> free_of c b.
Proof. intros H. now apply free_app in H. Qed.

(** What a notification sets is part of one line. *)
Lemma parsed_free text k v : In (k, v) (parse text) -> free_of line_feed v.
Proof.
  intros H. apply parse_spec in H as (l1 & l2 & L & _ & _). apply (app_free_r _ "="), (app_free_r _ k).
  apply (lines_free text (l1 ++ (k +:+ "=" +:+ v)%string :: l2) L). apply in_or_app. right. now left.
Qed.

Definition plain_status (s : sys) : Prop := forall id p, g_procs (s_g s) !! id = Some p -> free_of line_feed (p_status p).

Lemma plain_step e s s' : (forall l, Permutation (e_order e l) l) -> plain_status s -> trans e s s' -> plain_status s'.
Proof.
  intros OK I T. step_cases T; try exact I.
  - intros i q Hq. cbn [mk_s mk_g s_g g_procs] in Hq. destruct (origin_frame _ _ _ _ _ O) as (E1 & _). rewrite E1 in Hq. eapply I; eauto.
  - intros i q Hq. cbn [mk_s mk_g s_g g_procs] in Hq. destruct (origin_frame _ _ _ _ _ O) as (E1 & _). rewrite E1 in Hq. eapply I; eauto.
  - intros i q Hq. cbn [mk_s mk_g s_g g_procs] in Hq. apply lookup_update_Some in Hq as [(-> & -> & _)|(_ & Hq)]; [|eapply I; eauto]. exact (I _ _ Hp).
  - intros i q Hq. cbn [mk_s mk_g s_g g_procs] in Hq. apply lookup_update_Some in Hq as [(-> & -> & _)|(_ & Hq)]; [|eapply I; eauto].
    assert (F : free_of line_feed (match var vars "STATUS" with Some v => v | None => p_status p end)).
    { destruct (var vars "STATUS") as [v|] eqn:E; [|exact (I _ _ Hp)]. apply var_given in E. rewrite Vs in E.
      apply (parsed_free text "STATUS"). eapply Permutation_in; [apply OK|exact E]. }
    unfold notified_process. destruct (var vars "STATUS"); destruct (mainpid vars); exact F.
  - intros i q Hq. cbn [mk_s mk_g s_g g_procs] in Hq. apply lookup_update_Some in Hq as [(-> & -> & _)|(_ & Hq)]; [|eapply I; eauto]. exact (I _ _ Hp).
Qed.

Lemma status_plain k e configs s : reachable k e configs s -> plain_status s.
Proof.
  intros (s0 & ops & L & X). assert (OK : forall l, Permutation (e_order e l) l) by (destruct L as (_ & _ & OK & _); auto).
  assert (B : book_inv configs (s_g s0) (s_hist s0)) by (apply start_book; eapply launched_start; eauto).
  eapply (execute_ind e plain_status OK); [intros ? ?; now apply plain_step| |exact X].
  intros id p Hp. pose proof (bk_view _ _ _ B _ _ Hp) as V. rewrite (ss_hist _ _ (launched_start _ _ _ _ L)) in V.
  unfold view_of, book_of in V. cbn in V. apply (f_equal v_status) in V. cbn in V. rewrite <- V. intros [].
Qed.

Lemma unlines_ended ls : unlines ls = each_ended ls.
Proof. induction ls as [|l ls IH]; cbn; [reflexivity|]. now rewrite IH. Qed.

Definition report_alphabet : string := "-0123456789 :'_abcdefghijklmnopqrstuvwxyz".
Lemma entry_lines_free c name v pid next : free_of c report_alphabet ->
  free_of c name -> free_of c (v_status v) -> (forall t, next = Some t -> free_of c t) -> Forall (free_of c) (entry_lines name v pid next).
Proof.
  intros H Hn Hs Ht. assert (K : forall s, (forall a, In a (chars s) -> In a (chars report_alphabet)) -> free_of c s) by (intros s X Y; exact (H (X _ Y))).
  assert (Z : forall z, free_of c (show_Z z)) by (intros z; apply show_Z_free, K; intros a Ha; vm_compute in Ha |- *; tauto).
  unfold entry_lines. repeat (apply Forall_app; split).
  - constructor; [|constructor; [|constructor]]; repeat (apply free_app; split); try assumption; apply K; intros a Ha; destruct (v_state v); vm_compute in Ha |- *; tauto.
  - destruct (String.eqb (v_status v) ""); constructor; [|constructor]. apply free_app. split; [|exact Hs]. apply K; intros a Ha; vm_compute in Ha |- *; tauto.
  - destruct (v_state v); constructor; try constructor; [apply K; intros a Ha; vm_compute in Ha |- *; tauto|]. apply free_app. split; [|apply Z]. apply K; intros a Ha; vm_compute in Ha |- *; tauto.
  - destruct pid; constructor; [|constructor]. apply free_app. split; [|apply Z]. apply K; intros a Ha; vm_compute in Ha |- *; tauto.
  - destruct next as [t|]; constructor; [|constructor]. repeat (apply free_app; split); [|now apply Ht|]; apply K; intros a Ha; vm_compute in Ha |- *; tauto.
Qed.

Lemma app_char_same a c x : forall b d y, free_of d a -> free_of c b -> (a +:+ String c x = b +:+ String d y)%string -> a = b /\ c = d /\ x = y.
Proof.
  induction a as [|u a IH]; intros [|w b] d y Ha Hb H.
  - injection H as -> ->. auto.
  - injection H as -> _. exfalso. apply Hb. now left.
  - injection H as -> _. exfalso. apply Ha. now left.
  - injection H as -> H. destruct (IH b d y) as (-> & -> & ->); auto; intros K; [apply Ha|apply Hb]; now right.
Qed.

Lemma yaml_of_ended ls : Forall (free_of line_feed) ls -> Forall (free_of carriage_return) ls -> forall ys, yaml_lines (each_ended ls) ys -> ys = ls ++ [""].
Proof.
  intros H1. induction H1 as [|l ls Hl _ IH]; intros H2 ys Y; cbn [each_ended] in Y.
  - inversion Y as [l A B E|l rest ys' A B C E|l rest ys' A B N C E|l rest ys' A B C E]; subst; try reflexivity; destruct l; discriminate.
  - inversion H2 as [|? ? Hc H2']; subst.
    inversion Y as [m A B E|m rest ys' A B C E|m rest ys' A B N C E|m rest ys' A B C E]; subst.
    + exfalso. apply A. clear. assert (E : chars (l +:+ String line_feed (each_ended ls))%string = chars l ++ line_feed :: chars (each_ended ls)).
      { induction l as [|x l IH]; [reflexivity|]. exact (f_equal (cons x) IH). }
      rewrite E. apply in_or_app. right. now left.
    + symmetry in E. apply app_char_same in E as (E1 & _ & E2); [|assumption|assumption]. subst. cbn. f_equal. now apply IH.
    + symmetry in E. apply app_char_same in E as (_ & K & _); [discriminate|assumption|assumption].
    + symmetry in E. apply app_char_same in E as (_ & K & _); [discriminate|assumption|assumption].
Qed.

Section reachable.
Context {k : machine} {e : env} {configs : list proc_config} {s : sys} (Re : reachable k e configs s).

Definition report_lines (next : nat -> instant) : list string :=
  "programs:" :: flat_map (entry configs (s_hist s) (fun id => e_rfc3339 e (next id))) (seq 0 (length configs)).

Lemma report_free c next : ~ panicked s ->
  free_of c report_alphabet ->
  (forall x, In x configs -> free_of c (pc_name x)) -> (forall t, free_of c (e_rfc3339 e t)) ->
  (forall id, (id < length configs)%nat -> free_of c (v_status (view_of configs (s_hist s) id))) -> Forall (free_of c) (report_lines next).
Proof.
  intros NP H Hn Ht Hs. unfold report_lines. constructor; [intros K; apply H; revert K; vm_compute; tauto|].
  apply List.Forall_forall. intros l Hl. apply in_flat_map in Hl as (id & Hid & Hl). apply in_seq in Hid.
  unfold entry in Hl. destruct (nth_error configs id) as [x|] eqn:E; [|contradiction].
  refine (proj1 (List.Forall_forall _ _) _ l Hl).
  apply (entry_lines_free c (pc_name x)); [exact H|apply Hn; eapply nth_error_In; exact E|apply Hs; lia|].
  intros t. destruct (pc_type x); intros Q; inversion Q. apply Ht.
Qed.

Lemma view_plain id : ~ panicked s -> (id < length configs)%nat -> free_of line_feed (v_status (view_of configs (s_hist s) id)).
Proof.
  intros NP Hid. assert (W := whole_of Re NP). assert (M := go_maps _ _ _ (so_good _ _ _ (wh_sound _ _ _ W))).
  rewrite <- (ma_len _ _ _ M) in Hid. destruct (lookup_lt_is_Some_2 _ _ Hid) as [p Hp].
  rewrite (bk_view _ _ _ (reachable_book _ _ _ _ Re NP) _ _ Hp). cbn. exact (status_plain _ _ _ _ Re _ _ Hp).
Qed.

Lemma lf_plain : free_of line_feed report_alphabet.
Proof. vm_compute. intuition discriminate. Qed.
Lemma cr_plain : free_of carriage_return report_alphabet.
Proof. vm_compute. intuition discriminate. Qed.

Theorem report_physical rest s' : s_pc s = AtEvents (EvIn (e_status e) :: rest) -> e_status e <> e_signal e ->
  sstep e s (CEvent (AAccept true)) = Some s' ->
  (forall x, In x configs -> free_of line_feed (pc_name x)) -> (forall t, free_of line_feed (e_rfc3339 e t)) ->
  exists next text, s_hist s' = s_hist s ++ [EReport text] /\ physical_lines text (report_lines next) /\
    forall ls, physical_lines text ls -> ls = report_lines next.
Proof.
  intros P N H Hn Ht. destruct (report_text Re rest s' P N H) as (next & _ & E & _).
  assert (NP : ~ panicked s) by (unfold panicked; rewrite P; auto).
  exists next, (unlines (report_lines next)). split; [exact E|].
  assert (Ph : physical_lines (unlines (report_lines next)) (report_lines next)).
  { rewrite unlines_ended. apply each_ended_physical. apply report_free; auto using lf_plain. intros id Hid. now apply view_plain. }
  split; [exact Ph|]. intros ls K. eapply physical_unique; eassumption.
Qed.

Theorem report_yaml rest s' : s_pc s = AtEvents (EvIn (e_status e) :: rest) -> e_status e <> e_signal e ->
  sstep e s (CEvent (AAccept true)) = Some s' ->
  (forall x, In x configs -> free_of line_feed (pc_name x) /\ free_of carriage_return (pc_name x)) ->
  (forall t, free_of line_feed (e_rfc3339 e t) /\ free_of carriage_return (e_rfc3339 e t)) ->
  (forall id, (id < length configs)%nat -> free_of carriage_return (v_status (view_of configs (s_hist s) id))) ->
  exists next text, s_hist s' = s_hist s ++ [EReport text] /\
    forall ls, yaml_lines text ls -> ls = report_lines next ++ [""].
Proof.
  intros P N H Hn Ht Hs. destruct (report_text Re rest s' P N H) as (next & _ & E & _).
  assert (NP : ~ panicked s) by (unfold panicked; rewrite P; auto).
  exists next, (unlines (report_lines next)). split; [exact E|]. rewrite unlines_ended. apply yaml_of_ended.
  - apply report_free; auto using lf_plain; [intros x Hx; now apply Hn|intros t; apply Ht|]. intros id Hid. now apply view_plain.
  - apply report_free; auto using cr_plain; [intros x Hx; now apply Hn|intros t; apply Ht].
Qed.
End reachable.
