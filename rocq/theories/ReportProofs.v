(** Proofs about writing a status report. *)
From stdpp Require Import gmap strings.
From Coq Require Import Ascii ZArith List Bool Lia.
From Verif Require Import Base RStr CronModel ConfigModel ProcessModel DepModel ManagerModel SysModel MainModel SpecMain SpecRun RunStep RunInv RunInv RunStream RunHist RunClaims RunThms RunFinal
  NotifyProofs ReportModel SpecReport.
Import ListNotations.
Local Open Scope string_scope.
Local Open Scope list_scope.
Local Open Scope nat_scope.

Lemma sappend_assoc (a b c : string) : (a +:+ b) +:+ c = a +:+ (b +:+ c).
Proof. apply RunStream.append_assoc. Qed.
Lemma sappend_nil (a : string) : a +:+ "" = a.
Proof. apply RunStream.append_nil_r. Qed.
Lemma length_take n : forall s, String.length (stake n s) = Nat.min n (String.length s).
Proof. induction n as [|n IH]; intros [|x s]; cbn; auto. Qed.
Lemma sappend_length (a b : string) : String.length (a +:+ b) = (String.length a + String.length b)%nat.
Proof. apply NotifyProofs.append_length. Qed.

(** One fragment. *)
Lemma write_all_spec answers : forall data, let r := write_all data answers in
  exists rest, data = w_sent r +:+ rest /\
    (w_end r = Finishes /\ rest = "" \/ (w_end r = Fails \/ w_end r = Blocks) /\ rest <> "") /\
    (exists used, answers = used ++ w_left r) /\
    (faultless_replies answers -> w_end r <> Fails) /\
    String.length (w_sent r) + room (w_left r) <= room answers /\
    (w_end r <> Fails -> answered answers <= String.length (w_sent r) + answered (w_left r)) /\
    (w_end r = Blocks -> w_left r = []).
Proof.
  induction answers as [|x answers IH]; intros data.
  - destruct data as [|c data]; cbn.
    + exists "". split; [reflexivity|]. split; [auto|]. split; [exists []; reflexivity|]. split; [discriminate|]. split; [lia|]. split; [lia|discriminate].
    + exists (String c data). split; [reflexivity|]. split; [right; split; [auto|discriminate]|]. split; [exists []; reflexivity|]. split; [discriminate|]. split; [lia|]. split; [lia|auto].
  - destruct data as [|c data].
    { cbn. exists "". split; [reflexivity|]. split; [auto|]. split; [exists []; reflexivity|]. split; [discriminate|]. split; [destruct x; lia|]. split; [destruct x; lia|discriminate]. }
    destruct x as [[|n]| |].
    + cbn. exists (String c data). split; [reflexivity|]. split; [right; split; [auto|discriminate]|]. split; [exists [WOk 0]; reflexivity|].
      split; [intros [_ F]; destruct F; left; reflexivity|]. split; [lia|]. split; [congruence|discriminate].
    + set (d := String c data). change (write_all d (WOk (S n) :: answers)) with
        (let r := write_all (sdrop (S n) d) answers in {| w_sent := stake (S n) d +:+ w_sent r; w_end := w_end r; w_left := w_left r |}).
      destruct (IH (sdrop (S n) d)) as (rest & E & K & (used & U) & F & L & C & B). cbv zeta. cbn [w_sent w_end w_left].
      exists rest. split; [rewrite sappend_assoc, <- E; symmetry; apply RunStream.stake_sdrop|]. split; [exact K|].
      split; [exists (WOk (S n) :: used); cbn; f_equal; exact U|].
      split; [intros [F1 F2]; apply F; split; intros X; [apply F1|apply F2]; right; exact X|].
      rewrite sappend_length. assert (Lt := length_take (S n) d). unfold d in Lt at 2. cbn [String.length] in Lt. cbn [room answered].
      split; [lia|]. split; [intros X; apply C in X; lia|exact B].
    + change (write_all (String c data) (WIntr :: answers)) with (write_all (String c data) answers).
      destruct (IH (String c data)) as (rest & E & K & (used & U) & F & L & C & B). exists rest. split; [exact E|]. split; [exact K|].
      split; [exists (WIntr :: used); cbn; f_equal; exact U|].
      split; [intros [F1 F2]; apply F; split; intros X; [apply F1|apply F2]; right; exact X|]. cbn [room answered]. auto.
    + cbn. exists (String c data). split; [reflexivity|]. split; [right; split; [auto|discriminate]|]. split; [exists [WErr]; reflexivity|].
      split; [intros [F _]; destruct F; left; reflexivity|]. split; [lia|]. split; [congruence|discriminate].
Qed.

Fixpoint joined (l : list string) : string := match l with [] => "" | x :: r => x +:+ joined r end.
Lemma joined_app l l' : joined (l ++ l') = joined l +:+ joined l'.
Proof. induction l as [|x l IH]; cbn; [reflexivity|]. rewrite IH, sappend_assoc. reflexivity. Qed.

Lemma faultless_suffix used left : faultless_replies (used ++ left) -> faultless_replies left.
Proof. intros [F1 F2]. split; intros X; [apply F1|apply F2]; apply in_or_app; auto. Qed.

(** All fragments. *)
Lemma send_spec l : forall answers, let r := send (map Ret l) answers in
  exists rest, joined l = w_sent r +:+ rest /\
    (w_end r = Finishes /\ rest = "" \/ (w_end r = Fails \/ w_end r = Blocks) /\ rest <> "") /\
    (faultless_replies answers -> w_end r <> Fails) /\
    String.length (w_sent r) <= room answers /\
    (w_end r = Blocks -> answered answers <= String.length (w_sent r)).
Proof.
  induction l as [|x l IH]; intros answers; cbn [map send joined].
  - exists "". split; [reflexivity|]. split; [auto|]. split; [discriminate|]. split; [cbn; lia|discriminate].
  - destruct (write_all_spec answers x) as (rest & E & K & (used & U) & F & L & C & B). set (r := write_all x answers) in *.
    destruct (w_end r) eqn:W.
    + destruct K as [[_ ->]|[[K|K] _]]; try discriminate. rewrite sappend_nil in E.
      destruct (IH (w_left r)) as (rest' & E' & K' & F' & L' & B'). set (r' := send (map Ret l) (w_left r)) in *. cbv zeta. cbn [w_sent w_end w_left].
      exists rest'. split; [rewrite E' at 1; rewrite E at 1; rewrite sappend_assoc; reflexivity|]. split; [exact K'|].
      split; [intros X; apply F'; rewrite U in X; eapply faultless_suffix; exact X|]. rewrite sappend_length.
      split; [lia|]. intros X. apply B' in X. assert (Y : Finishes <> Fails) by discriminate. apply C in Y. lia.
    + destruct K as [[K _]|[_ K]]; [discriminate|]. exists (rest +:+ joined l). rewrite W.
      split; [rewrite E at 1; rewrite sappend_assoc; reflexivity|]. split; [right; split; [auto|destruct rest; [congruence|discriminate]]|].
      split; [exact F|]. split; [lia|discriminate].
    + destruct K as [[K _]|[_ K]]; [discriminate|]. exists (rest +:+ joined l). rewrite W.
      split; [rewrite E at 1; rewrite sappend_assoc; reflexivity|]. split; [right; split; [auto|destruct rest; [congruence|discriminate]]|].
      split; [exact F|]. split; [lia|]. intros _. rewrite (B eq_refl) in C. cbn in C. assert (Y : Blocks <> Fails) by discriminate. apply C in Y. lia.
    + destruct K as [[K _]|[[K|K] _]]; discriminate.
Qed.

(** The fragments make up the report. *)
Lemma fragments_of_text f g id p a : report_program f g id p = Ret a -> exists l, fragments_of f g id p = map Ret l /\ joined l = a.
Proof.
  unfold report_program, fragments_of. intros H.
  assert (S : exists ls sch, match p_type p with
      | RCronjob => match cron_next (g_cron g) id with
        | Ret t => [Ret "    scheduled_at: '"; Ret (f t); Ret ("'" +:+ String LF "")] | Panic m => [Panic m] end
      | _ => [] end = map Ret ls /\ joined ls = sch /\
      match p_type p with RCronjob => let! t := cron_next (g_cron g) id in Ret ("    scheduled_at: '" +:+ f t +:+ "'" +:+ String LF "") | _ => Ret "" end = Ret sch).
  { destruct (p_type p); try (exists [], ""; split; [reflexivity|split; reflexivity]).
    destruct (cron_next (g_cron g) id) as [t|m]; cbn [obind] in H |- *; [|discriminate].
    exists ["    scheduled_at: '"; f t; "'" +:+ String LF ""], ("    scheduled_at: '" +:+ f t +:+ "'" +:+ String LF ""). split; [reflexivity|]. split; [|reflexivity]. reflexivity. }
  destruct S as (ls & sch & S1 & S2 & S3). rewrite S3 in H. cbn [obind] in H. injection H as <-. rewrite S1.
  set (st := match p_state p with Done => ["    exit_code: 0" +:+ String LF ""] | Crashed rc => ["    exit_code: "; show_Z rc; String LF ""] | _ => [] end).
  exists (["  - name: '"; p_name p; "'" +:+ String LF "" +:+ "    state: '"; show_pstate (p_state p); "'" +:+ String LF ""] ++
    (if nonempty (p_status p) then ["    status: "; p_status p; String LF ""] else []) ++ st ++
    (if is_some (g_pids g !! p_pid p) then ["    pid: "; show_Z (p_pid p); String LF ""] else []) ++ ls).
  split.
  - rewrite !map_app. unfold st. destruct (nonempty (p_status p)), (p_state p), (is_some (g_pids g !! p_pid p)); reflexivity.
  - rewrite !joined_app, S2. subst st. cbn [joined].
    assert (N : joined (if nonempty (p_status p) then ["    status: "; p_status p; String LF ""] else []) =
      if nonempty (p_status p) then "    status: " +:+ p_status p +:+ String LF "" else "") by (destruct (nonempty (p_status p)); reflexivity).
    assert (M : joined (match p_state p with Done => ["    exit_code: 0" +:+ String LF ""] | Crashed rc => ["    exit_code: "; show_Z rc; String LF ""] | _ => [] end) =
      match p_state p with Done => "    exit_code: 0" +:+ String LF "" | Crashed rc => "    exit_code: " +:+ show_Z rc +:+ String LF "" | _ => "" end)
      by (destruct (p_state p); reflexivity).
    assert (O : joined (if is_some (g_pids g !! p_pid p) then ["    pid: "; show_Z (p_pid p); String LF ""] else []) =
      if is_some (g_pids g !! p_pid p) then "    pid: " +:+ show_Z (p_pid p) +:+ String LF "" else "") by (destruct (is_some (g_pids g !! p_pid p)); reflexivity).
    rewrite N, M, O, !sappend_assoc. reflexivity.
Qed.

Lemma fragments_text f g text : format_report f g = Ret text -> exists l, fragments f g = map Ret l /\ joined l = text.
Proof.
  unfold format_report, fragments. intros H.
  assert (K : forall ps b, report_programs f g ps = Ret b -> exists l, flat_map (fun x => fragments_of f g (fst x) (snd x)) ps = map Ret l /\ joined l = b).
  { induction ps as [|[id p] ps IH]; cbn [report_programs flat_map fst snd]; intros b E.
    - injection E as <-. exists []. split; reflexivity.
    - destruct (report_program f g id p) as [a|m] eqn:R; cbn [obind] in E; [|discriminate].
      destruct (report_programs f g ps) as [b'|m] eqn:R2; cbn [obind] in E; [|discriminate]. injection E as <-.
      destruct (fragments_of_text _ _ _ _ _ R) as (l1 & E1 & J1). destruct (IH b' eq_refl) as (l2 & E2 & J2).
      exists (l1 ++ l2). rewrite E1, E2, map_app. split; [reflexivity|]. rewrite joined_app, J1, J2. reflexivity. }
  destruct (report_programs f g (enumerate (g_procs g))) as [b|m] eqn:E; cbn [obind] in H; [|discriminate]. injection H as <-.
  destruct (K _ _ E) as (l & E1 & J). exists (("programs:" +:+ String LF "") :: l). rewrite E1. split; [reflexivity|]. cbn [joined]. rewrite J. reflexivity.
Qed.

Section reachable.
Context {k : machine} {e : env} {configs : list proc_config} {s : sys} (Re : reachable k e configs s).

Theorem report_written rest s' : s_pc s = AtEvents (EvIn (e_status e) :: rest) -> e_status e <> e_signal e ->
  sstep e s (CEvent (AAccept true)) = Some s' ->
  exists text, s_hist s' = s_hist s ++ [EReport text] /\ s_pc s' = AtEvents rest /\ forall answers,
    let r := write_report (e_rfc3339 e) (s_g s) true answers in
    prefix_of (r_sent r) text /\ (r_end r = Finishes <-> r_sent r = text) /\ (r_end r = Finishes \/ r_end r = Fails \/ r_end r = Blocks) /\
    (faultless_replies answers -> r_end r <> Fails) /\ (String.length text <= answered answers -> r_end r <> Blocks) /\
    (faultless_replies answers -> room answers < String.length text -> r_end r = Blocks) /\
    (r_warned r = true <-> r_end r = Fails) /\
    (r_closes r = 2 <-> r_end r = Finishes) /\ (r_closes r = 1 <-> r_end r = Fails) /\ (r_closes r = 0 <-> r_end r = Blocks).
Proof.
  intros P N H. assert (NP : ~ panicked s) by (unfold panicked; rewrite P; auto). assert (W := whole_of Re NP).
  destruct (report_total configs e s (e_rfc3339 e) (so_good _ _ _ (wh_sound _ _ _ W))) as [text F].
  cbn in H. rewrite P in H. cbn [step_event] in H. rewrite (proj2 (Z.eqb_neq _ _) N), Z.eqb_refl in H. inversion H; subst s'. unfold report_status. rewrite F.
  exists text. split; [reflexivity|]. split; [reflexivity|]. intros answers. destruct (fragments_text _ _ _ F) as (l & E & J).
  unfold write_report. cbn [r_sent r_end]. rewrite E. destruct (send_spec l answers) as (left & E2 & K & Fl & L & B). rewrite J in E2.
  set (r := send (map Ret l) answers) in *. cbv zeta. split; [exists left; exact E2|].
  assert (Len : String.length text = (String.length (w_sent r) + String.length left)%nat) by (rewrite E2 at 1; apply sappend_length).
  assert (NE : left <> "" -> (1 <= String.length left)%nat) by (destruct left; cbn; [congruence|lia]).
  split.
  { split; intros X.
    - destruct K as [[_ ->]|[[K|K] _]]; [|congruence|congruence]. rewrite sappend_nil in E2. auto.
    - destruct K as [[K _]|[_ K]]; [exact K|]. exfalso. apply NE in K. rewrite X in Len. lia. }
  assert (T : w_end r = Finishes \/ w_end r = Fails \/ w_end r = Blocks) by tauto.
  split; [exact T|]. split; [exact Fl|]. split; [|split; [|split; [|split; [|split]]]].
  - intros X Y. apply B in Y as Y2. destruct K as [[K _]|[_ K]]; [congruence|]. apply NE in K. lia.
  - intros X Y. destruct K as [[K ->]|[[K|K] _]]; [cbn in Len; lia|exfalso; apply (Fl X K)|exact K].
  - cbn. destruct T as [ -> |[ -> | -> ]]; split; congruence.
  - cbn. destruct T as [ -> |[ -> | -> ]]; split; congruence.
  - cbn. destruct T as [ -> |[ -> | -> ]]; split; congruence.
  - cbn. destruct T as [ -> |[ -> | -> ]]; split; congruence.
Qed.
Theorem not_accepted rest s' : s_pc s = AtEvents (EvIn (e_status e) :: rest) -> e_status e <> e_signal e ->
  sstep e s (CEvent (AAccept false)) = Some s' ->
  s_hist s' = s_hist s /\ s_g s' = s_g s /\ s_k s' = s_k s /\ s_pc s' = AtEvents rest /\ forall answers,
    let r := write_report (e_rfc3339 e) (s_g s) false answers in r_sent r = "" /\ r_end r = Fails /\ r_warned r = true /\ r_closes r = 0%nat.
Proof.
  intros P N H. cbn in H. rewrite P in H. cbn [step_event] in H. rewrite (proj2 (Z.eqb_neq _ _) N), Z.eqb_refl in H. inversion H; subst s'.
  repeat split.
Qed.
End reachable.
