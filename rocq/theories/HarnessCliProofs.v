(** What a command line says is what the harness takes for its options, but for the flag. *)
From Coq Require Import String Ascii ZArith List Bool Lia.
From Verif Require Import Base RStr SpecCli.
From Verif Require CliModel CliProofs ToolsProofs.
From Verif Require Import SpecStr SpecText HarnessLifeModel SpecHarnessLife HarnessCliModel SpecHarnessCli.
Import ListNotations.
Local Open Scope string_scope.
Local Open Scope list_scope.
Local Open Scope Z_scope.
Local Arguments String.append !s1 s2 : simpl nomatch.

Fixpoint apply (g : given) (l : list item) : option given :=
  match l with
  | [] => Some g
  | Ready :: r => match take_ready g with Some g' => apply g' r | None => None end
  | Give o v :: r => match take g o v with Some g' => apply g' r | None => None end
  end.
Lemma apply_app g l l' : apply g (l ++ l') = match apply g l with Some g' => apply g' l' | None => None end.
Proof. revert g. induction l as [|[|o v] l IH]; intros g; cbn; auto; [destruct (take_ready g)|destruct (take g o v)]; auto. Qed.
Lemma apply_one g o v : apply g [Give o v] = take g o v.
Proof. cbn. destruct (take g o v); reflexivity. Qed.

Lemma short_ns g n t : short_args g (ns n ++ t) = match apply g (repeat Ready n) with Some g' => short_args g' t | None => Halt 2 end.
Proof.
  revert g. induction n as [|n IH]; intros g; [reflexivity|]. change (ns (S n) ++ t)%string with (String "n" (ns n ++ t)). cbn [short_args repeat apply].
  change (Ascii.eqb "n" "n") with true. cbn iota. destruct (take_ready g); [apply IH|reflexivity].
Qed.
Lemma short_form n c t : c <> "-"%char -> CliModel.form_of ("-" ++ ns n ++ String c t) = CliModel.Short (ns n ++ String c t).
Proof. intros N. destruct n; cbn; [|reflexivity]. destruct (Ascii.eqb_spec c "-"); [contradiction|reflexivity]. Qed.
Lemma letter_not o : letter o <> "-"%char.
Proof. destruct o; discriminate. Qed.
Lemma short_letter g o t : short_args g (String (letter o) t) =
  match t with "" => Wait g o | String d v => if Ascii.eqb d "=" then took (take g o v) else took (take g o t) end.
Proof. destruct o, t; reflexivity. Qed.
Lemma long_name g o : long_arg g (long o) = Wait g o.
Proof. destruct o; reflexivity. Qed.
Lemma long_is g o v : long_arg g (long o ++ "=" ++ v) = took (take g o v).
Proof. destruct o; reflexivity. Qed.
Lemma named_long name o : named name = Some o -> name = long o.
Proof.
  unfold named. destruct (String.eqb_spec name "return-code") as [->|]; [intros E; inversion E; reflexivity|].
  destruct (String.eqb_spec name "sleep") as [->|]; [intros E; inversion E; reflexivity|].
  destruct (String.eqb_spec name "output") as [->|]; [intros E; inversion E; reflexivity|].
  destruct (String.eqb_spec name "status") as [->|]; [intros E; inversion E; reflexivity|discriminate].
Qed.
Lemma lettered_letter c o : lettered c = Some o -> c = letter o.
Proof.
  unfold lettered. destruct (Ascii.eqb_spec c "r") as [->|]; [intros E; inversion E; reflexivity|].
  destruct (Ascii.eqb_spec c "s") as [->|]; [intros E; inversion E; reflexivity|].
  destruct (Ascii.eqb_spec c "o") as [->|]; [intros E; inversion E; reflexivity|].
  destruct (Ascii.eqb_spec c "S") as [->|]; [intros E; inversion E; reflexivity|discriminate].
Qed.
Lemma split_eq s k v : splitn2 "=" s = (k, Some v) -> s = (k ++ "=" ++ v)%string.
Proof.
  revert k. induction s as [|c s IH]; intros k H; cbn [splitn2] in H; [discriminate|]. destruct (Ascii.eqb_spec "=" c) as [<-|].
  - inversion H. reflexivity.
  - destruct (splitn2 "=" s) as [h t]. inversion H; subst. rewrite (IH h eq_refl). reflexivity.
Qed.

(** * Everything said is done *)
Lemma read_says args l : says args l -> forall g g' rest, apply g l = Some g' -> read None g (args ++ rest) = read None g' rest.
Proof.
  induction 1 as [|rest l Sa IH|o v rest l P Sa IH|o v rest l Sa IH|n rest l Sa IH|n o v rest l P Sa IH|n o v rest l Sa IH|n o v rest l N1 N2 Sa IH]; intros g g' more A.
  - inversion A. reflexivity.
  - cbn in A |- *. destruct (take_ready g); [apply IH; exact A|discriminate].
  - cbn [app read]. replace (CliModel.form_of ("--" ++ long o)) with (CliModel.Long (long o)) by (destruct o; reflexivity).
    replace (String.eqb (long o) "") with false by (destruct o; reflexivity). rewrite long_name. apply CliProofs.plain_word in P. rewrite P.
    cbn in A. destruct (take g o v); [apply IH; exact A|discriminate].
  - cbn [app read]. replace (CliModel.form_of ("--" ++ long o ++ "=" ++ v)) with (CliModel.Long (long o ++ "=" ++ v)) by (destruct o; reflexivity).
    replace (String.eqb (long o ++ "=" ++ v) "") with false by (destruct o; reflexivity). rewrite long_is.
    cbn in A. destruct (take g o v); [apply IH; exact A|discriminate].
  - rewrite apply_app in A. cbn [app read]. replace (CliModel.form_of ("-" ++ ns (S n))) with (CliModel.Short (ns (S n))) by reflexivity.
    rewrite <- (CliProofs.sapp_nil (ns (S n))), short_ns. destruct (apply g (repeat Ready (S n))); [|discriminate]. cbn [short_args]. apply IH. exact A.
  - rewrite apply_app in A. cbn [app read]. rewrite short_form by apply letter_not. rewrite short_ns. destruct (apply g (repeat Ready n)) as [h|]; [|discriminate].
    rewrite short_letter. apply CliProofs.plain_word in P. rewrite P. cbn in A. destruct (take h o v); [apply IH; exact A|discriminate].
  - rewrite apply_app in A. cbn [app read]. rewrite short_form by apply letter_not. rewrite short_ns. destruct (apply g (repeat Ready n)) as [h|]; [|discriminate].
    rewrite short_letter. cbn. cbn in A. destruct (take h o v); [apply IH; exact A|discriminate].
  - rewrite apply_app in A. cbn [app read]. rewrite short_form by apply letter_not. rewrite short_ns. destruct (apply g (repeat Ready n)) as [h|]; [|discriminate].
    rewrite short_letter. destruct v as [|d v]; [congruence|]. destruct (Ascii.eqb_spec d "=") as [->|Nd]; [exfalso; apply (N2 v); reflexivity|].
    cbn in A. destruct (take h o (String d v)); [apply IH; exact A|discriminate].
Qed.
Lemma read_tail g tail others : others_of tail others -> read None g tail = finish g others.
Proof.
  intros [(-> & ->)|[->|(w & r & -> & P & ->)]]; [reflexivity|reflexivity|]. cbn [read]. apply CliProofs.plain_word in P. rewrite P. reflexivity.
Qed.
Definition wants_help (g : given) (x : string) : Prop :=
  x = "--help" \/ exists n more, x = ("-" ++ ns n ++ "h" ++ more)%string /\ apply g (repeat Ready n) <> None.
Lemma read_help g x rest : wants_help g x -> read None g (x :: rest) = Stops 0.
Proof.
  intros [->|(n & more & -> & A)]; [reflexivity|]. cbn [read].
  change ("h" ++ more)%string with (String "h" more). rewrite short_form by discriminate. rewrite short_ns. destruct (apply g (repeat Ready n)); [reflexivity|congruence].
Qed.

(** * Nothing else is done *)
Lemma long_cases g name : name <> "" ->
  match long_arg g name with
  | Next g' => (name = "ready" /\ take_ready g = Some g') \/ exists o v, name = (long o ++ "=" ++ v)%string /\ take g o v = Some g'
  | Wait g' o => name = long o /\ g' = g
  | Halt code => (code = 0 /\ name = "help") \/ code = 2
  end.
Proof.
  intros N. unfold long_arg. destruct (String.eqb_spec name "ready") as [->|]; [destruct (take_ready g); cbn; auto|].
  destruct (String.eqb_spec name "help") as [->|]; [auto|]. destruct (named name) as [o|] eqn:E; [apply named_long in E; auto|].
  destruct (splitn2 "=" name) as [key [v|]] eqn:Sp; [|auto]. apply split_eq in Sp. destruct (named key) as [o|] eqn:K; [|auto]. apply named_long in K. subst key.
  destruct (take g o v) eqn:T; cbn [took]; [|auto]. right. exists o, v. auto.
Qed.
Lemma short_cases g flags :
  match short_args g flags with
  | Next g' => (exists n, flags = ns n /\ apply g (repeat Ready n) = Some g') \/
      exists n o v, apply g (repeat Ready n ++ [Give o v]) = Some g' /\
        (flags = (ns n ++ String (letter o) ("=" ++ v))%string \/ (flags = (ns n ++ String (letter o) v)%string /\ v <> "" /\ forall w, v <> ("=" ++ w)%string))
  | Wait g' o => exists n, flags = (ns n ++ String (letter o) "")%string /\ apply g (repeat Ready n) = Some g'
  | Halt code => (code = 0 /\ exists n more, flags = (ns n ++ "h" ++ more)%string /\ apply g (repeat Ready n) <> None) \/ code = 2
  end.
Proof.
  revert g. induction flags as [|c rest IH]; intros g; cbn [short_args].
  - left. exists O. auto.
  - destruct (Ascii.eqb_spec c "n") as [->|_].
    { destruct (take_ready g) as [h|] eqn:R; [|auto]. specialize (IH h). destruct (short_args h rest) as [g'|g' o|code].
      - destruct IH as [(n & -> & A)|(n & o & v & A & E)]; [left; exists (S n); cbn; rewrite R; auto|]. right. exists (S n), o, v. cbn. rewrite R. split; [exact A|].
        destruct E as [->|(-> & E)]; [left; reflexivity|right; split; [reflexivity|exact E]].
      - destruct IH as (n & -> & A). exists (S n). cbn. rewrite R. auto.
      - destruct IH as [(-> & n & more & -> & A)|E]; [left|auto]. split; [auto|]. exists (S n), more. cbn. rewrite R. auto. }
    destruct (Ascii.eqb_spec c "h") as [->|_]; [left; split; [auto|]; exists O, rest; split; [reflexivity|discriminate]|].
    destruct (lettered c) as [o|] eqn:L; [|auto]. apply lettered_letter in L. subst c.
    destruct rest as [|d value]; [exists O; auto|]. destruct (Ascii.eqb_spec d "=") as [->|Nd].
    + destruct (take g o value) as [g'|] eqn:T; cbn [took]; [|auto]. right. exists O, o, value. cbn [repeat app]. rewrite apply_one. split; [exact T|left; reflexivity].
    + destruct (take g o (String d value)) as [g'|] eqn:T; cbn [took]; [|auto]. right. exists O, o, (String d value). cbn [repeat app]. rewrite apply_one. split; [exact T|]. right. split; [reflexivity|].
      split; [discriminate|]. intros w E. apply Nd. inversion E. reflexivity.
Qed.

Definition outcome_of (g : given) (args : list string) (r : cli) : Prop :=
  (exists front tail l g' others, args = front ++ tail /\ says front l /\ apply g l = Some g' /\ others_of tail others /\ r = finish g' others) \/
  (exists a x rest l g', args = a ++ x :: rest /\ says a l /\ apply g l = Some g' /\ wants_help g' x /\ r = Stops 0) \/
  r = Stops 2.
Lemma further g front l g' rest r : (forall args m, says args m -> says (front ++ args) (l ++ m)) -> apply g l = Some g' ->
  outcome_of g' rest r -> outcome_of g (front ++ rest) r.
Proof.
  intros F A [(f & t & m & g2 & others & -> & Sa & A2 & O & E)|[(a & x & more & m & g2 & -> & Sa & A2 & W & E)|E]]; [left|right; left|right; right; exact E].
  - exists (front ++ f), t, (l ++ m), g2, others. rewrite app_assoc, apply_app, A. auto 10.
  - exists (front ++ a), x, more, (l ++ m), g2. rewrite app_assoc, apply_app, A. auto 10.
Qed.
Lemma at_once g args r others : others_of args others -> r = finish g others -> outcome_of g args r.
Proof. intros O E. left. exists [], args, [], g, others. repeat split; auto. constructor. Qed.
Lemma read_cases n : forall args g, (length args <= n)%nat -> outcome_of g args (read None g args).
Proof.
  induction n as [|n IH]; intros args g Len; (destruct args as [|a rest]; [apply (at_once g [] _ []); [left; auto|reflexivity]|cbn in Len; try lia]).
  cbn [read]. destruct (CliModel.form_of a) as [name|flags|] eqn:F.
  - apply CliProofs.form_long in F. subst a. destruct (String.eqb_spec name "") as [->|N]; [apply (at_once g _ _ rest); [right; left; reflexivity|reflexivity]|].
    pose proof (long_cases g name N) as C. destruct (long_arg g name) as [g'|g' o|code].
    + destruct C as [(-> & T)|(o & v & -> & T)].
      * apply (further g ["--ready"] [Ready] g'); [intros; constructor; auto|cbn; rewrite T; reflexivity|apply IH; lia].
      * apply (further g [("--" ++ long o ++ "=" ++ v)%string] [Give o v] g'); [intros; apply (SLongIs o v); auto|rewrite apply_one; exact T|apply IH; lia].
    + destruct C as (-> & ->). destruct rest as [|v rest]; [right; right; reflexivity|]. cbn [read]. destruct (CliModel.form_of v) eqn:Fv; [right; right; reflexivity..|].
      destruct (take g o v) as [g'|] eqn:T; [|right; right; reflexivity]. apply (further g [("--" ++ long o)%string; v] [Give o v] g' rest).
      * intros. apply SLong; [apply CliProofs.plain_word; exact Fv|auto].
      * rewrite apply_one. exact T.
      * apply IH. cbn in Len. lia.
    + destruct C as [(-> & ->)| ->]; [|right; right; reflexivity]. right. left. exists [], "--help", rest, [], g. repeat split; auto; [constructor|left; reflexivity].
  - apply CliProofs.form_short in F. destruct F as (-> & N). pose proof (short_cases g flags) as C. destruct (short_args g flags) as [g'|g' o|code].
    + destruct C as [(k & -> & A)|(k & o & v & A & E)].
      * destruct k as [|k]; [exfalso; apply N; reflexivity|]. apply (further g [("-" ++ ns (S k))%string] (repeat Ready (S k)) g'); [intros; apply SShort; auto|exact A|apply IH; lia].
      * apply (further g [("-" ++ flags)%string] (repeat Ready k ++ [Give o v]) g'); [|exact A|apply IH; lia].
        intros args m Sa. rewrite <- app_assoc. cbn [app]. destruct E as [->|(-> & N1 & N2)]; [apply SShortIs; auto|apply SShortWith; auto].
    + destruct C as (k & -> & A). destruct rest as [|v rest]; [right; right; reflexivity|]. cbn [read]. destruct (CliModel.form_of v) eqn:Fv; [right; right; reflexivity..|].
      destruct (take g' o v) as [h|] eqn:T; [|right; right; reflexivity].
      apply (further g [("-" ++ ns k ++ String (letter o) "")%string; v] (repeat Ready k ++ [Give o v]) h rest).
      * intros args m Sa. rewrite <- app_assoc. cbn [app]. apply SShortOpt; [apply CliProofs.plain_word; exact Fv|auto].
      * rewrite apply_app, A, apply_one. exact T.
      * apply IH. cbn in Len. lia.
    + destruct C as [(-> & k & more & -> & A)| ->]; [|right; right; reflexivity]. right. left. exists [], ("-" ++ ns k ++ "h" ++ more)%string, rest, [], g.
      repeat split; auto; [constructor|right; exists k, more; auto].
  - apply (at_once g _ _ (a :: rest)); [|reflexivity]. right. right. exists a, rest. split; [reflexivity|]. split; [apply CliProofs.plain_word; exact F|reflexivity].
Qed.

(** * What items amount to *)
Lemma same_iff a b : same a b = true <-> a = b.
Proof. destruct a, b; cbn; split; congruence. Qed.
Lemma apply_some g l g' : apply g l = Some g' ->
  (forall o, (values o l = [] /\ g_value g' o = g_value g o) \/ exists v, g_value g o = None /\ values o l = [v] /\ utf8_valid v = true /\ g_value g' o = Some v) /\
  (readies l = 0%nat /\ g_ready g' = g_ready g \/ readies l = 1%nat /\ g_ready g = false).
Proof.
  revert g. induction l as [|[|p v] l IH]; intros g A; cbn [apply values readies] in *.
  - inversion A; subst. split; [intros o|]; left; auto.
  - unfold take_ready in A. destruct (g_ready g) eqn:R; [discriminate|]. destruct (IH _ A) as (V & Rd). cbn in V, Rd. split; [exact V|]. right. destruct Rd as [(-> & _)|(_ & X)]; [auto|discriminate].
  - unfold take in A. destruct (g_value g p) eqn:G; [discriminate|]. destruct (utf8_valid v) eqn:U; [|discriminate].
    destruct (IH _ A) as (V & Rd). cbn in V, Rd. split; [|exact Rd]. intros o. specialize (V o). destruct (eq_opt p o) as [<-|Sm].
    + rewrite (proj2 (same_iff p p) eq_refl) in V. destruct V as [(E & X)|(w & X & _)]; [|discriminate]. right. exists v. rewrite E. auto.
    + destruct (same p o) eqn:Sm'; [apply same_iff in Sm'; contradiction|]. exact V.
Qed.
Lemma apply_total g l : (readies l = 0%nat \/ readies l = 1%nat /\ g_ready g = false) ->
  (forall o, values o l = [] \/ exists v, g_value g o = None /\ values o l = [v] /\ utf8_valid v = true) -> exists g', apply g l = Some g'.
Proof.
  revert g. induction l as [|[|p v] l IH]; intros g R V; cbn [apply values readies] in *; [eauto|..].
  - destruct R as [R|(R & G)]; [discriminate|]. unfold take_ready. rewrite G. apply IH; [left; lia|exact V].
  - pose proof (V p) as Vp. destruct (eq_opt p p) as [_|X]; [|destruct (X eq_refl)]. destruct Vp as [X|(w & G & E & U)]; [discriminate|]. inversion E; subst w.
    unfold take. rewrite G, U. apply IH; [exact R|]. intros o. specialize (V o). cbn. destruct (eq_opt p o) as [<-|Sm]; [left; congruence|].
    destruct (same p o) eqn:Sm'; [apply same_iff in Sm'; contradiction|]. exact V.
Qed.
Lemma valid_apply l : valid l <-> exists g, apply nothing l = Some g.
Proof.
  split.
  - intros (R & V). apply apply_total; [cbn; lia|]. intros o. destruct (V o) as [E|(v & E & U)]; [auto|]. right. exists v. auto.
  - intros (g & A). destruct (apply_some _ _ _ A) as (V & R). split; [lia|]. intros o. destruct (V o) as [(E & _)|(v & _ & E & U & _)]; [auto|]. right. exists v. auto.
Qed.
Lemma means_iff l g o : apply nothing l = Some g -> (means l o /\ o_ready o = true <-> o = options_of g).
Proof.
  intros A. destruct (apply_some _ _ _ A) as (V & _). cbn in V. pose proof (V Code) as V1. pose proof (V Sleep) as V2. pose proof (V Output) as V3. pose proof (V Status) as V4.
  unfold means, chosen, options_of. destruct o as [rd st out sl code]. cbn [o_code o_sleep o_output o_status o_ready].
  destruct V1 as [(E1 & ->)|(v1 & _ & E1 & _ & ->)], V2 as [(E2 & ->)|(v2 & _ & E2 & _ & ->)], V3 as [(E3 & ->)|(v3 & _ & E3 & _ & ->)], V4 as [(E4 & ->)|(v4 & _ & E4 & _ & ->)];
  rewrite E1, E2, E3, E4; cbn [default]; (split; [intros ((C & Sl & O & St) & ->)|intros E; inversion E; subst; intuition eauto]);
  repeat match goal with H : _ \/ _ |- _ => destruct H as [H|H] | H : _ /\ _ |- _ => destruct H | H : exists _, _ |- _ => destruct H end; congruence.
Qed.
Lemma all_utf8 l : Forall (fun a => utf8_valid a = true) l <-> forallb utf8_valid l = true.
Proof. rewrite forallb_forall, Forall_forall. reflexivity. Qed.

Lemma runs_iff args o others : parse args = Runs o others <-> exists l, asks args l others /\ means l o /\ o_ready o = true.
Proof.
  unfold parse. split.
  - intros E. pose proof (read_cases (length args) args nothing (le_n _)) as [(f & t & l & g & ot & -> & Sa & A & O & R)|[(a & x & rest & l & g & _ & _ & _ & _ & R)|R]]; rewrite R in E; try discriminate.
    unfold finish in E. destruct (forallb utf8_valid ot) eqn:U; [|discriminate]. inversion E; subst. exists l. split; [|apply (means_iff _ _ _ A); reflexivity].
    exists f, t. repeat split; auto; try (apply valid_apply; eauto). apply all_utf8; exact U.
  - intros (l & (f & t & -> & Sa & V & O & U) & M). apply valid_apply in V. destruct V as (g & A). rewrite (read_says _ _ Sa _ _ _ A), (read_tail _ _ _ O).
    apply (means_iff _ _ _ A) in M. subst o. unfold finish. apply all_utf8 in U. rewrite U. reflexivity.
Qed.
Lemma help_iff args : parse args = Stops 0 <-> asks_for_help args.
Proof.
  unfold parse. split.
  - intros E. pose proof (read_cases (length args) args nothing (le_n _)) as [(f & t & l & g & ot & -> & Sa & A & O & R)|[(a & x & rest & l & g & -> & Sa & A & W & R)|R]]; rewrite R in E; try discriminate.
    { unfold finish in E. destruct (forallb utf8_valid ot); discriminate. }
    exists a, x, rest, l. split; [reflexivity|]. split; [exact Sa|]. destruct W as [->|(n & more & -> & B)]; [left|right].
    + split; [reflexivity|]. apply valid_apply. eauto.
    + exists n, more. split; [reflexivity|]. apply valid_apply. rewrite apply_app, A. destruct (apply g (repeat Ready n)); [eauto|congruence].
  - intros (a & x & rest & l & -> & Sa & [(-> & V)|(n & more & -> & V)]); apply valid_apply in V; destruct V as (g & A).
    + rewrite (read_says _ _ Sa _ _ _ A). reflexivity.
    + rewrite apply_app in A. destruct (apply nothing l) as [h|] eqn:B; [|discriminate]. rewrite (read_says _ _ Sa _ _ _ B). apply read_help. right. exists n, more. split; [reflexivity|congruence].
Qed.
Lemma otherwise args : ~ asks_for_help args -> (forall l others, ~ asks args l others) -> parse args = Stops 2.
Proof.
  rewrite <- help_iff. intros T N. destruct (parse args) as [o others|c] eqn:E; [exfalso; apply runs_iff in E; destruct E as (l & X & _); exact (N _ _ X)|].
  unfold parse in E. pose proof (read_cases (length args) args nothing (le_n _)) as [(f & t & l & g & ot & _ & _ & _ & _ & R)|[(a & x & rest & l & g & _ & _ & _ & _ & R)|R]]; rewrite R in E; [|congruence..].
  unfold finish in E. destruct (forallb utf8_valid ot); [discriminate|]. congruence.
Qed.
Lemma asks_runs args l others : asks args l others -> exists o, parse args = Runs o others /\ means l o /\ o_ready o = true.
Proof.
  intros (f & t & -> & Sa & V & O & U). apply valid_apply in V. destruct V as (g & A). exists (options_of g).
  split; [|apply (means_iff _ _ _ A); reflexivity]. unfold parse. rewrite (read_says _ _ Sa _ _ _ A), (read_tail _ _ _ O). unfold finish. apply all_utf8 in U. rewrite U. reflexivity.
Qed.
Lemma one_meaning args l others l' others' o o' : asks args l others -> asks args l' others' -> means l o -> means l' o' -> o_ready o = o_ready o' -> o = o' /\ others = others'.
Proof.
  intros A A' M M' R. destruct (asks_runs _ _ _ A) as (p & E & Mp & Rp), (asks_runs _ _ _ A') as (p' & E' & Mp' & Rp').
  assert (X : p = p' /\ others = others') by (rewrite E in E'; inversion E'; auto). destruct X as (<- & <-). split; [|reflexivity].
  assert (det : forall m q q', means m q -> means m q' -> o_code q = o_code q' /\ o_sleep q = o_sleep q' /\ o_output q = o_output q' /\ o_status q = o_status q').
  { unfold means, chosen. intros m q q' (a & b & c & d) (a' & b' & c' & d').
    repeat split; repeat match goal with H : _ \/ _ |- _ => destruct H as [H|H] | H : _ /\ _ |- _ => destruct H | H : exists _, _ |- _ => destruct H end; congruence. }
  destruct (det _ _ _ M Mp) as (? & ? & ? & ?), (det _ _ _ M' Mp') as (? & ? & ? & ?). destruct o, o', p; cbn in *. congruence.
Qed.
Lemma main_cases args w :
  (forall l others, asks args l others -> exists o, means l o /\ o_ready o = true /\ main args w = harness o w) /\
  (asks_for_help args -> main args w = ([], Ends 0)) /\
  (~ asks_for_help args -> (forall l others, ~ asks args l others) -> main args w = ([], Ends 2)).
Proof.
  unfold main. split; [|split].
  - intros l others A. destruct (asks_runs _ _ _ A) as (o & -> & M & R). exists o. auto.
  - intros A. apply help_iff in A. rewrite A. reflexivity.
  - intros A B. rewrite (otherwise _ A B). reflexivity.
Qed.
Lemma ready_always args o others : parse args = Runs o others -> o_ready o = true.
Proof. intros E. apply runs_iff in E. destruct E as (l & _ & _ & R). exact R. Qed.
(** Without a socket to cinit nothing works, whatever was asked for. *)
Lemma no_socket args l others w : asks args l others -> (l_socket w 0 < 3)%nat ->
  fst (main args w) = [] /\ (snd (main args w) = Ends 101 \/ exists s, snd (main args w) = Killed s).
Proof.
  intros A K. destruct (main_cases args w) as (M & _). destruct (M _ _ A) as (o & _ & R & ->). unfold harness, plan. rewrite R. cbn [app run].
  destruct (deliver w [] (l_arrives w 0)) as [s|ws]; [split; [reflexivity|right; exists s; reflexivity]|].
  destruct (Nat.ltb_spec (l_socket w 0) 3); [split; [reflexivity|left; reflexivity]|lia].
Qed.
(** From the command line to the end, if nothing goes wrong. *)
Lemma undisturbed args l others w written sl n cd x file :
  asks args l others -> (forall i, (4 <= l_socket w i)%nat) -> l_create w = true -> l_signalfd w = true -> l_pieces w = map Ret written ->
  (forall s t, In s (l_arrives w t) -> ~ kills w s /\ ~ waits w s) ->
  chosen l Sleep "0" sl -> u64_text sl n -> chosen l Code "0" cd -> int_text cd x -> chosen l Output "test-output/harness.txt" file ->
  main args w = (map Sends ("READY=1" :: map (fun v => "STATUS=" ++ v)%string (values Status l)) ++ Opens file :: map Writes written ++ repeat Second (Z.to_nat n), Ends (x mod 256)).
Proof.
  intros A K Cr Sf P Sg Sl U Cd I Fi. destruct (main_cases args w) as (M & _). destruct (M _ _ A) as (o & (C1 & C2 & C3 & C4) & R & ->).
  assert (det : forall p d v v', chosen l p d v -> chosen l p d v' -> v = v').
  { unfold chosen. intros p d v v' [(E & ->)|E] [(E' & ->)|E']; congruence. }
  pose proof (det _ _ _ _ Sl C2). pose proof (det _ _ _ _ Cd C1). pose proof (det _ _ _ _ Fi C3). subst sl cd file.
  destruct (ToolsProofs.harness_undisturbed o w n (x mod 256)) as (acts & -> & wr & E & ->); [|exact Sg|exact U|left; exists x; auto|].
  - intros [(i & _ & X)|[X|[(why & X)|[X|X]]]]; [specialize (K i); lia|congruence| |exact (X _ U)|congruence].
    rewrite P in X. apply in_map_iff in X. destruct X as (? & X & _). discriminate X.
  - assert (wr = written) as ->.
    { rewrite P in E. clear -E. revert wr E. induction written as [|a t IH]; intros [|b r] E; try discriminate E; [reflexivity|]. inversion E. f_equal. auto. }
    f_equal. f_equal. f_equal. unfold messages. rewrite R. destruct C4 as [(-> & ->)|(v & -> & ->)]; reflexivity.
Qed.
