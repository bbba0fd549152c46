(** What a command line says is what cinit does. *)
From Coq Require Import String Ascii ZArith List Bool Lia.
From Verif Require Import Base RStr CliModel SpecCli.
Import ListNotations.
Local Open Scope string_scope.
Local Open Scope list_scope.
Local Open Scope Z_scope.
Local Arguments String.append !s1 s2 : simpl nomatch.

Fixpoint apply (s : seen) (l : list item) : option seen :=
  match l with
  | [] => Some s
  | Verbose :: r => apply (take_verbose s) r
  | Config v :: r => match take_config s v with Some s' => apply s' r | None => None end
  end.
Lemma apply_app s l l' : apply s (l ++ l') = match apply s l with Some s' => apply s' l' | None => None end.
Proof. revert s. induction l as [|[|v] l IH]; intros s; cbn; auto. destruct (take_config s v); auto. Qed.
Fixpoint verb (n : nat) (s : seen) : seen := match n with O => s | S n => verb n (take_verbose s) end.
Lemma apply_repeat s n : apply s (repeat Verbose n) = Some (verb n s).
Proof. revert s. induction n; intros s; cbn; auto. Qed.
Lemma apply_verbs s n l : apply s (repeat Verbose n ++ l) = apply (verb n s) l.
Proof. rewrite apply_app, apply_repeat. reflexivity. Qed.

Lemma plain_word v : plain v <-> form_of v = Word.
Proof.
  split.
  - intros [->|N]; [reflexivity|]. destruct v as [|x [|y v]]; try reflexivity. unfold form_of. destruct (Ascii.eqb_spec x "-") as [->|]; [|reflexivity].
    exfalso. apply (N (String y v)). reflexivity.
  - destruct v as [|x [|y v]]; unfold form_of, plain.
    + intros _. right. intros w. discriminate.
    + intros _. destruct (Ascii.eqb_spec x "-") as [->|N]; [auto|]. right. intros w E. apply N. inversion E. reflexivity.
    + destruct (Ascii.eqb_spec x "-") as [->|N]; [destruct (Ascii.eqb y "-"); discriminate|]. intros _. right. intros w E. apply N. inversion E. reflexivity.
Qed.
Lemma short_vs s n t : short_args s (vs n ++ t) = short_args (verb n s) t.
Proof. revert s. induction n as [|n IH]; intros s; [reflexivity|exact (IH (take_verbose s))]. Qed.
Lemma sapp_nil (s : string) : (s ++ "")%string = s.
Proof. induction s as [|c s IH]; [reflexivity|]. change (String c (s ++ "") = String c s). rewrite IH. reflexivity. Qed.
Lemma short_form n c t : c <> "-"%char -> form_of ("-" ++ vs n ++ String c t) = Short (vs n ++ String c t).
Proof. intros N. destruct n; cbn; [|reflexivity]. destruct (Ascii.eqb_spec c "-"); [contradiction|reflexivity]. Qed.

(** * Everything said is done *)
Lemma read_says args l : says args l -> forall s s' rest, apply s l = Some s' -> read false s (args ++ rest) = read false s' rest.
Proof.
  induction 1 as [|rest l Sa IH|v rest l P Sa IH|v rest l Sa IH|n rest l Sa IH|n v rest l P Sa IH|n v rest l Sa IH|n v rest l N1 N2 Sa IH]; intros s s' more A.
  - inversion A. reflexivity.
  - cbn. apply IH. exact A.
  - cbn in A. cbn. apply plain_word in P. rewrite P. destruct (take_config s v); [apply IH; exact A|discriminate].
  - cbn in A. cbn. replace (String.prefix "" v) with true by (destruct v; reflexivity). destruct (take_config s v); [apply IH; exact A|discriminate].
  - rewrite apply_verbs in A. cbn [app read]. replace (form_of ("-" ++ vs (S n))) with (Short (vs (S n))) by reflexivity.
    rewrite <- (sapp_nil (vs (S n))), short_vs. cbn [short_args]. apply IH. exact A.
  - rewrite apply_verbs in A. cbn in A. cbn [app read]. rewrite short_form by discriminate. rewrite short_vs. cbn. apply plain_word in P. rewrite P.
    destruct (take_config (verb n s) v); [apply IH; exact A|discriminate].
  - rewrite apply_verbs in A. cbn in A. cbn [app read]. change ("c=" ++ v)%string with (String "c" (String "=" v)). rewrite short_form by discriminate. rewrite short_vs. cbn.
    destruct (take_config (verb n s) v); [apply IH; exact A|discriminate].
  - rewrite apply_verbs in A. cbn in A. cbn [app read]. change ("c" ++ v)%string with (String "c" v). rewrite short_form by discriminate. rewrite short_vs. cbn.
    destruct v as [|d v]; [congruence|]. destruct (Ascii.eqb_spec d "=") as [->|Nd]; [exfalso; apply (N2 v); reflexivity|].
    destruct (take_config (verb n s) (String d v)); [apply IH; exact A|discriminate].
Qed.
Lemma read_text s x rest : wants_text x -> read false s (x :: rest) = Stops 0.
Proof.
  intros [->|[->|(n & more & [->| ->])]]; [reflexivity|reflexivity|..]; cbn [read].
  - change ("h" ++ more)%string with (String "h" more). rewrite short_form by discriminate. rewrite short_vs. reflexivity.
  - change ("V" ++ more)%string with (String "V" more). rewrite short_form by discriminate. rewrite short_vs. reflexivity.
Qed.

(** * Nothing else is done *)
Lemma prefix_split p s : String.prefix p s = true -> s = (p ++ sdrop (String.length p) s)%string.
Proof. revert s. induction p as [|c p IH]; intros [|d s] H; cbn in *; try reflexivity; try discriminate. destruct (ascii_dec c d) as [->|]; [|discriminate]. f_equal. auto. Qed.
Lemma form_long a name : form_of a = Long name -> a = ("--" ++ name)%string.
Proof.
  destruct a as [|x [|y a]]; try discriminate. unfold form_of. destruct (Ascii.eqb_spec x "-") as [->|]; [|discriminate].
  destruct (Ascii.eqb_spec y "-") as [->|]; [|discriminate]. intros H. inversion H. reflexivity.
Qed.
Lemma form_short a flags : form_of a = Short flags -> a = ("-" ++ flags)%string /\ flags <> "".
Proof.
  destruct a as [|x [|y a]]; try discriminate. unfold form_of. destruct (Ascii.eqb_spec x "-") as [->|]; [|discriminate].
  destruct (Ascii.eqb_spec y "-") as [->|]; [discriminate|]. intros H. inversion H. split; [reflexivity|discriminate].
Qed.
Lemma long_cases s name : name <> "" ->
  match long_arg s name with
  | Next s' => (name = "verbose" /\ s' = take_verbose s) \/ exists v, name = ("config=" ++ v)%string /\ take_config s v = Some s'
  | Wait s' => name = "config" /\ s' = s
  | Halt code => (code = 0 /\ wants_text ("--" ++ name)) \/ code = 2
  end.
Proof.
  intros N. unfold long_arg. destruct (String.eqb_spec name "verbose") as [->|]; [auto|]. destruct (String.eqb_spec name "config") as [->|]; [auto|].
  destruct (String.eqb_spec name "help") as [->|]; [left; split; [auto|left; reflexivity]|]. destruct (String.eqb_spec name "version") as [->|]; [left; split; [auto|right; left; reflexivity]|].
  destruct (String.prefix "config=" name) eqn:P; [|auto]. apply prefix_split in P. change (String.length "config=") with 7%nat in P.
  destruct (take_config s (sdrop 7 name)) eqn:T; cbn [took]; [|auto]. right. exists (sdrop 7 name). split; [exact P|exact T].
Qed.
Lemma short_cases s flags :
  match short_args s flags with
  | Next s' => (exists n, flags = vs n /\ s' = verb n s) \/
      exists n v, take_config (verb n s) v = Some s' /\ (flags = (vs n ++ "c=" ++ v)%string \/ (flags = (vs n ++ "c" ++ v)%string /\ v <> "" /\ forall w, v <> ("=" ++ w)%string))
  | Wait s' => exists n, flags = (vs n ++ "c")%string /\ s' = verb n s
  | Halt code => (code = 0 /\ wants_text ("-" ++ flags)) \/ code = 2
  end.
Proof.
  revert s. induction flags as [|c rest IH]; intros s; cbn [short_args].
  - left. exists O. auto.
  - destruct (Ascii.eqb_spec c "v") as [->|_].
    { specialize (IH (take_verbose s)). destruct (short_args (take_verbose s) rest) as [s'|s'|code] eqn:Q.
      - destruct IH as [(n & -> & ->)|(n & v & T & E)]; [left; exists (S n); auto|]. right. exists (S n), v. split; [exact T|].
        destruct E as [->|(-> & E)]; [left; reflexivity|right; split; [reflexivity|exact E]].
      - destruct IH as (n & -> & ->). exists (S n). auto.
      - destruct IH as [(-> & W)|E]; [left|auto]. split; [auto|]. destruct W as [W|[W|(n & more & W)]].
        + exfalso. assert (X : rest = "-help") by (injection W as ->; reflexivity). subst rest. discriminate Q.
        + exfalso. assert (X : rest = "-version") by (injection W as ->; reflexivity). subst rest. discriminate Q.
        + right. right. exists (S n), more. destruct W as [W|W]; injection W as ->; [left|right]; reflexivity. }
    destruct (Ascii.eqb_spec c "h") as [->|_]; [left; split; [auto|]; right; right; exists O, rest; left; reflexivity|].
    destruct (Ascii.eqb_spec c "V") as [->|_]; [left; split; [auto|]; right; right; exists O, rest; right; reflexivity|].
    destruct (Ascii.eqb_spec c "c") as [->|_]; [|auto].
    destruct rest as [|d value]; [exists O; auto|]. destruct (Ascii.eqb_spec d "=") as [->|Nd].
    + destruct (take_config s value) as [s'|] eqn:T; cbn; [|auto]. right. exists O, value. split; [exact T|left; reflexivity].
    + destruct (take_config s (String d value)) as [s'|] eqn:T; cbn; [|auto]. right. exists O, (String d value). split; [exact T|]. right. split; [reflexivity|].
      split; [discriminate|]. intros w E. apply Nd. inversion E. reflexivity.
Qed.

Definition outcome_of (s : seen) (args : list string) (r : cli) : Prop :=
  (exists l s', (says args l \/ exists a, args = a ++ ["--"] /\ says a l) /\ apply s l = Some s' /\ r = finish s') \/
  (exists a x rest l s', args = a ++ x :: rest /\ says a l /\ apply s l = Some s' /\ wants_text x /\ r = Stops 0) \/
  r = Stops 2.

Lemma further s front l s' rest r : (forall args m, says args m -> says (front ++ args) (l ++ m)) -> apply s l = Some s' ->
  outcome_of s' rest r -> outcome_of s (front ++ rest) r.
Proof.
  intros F A [(m & s2 & S & A2 & E)|[(a & x & more & m & s2 & -> & S & A2 & W & E)|E]]; [left|right; left|right; right; exact E].
  - exists (l ++ m), s2. split; [|split; [rewrite apply_app, A; exact A2|exact E]].
    destruct S as [S|(a & -> & S)]; [left; auto|right]. exists (front ++ a). rewrite app_assoc. auto.
  - exists (front ++ a), x, more, (l ++ m), s2. rewrite app_assoc. split; [auto|]. split; [auto|]. split; [rewrite apply_app, A; exact A2|auto].
Qed.
Lemma read_cases n : forall args s, (length args <= n)%nat -> outcome_of s args (read false s args).
Proof.
  induction n as [|n IH]; intros args s Len; (destruct args as [|a rest]; [left; exists [], s; split; [left; constructor|split; reflexivity]|cbn in Len; try lia]).
  cbn [read]. destruct (form_of a) as [name|flags|] eqn:F; [| |right; right; reflexivity].
  - apply form_long in F. subst a. destruct (String.eqb_spec name "") as [->|N].
    { destruct rest; [|right; right; reflexivity]. left. exists [], s. split; [right; exists []; split; [reflexivity|constructor]|split; reflexivity]. }
    pose proof (long_cases s name N) as C. destruct (long_arg s name) as [s'|s'|code].
    + destruct C as [(-> & ->)|(v & -> & T)].
      * apply (further s ["--verbose"] [Verbose] (take_verbose s)); [intros; constructor; auto|reflexivity|apply IH; lia].
      * apply (further s [("--" ++ "config=" ++ v)%string] [Config v] s'); [intros; apply (SConfigIs v); auto|cbn; rewrite T; reflexivity|apply IH; lia].
    + destruct C as (-> & ->). destruct rest as [|v rest]; [right; right; reflexivity|]. cbn [read]. destruct (form_of v) eqn:Fv; [right; right; reflexivity..|].
      destruct (take_config s v) as [s'|] eqn:T; [|right; right; reflexivity]. apply (further s ["--config"; v] [Config v] s' rest).
      * intros. apply SConfig; [apply plain_word; exact Fv|auto].
      * cbn. rewrite T. reflexivity.
      * apply IH. cbn in Len. lia.
    + destruct C as [(-> & W)| ->]; [|right; right; reflexivity]. right. left. exists [], ("--" ++ name)%string, rest, [], s. repeat split; auto. constructor.
  - apply form_short in F. destruct F as (-> & N). pose proof (short_cases s flags) as C. destruct (short_args s flags) as [s'|s'|code].
    + destruct C as [(k & -> & ->)|(k & v & T & E)].
      * destruct k as [|k]; [exfalso; apply N; reflexivity|]. apply (further s [("-" ++ vs (S k))%string] (repeat Verbose (S k)) (verb (S k) s)); [intros; apply SShort; auto|apply apply_repeat|apply IH; lia].
      * apply (further s [("-" ++ flags)%string] (repeat Verbose k ++ [Config v]) s'); [|rewrite apply_verbs; cbn; rewrite T; reflexivity|apply IH; lia].
        intros args m S. rewrite <- app_assoc. cbn [app]. destruct E as [->|(-> & N1 & N2)]; [apply SShortIs; auto|apply SShortWith; auto].
    + destruct C as (k & -> & ->). destruct rest as [|v rest]; [right; right; reflexivity|]. cbn [read]. destruct (form_of v) eqn:Fv; [right; right; reflexivity..|].
      destruct (take_config (verb k s) v) as [s'|] eqn:T; [|right; right; reflexivity].
      apply (further s [("-" ++ vs k ++ "c")%string; v] (repeat Verbose k ++ [Config v]) s' rest).
      * intros args m S. rewrite <- app_assoc. cbn [app]. apply SShortConfig; [apply plain_word; exact Fv|auto].
      * rewrite apply_verbs. cbn. rewrite T. reflexivity.
      * apply IH. cbn in Len. lia.
    + destruct C as [(-> & W)| ->]; [|right; right; reflexivity]. right. left. exists [], ("-" ++ flags)%string, rest, [], s. repeat split; auto. constructor.
Qed.

(** * What items amount to *)
Definition none_yet : seen := {| sn_config := None; sn_verbose := 0 |}.
Lemma apply_some s l s' : apply s l = Some s' -> 0 <= sn_verbose s <= 255 ->
  sn_verbose s' = Z.min 255 (sn_verbose s + verbosity l) /\
  ((paths l = [] /\ sn_config s' = sn_config s) \/ exists v, sn_config s = None /\ paths l = [v] /\ utf8_valid v = true /\ sn_config s' = Some v).
Proof.
  assert (NN : forall l, 0 <= verbosity l) by (induction l0 as [|[] l0 IHl]; cbn [verbosity]; lia).
  revert s. induction l as [|[|v] l IH]; intros s A B; cbn [apply verbosity paths] in *.
  - inversion A; subst. split; [lia|auto].
  - destruct (IH _ A) as (V & P). { unfold take_verbose; cbn. destruct (Z.ltb_spec (sn_verbose s) 255); lia. }
    split; [|exact P]. rewrite V. specialize (NN l). unfold take_verbose; cbn. destruct (Z.ltb_spec (sn_verbose s) 255); lia.
  - unfold take_config in A. destruct (sn_config s) eqn:C; [discriminate|]. destruct (utf8_valid v) eqn:U; [|discriminate].
    destruct (IH _ A B) as (V & [(P & Q)|(w & Q & _)]); [|discriminate]. split; [exact V|]. right. exists v. rewrite P. auto.
Qed.
Lemma apply_total s l : (paths l = [] \/ exists v, sn_config s = None /\ paths l = [v] /\ utf8_valid v = true) -> exists s', apply s l = Some s'.
Proof.
  revert s. induction l as [|[|v] l IH]; intros s H; cbn [apply paths] in *; [eauto|apply IH; exact H|].
  destruct H as [H|(w & C & E & U)]; [discriminate|]. inversion E; subst. unfold take_config. rewrite C, U. apply IH. auto.
Qed.
Lemma apply_path l s : apply none_yet l = Some s -> one_path l (match sn_config s with Some v => v | None => DEFAULT_CONFIG end) /\ sn_verbose s = Z.min 255 (verbosity l).
Proof.
  intros A. destruct (apply_some _ _ _ A) as (V & [(P & C)|(v & _ & P & U & C)]); [cbn; lia|..]; (split; [|exact V]); rewrite C; cbn; [left|right]; auto.
Qed.
Lemma path_apply l path : one_path l path -> exists s, apply none_yet l = Some s /\ path = match sn_config s with Some v => v | None => DEFAULT_CONFIG end /\ sn_verbose s = Z.min 255 (verbosity l).
Proof.
  intros O. destruct (apply_total none_yet l) as [s A].
  { destruct O as [(P & _)|(P & U)]; [auto|]. right. exists path. auto. }
  exists s. split; [exact A|]. destruct (apply_some _ _ _ A) as (V & D); [cbn; lia|]. split; [|exact V].
  destruct O as [(P & ->)|(P & U)], D as [(P' & C)|(v & _ & P' & _ & C)]; rewrite C; cbn in *; unfold DEFAULT_CONFIG; congruence.
Qed.

Lemma runs_iff args path verbose : parse_arguments args = Begins path verbose <-> asks_to_run args path verbose.
Proof.
  unfold parse_arguments. change {| sn_config := None; sn_verbose := 0 |} with none_yet. split.
  - intros E. pose proof (read_cases (length args) args none_yet (le_n _)) as [(l & s & S & A & R)|[(a & x & rest & l & s & _ & _ & _ & _ & R)|R]]; rewrite R in E; try discriminate.
    unfold finish in E. inversion E; subst. destruct (apply_path _ _ A). exists l. auto.
  - intros (l & S & O & ->). destruct (path_apply _ _ O) as (s & A & -> & <-). destruct S as [S|(a & -> & S)].
    + rewrite <- (app_nil_r args), (read_says _ _ S _ _ _ A). reflexivity.
    + rewrite (read_says _ _ S _ _ _ A). reflexivity.
Qed.
Lemma text_iff args : parse_arguments args = Stops 0 <-> asks_for_text args.
Proof.
  unfold parse_arguments. change {| sn_config := None; sn_verbose := 0 |} with none_yet. split.
  - intros E. pose proof (read_cases (length args) args none_yet (le_n _)) as [(l & s & S & A & R)|[(a & x & rest & l & s & -> & S & A & W & R)|R]]; rewrite R in E; try discriminate.
    destruct (apply_path _ _ A). exists a, x, rest, l. eauto 10.
  - intros (a & x & rest & l & path & -> & S & O & W). destruct (path_apply _ _ O) as (s & A & _). rewrite (read_says _ _ S _ _ _ A). apply read_text. exact W.
Qed.
Lemma otherwise args : ~ asks_for_text args -> (forall path verbose, ~ asks_to_run args path verbose) -> parse_arguments args = Stops 2.
Proof.
  rewrite <- text_iff. intros T N. destruct (parse_arguments args) as [p v|c] eqn:E; [exfalso; apply (N p v), runs_iff; exact E|].
  unfold parse_arguments in E. pose proof (read_cases (length args) args none_yet (le_n _)) as [(l & s & S & A & R)|[(a & x & rest & l & s & -> & S & A & W & R)|R]]; unfold none_yet in R; rewrite R in E; inversion E; subst; congruence.
Qed.
Lemma one_meaning args path verbose path' verbose' : asks_to_run args path verbose -> asks_to_run args path' verbose' -> path = path' /\ verbose = verbose'.
Proof. rewrite <- !runs_iff. intros -> E. inversion E. auto. Qed.
Lemma main_cases args m :
  (forall path verbose, asks_to_run args path verbose -> main args m = MainModel.run (m path)) /\
  (asks_for_text args -> main args m = Ret (MainModel.Exits 0)) /\
  (~ asks_for_text args -> (forall path verbose, ~ asks_to_run args path verbose) -> main args m = Ret (MainModel.Exits 2)).
Proof.
  unfold main. split; [|split].
  - intros p v A. apply runs_iff in A. rewrite A. reflexivity.
  - intros A. apply text_iff in A. rewrite A. reflexivity.
  - intros A B. rewrite (otherwise _ A B). reflexivity.
Qed.
