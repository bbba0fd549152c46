(** Which file is executed for a program. *)
From stdpp Require Import gmap strings.
From Coq Require Import Ascii ZArith List Bool Lia.
From Verif Require Import Base ProcessModel ChildModel FdModel SpecChild ChildThms SearchModel SpecSearch.
Import ListNotations.
Local Open Scope string_scope.
Local Open Scope list_scope.
Local Open Scope nat_scope.

Lemma within_cons x c s : within (String x "") (String c s) <-> c = x \/ within (String x "") s.
Proof.
  split.
  - intros (a & b & E). destruct a as [|y a]; cbn in E; inversion E; subst; [auto|]. right. exists a, b. reflexivity.
  - intros [->|(a & b & ->)]; [exists "", s; reflexivity|exists (String c a), b; reflexivity].
Qed.
Lemma within_nil x : ~ within (String x "") "".
Proof. intros (a & b & E). destruct a; discriminate. Qed.
Lemma slash_spec s : contains_slash s = true <-> within "/" s.
Proof.
  induction s as [|c s IH]; cbn.
  - split; [discriminate|]. intros H. exfalso. exact (within_nil _ H).
  - rewrite within_cons, orb_true_iff, Ascii.eqb_eq, IH. tauto.
Qed.

Lemma elements_parts s : parts s (elements s).
Proof.
  induction s as [|c s (N & C & O)]; cbn [elements].
  - split; [discriminate|]. split; [reflexivity|]. intros x [<-|[]]. apply within_nil.
  - destruct (Ascii.eqb_spec c ":") as [->|Nc].
    + split; [discriminate|]. split.
      * destruct (elements s) as [|e l]; [congruence|]. cbn in *. rewrite C. reflexivity.
      * intros x [<-|K]; [apply within_nil|auto].
    + destruct (elements s) as [|e l]; [congruence|]. split; [discriminate|]. split.
      * destruct l; cbn in *; rewrite <- C; reflexivity.
      * intros x [<-|K]; [|apply O; right; auto]. rewrite within_cons. intros [K|K]; [congruence|]. apply (O e); cbn; auto.
Qed.
Lemma concat_cons d l : l <> [] -> String.concat ":" (d :: l) = d +:+ ":" +:+ String.concat ":" l.
Proof. destruct l; [congruence|reflexivity]. Qed.
Lemma colon_free d r r' l : ~ within ":" d -> ~ within ":" l -> d +:+ ":" +:+ r = l +:+ ":" +:+ r' -> d = l /\ r = r'.
Proof.
  revert l. induction d as [|c d IH]; intros l D L E; destruct l as [|c' l]; cbn in E; inversion E; subst; auto.
  - exfalso. apply L. apply within_cons. auto.
  - exfalso. apply D. apply within_cons. auto.
  - destruct (IH l) as [-> ->]; auto; intros K; [apply D|apply L]; apply within_cons; auto.
Qed.
Lemma no_colon d r : ~ within ":" (d +:+ ":" +:+ r) -> False.
Proof. intros K. apply K. exists d, r. reflexivity. Qed.
Lemma parts_unique s l l' : parts s l -> parts s l' -> l = l'.
Proof.
  revert s l'. induction l as [|d l IH]; intros s l' (N & C & O) (N' & C' & O'); [congruence|]. destruct l' as [|d' l']; [congruence|].
  destruct l as [|x l], l' as [|x' l'].
  - cbn in C, C'. congruence.
  - cbn in C. rewrite concat_cons in C' by discriminate. exfalso. apply (no_colon d' (String.concat ":" (x' :: l'))). rewrite C', <- C. apply O. cbn. auto.
  - cbn in C'. rewrite concat_cons in C by discriminate. exfalso. apply (no_colon d (String.concat ":" (x :: l))). rewrite C, <- C'. apply O'. cbn. auto.
  - rewrite concat_cons in C, C' by discriminate. rewrite <- C' in C. apply colon_free in C; [|apply O; cbn; auto|apply O'; cbn; auto].
    destruct C as [-> C]. f_equal. apply (IH (String.concat ":" (x :: l))); split; try discriminate; split; auto; intros y Y; [apply O|apply O']; right; auto.
Qed.

Lemma join_spec d name : join d name = in_directory d name.
Proof. destruct d; reflexivity. Qed.

Lemma attempt_runs fs dir file argv what args : attempt fs dir file argv = inl (what, args) <-> runs fs dir file argv what args.
Proof.
  unfold attempt. split.
  - destruct (fs dir file) as [[]|] eqn:E; try discriminate.
    + destruct (fs dir SHELL_FILE) eqn:S; [discriminate|]. intros H. inversion H; subst. apply RunsByShell; auto.
    + intros H. inversion H; subst. apply RunsItself; auto.
  - intros [E|E S]; rewrite E; [reflexivity|]. unfold SHELL_FILE. rewrite S. reflexivity.
Qed.
Lemma attempt_passed fs dir file argv : passed_over fs dir file <-> attempt fs dir file argv = inr NotThere \/ attempt fs dir file argv = inr Denied.
Proof.
  unfold passed_over, as_shell, attempt, SHELL_FILE. destruct (fs dir file) as [[]|]; [| |destruct (fs dir "/bin/sh") as [[]|]| |]; split; intros [H|H]; try discriminate; auto.
Qed.
Lemma search_spec fs dir file argv what args l : forall denied last, search fs dir file argv denied last l = inl (what, args) <->
  exists l1 x l2, map (fun d => in_directory d file) l = l1 ++ x :: l2 /\ (forall y, In y l1 -> passed_over fs dir y) /\ runs fs dir x argv what args.
Proof.
  induction l as [|d l IH]; intros denied last; cbn [search map].
  - split; [discriminate|]. intros (l1 & x & l2 & E & _). destruct l1; discriminate.
  - rewrite join_spec. split.
    + intros H. assert (P : runs fs dir (in_directory d file) argv what args \/ (passed_over fs dir (in_directory d file) /\ exists b e, search fs dir file argv b e l = inl (what, args))).
      { destruct (attempt fs dir (in_directory d file) argv) as [[w a]|[]] eqn:A; try discriminate.
        - left. apply attempt_runs. rewrite A. congruence.
        - right. split; [apply (attempt_passed _ _ _ argv); auto|eauto].
        - right. split; [apply (attempt_passed _ _ _ argv); auto|eauto]. }
      destruct P as [P|(P & b & e & S)].
      * exists [], (in_directory d file), (map (fun d => in_directory d file) l). split; [reflexivity|]. split; [intros y []|exact P].
      * apply IH in S. destruct S as (l1 & x & l2 & E & A & R). exists (in_directory d file :: l1), x, l2. split; [rewrite E; reflexivity|].
        split; [intros y [<-|Y]; auto|exact R].
    + intros (l1 & x & l2 & E & A & R). destruct l1 as [|y l1]; cbn in E; inversion E; subst.
      * apply attempt_runs in R. rewrite R. reflexivity.
      * pose proof (A _ (or_introl eq_refl)) as P. apply (attempt_passed _ _ _ argv) in P. destruct P as [P|P]; rewrite P; apply IH; exists l1, x, l2; split; auto; split; auto; intros z Z; apply A; right; auto.
Qed.

Lemma exec_child_spec fs path p what args : exec_child fs path p = inl (what, args) <-> file_of fs path p what args.
Proof.
  unfold exec_child, file_of, execvpe. set (dir := p_workdir p). set (argv := p_args p).
  assert (SP : match path with Some s => s | None => DEFAULT_PATH end = search_path path) by (destruct path; reflexivity). rewrite SP.
  destruct (p_path p) as [|c s] eqn:P.
  { split; [discriminate|]. intros (l1 & f & l2 & (N & _) & _). congruence. }
  rewrite <- P. destruct (contains_slash (p_path p)) eqn:S.
  - rewrite attempt_runs. split.
    + intros R. exists [], (p_path p), []. split; [split; [rewrite P; discriminate|]; left; split; [apply slash_spec; auto|reflexivity]|]. split; [intros y []|exact R].
    + intros (l1 & f & l2 & (_ & [(_ & E)|(K & _)]) & A & R); [|exfalso; apply K, slash_spec; auto].
      destruct l1 as [|y [|z l1]]; inversion E; subst. exact R.
  - assert (NS : ~ within "/" (p_path p)) by (rewrite <- slash_spec; congruence). destruct (Nat.ltb_spec NAME_MAX (String.length (p_path p))) as [L|L].
    + split; [discriminate|]. intros (l1 & f & l2 & (_ & [(K & _)|(_ & L' & _)]) & _); [contradiction|]. unfold NAME_MAX in L. lia.
    + rewrite search_spec. split.
      * intros (l1 & x & l2 & E & A & R). exists l1, x, l2. split; [|auto]. split; [rewrite P; discriminate|]. right. split; [auto|]. split; [exact L|].
        exists (elements (search_path path)). split; [apply elements_parts|auto].
      * intros (l1 & f & l2 & (_ & [(K & _)|(_ & L' & dirs & D & E)]) & A & R); [contradiction|].
        exists l1, f, l2. rewrite (parts_unique _ _ _ (elements_parts _) D). auto.
Qed.
Lemma file_unique fs path p what args what' args' : file_of fs path p what args -> file_of fs path p what' args' -> what = what' /\ args = args'.
Proof. rewrite <- !exec_child_spec. intros -> H. inversion H. auto. Qed.

Section launch.
Context (h : host) (fault : nat -> bool) (p : process) (t0 : table) (s : fdstate) (x : numbers) (mask : list Z) (ign : gset Z) (dir : string) (k : cred) (f : fate).
Context (I : inherited t0) (R : fd_reachable t0 s) (L : launch h fault p s x mask ign dir k f).
Context (fs : files) (path : option string) (V : sees h fs path p).

Lemma not_found : (forall what args, ~ file_of fs path p what args) -> gave_up f.
Proof.
  intros N. apply (cannot_dress h fault p t0 s x mask ign dir k f I R L). intros (_ & E & _). apply V in E. destruct E as [[w a] E]. apply exec_child_spec in E. exact (N _ _ E).
Qed.
Lemma file_executed c : f = Runs c -> exists what args, file_of fs path p what args /\
  ch_dir c = p_workdir p /\ exists env, ch_image c = Some (p_path p, p_args p, env) /\ env = p_env p.
Proof.
  intros E. destruct (launch_runs h fault p t0 s x mask ign dir k f I R L c E) as (D & _).
  assert (F : exists r, exec_child fs path p = inl r).
  { destruct (exec_child fs path p) as [r|e] eqn:X; [eauto|]. exfalso. assert (G : gave_up f).
    { apply not_found. intros w a K. apply exec_child_spec in K. congruence. }
    destruct G as (c' & G & _). congruence. }
  destruct F as [[w a] F]. exists w, a. split; [apply exec_child_spec; exact F|]. unfold dressed in D. split; [tauto|]. exists (p_env p). tauto.
Qed.
End launch.
Lemma same_file fs path p q what args : p_path p = p_path q -> p_workdir p = p_workdir q -> p_args p = p_args q ->
  file_of fs path p what args -> file_of fs path q what args.
Proof. unfold file_of. intros -> -> ->. auto. Qed.
Lemma search_fails fs dir file argv l : (forall x, In x (map (fun d => in_directory d file) l) -> passed_over fs dir x) -> forall denied last, (last = NotThere \/ denied = true) ->
  search fs dir file argv denied last l =
  inr (if denied || existsb (fun d => match as_shell fs dir (in_directory d file) with Some Denied => true | _ => false end) l then Denied else NotThere).
Proof.
  induction l as [|d l IH]; intros A denied last H; cbn [search existsb].
  - rewrite orb_false_r. destruct H as [ -> | -> ]; reflexivity.
  - assert (P : passed_over fs dir (in_directory d file)) by (apply A; left; reflexivity). rewrite join_spec.
    assert (Q : attempt fs dir (in_directory d file) argv = match as_shell fs dir (in_directory d file) with Some e => inr e | None => attempt fs dir (in_directory d file) argv end).
    { unfold attempt, as_shell, SHELL_FILE. destruct (fs dir (in_directory d file)) as [[]|]; try reflexivity. destruct (fs dir "/bin/sh"); reflexivity. }
    rewrite Q. assert (A' : forall x, In x (map (fun d => in_directory d file) l) -> passed_over fs dir x) by (intros x X; apply A; right; exact X).
    destruct P as [P|P]; rewrite P; rewrite IH; auto. rewrite orb_true_r. reflexivity.
Qed.
Lemma reason fs path p l : tried (search_path path) (p_path p) l -> ~ within "/" (p_path p) -> (forall x, In x l -> passed_over fs (p_workdir p) x) ->
  ((exists x, In x l /\ as_shell fs (p_workdir p) x = Some Denied) -> exec_child fs path p = inr Denied) /\
  ((forall x, In x l -> as_shell fs (p_workdir p) x = Some NotThere) -> exec_child fs path p = inr NotThere).
Proof.
  intros (N & [(K & _)|(_ & L & dirs & D & ->)]) NS A; [contradiction|]. unfold exec_child, execvpe. destruct (p_path p) as [|c0 s0] eqn:P; [congruence|]. rewrite <- P in *.
  destruct (contains_slash (p_path p)) eqn:S; [exfalso; apply NS, slash_spec; exact S|]. destruct (Nat.ltb_spec NAME_MAX (String.length (p_path p))) as [L'|_]; [unfold NAME_MAX in L'; lia|].
  assert (SP : match path with Some s => s | None => DEFAULT_PATH end = search_path path) by (destruct path; reflexivity). rewrite SP.
  rewrite (parts_unique _ _ _ (elements_parts _) D), search_fails by auto. cbn [orb]. split.
  - intros (x & X & E). apply in_map_iff in X. destruct X as (d & <- & X).
    replace (existsb _ dirs) with true; [reflexivity|]. symmetry. apply existsb_exists. exists d. rewrite E. auto.
  - intros E. replace (existsb _ dirs) with false; [reflexivity|]. symmetry. apply not_true_is_false. intros X. apply existsb_exists in X. destruct X as (d & X & Y).
    rewrite (E (in_directory d (p_path p))) in Y; [discriminate|]. apply in_map_iff. eauto.
Qed.
